(** Vocabulary for the properties of saving and loading one-vs-all models and linear
    support vector classifiers. *)
From Coq Require Import Reals.
From Verif Require Import Prelude BytesModel FloatModel AttrModel StoreModel DenseModel GridModel
  GridSpec CsvModel PredModel SerModel SerSpec Id3Model NbModel BagModel SvcModel LibModel SaveModel
  SaveSpec OvaSaveModel.
From Flocq Require Import IEEE754.BinarySingleNaN IEEE754.Bits IEEE754.Binary.
Local Open Scope nat_scope.

(** ** The trusted facts *)

(** A word, as [fscanf] reads it. *)
Definition word (s : string) : Prop := s ≠ "" ∧ Forall (λ b, blank b = false) (string_bytes s).

(** What [fprintf] writes for a double is one word, which [fscanf] reads as a number. *)
Record lib_text (show16 : binary64 → string) (scan_float : string → option binary64) : Prop := {
  lt_word : ∀ f, word (show16 f);
  lt_scan : ∀ f, ∃ f', scan_float (show16 f) = Some f';
  lt_minus : ∃ b, scan_float "-1" = Some b ∧ float_gt Id3Model.float_zero b = true
}.

(** [x], whose first digit is in front of 15 more at 10^[e], is next to [m] * 10^[e]. *)
Definition nearest16 (x : R) (m e : Z) : Prop :=
  (powerRZ 10 (e + 15) <= x < powerRZ 10 (e + 16))%R ∧
  (Rabs (x - IZR m * powerRZ 10 e) < / 2 * powerRZ 10 e)%R.

(** [%.16g] writes no more than 16 digits: two numbers with the same 16 digits look the same. *)
Definition digits16 (show16 : binary64 → string) : Prop :=
  ∀ a b m e, is_finite 53 1024 a = true → is_finite 53 1024 b = true →
    nearest16 (B2R 53 1024 a) m e → nearest16 (B2R 53 1024 b) m e → show16 a = show16 b.

(** ** One-vs-all models *)

(** [on] has the attributes and the class of [train], and no rows, as NewStructuralCopy
    makes it. *)
Record structure_of (train on : grid) : Prop := {
  sc_attrs : gr_all_attrs on ≡ₚ gr_all_attrs train;
  sc_class : gr_class_attrs on = gr_class_attrs train;
  sc_rows : (gr_size on).2 = 0
}.

(** ** Linear support vector classifiers *)

(** Parameters that JSON can hold. *)
Record svc_saves (p : svc) : Prop := {
  vs_solver : (N.of_nat (sv_solver p) <= 2^53)%N;
  vs_weights : ∀ w, sv_weights p = Some w → Forall (λ f, is_finite 53 1024 f = true) w;
  vs_c : is_finite 53 1024 (sv_c p) = true;
  vs_eps : is_finite 53 1024 (sv_eps p) = true
}.

(** A model as liblinear makes it with one of the solvers of the package. *)
Record lmodel_saves (sm : nat * lmodel) : Prop := {
  ls_solver : sm.1 < 8 ∧ sm.1 ≠ 4;
  ls_size : length (lm_w sm.2) = lm_n sm.2 * outputs sm.2
}.

(** A number that is the same after it has been written and read. *)
Definition survives (show16 : binary64 → string) (scan_float : string → option binary64)
    (f : binary64) : Prop := scan_float (show16 f) = Some f.

(** The same classes, and weights that read what is written of the others. *)
Definition reread (show16 : binary64 → string) (scan_float : string → option binary64)
    (sm sm' : nat * lmodel) : Prop :=
  sm'.1 = sm.1 ∧ lm_labels sm'.2 = lm_labels sm.2 ∧ lm_n sm'.2 = lm_n sm.2 ∧
  Forall2 (λ f f', scan_float (show16 f) = Some f') (lm_w sm.2) (lm_w sm'.2).

Record lsvc_saves (l : lsvc) (sm : nat * lmodel) : Prop := {
  lv_param : svc_saves (ls_param l);
  lv_model : ls_model l = Some sm;
  lv_ok : lmodel_saves sm
}.

(** Weights of classes that JSON can hold. *)
Definition weights_save (w : option (gmap string binary64)) : Prop :=
  ∀ m k f, w = Some m → m !! k = Some f → is_text k ∧ is_finite 53 1024 f = true.
