(** Model of filters/disc.go and of filters/binning.go in binary64 (BinModel has the
    formulas over the real numbers). *)
From Verif Require Import Prelude BytesModel FloatModel AttrModel StoreModel DenseModel GridModel FilterModel CartModel IsoModel.
From Flocq Require Import IEEE754.BinarySingleNaN IEEE754.Bits IEEE754.Binary.
Local Open Scope nat_scope.

(** filters/disc.go:8-12 AbstractDiscretizeFilter and filters/binning.go:12-17
    BinningFilter; [bn_attrs] lists the keys of [attrs], which are all set to [true]; the
    missing entries of the maps [minVals] and [maxVals] read as 0.  [trained] is written
    and never read.  Simplification: a Go map keyed by Attribute compares pointers, the
    model compares the attributes themselves, as in [lfiltered]. *)
Record binning := Binning {
  bn_attrs : list attr;
  bn_train : grid;
  bn_bins : Z;
  bn_min : attr → binary64;
  bn_max : attr → binary64
}.

(** filters/binning.go:21-32 [NewBinningFilter]. *)
Definition new_binning (d : grid) (bins : Z) : binning :=
  Binning [] d bins (λ _, float_of_Z 0) (λ _, float_of_Z 0).

(** filters/disc.go:16-26 [AddAttribute]. *)
Definition add_attribute (b : binning) (a : attr) : res binning :=
  match a with
  | FloatA _ _ =>
      match gr_get_attribute (bn_train b) a with
      | Ok _ =>
          Ok (Binning (if bool_decide (a ∈ bn_attrs b) then bn_attrs b else bn_attrs b ++ [a])
                (bn_train b) (bn_bins b) (bn_min b) (bn_max b))
      | Err => Err
      | Panic => Panic
      end
  | _ => Err
  end.

(** filters/disc.go:45-62 [getAttributeSpecs]; [order] is the order in which the keys of
    the map come. *)
Definition attribute_specs (b : binning) (order : list attr) : res (list spec) :=
  res_mapM (λ a, match gr_get_attribute (bn_train b) a with Ok s => Ok s | _ => Panic end) order.

(** [m[a] = v]. *)
Definition put (m : attr → binary64) (a : attr) (v : binary64) : attr → binary64 :=
  λ x, if bool_decide (x = a) then v else m x.

Definition plus_inf : binary64 := B754_infinity 53 1024 false.
Definition minus_inf : binary64 := B754_infinity 53 1024 true.

(** filters/binning.go:54-63: one value of a row. *)
Definition bin_value (mm : (attr → binary64) * (attr → binary64)) (sv : spec * list N)
    : res ((attr → binary64) * (attr → binary64)) :=
  let attr := sp_attr sv.1 in
  match attr with
  | FloatA _ _ =>
      v ← unpack_float sv.2;
      let mx := if float_lt (mm.2 attr) v then put mm.2 attr v else mm.2 in
      let mn := if float_lt v (mm.1 attr) then put mm.1 attr v else mm.1 in
      Ok (mn, mx)
  | _ => Panic
  end.

(** filters/binning.go:40-72 [Train]: the specs, the starting values, all rows.  The two
    loops over the map may use different orders; the second one writes a constant, so
    only the first order matters. *)
Definition bin_train (b : binning) (order : list attr) : res binning :=
  specs ← attribute_specs b order;
  let mn := foldl (λ m a, put m a plus_inf) (bn_min b) (bn_attrs b) in
  let mx := foldl (λ m a, put m a minus_inf) (bn_max b) (bn_attrs b) in
  r ← map_over_rows (bn_train b) specs
        (λ mm row _, mm ← res_foldl bin_value mm (zip specs row); Ok (mm, Cont)) (mn, mx);
  if r.2 : bool then Err
  else Ok (Binning (bn_attrs b) (bn_train b) (bn_bins b) r.1.1 r.1.2).

(** [math.Floor] of a finite number. *)
Definition floor_Z (x : binary64) : Z :=
  match x with
  | B754_finite _ _ s m e _ =>
      let m := if s then Z.neg m else Z.pos m in
      if (0 <=? e)%Z then (m * 2 ^ e)%Z else (m / 2 ^ (- e))%Z
  | _ => 0%Z
  end.

(** [int(math.Floor(x))].  Go leaves the result open when it does not fit: [wild]. *)
Definition floor_int (wild : binary64 → Z) (x : binary64) : Z :=
  if is_finite 53 1024 x && (-2 ^ 63 <=? floor_Z x)%Z && (floor_Z x <? 2 ^ 63)%Z then floor_Z x else wild x.

(** 0.0001 in filters/binning.go:94. *)
Definition float_tolerance : binary64 := b64_of_bits 0x3F1A36E2EB1C432D.

(** filters/binning.go:85-95: the bin of a number. *)
Definition bin_width (mn mx : binary64) (bins : Z) : binary64 :=
  b64_div mode_NE (b64_minus mode_NE mx mn) (float_of_Z bins).
Definition bin_of (wild : binary64 → Z) (mn mx : binary64) (bins : Z) (v : binary64) : Z :=
  if float_le v mn then 0%Z
  else floor_int wild (b64_plus mode_NE
         (b64_div mode_NE (b64_minus mode_NE v mn) (bin_width mn mx bins)) float_tolerance).

(** filters/binning.go:76-97 [Transform]. *)
Definition bin_transform (wild : binary64 → Z) (b : binning) (a n : attr) (field : list N) : res (list N) :=
  if bool_decide (a ∈ bn_attrs b) then
    match a with
    | FloatA _ _ =>
        v ← unpack_float field;
        Ok (pack_u64 (Z.to_N (bin_of wild (bn_min b a) (bn_max b a) (bn_bins b) v mod 2 ^ 64)))
    | _ => Panic
    end
  else Ok field.

(** filters/binning.go:107-117: the labels of the bins; [show] is [fmt.Sprintf] with the
    precision of the attribute. *)
Definition bin_edge (mn mx : binary64) (bins : Z) (i : nat) : binary64 :=
  b64_plus mode_NE (b64_mult mode_NE (float_of_Z (Z.of_nat i)) (bin_width mn mx bins)) mn.
Definition bin_labels (show : nat → N → string) (prec : nat) (mn mx : binary64) (bins : Z) : list string :=
  (cat_encode_all [] (map (λ i, show prec (float64bits (bin_edge mn mx bins i)))
                        (seq 0 (Z.to_nat (bins + 1))))).1.

(** filters/binning.go:101-123 [GetAttributesAfterFiltering], which overrides the one of
    filters/disc.go:30-43. *)
Definition bin_attrs (show : nat → N → string) (b : binning) : res (list (attr * attr)) :=
  res_mapM (λ a,
    if bool_decide (a ∈ bn_attrs b) then
      match a with
      | FloatA name prec =>
          Ok (a, CatA name (bin_labels show prec (bn_min b a) (bn_max b a) (bn_bins b)))
      | _ => if (0 <=? bn_bins b)%Z then Panic else Ok (a, CatA (attr_name a) [])
      end
    else Ok (a, a)) (gr_all_attrs (bn_train b)).
