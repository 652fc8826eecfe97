# Formal model of golearn: design and trusted base

The code under study is `sjwhitworth/golearn` at the pinned commit in `/repo`. It is read as
text; nothing is compiled or executed. The model is written in Rocq (Coq 8.16.1), in
`/verif/rocq/theories`.

## 1. Layout

For each area there are several files:

* `XModel.v`  – Gallina functions transcribing the Go code, each with a comment citing file and lines.
  No proofs.
* `XSpec.v`   – small definitions used to *state* the properties (written without the model's helpers).
  Sometimes these sit at the top of the Props file instead.
* `XProofs.v` and other files of the area – lemmas.
* `XProps.v`  – the property theorems (named `Cnn_...`), each followed by
  `Print Assumptions`, and `Example`s that exhibit a concrete non-trivial case meeting the hypotheses.

A property that is false of the faithful model is kept in `properties.jsonl` with its full statement;
the file then holds `Cnn_..._refuted` (a witness on which the claim fails) and, where something weaker is
true, `Cnn_..._partial`. Theorems named `..._hangs`, `..._never`, `..._panics`, `..._ignored` state for *all*
inputs of some kind that the code misbehaves in the named way.

## 2. Modelling conventions

* `Prelude.v`: `res A := Ok a | Err | Panic` is the outcome of a Go call: normal return, non-nil
  `error`, or run-time panic. Every index or explicit `panic` that the code can hit is modelled as `Panic`.
* Pointer mutation becomes a function returning the new state. Where aliasing matters (e.g. the slice
  returned by `FixedAttributeGroup.get`) it is said in the comment of the definition.
* Machine integers: `int` values that only count or index are `nat`; `uint64` values are `N` with an
  explicit `< 2^64`; bytes are `N` with an explicit `< 256`.
* `float64`: chosen per area and stated in each model file: (a) Flocq `binary64` where the
  representation, rounding or NaN matter, (b) an ordered type `Z` or `Q` where only comparisons or
  counting matter, (c) real numbers `R` where the property is an algebraic law that only
  holds up to rounding. Several models (`arith A`) are written once for any arithmetic and used at both
  `R` and `binary64`. Level (c) theorems say nothing about rounding errors.
* `math/rand` and Go map iteration order are oracles: theorems quantify over every list of draws / every
  permutation of the map's entries.
* Goroutines are a labelled transition relation; theorems quantify over every run.
* Loops are structural recursion or folds. Where fuel is needed the out-of-fuel outcome is explicit
  and a theorem shows that it is not reached (or, for `_hangs`, that no fuel suffices).

## 3. Trusted base

Trusted without proof:

* Coq's kernel (8.16.1), and the standard-library axioms printed by `Print Assumptions` below the
  theorems (only theorems over `R` or Flocq floats have any). Section 5 lists them for each theorem.
* The transcription of the Go code by hand, and the Go semantics assumed in it. Section 6 says which
  functions are modelled. Simplifications are stated in the comment of the definition concerned.
* The behaviour assumed of code outside the repository:
  * `sort.Sort` and `sort.Slice` return a sorted permutation; where the order of equal elements could
    matter the theorem quantifies over the result. `byPosition.Less` of `base/spec.go` is never true, so
    `ResolveAttributes` is modelled as leaving the order unchanged (what the insertion sort and pdqsort of Go do with such a
    comparison).
  * `encoding/csv`: the reader yields the records; quoting is modelled by `TextModel` (RFC 4180). `bufio.Scanner`: lines up to
    64 KiB. The ARFF models treat texts as ASCII.
  * `archive/tar`, `compress/gzip`: an archive is the list of its entries; reading gives back what was written, also for a
    stream that was not closed. `encoding/json`: the values are a datatype; marshalling followed by unmarshalling gives the same value, numbers go
    through `float64`. `encoding/base64` is inverted by its decoder. `io.Reader.Read` may return less than asked for (oracle).
  * `strconv.ParseFloat`, `FormatFloat` and `fmt.Sprintf("%.*f")`: oracles; hypotheses say when parsing inverts printing.
  * Converting a float64 out of the range of the integer type (binning): the platform's choice, an arbitrary function `wild`.
  * `math.Log`, `Exp`, `Pow`, `Sqrt`: the real functions for theorems over `R`; oracles with stated bounds (`sane_log`, `go_log`) or arbitrary
    functions in float64.
  * gonum: `mat.Dense` is the list of its elements, `NewDense` panics for a zero dimension, `Sum`, `Dot` and `Mul` add from left to right
    (`Mul` skips zeros). QR, SVD, `stat.Variance`, `stat.CovarianceMatrix` and the multivariate normal density are oracles with their defining
    equations as hypotheses.
  * Fused multiply-add, which Go may use on some architectures, is not considered.
  * ChiMerge (`ChiSpec.go_math`, `rounding`): of `math.Pow`, `Exp` and `Gamma` the special cases Go documents and coarse ranges; the
    statistic is rational, rounded once by any function that keeps signs and integer bounds.
  * liblinear: `train`, `group_classes`, `predict` are modelled (`linear.cpp`); the numerical solvers (`train_one`) are an
    oracle that returns one weight for each feature. Reading outside of an array and casting an out-of-range double to int, both
    undefined in C, are `Panic` and an arbitrary result (`undef`). The counting sort is written as a concatenation.
  * C `fprintf` with `%.16g` writes one word that `fscanf` with `%lf` reads (`lib_text`); two doubles with the same 16 digits
    are written alike (`digits16`, for the refutation of C160 only).
  * Attributes that are pointers are compared by content except where the code compares pointers; there an oracle `same` or the
    position identifies the object. Reference cycles do not occur.
  * `panic(nil)` counts as a panic.
* In the bagging protocol channels are unbuffered, sends and receives are single steps, and the models of the members are functions
  (a failing member is modelled as one that never answers).

## 4. Properties: model and proof

The columns are: property, title, model files / file with the theorems, how it is proved, status. For
`partial` the notes in `MANIFEST.json` say what is missing or false.

| id | title | files | method | status |
|----|-------|-------|--------|--------|
| C01 | 64-bit integer packing round-trips | `BytesModel, FloatModel` / `BytesProps` | bit-level extensionality (`N.testbit`) of the masks and shifts | proved |
| C02 | float64 packing is bit-exact | `BytesModel, FloatModel` / `BytesProps` | round-trip lemmas of Flocq over C01 | proved |
| C03 | Categorical encoding is stable and injective over any history | `AttrModel` / `AttrProps` | invariant (values distinct, codes are positions) by induction over the history | proved |
| C04 | Fixed-width column store: reads return the last write and writes do not interfere | `StoreModel` / `StoreProps` | list update lemmas, disjointness of cell ranges | proved |
| C05 | Bit-packed column store: reads return the last write and writes do not interfere | `StoreModel` / `StoreProps` | `N.testbit` of or/and-not, injectivity of div/mod | proved |
| C06 | DenseInstances behaves as a table of cells over any history | `DenseModel, ShuffleModel` / `DenseProps` | refinement to a map from (column, row) to bytes, simulation by induction over the operations | proved |
| C07 | Extend keeps existing data and appends zero rows | `DenseModel, ShuffleModel` / `DenseProps` | corollary of the simulation | proved |
| C08 | The column layout is frozen by Extend | `DenseModel, ShuffleModel` / `DenseProps` | panic lemmas; witness for the refutation | partial |
| C09 | Attribute lookup finds exactly the attributes that were added | `DenseModel, ShuffleModel` / `DenseProps` | invariant over additions | proved |
| C10 | MapOverRows on dense data visits every row once, in order, with the values Get returns | `DenseModel, ShuffleModel` / `DenseProps` | induction over the rows with an arbitrary stateful callback | proved |
| C11 | Shuffle permutes whole rows | `DenseModel, ShuffleModel` / `DenseProps` | each swap is a permutation; induction over the draws | proved |
| C12 | Row views resolve to exactly the selected source rows | `GridModel` / `GridProps` | lemmas about map lookup | proved |
| C13 | Iterating over a view shows the same rows as reading it | `GridModel` / `GridProps` | permutation argument for masked views; witness for unmasked ones | partial |
| C14 | LazyShuffle presents a permutation of the source rows | `GridModel` / `GridProps` | membership law by induction over the draws; witness | partial |
| C15 | SampleWithReplacement returns size rows of the source | `GridModel` / `GridProps` | membership law by induction over the draws; witness | partial |
| C16 | Train/test split is a partition of the rows | `GridModel` / `GridProps` | induction over the rows, permutation | partial |
| C17 | Splitting on a categorical attribute partitions the rows | `GridModel` / `GridProps` | induction over the rows, partition lemmas | proved |
| C18 | Splitting on a numeric threshold partitions the rows | `GridModel` / `GridProps` | induction over the rows, partition lemmas | proved |
| C19 | Class distributions are exact counts and add up | `GridModel` / `GridProps` | counting induction; witness for C20 | proved |
| C20 | Typed class distributions count every row | `GridModel` / `GridProps` | counting induction; witness for C20 | partial |
| C21 | Sort only rearranges rows | `SortModel` / `SortProps` | stability of radix passes, permutation invariants of the cycle swaps; witness for signs | proved |
| C22 | Sort orders the rows by the chosen attributes | `SortModel` / `SortProps` | stability of radix passes, permutation invariants of the cycle swaps; witness for signs | partial |
| C23 | LazySort shows the rows in the order Sort would produce | `SortModel` / `SortProps` | stability of radix passes, permutation invariants of the cycle swaps; witness for signs | proved |
| C24 | InstancesAreEqual decides equality | `BytesModel, FloatModel, GridModel` / `BytesProps, GridProps` | case analysis, induction over lists; witness for C24 | partial |
| C25 | Compatibility checks respect attribute equality | `AttrModel` / `AttrProps` | case analysis, induction over lists; witness for C24 | proved |
| C26 | Attribute set operations partition | `AttrModel` / `AttrProps` | case analysis, induction over lists; witness for C24 | proved |
| C27 | Attribute equality is an equivalence | `AttrModel` / `AttrProps` | case analysis, induction over lists; witness for C24 | proved |
| C28 | Lazily filtered data: iteration and reading agree | `FilterModel, BinModel` / `FilterProps` | agreement lemma under hypotheses on the filter, which is arbitrary; witness | partial |
| C29 | Lazily filtered data: reported shape matches its attributes | `FilterModel, BinModel` / `FilterProps` | agreement lemma under hypotheses on the filter, which is arbitrary; witness | partial |
| C30 | Binarisation of categorical values is one-hot | `FilterModel, BinModel` / `FilterProps` | case analysis; witness | proved |
| C31 | BinaryConvertFilter maps non-zero to one | `FilterModel, BinModel` / `FilterProps` | case analysis; witness | partial |
| C32 | Equal-width binning is monotone and in range | `FilterModel, BinModel` / `FilterProps` | monotonicity of floor and rounding error of the binning formula | proved |
| C33 | ChiMerge merging conserves frequencies | `FilterModel, BinModel` / `FilterProps` | induction over the merges | proved |
| C34 | ChiMerge Transform picks the interval that contains the value | `FilterModel, BinModel` / `FilterProps` | induction over the merges | proved |
| C35 | CSV cells land in their own row and column | `CsvModel, TextModel` / `CsvProps` | induction over the records; witness | partial |
| C36 | CSV row counts agree between parsing entry points | `CsvModel, TextModel` / `CsvProps` | induction over the records; witness | partial |
| C37 | Binary serialisation of Instances round-trips | `SerModel` / `SerProps` | round trip by induction over rows and columns; witness for repeated keys | partial |
| C38 | Classifier archive keys read back what was written | `SerModel` / `SerProps` | round trip by induction over rows and columns; witness for repeated keys | partial |
| C39 | Attribute serialisation round-trips | `SerModel` / `SerProps` | round trip by induction over rows and columns; witness for repeated keys | partial |
| C40 | A confusion matrix counts every row once | `ConfModel` / `ConfProps` | counting induction over nested maps; witness for C43 | proved |
| C41 | TP, FP, FN and TN partition the rows | `ConfModel` / `ConfProps` | counting induction over nested maps; witness for C43 | proved |
| C42 | Accuracy and micro-averaged recall agree and are fractions | `ConfModel` / `ConfProps` | counting induction over nested maps; witness for C43 | proved |
| C43 | Micro-averaged precision equals accuracy | `ConfModel` / `ConfProps` | counting induction over nested maps; witness for C43 | partial |
| C44 | Cross-validation folds partition the data | `ConfModel` / `ConfProps` | partition argument for arbitrary assignments to folds | proved |
| C45 | The bounded max-heap of the k-d tree keeps the heap order | `KdModel` / `KdProps` | heap invariant | proved |
| C46 | k-d tree construction is a correct search structure | `KdModel` / `KdProps` | tree invariant by induction over the construction | proved |
| C47 | k-d tree search returns the k nearest rows | `KdModel` / `KdProps` | search invariant; witness | partial |
| C48 | KNN vote returns a majority class | `KnnModel` / `KnnProps` | folds over arbitrary map orders | proved |
| C49 | Neighbour selection picks the k smallest distances | `KnnModel` / `KnnProps` | folds over arbitrary map orders | partial |
| C50 | ID3 leaves and distributions are consistent | `Id3Model` / `Id3Props` | structural induction over the tree | proved |
| C51 | Tree prediction is total and yields a training class | `Id3Model` / `Id3Props` | structural induction over the tree | partial |
| C52 | Pruning never lowers accuracy on the pruning set | `Id3Model` / `Id3Props` | structural induction over the tree | partial |
| C53 | The Gini rule chooses an attribute with the lowest weighted Gini impurity | `RuleModel` / `RuleProps` | witness; exact arithmetic over `Q` | partial |
| C54 | CART splits partition the samples | `CartModel` / `CartProps` | structural induction; witness for labels of the root | proved |
| C55 | CART predicts a label seen in training | `CartModel` / `CartProps` | structural induction; witness for labels of the root | partial |
| C56 | Isolation trees have bounded depth and exact leaf sizes | `IsoModel` / `IsoProps` | induction over the tree | proved |
| C57 | DBSCAN clusters are disjoint and large enough | `ClusModel` / `ClusProps` | loop invariants of the queue; witness | proved |
| C58 | DBSCAN never fails on valid input | `ClusModel` / `ClusProps` | loop invariants of the queue; witness | partial |
| C59 | ClusterMap inversion is exact | `ClusModel` / `ClusProps` | loop invariants; witness | proved |
| C60 | ClusterMap equality is equality up to renaming | `ClusModel` / `ClusProps` | loop invariants; witness | partial |
| C61 | Bagged prediction does not depend on the schedule | `BagModel` / `BagProps` | invariant over all interleavings of a transition relation | proved |
| C62 | Random feature selection gives distinct real features | `BagModel` / `BagProps` | argmax folds over arbitrary orders | proved |
| C63 | One-vs-all predicts the best scoring class | `BagModel` / `BagProps` | argmax folds over arbitrary orders | proved |
| C64 | Bernoulli naive Bayes estimates are probabilities and prediction is total | `NbModel` / `NbProps` | counting, and bounds for logarithms supplied by an oracle; witness | proved |
| C65 | The averaged perceptron learns from its labels | `PercModel` / `PercProps` | invariant of the training loop; witness | partial |
| C66 | Network accessors address exactly one connection | `NeuralModel` / `NeuralProps` | frame lemmas; witnesses | proved |
| C67 | MultiLayerNet reads its predictions from the output nodes | `LayerModel` / `LayerProps` | frame lemmas; witnesses | partial |
| C68 | Distance functions are metrics | `MetricModel` / `MetricProps` | Minkowski and Cauchy–Schwarz by induction over `R` | proved |
| C69 | Kernel distances are zero on identical vectors | `MetricModel` / `MetricProps` | Minkowski and Cauchy–Schwarz by induction over `R` | partial |
| C70 | Linear regression solves the least-squares problem | `LinModel` / `LinProps` | back substitution and the normal equations over `R`, QR as hypothesis | proved |
| C71 | Random forest validates its feature count | `BagModel` / `BagProps` | case analysis | proved |
| C72 | SVC parameter selection yields a supported solver | `SvcModel` / `SvcProps` | case analysis over strings; witness | partial |
| C73 | ChiMerge counts each row's class under its own value | `FilterModel, BinModel` / `FilterProps` | witness; restricted law by induction | partial |
| C74 | RemoveClassAttribute undoes AddClassAttribute on filtered data | `FilterModel, BinModel` / `FilterProps` | witness; restricted law by induction | partial |
| C75 | Estimated CSV precision | `CsvModel, TextModel` / `CsvProps` | induction over the records; witness | partial |
| C76 | Macro-averaged precision and recall are fractions | `ConfModel` / `ConfProps` | real arithmetic over finite sums; witness in float64 | partial |
| C77 | The F1 score lies between precision and recall | `ConfModel` / `ConfProps` | real arithmetic over finite sums; witness in float64 | partial |
| C78 | Cross-validated metrics are the mean and variance over folds | `ConfModel` / `ConfProps` | real arithmetic over finite sums; witness in float64 | proved |
| C79 | KNN regression is the mean of the k nearest values | `KnnModel` / `KnnProps` | permutation-invariant choice of the nearest; sum over `R` | proved |
| C80 | The optimised KNN path predicts as the plain one | `KnnModel` / `KnnProps` | equality of both paths by induction; witness | partial |
| C81 | CheckStrictlyCompatible compares complete layouts | `KnnModel` / `KnnProps` | case analysis over layouts; witness | partial |
| C82 | Saving only the structure of instances leaves a usable archive | `SerModel` / `SerProps` | archive lemmas; witness | partial |
| C83 | Class probabilities of a tree are shares of training rows | `Id3Model` / `Id3Props` | structural induction over the tree | proved |
| C84 | The search for a numeric threshold ends | `RuleModel` / `RuleProps` | measure for the candidate loops; no fuel suffices for the hanging cases | partial |
| C85 | A random tree draws as many different attributes as asked for | `RuleModel` / `RuleProps` | measure for the candidate loops; no fuel suffices for the hanging cases | partial |
| C86 | Information gain and gain ratio choose a best attribute | `RuleModel` / `RuleProps` | best-so-far invariant; witness | proved |
| C87 | The threshold of a numeric attribute is a best one | `RuleModel` / `RuleProps` | best-so-far invariant; witness | partial |
| C88 | CART reads every row's numbers | `CartModel` / `CartProps` | reading lemma for rows in any order | proved |
| C89 | CART splits are the best at every node | `CartModel` / `CartProps` | best-so-far invariant over thresholds and columns, induction over the tree | proved |
| C90 | CART trees respect the maximum depth | `CartModel` / `CartProps` | induction over the tree | proved |
| C91 | Fitting a CART model ends | `CartModel` / `CartProps` | decreasing number of samples; witness where the average overflows | partial |
| C92 | The CART regressor predicts means of training targets | `CartModel` / `CartProps` | running mean invariant with rounding error bound; witness | partial |
| C93 | CART predictions and accuracy go row by row | `CartModel` / `CartProps` | induction over the rows | proved |
| C94 | The Gini impurity is accurate and exactly zero for pure samples | `CartModel` / `CartProps` | rounding error analysis with Flocq | proved |
| C95 | Anomaly scores lie between 0 and 1 and rank by path length | `IsoModel` / `IsoProps` | monotonicity over `R`; witness | partial |
| C96 | Fitting an isolation forest ends | `IsoModel` / `IsoProps` | depth measure; no fuel suffices with NaN | partial |
| C97 | Isolation trees split their samples | `IsoModel` / `IsoProps` | induction over the tree; witness for adjacent numbers | partial |
| C98 | Isolation forests read each row with its class, in order | `IsoModel` / `IsoProps` | reading lemma for rows in any order | proved |
| C99 | DBSCAN clusters are density-connected | `ClusModel` / `ClusProps` | loop invariants relating the queue to reachability; witness | proved |
| C100 | DBSCAN finds whole clusters | `ClusModel` / `ClusProps` | loop invariants relating the queue to reachability; witness | partial |
| C101 | Mixture predictions choose the most likely component | `ClusModel` / `ClusProps` | best-so-far invariant | proved |
| C102 | BitCount counts bits | `ClusModel` / `ClusProps` | induction over bits | proved |
| C103 | Rows convert to vectors faithfully | `ClusModel` / `ClusProps` | reading lemma | proved |
| C104 | Bagged prediction always returns | `BagModel` / `BagProps` | progress of the transition relation; witness of a blocked run | partial |
| C105 | Ties between votes | `BagModel` / `BagProps` | witness with two orders of messages | partial |
| C106 | Bagged training rows are the sampled rows | `BagModel` / `BagProps` | membership lemma; witness | partial |
| C107 | One-vs-all training data | `BagModel` / `BagProps` | filter lemmas, induction over classes | proved |
| C108 | Bagged training does not depend on the schedule | `BagModel` / `BagProps` | confluence: every run ends in the same state up to order | proved |
| C109 | Bernoulli naive Bayes accepts every training set | `NbModel` / `NbProps` | witnesses | partial |
| C110 | Automatic class weights follow the class frequencies | `SvcModel` / `SvcProps` | fold lemmas over any map order; witness | partial |
| C111 | Multi-class SVC weights | `SvcModel` / `SvcProps` | fold lemmas over any map order; witness | partial |
| C112 | Linear regression never leaves unusable coefficients silently | `LinModel` / `LinProps` | witness in float64 | partial |
| C113 | The arguments of NewAveragePerceptron mean what they are called | `PercModel` / `PercProps` | equality of runs with different arguments; witness | partial |
| C114 | Every training row of the averaged perceptron counts | `PercModel` / `PercProps` | equality of runs with different arguments; witness | partial |
| C115 | Training moves every connection of a network | `NeuralModel` / `NeuralProps` | progress lemma for exact arithmetic; witness in float64 | partial |
| C116 | Activate computes the feed-forward state of a layered network | `NeuralModel` / `NeuralProps` | induction over layers | proved |
| C117 | Back-propagation computes the gradient | `NeuralModel` / `NeuralProps` | chain rule over `R` (Coquelicot derivatives), induction over layers | proved |
| C118 | Backward is the derivative of Forward | `NeuralModel` / `NeuralProps` | derivatives with Coquelicot; witness | partial |
| C119 | A layered network only connects a layer with the next | `LayerModel` / `LayerProps` | invariant of the construction loops | proved |
| C120 | Every node that is no input starts with a random bias | `LayerModel` / `LayerProps` | frame lemmas; witness | partial |
| C121 | A layered network predicts from any kind of attribute | `LayerModel` / `LayerProps` | frame lemmas; witness | partial |
| C122 | A layered network can be fitted again | `LayerModel` / `LayerProps` | frame lemmas; witness | partial |
| C123 | A well-formed ARFF file is read as its table | `ArffModel` / `ArffProps` | induction over lines against a grammar of well-formed files | proved |
| C124 | Instances written as ARFF and read back are the same table | `ArffModel` / `ArffProps` | round trip by induction over attributes and rows; witnesses | partial |
| C125 | White space in a list of categories does not matter | `ArffModel` / `ArffProps` | scanner lemmas; witnesses | partial |
| C126 | Malformed ARFF data is rejected | `ArffModel` / `ArffProps` | scanner lemmas; witnesses | partial |
| C127 | Whatever the text, parsed ARFF instances are consistent | `ArffModel` / `ArffProps` | invariant over all texts | proved |
| C128 | No row of an ARFF file is lost silently | `ArffModel` / `ArffProps` | induction over lines; witnesses | partial |
| C129 | A saved ARFF file holds what was saved | `ArffModel` / `ArffProps` | induction over lines; witnesses | partial |
| C130 | SerializeInstancesToDenseARFF keeps the columns in order and the class last | `ArffModel` / `ArffProps` | induction over lines; witnesses | partial |
| C131 | NewDenseCopy gives the same table | `CopyModel` / `CopyProps` | simulation between the tables; witnesses | partial |
| C132 | NewStructuralCopy has the attributes and no rows | `CopyModel` / `CopyProps` | simulation between the tables; witnesses | proved |
| C133 | InstancesFromMat64 reads as the matrix | `CopyModel` / `CopyProps` | index arithmetic of the matrix; witnesses | proved |
| C134 | A dense copy of a matrix holds the numbers of the matrix | `CopyModel` / `CopyProps` | index arithmetic of the matrix; witnesses | proved |
| C135 | InstancesFromMat64 rejects a size the matrix does not have | `CopyModel` / `CopyProps` | index arithmetic of the matrix; witnesses | partial |
| C136 | SerializeInstancesToCSVStream writes the table | `CsvOutModel, TextModel` / `CsvOutProps` | induction over rows, round trip through CsvModel; witnesses | proved |
| C137 | Instances written to CSV can be read back | `CsvOutModel, TextModel` / `CsvOutProps` | induction over rows, round trip through CsvModel; witnesses | partial |
| C138 | PCA components are uncorrelated and carry the most variance | `PcaModel` / `PcaProps` | spectral properties from an SVD given as hypothesis, over `R` | proved |
| C139 | PCA with all components keeps distances | `PcaModel` / `PcaProps` | spectral properties from an SVD given as hypothesis, over `R` | proved |
| C140 | Transform treats new data like the fitted data | `PcaModel` / `PcaProps` | equational reasoning over `R`; witness | partial |
| C141 | Fitting a PCA does not change the data | `PcaModel` / `PcaProps` | equational reasoning over `R`; witness | partial |
| C142 | PCA returns the number of components asked for | `PcaModel` / `PcaProps` | equational reasoning over `R`; witness | partial |
| C143 | Fitted mixture means stay within the data | `EmModel` / `EmProps` | convexity of weighted means and loop invariants over `R` | proved |
| C144 | A mixture of one component is the distribution of the data | `EmModel` / `EmProps` | convexity of weighted means and loop invariants over `R` | proved |
| C145 | Fit stops at consistent parameters | `EmModel` / `EmProps` | convexity of weighted means and loop invariants over `R` | proved |
| C146 | Fit accepts any data with enough observations | `EmModel` / `EmProps` | case analysis; witness | partial |
| C147 | A saved decision tree predicts the same once loaded | `SaveModel, SerModel` / `SaveProps` | round trip by structural induction over trees, as entries of an archive | proved |
| C148 | A saved naive Bayes classifier is restored completely | `SaveModel, SerModel` / `SaveProps` | round trip of archives | proved |
| C149 | Saved nearest neighbours are restored completely | `SaveModel, SerModel` / `SaveProps` | round trip of archives | proved |
| C150 | A saved ensemble is restored completely | `SaveModel, SerModel` / `SaveProps` | induction over the members, prefixes of keys disjoint; witness | partial |
| C151 | Any classifier that can be saved can be saved within a bagged model | `SaveModel, SerModel` / `SaveProps` | case analysis over kinds of files; witness | partial |
| C152 | Loading a file of another kind is reported | `SaveModel, SerModel` / `SaveProps` | case analysis over kinds of files; witness | partial |
| C153 | Linear classifiers train on every row as it is | `LibModel, SvcModel` / `LibProps` | invariant of writing into the shared array, read back at each pointer | proved |
| C154 | Linear classifiers tell the classes apart | `LibModel, SvcModel` / `LibProps` | invariant of the grouping loop, permutation of rows; every solver (oracle); witness | partial |
| C155 | Linear classifiers predict by the weighted sum of the features | `LibModel, SvcModel` / `LibProps` | equality of the kept features; argmax invariant; witness for every solver | partial |
| C156 | Linear classifiers predict every row of a table | `LibModel, SvcModel` / `LibProps` | row-by-row simulation; weights of arbitrary value | partial |
| C157 | Linear classifiers only predict known classes | `LibModel, SvcModel` / `LibProps` | row-by-row simulation; weights of arbitrary value | proved |
| C158 | A saved one-vs-all model is the same when loaded | `OvaSaveModel` / `OvaSaveProps` | entries of the archive determined by induction over filters and members, distinct names, reading back; Fit-level facts of what is saved | proved |
| C159 | One-vs-all models can be members of bagged models that are saved | `OvaSaveModel` / `OvaSaveProps` | the closed writer refuses; witness | partial |
| C160 | A saved linear support vector classifier predicts the same when loaded | `OvaSaveModel` / `OvaSaveProps` | round trip of the words of the model file; pigeonhole on two weights with the same 16 digits | partial |
| C161 | A loaded linear support vector classifier can be fitted again | `OvaSaveModel` / `OvaSaveProps` | round trip; witness with two values of C | partial |
| C162 | A saved ensemble of linear support vector classifiers is the same when loaded | `OvaSaveModel` / `OvaSaveProps` | as C158 with the members of C160; JSON maps merge; witness | partial |
| C163 | The ChiMerge statistic is Pearson's | `ChiModel, FilterModel` / `ChiProps` | sums over permutations; a sum of nonnegative terms is zero if all are | proved |
| C164 | ChiMerge merges neighbours whose classes do not differ significantly, and no others | `ChiModel, FilterModel` / `ChiProps` | induction on the rounds; signs and special values of floats through the quadrature; Boole error terms by repeated integration; witnesses | partial |
| C165 | ChiMerge leaves at least the minimum number of intervals | `ChiModel, FilterModel` / `ChiProps` | induction on the rounds; witness | partial |
| C166 | Information gain is Shannon's | `EntModel, RuleModel` / `EntProps` | Gibbs inequality over `R`; sums over permutations; rounding error analysis with Flocq | partial |
| C167 | The gain ratio prefers attributes with few values | `EntModel, RuleModel` / `EntProps` | monotonicity over `R`; witness for all logarithms and orders | partial |
| C168 | A decision tree reproduces consistent training data | `Id3Model` / `TreeFitProps` | induction over the tree with the set of attributes left; witness for all generators and orders | partial |
| C169 | Equal-width binning survives rounding | `DiscModel` / `DiscProps` | rounding error analysis with Flocq (`error_N_FLT`), monotonicity of rounding; loop invariant over rows in any order; witnesses | partial |
| C170 | Every binned value can be read | `DiscModel` / `DiscProps` | corollary of C169 with the encoding lemmas of C03; witnesses for every formatting function | partial |
| C171 | A discretising filter changes exactly the attributes it was given | `DiscModel` / `DiscProps` | induction over the additions; witness | partial |
| C172 | Fitting ID3 with a pruning share | `Id3FitModel` / `Id3FitProps` | both parts shown to be rows of the data (C16), the tree described by the kept ones (C50), induction over the tree for pruning; witnesses | partial |
| C173 | ChiMerge gives each row the interval that counted it | `FilterModel` / `ChiRowsProps` | the counts of the rows of an interval shown to be an invariant of every merge; the search loop located against the intervals; witness | partial |
| C174 | ChiMerge values can be read back | `FilterModel` / `ChiRowsProps` | induction over the entering of labels; witness | partial |
| C175 | Converted columns show the values they were made of | `FilterModel` / `ConvProps` | names of new columns determine the pair of old and new attribute, so lookup and reading through the filtered view meet the right one; witness | partial |
| C176 | Training a conversion filter again | `FilterModel` / `ConvProps` | training folded over the attributes twice; conversion depends on the set of attributes only; witness | partial |
| C177 | A random forest learns from the rows it samples | `BagModel, Id3Model, GridModel` / `ForestProps` | splitting iterates over the source and reads through the sample, by the lemmas of C17 and C106; witness of two rows, through the vote of C61 | partial |
| C178 | Naive Bayes classifiers in a bag learn from the rows drawn for them | `BagModel, NbModel, GridModel` / `BagNbProps` | Fit on the sample equals Fit on a table with the features of the source and the classes of the sample, to which C64 applies; witness of two rows | partial |

None of the properties was judged inexpressible.

## 5. Assumptions printed

`Print Assumptions` gives for the theorems named in `MANIFEST.json` (fully qualified names of the axioms, all from
Coq's standard library):

**Closed under the global context** (201 theorems):

`C01_u64_roundtrip`, `C01_bytes_roundtrip`, `C01_inline_same`, `C01_unpack_little_endian`, `C02_float_inline_same`, `C03_history_decodes`, `C03_values_grow`, `C03_codes_are_positions`, `C03_unknown_code_panics`, `C03_get_sysval`, `C04_fixed_set_get`, `C04_fixed_set_succeeds`, `C05_bit_set_get`, `C05_bit_set_succeeds`, `C06_reads_last_write`, `C06_set_succeeds`, `C06_bad_set_panics`, `C06_default_kind`, `C06_row_count`, `C07_extend`, `C08_layout_frozen_refuted`, `C08_layout_frozen_partial`, `C09_lookup_sound`, `C09_lookup_complete`, `C09_lookup_error`, `C09_add`, `C09_attributes_added`, `C09_lookup_exact`, `C10_map_over_rows`, `C10_all_rows_seen`, `C10_rows_readable`, `C11_shuffle_permutes`, `C11_shuffle_reachable`, `C11_equal_columns_refuted`, `C12_view_rows`, `C12_view_attributes`, `C12_view_total`, `C12_unknown_attribute_panics`, `C13_iteration_agrees_refuted`, `C13_visible_rows_partial`, `C13_attributes_partial`, `C13_dense`, `C14_lazy_shuffle_permutes_refuted`, `C14_rows_from_source_partial`, `C15_sample_size_refuted`, `C15_sample_partial`, `C16_dense_split_partial`, `C16_other_split_refuted`, `C17_decompose`, `C17_decompose_dense`, `C19_distribution`, `C19_after_split`, `C20_categorical_counts_refuted`, `C20_categorical_at_most_one`, `C21_sort_permutes`, `C22_bit_patterns_partial`, `C23_lazy_sort_agrees`, `C24_byte_seq_equal`, `C24_instances_equal_refuted`, `C24_always_true_partial`, `C25_check_compatible`, `C25_check_compatible_symmetric`, `C25_check_compatible_duplicates_refuted`, `C26_intersect_difference_split`, `C26_nonclass_attributes`, `C26_refs_partition`, `C26_nonclass_float_attributes`, `C27_equals_equivalence`, `C27_equals_compatible`, `C27_equals_meaning`, `C28_get_unfiltered`, `C28_get_filtered`, `C28_iteration_partial`, `C29_rows`, `C29_columns_partial`, `C30_float_columns`, `C30_binary_columns`, `C30_binary_passes_through`, `C30_float_passes_through`, `C33_merge_step`, `C33_least_statistic`, `C35_number`, `C37_round_trip_partial`, `C37_dense_partial`, `C37_archive_partial`, `C37_short_reads`, `C37_short_read_refuted`, `C37_row_order_refuted`, `C38_bytes_partial`, `C38_u64_partial`, `C38_attribute_partial`, `C38_attributes_partial`, `C38_absent`, `C38_repeated_refuted`, `C39_attribute_partial`, `C39_attributes_partial`, `C39_again_panics`, `C39_again_refuted`, `C40_cells`, `C40_total`, `C40_mismatch`, `C41_counts`, `C42_accuracy`, `C43_micro_precision_refuted`, `C43_micro_precision_partial`, `C44_folds`, `C44_counts`, `C44_total`, `C45_heap`, `C46_build`, `C46_build_error`, `C47_nearest_refuted`, `C47_nearest_general_partial`, `C47_nearest_partial`, `C47_search_error`, `C48_vote`, `C48_weighted`, `C49_neighbours`, `C54_split`, `C54_next`, `C59_invert`, `C60_renaming_equal`, `C60_equal_renaming_partial`, `C60_empty_refuted`, `C61_totals`, `C62_selected`, `C62_same_at_prediction`, `C62_ends`, `C62_too_many_hangs`, `C65_untrained`, `C66_new`, `C66_weight`, `C66_bias`, `C68_shapes`, `C71_rejects`, `C71_accepts`, `C71_ends`, `C72_kind`, `C72_new`, `C74_remove_undoes_add_partial`, `C75_precision_refuted`, `C75_precision_partial`, `C76_macro_recall`, `C76_macro_precision_refuted`, `C76_macro_precision_nan`, `C76_macro_precision_partial`, `C77_f1_partial`, `C77_f1_refuted`, `C78_mean_variance`, `C79_mean`, `C81_accepts`, `C81_exact_partial`, `C81_refuted`, `C82_structure_partial`, `C82_next_write_fails`, `C82_refuted`, `C85_random_partial`, `C85_hangs`, `C85_too_many_refuted`, `C102_bits`, `C104_returns`, `C104_failing_model_refuted`, `C106_get_partial`, `C106_map_ignores_sample`, `C106_same_rows_refuted`, `C108_order`, `C111_none`, `C125_listing_partial`, `C125_mixed_refuted`, `C125_brackets_refuted`, `C129_overwrite_partial`, `C131_copy_partial`, `C131_dense_partial`, `C131_order_refuted`, `C131_duplicates_refuted`, `C131_groups_refuted`, `C132_structural_copy`, `C133_matrix`, `C133_class_errors`, `C134_matrix_copy`, `C135_rows_refuted`, `C135_columns_refuted`, `C136_records`, `C136_total`, `C147_unbounded_refused`, `C148_bayes`, `C149_neighbours`, `C150_ensembles_partial`, `C150_bayes_stored`, `C150_bags_stored`, `C151_neighbours_in_bags`, `C151_saved_in_bags_refuted`, `C152_version`, `C153_rows`, `C160_linear_partial`, `C163_statistic`, `C163_symmetric`, `C163_nonneg`, `C163_zero`, `C171_accepts`, `C177_split_partial`

**`ClassicalDedekindReals.sig_forall_dec`, `FunctionalExtensionality.functional_extensionality_dep`** (6 theorems):

`C32_train`, `C32_train_total`, `C32_monotone`, `C32_minimum`, `C32_range`, `C32_equal_width`

**`ClassicalDedekindReals.sig_forall_dec`, `ClassicalDedekindReals.sig_not_dec`, `FunctionalExtensionality.functional_extensionality_dep`** (16 theorems):

`C68_values`, `C68_metrics`, `C69_cosine`, `C69_poly`, `C69_poly_refuted`, `C69_poly_columns_refuted`, `C118_linear`, `C138_components`, `C139_distance`, `C140_shift_partial`, `C140_transform_refuted`, `C141_fit_partial`, `C141_unchanged_refuted`, `C142_columns_partial`, `C142_refused`, `C142_features_refuted`

**`ClassicalDedekindReals.sig_forall_dec`, `ClassicalDedekindReals.sig_not_dec`, `Classical_Prop.classic`, `FunctionalExtensionality.functional_extensionality_dep`** (294 theorems):

`C02_float_roundtrip`, `C02_float_bytes_roundtrip`, `C02_float_pack_injective`, `C18_threshold`, `C18_threshold_dense`, `C19_after_threshold`, `C20_binary_counts_refuted`, `C20_binary_at_most_one`, `C22_sorted_negative_refuted`, `C22_sorted_positive_refuted`, `C22_sorted_partial`, `C28_iteration_refuted`, `C28_chimerge_leaves_alone`, `C29_columns_refuted`, `C30_float_one_hot`, `C30_binary_one_hot`, `C30_float_two_valued`, `C30_binary_two_valued`, `C30_float_of_binary`, `C30_constants`, `C31_nonzero_refuted`, `C31_positive_partial`, `C33_chi_merge`, `C33_start_increases`, `C34_transform`, `C34_monotone`, `C35_duplicate_names_refuted`, `C35_fields_partial`, `C35_fields_no_header`, `C35_total`, `C36_plain_rows`, `C36_templated_rows`, `C36_grouped_refuted`, `C36_grouped_partial`, `C49_linear`, `C49_too_many`, `C49_kdtree_partial`, `C49_too_many_kdtree`, `C49_too_many_kdtree_refuted`, `C50_tree`, `C50_children_sum`, `C50_generators`, `C51_predict_partial`, `C51_training`, `C51_empty_refuted`, `C52_prune_partial`, `C52_trained_usable`, `C52_numeric_refuted`, `C52_unseen_refuted`, `C53_first`, `C53_gini_refuted`, `C55_label_partial`, `C55_no_split`, `C55_pure_refuted`, `C55_depth_refuted`, `C56_depth`, `C56_leaves`, `C56_path`, `C56_bound`, `C56_correction`, `C57_valid`, `C58_ends`, `C58_returns_partial`, `C58_refuted`, `C61_prediction`, `C61_majority`, `C63_best`, `C64_estimates`, `C64_fit`, `C64_fit_errors`, `C64_predict_one`, `C64_predict`, `C65_labels_ignored`, `C65_predict`, `C65_overwritten_refuted`, `C65_single_row_refuted`, `C66_never_connects`, `C67_float_partial`, `C67_two_values`, `C67_hidden_unread`, `C67_hidden_refuted`, `C67_order_refuted`, `C67_two_refuted`, `C68_float`, `C68_euclidean_underflow_refuted`, `C68_cranberra_overflow_refuted`, `C68_triangle_refuted`, `C69_rbf`, `C69_cosine_float_refuted`, `C70_fit`, `C70_order`, `C70_errors`, `C70_predict`, `C72_rejected_refuted`, `C73_counts_refuted`, `C73_counts_partial`, `C74_remove_undoes_add_refuted`, `C80_optimised_partial`, `C80_weighted_refuted`, `C83_shares`, `C84_ends_partial`, `C84_hangs`, `C84_nan_refuted`, `C86_gain`, `C86_ratio`, `C87_threshold_partial`, `C87_duplicates_refuted`, `C88_rows`, `C88_refused`, `C89_best`, `C90_classifier`, `C90_regressor`, `C91_classifier_partial`, `C91_regressor_partial`, `C91_overflow_refuted`, `C92_mean_partial`, `C92_no_split`, `C92_constant_refuted`, `C93_predict`, `C93_evaluate`, `C94_error`, `C94_pure`, `C95_range`, `C95_order`, `C95_single_refuted`, `C96_ends`, `C96_nan_refuted`, `C97_leaves`, `C97_threshold`, `C97_close_refuted`, `C98_reads`, `C98_panics`, `C98_rowwise`, `C99_reached`, `C100_together`, `C100_components_partial`, `C100_lost_refuted`, `C101_predict`, `C103_rows`, `C105_tie_refuted`, `C107_relabelled`, `C107_fits`, `C107_panics`, `C109_sparse_refuted`, `C109_empty_refuted`, `C110_no_effect`, `C110_weights_refuted`, `C111_weights`, `C111_used`, `C111_order_refuted`, `C112_dependent_refuted`, `C113_starting_threshold_ignored`, `C113_arguments_mixed_up`, `C113_rate_refuted`, `C114_two_of_three`, `C114_rows_refuted`, `C115_moves`, `C115_weak_refuted`, `C115_late_refuted`, `C116_settles`, `C117_gradient`, `C117_descent`, `C118_sigmoid`, `C118_softplus_refuted`, `C119_layers`, `C119_connected`, `C120_others_partial`, `C120_last_refuted`, `C121_never`, `C121_refuted`, `C122_never`, `C122_refuted`, `C123_read`, `C124_round_trip_partial`, `C124_blank_value_refuted`, `C124_blank_name_refuted`, `C124_percent_refuted`, `C126_invalid_partial`, `C126_type`, `C126_short_row_refuted`, `C126_long_row_refuted`, `C127_any_text`, `C128_rows_partial`, `C128_long_line_refuted`, `C128_blank_refuted`, `C129_longer_refuted`, `C129_new_refuted`, `C130_class_partial`, `C130_order_refuted`, `C137_round_trip_partial`, `C137_numeric_refuted`, `C137_mixed_refuted`, `C137_empty_refuted`, `C137_no_rows_refuted`, `C137_nan_refuted`, `C137_classes_refuted`, `C143_range`, `C144_one`, `C145_last_step`, `C146_refused`, `C146_singular`, `C146_square_refuted`, `C146_empty_refuted`, `C147_trees`, `C150_trees_stored`, `C150_other_sizes`, `C150_any_size_refuted`, `C152_other_kinds_partial`, `C152_neighbours_panic`, `C152_refuted`, `C153_training_set`, `C154_logistic`, `C154_svc`, `C154_fractions_refuted`, `C155_decision_partial`, `C155_negative_ignored`, `C155_decision_refuted`, `C156_rows_partial`, `C156_columns_refuted`, `C157_known`, `C157_known_logistic`, `C158_one_vs_all`, `C158_fit`, `C159_one_vs_all_in_bags`, `C159_saved_in_bags_refuted`, `C160_predictions`, `C160_digits_refuted`, `C160_fitted`, `C161_refit_partial`, `C161_refit_refuted`, `C162_ensemble_partial`, `C162_members`, `C162_same`, `C162_class_weights`, `C162_weights_refuted`, `C164_stops`, `C164_keeps`, `C164_two_classes`, `C164_two_refuted`, `C164_large`, `C164_large_refuted`, `C164_polynomial_partial`, `C164_three_classes_partial`, `C165_minimum_refuted`, `C165_minimum_partial`, `C166_base`, `C166_after`, `C166_gain`, `C166_float_base`, `C166_float_after`, `C166_decided`, `C166_chosen`, `C166_threshold_partial`, `C166_constant`, `C166_empty`, `C167_order_partial`, `C167_refuted`, `C168_fits_partial`, `C168_refuted`, `C169_train`, `C169_bins_partial`, `C169_below`, `C169_bins_refuted`, `C170_label_partial`, `C170_edge_partial`, `C170_label_refuted`, `C170_beyond_refuted`, `C171_exactly`, `C171_equal_refuted`, `C172_fit_partial`, `C172_collapse`, `C172_collapse_refuted`, `C172_whole_refuted`, `C172_empty_refuted`, `C172_order_refuted`, `C173_counts_partial`, `C173_code`, `C173_code_refuted`, `C174_label_partial`, `C174_repeat`, `C174_label_refuted`, `C175_float_partial`, `C175_binary_partial`, `C175_float_one_hot_partial`, `C175_binary_one_hot_partial`, `C175_names_refuted`, `C176_columns`, `C176_transform`, `C176_order`, `C176_again_refuted`, `C177_threshold_partial`, `C177_refuted`, `C178_estimates_partial`, `C178_refuted`


## 6. What is modelled

Functions of each Go file that are cited by a definition of the model, and the functions that are not.
Most of the latter are accessors (`Len`, `Swap`, `String`, constructors that fill a struct), which are inlined in
their callers, or text output, which is not modelled. Examples, tests, `linear.cpp` other than
lines 2106–2427, 2488–2543 and 2587–2750, `tron.cpp` and the BLAS files are not modelled.

| file | model | functions | not cited |
|------|-------|-----------|-----------|
| `base/arff.go` | `ArffModel` | 7/7 | – |
| `base/bag.go` | `StoreModel` | 6/11 | BinaryAttributeGroup.String, BinaryAttributeGroup.Attributes, BinaryAttributeGroup.Storage, BinaryAttributeGroup.setStorage, BinaryAttributeGroup.appendToRowBuf |
| `base/binary.go` | `AttrModel`, `CsvModel`, `SerModel` | 6/11 | BinaryAttribute.UnmarshalJSON, NewBinaryAttribute, BinaryAttribute.SetName, BinaryAttribute.GetType, BinaryAttribute.String |
| `base/categorical.go` | `AttrModel`, `CsvModel`, `SerModel` | 9/14 | NewCategoricalAttribute, CategoricalAttribute.GetValues, CategoricalAttribute.SetName, CategoricalAttribute.GetType, CategoricalAttribute.String |
| `base/conversion.go` | `ClusModel` | 3/3 | – |
| `base/csv.go` | `CsvModel`, `TextModel` | 10/10 | – |
| `base/dataframe_go.go` | – | 0/1 | ConvertDataFrameToInstances |
| `base/dense.go` | `CopyModel`, `DenseModel`, `GridModel` | 20/25 | DenseInstances.AllAttributeGroups, DenseInstances.GetAttributeGroup, DenseInstances.AllClassAttributes, DenseInstances.RowString, DenseInstances.String |
| `base/domain.go` | – | 0/1 | SaveEstimatorToGob |
| `base/error.go` | – | 0/6 | wrapLinesWithTabPrefix, GoLearnError.Error, GoLearnError.attachFormattedStack, DescribeError, WrapError, FormatError |
| `base/filewrapper.go` | – | 0/8 | ParseCSVGetRows, ParseCSVEstimateFilePrecision, ParseCSVGetAttributes, ParseCSVSniffAttributeNames, ParseCSVSniffAttributeTypes, ParseCSVToInstances, ParseCSVToTemplatedInstances, ParseCSVToInstancesWithAttributeGroups |
| `base/filtered.go` | `FilterModel` | 10/12 | LazilyFilteredInstances.RowString, LazilyFilteredInstances.String |
| `base/fixed.go` | `StoreModel` | 6/11 | FixedAttributeGroup.String, FixedAttributeGroup.Attributes, FixedAttributeGroup.setStorage, FixedAttributeGroup.Storage, FixedAttributeGroup.appendToRowBuf |
| `base/float.go` | `AttrModel`, `CsvModel`, `FilterModel`, `SerModel` | 8/13 | FloatAttribute.SetName, FloatAttribute.GetType, FloatAttribute.String, FloatAttribute.CheckSysValFromString, FloatAttribute.GetFloatFromSysVal |
| `base/logger.go` | – | 0/3 | SetLogger, SetLoggerOut, Silent |
| `base/mat.go` | `CopyModel` | 7/11 | Mat64Instances.AllAttributes, Mat64Instances.RowString, Mat64Instances.Size, Mat64Instances.String |
| `base/serialize.go` | `SaveModel`, `SerModel` | 13/24 | NewFunctionalTarReader, ClassifierDeserializer.Prefix, ClassifierDeserializer.GetBytesForKey, ClassifierDeserializer.GetStringForKey, ClassifierDeserializer.GetInstancesForKey, ClassifierDeserializer.GetAttributeForKey, ClassifierDeserializer.Close, ClassifierSerializer.WriteJSONForKey, ClassifierSerializer.WriteInstancesForKey, ClassifierSerializer.Prefix, ClassifierSerializer.WriteMetadataAtPrefix |
| `base/serialize_attributes.go` | `SaveModel`, `SerModel` | 5/7 | MarshalAttribute, ReplaceDeserializedAttributesWithVersionsFromInstances |
| `base/serialize_instances.go` | `CsvOutModel`, `SerModel` | 6/7 | SerializeInstancesToFile |
| `base/sort.go` | `SortModel` | 4/4 | – |
| `base/spec.go` | `DenseModel` | 1/5 | byPosition.Len, byPosition.Swap, AttributeSpec.GetAttribute, AttributeSpec.String |
| `base/util.go` | `BytesModel`, `FloatModel` | 7/7 | – |
| `base/util_attributes.go` | `AttrModel`, `BagModel`, `DenseModel`, `GridModel`, `LibModel`, `SerModel` | 9/9 | – |
| `base/util_instances.go` | `AttrModel`, `CsvModel`, `GridModel`, `Id3FitModel`, `KnnModel`, `PredModel`, `ShuffleModel` | 18/19 | GetAttributeByName |
| `base/view.go` | `GridModel` | 13/15 | InstancesView.String, InstancesView.RowString |
| `clustering/clustering.go` | `ClusModel` | 2/2 | – |
| `clustering/dbscan.go` | `ClusModel` | 4/4 | – |
| `clustering/em.go` | `ClusModel`, `EmModel` | 13/17 | expectation, initCovariance, identity, symVals |
| `ensemble/multisvc.go` | `OvaSaveModel`, `SvcModel` | 7/10 | MultiLinearSVC.Predict, MultiLinearSVC.GetMetadata, MultiLinearSVC.Load |
| `ensemble/randomforest.go` | `BagModel`, `SaveModel` | 5/9 | NewRandomForest, RandomForest.Fit, RandomForest.Predict, RandomForest.String |
| `evaluation/confusion.go` | `ConfModel` | 13/15 | GetSummary, ShowConfusionMatrix |
| `evaluation/cross_fold.go` | `ConfModel` | 2/2 | – |
| `filters/binary.go` | `FilterModel` | 2/6 | NewBinaryConvertFilter, BinaryConvertFilter.AddAttribute, BinaryConvertFilter.GetAttributesAfterFiltering, BinaryConvertFilter.String |
| `filters/binning.go` | `BinModel`, `DiscModel` | 4/5 | BinningFilter.String |
| `filters/chimerge.go` | `ChiModel`, `FilterModel` | 4/6 | NewChiMergeFilter, ChiMergeFilter.String |
| `filters/chimerge_freq.go` | `FilterModel` | 0/1 | FrequencyTableEntry.String |
| `filters/chimerge_funcs.go` | `ChiModel`, `FilterModel` | 6/6 | – |
| `filters/disc.go` | `DiscModel` | 3/3 | – |
| `filters/float.go` | `FilterModel` | 2/6 | NewFloatConvertFilter, FloatConvertFilter.AddAttribute, FloatConvertFilter.GetAttributesAfterFiltering, FloatConvertFilter.String |
| `kdtree/heap.go` | `KdModel` | 3/5 | newHeap, heap.size |
| `kdtree/kdtree.go` | `KdModel` | 5/9 | SortData.Len, SortData.Less, SortData.Swap, New |
| `knn/knn.go` | `KnnModel`, `SaveModel` | 11/16 | NewKnnClassifier, KNNClassifier.Fit, KNNClassifier.canUseOptimisations, KNNClassifier.String, ReloadKNNClassifier |
| `knn/knn_opt_euclidean.go` | `KnnModel` | 1/4 | distanceRecs.Len, distanceRecs.Swap, distanceRecs.Less |
| `linear_models/liblinear.go` | `LibModel`, `OvaSaveModel`, `SvcModel` | 6/8 | NewParameter, Train |
| `linear_models/liblinear_print.go` | – | 0/2 | libLinearPrintFunc, libLinearHookPrintFunc |
| `linear_models/liblinear_print_11.go` | – | 0/2 | libLinearPrintFunc, libLinearHookPrintFunc |
| `linear_models/linear_regression.go` | `LinModel` | 3/3 | – |
| `linear_models/linearsvc.go` | `LibModel`, `OvaSaveModel`, `SvcModel` | 10/13 | LinearSVCParams.convertToNativeFormat, LinearSVC.Load, LinearSVC.String |
| `linear_models/logistic.go` | `LibModel`, `SvcModel` | 3/4 | LogisticRegression.String |
| `linear_models/util.go` | `CartModel`, `LibModel`, `SvcModel` | 4/4 | – |
| `meta/bagging.go` | `BagModel`, `SaveModel` | 11/12 | BaggedModel.String |
| `meta/one_v_all.go` | `BagModel`, `OvaSaveModel` | 12/14 | NewOneVsAllModel, OneVsAllModel.Load |
| `metrics/pairwise/chebyshev.go` | `MetricModel` | 1/2 | NewChebyshev |
| `metrics/pairwise/cosine.go` | `MetricModel` | 2/3 | NewCosine |
| `metrics/pairwise/cranberra.go` | `MetricModel` | 2/3 | NewCranberra |
| `metrics/pairwise/euclidean.go` | `MetricModel` | 2/3 | NewEuclidean |
| `metrics/pairwise/manhattan.go` | `MetricModel` | 1/2 | NewManhattan |
| `metrics/pairwise/poly_kernel.go` | `MetricModel` | 2/3 | NewPolyKernel |
| `metrics/pairwise/rbf_kernel.go` | `MetricModel` | 1/2 | NewRBFKernel |
| `naive/bernoulli_nb.go` | `NbModel`, `SaveModel` | 10/10 | – |
| `neural/layered.go` | `LayerModel` | 4/5 | MultiLayerNet.String |
| `neural/network.go` | `NeuralModel` | 7/10 | Network.String, Network.SetWeight, Network.GetBias |
| `pca/pca.go` | `PcaModel` | 7/7 | – |
| `perceptron/average.go` | `PercModel` | 7/7 | – |
| `trees/cart_classifier.go` | `CartModel` | 15/18 | NewDecisionTreeClassifier, CARTDecisionTreeClassifier.String, classifierPrintTreeFromNode |
| `trees/cart_regressor.go` | `CartModel` | 16/19 | NewDecisionTreeRegressor, CARTDecisionTreeRegressor.String, regressorPrintTreeFromNode |
| `trees/cart_utils.go` | `CartModel` | 4/4 | – |
| `trees/entropy.go` | `EntModel`, `RuleModel` | 6/9 | splitVec.Len, splitVec.Swap, splitVec.Less |
| `trees/gini.go` | `RuleModel` | 4/4 | – |
| `trees/gr.go` | `EntModel`, `RuleModel` | 2/2 | – |
| `trees/id3.go` | `Id3FitModel`, `Id3Model`, `SaveModel` | 14/29 | DecisionTreeRule.UnmarshalJSON, DecisionTreeRule.String, getClassAttr, DecisionTreeNode.Save, DecisionTreeNode.Load, DecisionTreeNode.getNestedString, DecisionTreeNode.String, ClassesProba.Len, ClassesProba.Swap, NewID3DecisionTree, NewID3DecisionTreeFromRule, ID3DecisionTree.Predict, ID3DecisionTree.String, ID3DecisionTree.SaveWithPrefix, ID3DecisionTree.LoadWithPrefix |
| `trees/isolation.go` | `IsoModel` | 13/15 | selectFeature, NewIsolationForest |
| `trees/random.go` | `RuleModel`, `SaveModel` | 5/11 | NewRandomTree, RandomTree.Fit, RandomTree.Predict, RandomTree.String, RandomTree.Prune, RandomTree.GetMetadata |
| `trees/sorter.go` | – | 0/2 | Slice.Swap, NewSlice |
| `utilities/utilities.go` | `KnnModel` | 1/6 | sortedIntMap.Len, sortedIntMap.Less, sortedIntMap.Swap, FloatsToMatrix, VectorToMatrix |
