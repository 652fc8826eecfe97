{"id": "C01", "title": "64-bit integer packing round-trips", "statement": "UnpackBytesToU64(PackU64ToBytes(v)) returns v for every 64-bit v, the packed form always has exactly 8 bytes, PackU64ToBytes(UnpackBytesToU64(b)) returns b for every 8-byte b, and the in-place variant writes the same 8 bytes without touching any byte of the buffer after them.", "quantifier": "every uint64 value, every 8-byte sequence, every destination buffer of at least 8 bytes", "why_tests_cant": "2^64 values; every mask/shift pair is a separate way to be wrong and sampled values miss single-bit errors", "anchors": ["base/util.go: PackU64ToBytes, PackU64ToBytesInline, UnpackBytesToU64"]}
{"id": "C02", "title": "float64 packing is bit-exact", "statement": "UnpackBytesToFloat(PackFloatToBytes(f)) gives back the same float64, including both zeros, infinities, subnormals and NaN payloads; two floats with the same packed bytes are the same float.", "quantifier": "every IEEE-754 binary64 datum and every 8-byte sequence", "why_tests_cant": "2^64 values including NaN payloads, for which == comparisons in tests are useless", "anchors": ["base/util.go: PackFloatToBytes, PackFloatToBytesInline, UnpackBytesToFloat"]}
{"id": "C03", "title": "Categorical encoding is stable and injective over any history", "statement": "After any sequence of GetSysValFromString calls on a CategoricalAttribute, decoding any code it ever returned with GetStringFromSysVal yields the string that was encoded, equal strings always get equal codes, different strings always get different codes, codes are 0..n-1 in order of first appearance, and decoding a code that was never handed out panics instead of returning a label.", "quantifier": "every finite sequence of encode calls over arbitrary strings, starting from any attribute whose known values are distinct; every 64-bit code for the decode panic", "why_tests_cant": "stability is a property of histories (a later insert must never renumber), not of one call", "anchors": ["base/categorical.go: GetSysValFromString, GetStringFromSysVal, GetSysVal, GetValues"]}
{"id": "C04", "title": "Fixed-width column store: reads return the last write and writes do not interfere", "statement": "In a fixed-width attribute group, after Set on (column,row) Get on the same cell returns exactly the bytes written, and every other cell (c',r') with c' a valid column keeps its bytes; a Set whose value has the wrong width or whose cell lies outside the allocation panics.", "quantifier": "every cell width, number of columns, allocation, and pair of cells", "why_tests_cant": "non-interference quantifies over all pairs of cells and all layouts; offset arithmetic errors only show for particular sizes", "anchors": ["base/fixed.go: FixedAttributeGroup.set, get, offset, resize, RowSizeInBytes"]}
{"id": "C05", "title": "Bit-packed column store: reads return the last write and writes do not interfere", "statement": "In a binary attribute group, after Set on a bit cell Get returns 1 if the written byte was > 0 and 0 otherwise, and every other bit cell (same byte or not) keeps its value.", "quantifier": "every number of columns, row, column, written byte, prior contents", "why_tests_cant": "eight columns share one byte: interference shows only for specific column pairs and prior bit patterns", "anchors": ["base/bag.go: BinaryAttributeGroup.set, get, getByteOffset, getBitOffset, resize"]}
{"id": "C06", "title": "DenseInstances behaves as a table of cells over any history", "statement": "For a DenseInstances whose attributes were added and which was then Extended, any interleaving of Set and Extend calls leaves Get(attr,row) equal to the last value Set for that cell (normalised to 0/1 for binary attributes), or to zero bytes if that cell was never Set.", "quantifier": "every set of float/categorical/binary attributes, every sequence of Set and Extend operations, every cell", "why_tests_cant": "a refinement statement over unbounded operation histories and layouts that span several attribute groups", "anchors": ["base/dense.go: AddAttribute, Extend, Set, Get; base/fixed.go; base/bag.go"]}
{"id": "C07", "title": "Extend keeps existing data and appends zero rows", "statement": "Extend(n) raises the reported row count by exactly n, leaves every existing cell unchanged and makes every new cell read as zero bytes; the column count does not change.", "quantifier": "every table, every n, every cell before and after", "why_tests_cant": "must hold for all layouts, including bit-packed groups where a row occupies fractions of bytes", "anchors": ["base/dense.go: Extend, Size; base/fixed.go: resize; base/bag.go: resize"]}
{"id": "C08", "title": "The column layout is frozen by Extend", "statement": "Once storage has been allocated with Extend, no successful call can change which bytes an existing cell reads: adding an attribute or an attribute group after Extend must be rejected.", "quantifier": "every table with allocated rows, every attempted attribute/group addition, every existing cell", "why_tests_cant": "quantifies over all later additions and all cells; a test that adds the attribute and reads one small cell does not see the shift", "anchors": ["base/dense.go: AddAttribute, CreateAttributeGroup, AddAttributeToAttributeGroup, Extend"]}
{"id": "C09", "title": "Attribute lookup finds exactly the attributes that were added", "statement": "Every attribute returned by AllAttributes can be resolved with GetAttribute, the specification found refers to an attribute that Equals the requested one, and an attribute not Equal to any added one is reported as an error; the column count of Size equals the number of attributes.", "quantifier": "every sequence of attribute additions of any mixture of types and names", "why_tests_cant": "the mapping from attributes to (group, position) is spread over several groups; correctness quantifies over all insertion sequences", "anchors": ["base/dense.go: AddAttribute, GetAttribute, AllAttributes, Size"]}
{"id": "C10", "title": "MapOverRows on dense data visits every row once, in order, with the values Get returns", "statement": "DenseInstances.MapOverRows calls the function on rows 0,1,2,... with exactly the bytes Get returns for the requested attributes, stops right after the first call that returns false or an error, and returns that error (nil otherwise).", "quantifier": "every table, attribute specification list and (stateful) callback", "why_tests_cant": "quantifies over arbitrary callbacks and early-exit positions", "anchors": ["base/dense.go: MapOverRows, Get"]}
{"id": "C11", "title": "Shuffle permutes whole rows", "statement": "Shuffle on DenseInstances rearranges rows only: for every sequence of random draws the resulting table is a permutation of the original rows (all attributes, class included, move together), no row lost or duplicated.", "quantifier": "every table and every sequence of random draws", "why_tests_cant": "quantifies over all outcomes of the random source", "anchors": ["base/util_instances.go: Shuffle; base/dense.go: swapRows"]}
{"id": "C12", "title": "Row views resolve to exactly the selected source rows", "statement": "A view made with NewInstancesViewFromVisible(src, rows, attrs) has len(rows) rows, its row i reads the same bytes as source row rows[i] for every attribute, its attributes are exactly attrs in the order given, its class attributes are exactly the source's class attributes among them, and reading a row outside 0..len(rows)-1 panics rather than reading other data. Asking for an attribute the source lacks panics.", "quantifier": "every source, every list of rows (with repetitions), every attribute list", "why_tests_cant": "quantifies over all row lists, repeated rows, nested views", "anchors": ["base/view.go: NewInstancesViewFromVisible, resolveRow, Get, Size, AllAttributes, addClassAttrsFromSrc"]}
{"id": "C13", "title": "Iterating over a view shows the same rows as reading it", "statement": "For any InstancesView, MapOverRows with a callback that never stops presents, for each row number i below the row count, exactly the values Get returns for row i, each row number exactly once.", "quantifier": "every view kind (row-remapped, visible-subset, attribute subset), every row map, every map iteration order", "why_tests_cant": "map iteration order is nondeterministic, and the two code paths only differ for remapped views", "anchors": ["base/view.go: InstancesView.MapOverRows, Get, Size"]}
{"id": "C14", "title": "LazyShuffle presents a permutation of the source rows", "statement": "The view returned by LazyShuffle contains each source row exactly once.", "quantifier": "every source and every sequence of random draws", "why_tests_cant": "quantifies over all outcomes of the random source; seeds that happen to work hide the duplicates", "anchors": ["base/util_instances.go: LazyShuffle; base/view.go: NewInstancesViewFromRows, Get"]}
{"id": "C15", "title": "SampleWithReplacement returns size rows of the source", "statement": "SampleWithReplacement(src, size) reports exactly size rows and each of its rows equals some source row.", "quantifier": "every source, every size, every sequence of random draws", "why_tests_cant": "quantifies over all random outcomes and the relation of size to the source's row count", "anchors": ["base/util_instances.go: SampleWithReplacement; base/view.go: Size, Get"]}
{"id": "C16", "title": "Train/test split is a partition of the rows", "statement": "InstancesTrainTestSplit assigns every row of the source to exactly one of the training and test views: together they contain each source row exactly once, whatever the random source yields, and the two row counts add up to the source's.", "quantifier": "every table, proportion and sequence of random draws", "why_tests_cant": "quantifies over all random outcomes", "anchors": ["base/util_instances.go: InstancesTrainTestSplit, Shuffle"]}
{"id": "C17", "title": "Splitting on a categorical attribute partitions the rows", "statement": "DecomposeOnAttributeValues(inst, at) yields one view per value that occurs; every row appears in exactly the view of its own value, rows keep their order, no view is empty, the split attribute is not among the view's attributes while every other attribute (class attributes included) is.", "quantifier": "every table, every attribute", "why_tests_cant": "a partition claim over all data", "anchors": ["base/util_instances.go: DecomposeOnAttributeValues; base/view.go"]}
{"id": "C18", "title": "Splitting on a numeric threshold partitions the rows", "statement": "DecomposeOnNumericAttributeThreshold(inst, at, t) puts a row into the view named \"1\" when its value is > t and into \"0\" otherwise; every row appears exactly once over both views.", "quantifier": "every table, float attribute and threshold (NaN and infinities included)", "why_tests_cant": "a partition claim over all data, including NaN comparisons", "anchors": ["base/util_instances.go: DecomposeOnNumericAttributeThreshold"]}
{"id": "C19", "title": "Class distributions are exact counts and add up", "statement": "GetClassDistribution maps each label to the number of rows carrying it, the counts sum to the row count, and the per-branch distributions of GetClassDistributionAfterSplit / AfterThreshold sum, label by label, to the overall distribution.", "quantifier": "every table, split attribute and threshold", "why_tests_cant": "conservation law over all data", "anchors": ["base/util_instances.go: GetClassDistribution, GetClassDistributionAfterSplit, GetClassDistributionAfterThreshold"]}
{"id": "C20", "title": "Typed class distributions count every row", "statement": "GetClassDistributionByBinaryFloatValue and GetClassDistributionByCategoricalValue return counts whose sum is the number of rows, each count being the number of rows with that class value.", "quantifier": "every table with a float (0/1) or categorical class", "why_tests_cant": "must hold for all row counts; a one-row test passes whatever the early-exit flag is", "anchors": ["base/util_instances.go: GetClassDistributionByBinaryFloatValue, GetClassDistributionByCategoricalValue"]}
{"id": "C21", "title": "Sort only rearranges rows", "statement": "Sort on DenseInstances, in either direction and for any attribute list, leaves a table that is a permutation of the original rows.", "quantifier": "every table, attribute list, direction", "why_tests_cant": "the in-place cycle decomposition into swaps is correct only as a statement about all permutations", "anchors": ["base/sort.go: Sort, createSortSpec; base/dense.go: swapRows"]}
{"id": "C22", "title": "Sort orders the rows by the chosen attributes", "statement": "After Sort(Ascending, attrs) the rows are in non-decreasing numeric order of the first attribute, ties broken by the next ones in turn; Descending gives the reverse order.", "quantifier": "every table and list of float attributes", "why_tests_cant": "radix sorting on raw bytes is right or wrong depending on sign bits and low-order bytes of particular values", "anchors": ["base/sort.go: createSortSpec, Sort, sortXorOp"]}
{"id": "C23", "title": "LazySort shows the rows in the order Sort would produce", "statement": "Reading the view returned by LazySort row by row gives exactly the same row sequence as sorting a copy in place with Sort with the same arguments.", "quantifier": "every table, attribute list, direction", "why_tests_cant": "relates two implementations over all inputs", "anchors": ["base/sort.go: LazySort, Sort"]}
{"id": "C24", "title": "InstancesAreEqual decides equality", "statement": "InstancesAreEqual(a,b) returns true exactly when the two sets of Instances have the same attributes, the same number of rows and the same value in every cell.", "quantifier": "every pair of tables", "why_tests_cant": "a decision-procedure claim over all pairs; tests that compare a table with itself cannot fail", "anchors": ["base/util_instances.go: InstancesAreEqual, CheckStrictlyCompatible"]}
{"id": "C25", "title": "Compatibility checks respect attribute equality", "statement": "CheckCompatible(a,b) returns the shared attributes exactly when every attribute of a has an Equal in b and vice versa, and nil otherwise; it is symmetric in acceptance.", "quantifier": "every pair of tables whose attributes are pairwise different", "why_tests_cant": "all pairs of attribute lists", "anchors": ["base/util_instances.go: CheckCompatible, CheckStrictlyCompatible; base/util_attributes.go: AttributeIntersect"]}
{"id": "C26", "title": "Attribute set operations partition", "statement": "AttributeIntersect(a,b) and AttributeDifference(a,b) split a: each attribute of a is in exactly one of them (in the original order), in the first exactly when b contains an Equal attribute. NonClassAttributes(d) is exactly the attributes of d that are not class attributes, each once, whatever the map iteration order.", "quantifier": "every pair of attribute lists; every map iteration order", "why_tests_cant": "the reference-based variants iterate over Go maps, so results must hold for every iteration order", "anchors": ["base/util_attributes.go: AttributeIntersect, AttributeDifference, AttributeIntersectReferences, AttributeDifferenceReferences, NonClassAttributes, NonClassFloatAttributes"]}
{"id": "C27", "title": "Attribute equality is an equivalence", "statement": "Equals on attributes is reflexive, symmetric and transitive across float, categorical and binary attributes, and Equal attributes are Compatible.", "quantifier": "every triple of attributes of any type", "why_tests_cant": "all triples of attributes including categorical value lists of different length and order", "anchors": ["base/float.go: Equals, Compatible; base/categorical.go: Equals, Compatible; base/binary.go: Equals, Compatible"]}
{"id": "C28", "title": "Lazily filtered data: iteration and reading agree", "statement": "On LazilyFilteredInstances, MapOverRows presents for every row exactly the values Get returns; Get on a filtered attribute is the filter's Transform applied to the source value and on an unfiltered attribute the source value itself.", "quantifier": "every source, filter (arbitrary Transform function) and attribute list", "why_tests_cant": "quantifies over arbitrary filters, including those whose Transform is not the identity on attributes they do not filter", "anchors": ["base/filtered.go: Get, MapOverRows, transformNewToOldAttribute"]}
{"id": "C29", "title": "Lazily filtered data: reported shape matches its attributes", "statement": "On LazilyFilteredInstances the column count from Size equals the number of attributes in AllAttributes and the row count equals the source's.", "quantifier": "every source and filter, including filters that expand one attribute into several", "why_tests_cant": "depends on the filter's expansion factor for all attribute lists", "anchors": ["base/filtered.go: Size, AllAttributes, NewLazilyFilteredInstances"]}
{"id": "C30", "title": "Binarisation of categorical values is one-hot", "statement": "With FloatConvertFilter or BinaryConvertFilter on a categorical attribute with more than two values, exactly one of the generated columns is 1 for every value, namely the one generated for that value; two-valued attributes give 0 for the first value and 1 for the second; binary attributes pass through.", "quantifier": "every categorical attribute and stored code", "why_tests_cant": "all attributes, value counts and codes", "anchors": ["filters/float.go: Train, Transform; filters/binary.go: Train, Transform"]}
{"id": "C31", "title": "BinaryConvertFilter maps non-zero to one", "statement": "As documented, BinaryConvertFilter turns a float value into 1 exactly when it is non-zero.", "quantifier": "every float64 value", "why_tests_cant": "all 2^64 values; negatives are the failing class", "anchors": ["filters/binary.go: Transform"]}
{"id": "C32", "title": "Equal-width binning is monotone and in range", "statement": "After training on data, BinningFilter maps every value to a bin number that does not decrease as the value increases, maps the minimum to bin 0, and every value within the training range to a bin number between 0 and the number of bins.", "quantifier": "every training column, bin count, and pair of values (real-number arithmetic)", "why_tests_cant": "monotonicity quantifies over all pairs of values", "anchors": ["filters/binning.go: Train, Transform"]}
{"id": "C33", "title": "ChiMerge merging conserves frequencies", "statement": "Each chi-merge step replaces adjacent intervals by one that keeps the lower boundary and the sum of class counts: total count per class never changes, boundaries stay strictly increasing, and the number of intervals does not grow.", "quantifier": "every frequency table and merge sequence", "why_tests_cant": "conservation along arbitrary merge sequences", "anchors": ["filters/chimerge_funcs.go: chiMergeMergeZipAdjacent, chiMerge; filters/chimerge.go"]}
{"id": "C34", "title": "ChiMerge Transform picks the interval that contains the value", "statement": "For a trained ChiMerge filter, Transform maps a value to the index of the interval it falls in: the last interval whose lower boundary is below the value (index 0 if none); the index is always valid and non-decreasing in the value.", "quantifier": "every strictly increasing boundary table and value", "why_tests_cant": "all tables and values including those equal to a boundary", "anchors": ["filters/chimerge.go: Transform"]}
{"id": "C35", "title": "CSV cells land in their own row and column", "statement": "Building Instances from parsed CSV records stores in cell (i,j) the encoding of field j of data record i with attribute j (empty fields leave zero bytes); the header line is never stored and no record is lost; the last column becomes the class.", "quantifier": "every list of records, with and without header, any column types", "why_tests_cant": "all record lists; row-offset errors with headers", "anchors": ["base/csv.go: ParseCSVBuildInstancesFromReader, ParseCSVToInstancesFromReader, ParseCSVGetRows"]}
{"id": "C36", "title": "CSV row counts agree between parsing entry points", "statement": "Every CSV entry point yields exactly as many rows as there are data records: with headers, one less than the number of records.", "quantifier": "every file with or without headers, every entry point (plain, templated, with attribute groups)", "why_tests_cant": "each entry point recomputes the count; only files parsed by each of them expose it", "anchors": ["base/csv.go: ParseCSVToInstances, ParseCSVToTemplatedInstances, ParseCSVToInstancesWithAttributeGroups"]}
{"id": "C37", "title": "Binary serialisation of Instances round-trips", "statement": "DeserializeInstances applied to the output of SerializeInstances yields Instances with the same attributes, class attributes and row count and byte-for-byte the same cells.", "quantifier": "every table of any attribute types and any number of rows", "why_tests_cant": "all tables; column order is regrouped on writing and must be undone on reading", "anchors": ["base/serialize_instances.go: SerializeInstancesToTarWriter, DeserializeInstancesFromTarReader"]}
{"id": "C38", "title": "Classifier archive keys read back what was written", "statement": "A value written with WriteBytesForKey / WriteU64ForKey is what GetBytesForKey / GetU64ForKey returns for that key, whatever other keys were written before or after; for a key written more than once the most recent value is returned.", "quantifier": "every sequence of writes and every key", "why_tests_cant": "sequences of writes with repeated keys", "anchors": ["base/serialize.go: WriteBytesForKey, WriteU64ForKey, GetBytesForKey, GetU64ForKey, getNamedFile, Prefix"]}
{"id": "C39", "title": "Attribute serialisation round-trips", "statement": "Deserialising a serialised attribute gives an attribute Equal to the original: same kind, same name, same categorical values in the same order (and same float precision).", "quantifier": "every float, categorical and binary attribute", "why_tests_cant": "all names and value lists, including the empty value list", "anchors": ["base/serialize_attributes.go; base/categorical.go: MarshalJSON, UnmarshalJSON; base/float.go; base/binary.go"]}
{"id": "C40", "title": "A confusion matrix counts every row once", "statement": "GetConfusionMatrix on two grids with equally many rows has, in cell (r,g), the number of rows whose reference label is r and whose generated label is g; all cells together sum to the number of rows; different row counts give an error.", "quantifier": "every pair of label sequences", "why_tests_cant": "all label sequences, labels unseen in the reference included", "anchors": ["evaluation/confusion.go: GetConfusionMatrix"]}
{"id": "C41", "title": "TP, FP, FN and TN partition the rows", "statement": "For every class c of the reference, GetTruePositives + GetFalsePositives + GetFalseNegatives + GetTrueNegatives equals the total number of rows, and each equals the count of rows with the corresponding combination of (reference = c, generated = c).", "quantifier": "every confusion matrix produced from label sequences, every class", "why_tests_cant": "counting identity over all matrices", "anchors": ["evaluation/confusion.go: GetTruePositives, GetFalsePositives, GetFalseNegatives, GetTrueNegatives"]}
{"id": "C42", "title": "Accuracy and micro-averaged recall agree and are fractions", "statement": "GetAccuracy equals the fraction of rows whose generated label equals the reference label, lies in [0,1] and equals the micro-averaged recall.", "quantifier": "every pair of non-empty label sequences", "why_tests_cant": "identity over all matrices", "anchors": ["evaluation/confusion.go: GetAccuracy, GetMicroRecall"]}
{"id": "C43", "title": "Micro-averaged precision equals accuracy", "statement": "For single-label classification, GetMicroPrecision equals GetAccuracy.", "quantifier": "every pair of non-empty label sequences", "why_tests_cant": "fails only when the classifier outputs a label absent from the reference", "anchors": ["evaluation/confusion.go: GetMicroPrecision, GetFalsePositives"]}
{"id": "C44", "title": "Cross-validation folds partition the data", "statement": "GenerateCrossFoldValidationConfusionMatrices tests every row exactly once over all folds, trains each fold on exactly the rows not in its test fold, and never trains on a row it tests in that fold.", "quantifier": "every row count, fold count and random fold assignment", "why_tests_cant": "quantifies over all random assignments", "anchors": ["evaluation/cross_fold.go: GenerateCrossFoldValidationConfusionMatrices"]}
{"id": "C45", "title": "The bounded max-heap of the k-d tree keeps the heap order", "statement": "After any sequence of insert and extractMax, maximum reports an entry with the greatest distance among those held; insert adds exactly one entry, extractMax removes exactly one greatest entry, and nothing is lost or duplicated.", "quantifier": "every sequence of operations", "why_tests_cant": "invariant over unbounded histories", "anchors": ["kdtree/heap.go: insert, extractMax, maximum, size"]}
{"id": "C46", "title": "k-d tree construction is a correct search structure", "statement": "Build stores every input row exactly once; in the left subtree of a node all rows have a split coordinate <= the node's and in the right subtree > the node's.", "quantifier": "every non-empty rectangular data set", "why_tests_cant": "structural invariant over all data including ties", "anchors": ["kdtree/kdtree.go: Build, buildHandle"]}
{"id": "C47", "title": "k-d tree search returns the k nearest rows", "statement": "Search(k, target) returns k distinct rows with their true distances such that no other row is closer than any returned one.", "quantifier": "every data set, k and target, distance satisfying the plane bound", "why_tests_cant": "pruning and the k-best heap interact for all trees; quantifies over all data", "anchors": ["kdtree/kdtree.go: Search, searchHandle, searchAllNodes; kdtree/heap.go"]}
{"id": "C48", "title": "KNN vote returns a majority class", "statement": "The class chosen by the unweighted vote has at least as many votes among the k neighbours as any other class, for every map iteration order.", "quantifier": "every neighbour list and map iteration order", "why_tests_cant": "tie handling depends on map order", "anchors": ["knn/knn.go: vote, weightedVote"]}
{"id": "C49", "title": "Neighbour selection picks the k smallest distances", "statement": "The neighbours used for a prediction are k distinct training rows, in non-decreasing order of distance, none of the unused rows being strictly closer; asking for more neighbours than training rows does not return a prediction.", "quantifier": "every distance map and k", "why_tests_cant": "all distance maps, ties, k larger than n", "anchors": ["knn/knn.go: Predict; utilities/utilities.go: SortIntMap"]}
{"id": "C50", "title": "ID3 leaves and distributions are consistent", "statement": "In a tree built by InferID3Tree every node's class is a most frequent class of the rows it was built from, and the row sets of a node's children partition the node's rows, so child distributions sum to the parent's.", "quantifier": "every training set and every rule generator", "why_tests_cant": "structural induction over all trees", "anchors": ["trees/id3.go: InferID3Tree"]}
{"id": "C51", "title": "Tree prediction is total and yields a training class", "statement": "Prediction with a fitted ID3 tree terminates for every row, and returns a class that occurs in the training data, including for attribute values never seen in training.", "quantifier": "every tree and row, every map iteration order", "why_tests_cant": "all rows incl. unseen values", "anchors": ["trees/id3.go: DecisionTreeNode.Predict"]}
{"id": "C52", "title": "Pruning never lowers accuracy on the pruning set", "statement": "Reduced-error pruning of a subtree replaces it by a leaf only when the accuracy on the pruning data does not drop.", "quantifier": "every tree and pruning set", "why_tests_cant": "all trees", "anchors": ["trees/id3.go: Prune"]}
{"id": "C53", "title": "The Gini rule chooses an attribute with the lowest weighted Gini impurity", "statement": "GiniCoefficientRuleGenerator.GetSplitRuleFromSelection returns an attribute whose average Gini impurity over the class distributions after the split is minimal among the candidates.", "quantifier": "every data set and candidate attribute list", "why_tests_cant": "needs comparison against all alternatives over all data", "anchors": ["trees/gini.go: GetSplitRuleFromSelection, computeAverageGiniIndex, computeGini"]}
{"id": "C54", "title": "CART splits partition the samples", "statement": "A CART split sends a sample left exactly when its feature value is below the threshold and right otherwise; both parts together hold each sample and its label exactly once.", "quantifier": "every data set, feature, threshold", "why_tests_cant": "partition claim over all data", "anchors": ["trees/cart_classifier.go: createSplit; trees/cart_regressor.go: createSplit"]}
{"id": "C55", "title": "CART predicts a label seen in training", "statement": "A fitted CART classifier predicts, for every sample, a label that occurs among the training labels.", "quantifier": "every training set, hyperparameters and sample", "why_tests_cant": "the failing cases need trees in which a node gets no split", "anchors": ["trees/cart_classifier.go: Fit, bestSplit, predictSingle"]}
{"id": "C56", "title": "Isolation trees have bounded depth and exact leaf sizes", "statement": "An isolation tree never exceeds the maximum depth, its leaf sizes sum to the number of samples it was built from, and the path length assigned to a sample is at least 1 and bounded in terms of the maximum depth.", "quantifier": "every data set and every random choice", "why_tests_cant": "quantifies over all random choices", "anchors": ["trees/isolation.go: buildTree, splitData, pathLength"]}
{"id": "C57", "title": "DBSCAN clusters are disjoint and large enough", "statement": "When DBSCAN returns, no point is in two clusters, every cluster holds at least MinCount points and every listed point is a row of the input.", "quantifier": "every data set, metric, eps and MinCount", "why_tests_cant": "order-dependent expansion over all data", "anchors": ["clustering/dbscan.go: DBSCAN, regionQuery"]}
{"id": "C58", "title": "DBSCAN never fails on valid input", "statement": "DBSCAN returns a clustering (no panic) for every data set with valid parameters.", "quantifier": "every data set, eps and MinCount", "why_tests_cant": "needs a border point visited as noise before its core point", "anchors": ["clustering/dbscan.go: DBSCAN"]}
{"id": "C59", "title": "ClusterMap inversion is exact", "statement": "Invert of a ClusterMap returns, for each point, the cluster that lists it, and reports an error exactly when a point is listed twice.", "quantifier": "every cluster map and iteration order", "why_tests_cant": "all maps and orders", "anchors": ["clustering/clustering.go: Invert"]}
{"id": "C60", "title": "ClusterMap equality is equality up to renaming", "statement": "Equals(ref) returns true exactly when there is a one-to-one renaming of cluster identifiers turning one clustering into the other.", "quantifier": "every pair of cluster maps and every iteration order", "why_tests_cant": "all pairs", "anchors": ["clustering/clustering.go: Equals"]}
{"id": "C61", "title": "Bagged prediction does not depend on the schedule", "statement": "The vote totals computed by BaggedModel.Predict are the same for every interleaving of its worker goroutines, the final prediction of each row is a label with the maximal number of votes, and no vote is lost or counted twice.", "quantifier": "every number of models, workers, and every schedule", "why_tests_cant": "quantifies over all goroutine interleavings", "anchors": ["meta/bagging.go: Predict"]}
{"id": "C62", "title": "Random feature selection gives distinct real features", "statement": "Each bagged model is trained on exactly RandomFeatures distinct non-class attributes of the source (all of them when RandomFeatures is 0) plus the class attributes, and is later shown the same attributes when it predicts; selection ends when no more attributes are asked for than there are.", "quantifier": "every attribute list, every random source for which selection terminates", "why_tests_cant": "all random outcomes", "anchors": ["meta/bagging.go: generateTrainingAttrs, generateTrainingInstances"]}
{"id": "C63", "title": "One-vs-all predicts the best scoring class", "statement": "OneVsAllModel.Predict assigns each row the class of a model with the greatest score when some score is positive, the first such in class order.", "quantifier": "every number of classes and every score matrix", "why_tests_cant": "all score vectors incl. ties and negative scores", "anchors": ["meta/one_v_all.go: Predict"]}
{"id": "C64", "title": "Bernoulli naive Bayes estimates are probabilities and prediction is total", "statement": "After a Fit that returns, whatever the classifier held before, every conditional estimate is the float64 nearest to (k+1)/(n+1) and lies in (0,1], the class counts are the numbers of rows of each class and add up to the number of rows, and on a non-empty training set with features PredictOne returns, for every vector of the right length, a class of the training set that no other class outscores. Fit returns exactly when every class has a row with some feature present.", "quantifier": "every training set and vector", "why_tests_cant": "all training sets; sparse classes are the failing case", "anchors": ["naive/bernoulli_nb.go: Fit, PredictOne"]}
{"id": "C65", "title": "The averaged perceptron learns from its labels", "statement": "Relabelling the training data can change the fitted AveragePerceptron, and Predict writes a prediction into each row.", "quantifier": "every training set", "why_tests_cant": "a test with one labelling cannot see that labels are ignored", "anchors": ["perceptron/average.go: Fit, Predict, NewAveragePerceptron"]}
{"id": "C66", "title": "Network accessors address exactly one connection", "statement": "SetWeight(src,target,v) followed by GetWeight(src,target) gives v and leaves every other weight unchanged; SetBias ignores input nodes; UpdateWeights never creates a connection that is absent.", "quantifier": "every network size and pair of connections", "why_tests_cant": "all pairs of connections", "anchors": ["neural/network.go: SetWeight, GetWeight, SetBias, GetBias, UpdateWeights, UpdateBias"]}
{"id": "C67", "title": "MultiLayerNet reads its predictions from the output nodes", "statement": "Predict reads each class value from the node that Fit trained for that class.", "quantifier": "every number of inputs, classes and hidden layers", "why_tests_cant": "depends on layer sizes", "anchors": ["neural/layered.go: Fit, Predict"]}
{"id": "C68", "title": "Distance functions are metrics", "statement": "Euclidean, Manhattan and Chebyshev distances are non-negative, symmetric, zero exactly on equal vectors and satisfy the triangle inequality; Canberra is non-negative, symmetric and zero exactly on equal vectors; shapes that differ panic.", "quantifier": "every vector of every dimension, over the reals", "why_tests_cant": "all vectors of all dimensions", "anchors": ["metrics/pairwise/euclidean.go, manhattan.go, chebyshev.go, cranberra.go"]}
{"id": "C69", "title": "Kernel distances are zero on identical vectors", "statement": "Every pairwise measure with a Distance method gives 0 for the distance of a vector to itself.", "quantifier": "every non-zero vector", "why_tests_cant": "all vectors", "anchors": ["metrics/pairwise/poly_kernel.go, cosine.go, rbf_kernel.go"]}
{"id": "C70", "title": "Linear regression solves the least-squares problem", "statement": "Given that the QR factorisation routine returns an orthonormal Q and an upper triangular, invertible R with X = QR, the coefficients computed by LinearRegression.Fit satisfy the normal equations of the regression, hence minimise the squared error.", "quantifier": "every design matrix of full rank and observation vector, over the reals", "why_tests_cant": "optimality quantifies over all alternative coefficient vectors", "anchors": ["linear_models/linear_regression.go: Fit, Predict"]}
{"id": "C71", "title": "Random forest validates its feature count", "statement": "RandomForest.Fit returns an error and trains nothing exactly when more features are requested than there are non-class attributes; otherwise it holds ForestSize models.", "quantifier": "every data grid and parameters", "why_tests_cant": "all parameter combinations", "anchors": ["ensemble/randomforest.go: Fit"]}
{"id": "C72", "title": "SVC parameter selection yields a supported solver", "statement": "SetKindFromStrings either rejects the combination or leaves SolverType and Dual consistent with the requested loss and penalty; it never leaves an unsupported combination selected.", "quantifier": "every pair of strings and every initial Dual flag", "why_tests_cant": "all strings", "anchors": ["linear_models/linearsvc.go: SetKindFromStrings"]}
{"id": "C73", "title": "ChiMerge counts each row's class under its own value", "statement": "The frequency table ChiMergeFilter.Train starts from has, for every value of the attribute and every class, the number of training rows with that value and that class.", "quantifier": "every training data set without NaN values, in any row order", "why_tests_cant": "all data sets and row orders; the existing test data is sorted or only checked for boundaries", "anchors": ["filters/chimerge.go: Train; filters/chimerge_freq.go, chimerge_funcs.go: chiMergeBuildFrequencyTable; base/view.go: MapOverRows"]}
{"id": "C74", "title": "RemoveClassAttribute undoes AddClassAttribute on filtered data", "statement": "On LazilyFilteredInstances, adding a class attribute and then removing it leaves no attribute designated as class that was not one before.", "quantifier": "every source, filter and attribute", "why_tests_cant": "all filters, including those that expand one attribute into several", "anchors": ["base/filtered.go: AddClassAttribute, RemoveClassAttribute"]}
{"id": "C75", "title": "Estimated CSV precision", "statement": "The precision estimated from a CSV file is the largest number of digits after the decimal point among the numbers in the file.", "quantifier": "every file", "why_tests_cant": "depends on how numbers are separated on every line; all files", "anchors": ["base/csv.go: ParseCSVEstimateFilePrecision"]}
{"id": "C76", "title": "Macro-averaged precision and recall are fractions", "statement": "GetMacroRecall is the mean, over the labels of the reference, of the fraction of that label's rows generated correctly, and GetMacroPrecision the mean of the fraction of rows generated with that label that are correct; both are numbers in [0,1].", "quantifier": "every pair of non-empty label sequences, every map iteration order", "why_tests_cant": "a label that is never generated makes the mean NaN; quantifies over all label sequences", "anchors": ["evaluation/confusion.go: GetMacroPrecision, GetMacroRecall, GetPrecision, GetRecall"]}
{"id": "C77", "title": "The F1 score lies between precision and recall", "statement": "GetF1Score of a class whose precision and recall are numbers is a number, equal to 2 TP / (rows with that reference label + rows with that generated label), and lies between the precision and the recall.", "quantifier": "every pair of label sequences, every class", "why_tests_cant": "identity and inequality over all matrices", "anchors": ["evaluation/confusion.go: GetF1Score, GetPrecision, GetRecall"]}
{"id": "C78", "title": "Cross-validated metrics are the mean and variance over folds", "statement": "GetCrossValidatedMetric returns the mean of the metric over the matrices given, which lies between any bounds of the values, and their population variance, which is non-negative and zero exactly when all values equal the mean.", "quantifier": "every non-empty list of matrices, every metric", "why_tests_cant": "algebraic identity over all lists of values", "anchors": ["evaluation/cross_fold.go: GetCrossValidatedMetric"]}
{"id": "C79", "title": "KNN regression is the mean of the k nearest values", "statement": "KNNRegressor.Predict(vector, K), for 1 <= K <= rows, is the mean of the values of K distinct rows no unused row being strictly closer to the vector; a K above the number of rows gives no prediction.", "quantifier": "every data matrix, value vector, distance function, K and map iteration order", "why_tests_cant": "all data, ties between distances and map iteration orders", "anchors": ["knn/knn.go: KNNRegressor.Predict; utilities/utilities.go: SortIntMap"]}
{"id": "C80", "title": "The optimised KNN path predicts as the plain one", "statement": "Predictions made on the optimised Euclidean path are elected by k nearest training rows in the same way as without AllowOptimisations, weighted when Weighted is set.", "quantifier": "every training set, rows to predict, attribute group layout, k and weighting", "why_tests_cant": "agreement of two implementations on all inputs; ties and weighting settings are not enumerable", "anchors": ["knn/knn_opt_euclidean.go: optimisedEuclideanPredict; knn/euclidean.c: euclidean_distance"]}
{"id": "C81", "title": "CheckStrictlyCompatible compares complete layouts", "statement": "CheckStrictlyCompatible returns true exactly when the two DenseInstances have attribute groups of the same names with equal attributes in the same order, whatever the map iteration order, and does not panic.", "quantifier": "every pair of DenseInstances and map iteration order", "why_tests_cant": "all group layouts, in particular groups of different lengths", "anchors": ["base/util_instances.go: CheckStrictlyCompatible"]}
{"id": "C82", "title": "Saving only the structure of instances leaves a usable archive", "statement": "WriteInstancesForKey(key, instances, false) writes the structure of the instances: the archive can be written further and closed, and GetInstancesForKey(key) returns instances with the same attributes and class attributes.", "quantifier": "every data set, key and sequence of other writes", "why_tests_cant": "all layouts and row counts; whether the archive stays well formed depends on the number of rows declared", "anchors": ["base/serialize.go: WriteInstancesForKey; base/serialize_instances.go: SerializeInstancesToTarWriter"]}
{"id": "C83", "title": "Class probabilities of a tree are shares of training rows", "statement": "PredictProba on one row returns the classes of a non-empty group of training rows, each once, with that class's share of the group, in descending order; the shares sum to 1.", "quantifier": "every training set, rule generator, row (including unseen values) and map iteration order", "why_tests_cant": "all trees and rows", "anchors": ["trees/id3.go: PredictProba"]}
{"id": "C84", "title": "The search for a numeric threshold ends", "statement": "Choosing the threshold of a numeric attribute terminates.", "quantifier": "every column of numbers, every way of computing the entropies", "why_tests_cant": "non-termination on rare values (NaN) cannot be observed by a finite set of tests", "anchors": ["trees/entropy.go: getNumericAttributeEntropy"]}
{"id": "C85", "title": "A random tree draws as many different attributes as asked for", "statement": "RandomTreeRuleGenerator.GenerateSplitRule draws exactly Attributes different non-class attributes and then chooses among them.", "quantifier": "every data set, every number of attributes, every sequence of random draws", "why_tests_cant": "all random sequences; termination", "anchors": ["trees/random.go: GenerateSplitRule"]}
{"id": "C86", "title": "Information gain and gain ratio choose a best attribute", "statement": "The rule given by the InformationGain and InformationGainRatio generators splits on a candidate whose gain (ratio) is a number not exceeded by that of any other candidate.", "quantifier": "every data set and list of candidates", "why_tests_cant": "needs comparison against all alternatives over all data", "anchors": ["trees/entropy.go: GetSplitRuleFromSelection", "trees/gr.go: GetSplitRuleFromSelection"]}
{"id": "C87", "title": "The threshold of a numeric attribute is a best one", "statement": "The threshold chosen for a numeric attribute is the middle of two neighbouring values, and no middle of two neighbouring values gives a lower entropy.", "quantifier": "every column of numbers and class labels", "why_tests_cant": "all columns, including repeated values", "anchors": ["trees/entropy.go: getNumericAttributeEntropy"]}
{"id": "C88", "title": "CART reads every row's numbers", "statement": "The samples a CART model is fitted on are, row by row, the values of the numeric non-class columns and of the single numeric class column; tables whose class is not one numeric attribute are refused with an error.", "quantifier": "every table, every iteration order", "why_tests_cant": "all tables and orders of iteration", "anchors": ["trees/cart_utils.go: convertInstancesToProblemVec", "trees/cart_classifier.go: classifierConvertInstancesToLabelVec", "trees/cart_regressor.go: regressorConvertInstancesToLabelVec"]}
{"id": "C89", "title": "CART splits are the best at every node", "statement": "Every node of a fitted CART classifier splits the samples that reach it by a feature and threshold that lower their impurity, and no other feature and threshold gives a lower weighted impurity for those samples.", "quantifier": "every training table, criterion and depth limit", "why_tests_cant": "comparison with all real thresholds, at every node of every tree", "anchors": ["trees/cart_classifier.go: bestSplit"]}
{"id": "C90", "title": "CART trees respect the maximum depth", "statement": "With a maximum depth of at least 1 no path of a CART tree makes more comparisons than that.", "quantifier": "every training table and limit", "why_tests_cant": "all data sets and limits", "anchors": ["trees/cart_classifier.go: bestSplit", "trees/cart_regressor.go: bestSplit"]}
{"id": "C91", "title": "Fitting a CART model ends", "statement": "Fitting a CART model on a non-empty table of finite numbers with a known criterion returns a tree; it neither recurses forever nor panics.", "quantifier": "every table of finite numbers", "why_tests_cant": "termination and absence of panics over all data", "anchors": ["trees/cart_classifier.go: Fit, bestSplit, updateSplit", "trees/cart_regressor.go: Fit, bestSplit, updateSplit"]}
{"id": "C92", "title": "The CART regressor predicts means of training targets", "statement": "A fitted CART regressor predicts for a sample the mean of the targets of the training samples that take the same path through the tree.", "quantifier": "every training table and sample", "why_tests_cant": "all data sets and samples; the failing cases need a root without a split", "anchors": ["trees/cart_regressor.go: bestSplit, predictSingle"]}
{"id": "C93", "title": "CART predictions and accuracy go row by row", "statement": "Predict returns one prediction for each row, in the order of the rows; Evaluate returns the number of rows whose label is predicted over the number of rows.", "quantifier": "every tree and table", "why_tests_cant": "all trees and tables", "anchors": ["trees/cart_classifier.go: Predict, Evaluate", "trees/cart_regressor.go: Predict"]}
{"id": "C94", "title": "The Gini impurity is accurate and exactly zero for pure samples", "statement": "The Gini impurity computed in floating point differs from the exact one by at most six units of rounding per label, and is zero exactly if all samples have the same label.", "quantifier": "all lists of labels", "why_tests_cant": "rounding errors over all inputs", "anchors": ["trees/cart_classifier.go: computeGiniImpurityAndModeLabel"]}
{"id": "C95", "title": "Anomaly scores lie between 0 and 1 and rank by path length", "statement": "Predict of a fitted isolation forest gives every row a score strictly between 0 and 1, and a row whose path is no longer in any tree scores at least as high.", "quantifier": "every table, forest, random choice and row, with at least two samples per tree", "why_tests_cant": "quantifies over forests and over floating-point rounding of sums, logarithms and powers", "anchors": ["trees/isolation.go: Predict, anomalyScore, cFactor, evaluateInstance"]}
{"id": "C96", "title": "Fitting an isolation forest ends", "statement": "Given a random source that draws every feature sooner or later, Fit ends and builds the wanted number of trees.", "quantifier": "every table, sample size, depth and fair random source", "why_tests_cant": "non-termination cannot be shown or excluded by tests", "anchors": ["trees/isolation.go: Fit, buildTree, selectFeature, checkData"]}
{"id": "C97", "title": "Isolation trees split their samples", "statement": "Every split of an isolation tree leaves samples on both sides, so every leaf holds a sample and there are no more leaves than samples.", "quantifier": "every data set and every number drawn", "why_tests_cant": "depends on floating-point rounding of drawn thresholds; failures need rare draws", "anchors": ["trees/isolation.go: selectValue, minMax, splitData, buildTree"]}
{"id": "C98", "title": "Isolation forests read each row with its class, in order", "statement": "Fit and Predict use the numeric features of a row followed by its numeric class; the r-th score is the score of the r-th row; a table without exactly one numeric class panics.", "quantifier": "every table", "why_tests_cant": "all tables and layouts", "anchors": ["trees/isolation.go: preprocessData, Predict, getRandomData"]}
{"id": "C99", "title": "DBSCAN clusters are density-connected", "statement": "Every cluster DBSCAN returns starts with a core point (one with at least MinCount points within eps) and every other point of the cluster can be reached from it by steps of at most eps from core points.", "quantifier": "every data set, metric, eps and MinCount", "why_tests_cant": "reachability through arbitrarily long chains", "anchors": ["clustering/dbscan.go: DBSCAN, regionQuery, computePairwiseDistances"]}
{"id": "C100", "title": "DBSCAN finds whole clusters", "statement": "Core points within eps of each other are in the same cluster, every core point is in a cluster, and a cluster contains every point that can be reached from its core points.", "quantifier": "every data set, metric, eps and MinCount", "why_tests_cant": "completeness over all data; failures need a border point seen before its core point", "anchors": ["clustering/dbscan.go: DBSCAN"]}
{"id": "C101", "title": "Mixture predictions choose the most likely component", "statement": "Predict of a fitted mixture puts each row into exactly one cluster, that of the first component under which the row is most likely, and lists the rows of a cluster in ascending order.", "quantifier": "every table, number of components and fitted distributions", "why_tests_cant": "all rows and ties", "anchors": ["clustering/em.go: Predict, estimateLogProb"]}
{"id": "C102", "title": "BitCount counts bits", "statement": "BitCount returns the number of 1 bits of every non-negative big integer.", "quantifier": "every non-negative integer", "why_tests_cant": "unbounded integers; a wrong table entry shows for few numbers", "anchors": ["clustering/dbscan.go: BitCount, bitCounts"]}
{"id": "C103", "title": "Rows convert to vectors faithfully", "statement": "ConvertRowToMat64 and ConvertAllRowsToMat64 return the numbers in the given columns, in the order of the columns and rows, and report an error when a column is not numeric.", "quantifier": "every table and list of attributes", "why_tests_cant": "all layouts", "anchors": ["base/conversion.go: ConvertRowToMat64, ConvertAllRowsToMat64"]}
{"id": "C104", "title": "Bagged prediction always returns", "statement": "BaggedModel.Predict neither deadlocks nor panics: in every schedule of its goroutines some goroutine can go on until the result is returned, and the number of steps is bounded. (If a model's own Predict fails, the process panics.)", "quantifier": "every number of models and workers, every schedule", "why_tests_cant": "quantifies over all interleavings of goroutines over two channels", "anchors": ["meta/bagging.go: Predict"]}
{"id": "C105", "title": "Ties between votes", "statement": "In the event of a tie, Predict outputs the first class which achieved the tie value, as its documentation says.", "quantifier": "every vote table and every iteration order of Go maps", "why_tests_cant": "the outcome depends on the random iteration order of a map", "anchors": ["meta/bagging.go: Predict"]}
{"id": "C106", "title": "Bagged training rows are the sampled rows", "statement": "The training set handed to each bagged model shows the rows drawn with replacement, both by Get and by MapOverRows.", "quantifier": "every grid and every draw", "why_tests_cant": "all random outcomes; the two ways of reading agree on unsampled data", "anchors": ["meta/bagging.go: generateTrainingInstances; base/view.go: MapOverRows"]}
{"id": "C107", "title": "One-vs-all training data", "statement": "OneVsAllModel.Fit trains one classifier per class value, on the training set with the class replaced by 1 in that class's rows and 0 elsewhere and everything else unchanged; it panics when there is not exactly one categorical class with at least two values.", "quantifier": "every grid and class list", "why_tests_cant": "all grids, number of classes, attribute orders", "anchors": ["meta/one_v_all.go: Fit, generateAttributes, oneVsAllFilter"]}
{"id": "C108", "title": "Bagged training does not depend on the schedule", "statement": "The models and attribute selections left by BaggedModel.Fit are the same for every order in which its goroutines run, given what each draws.", "quantifier": "every order of the goroutines", "why_tests_cant": "quantifies over all orders", "anchors": ["meta/bagging.go: Fit"]}
{"id": "C109", "title": "Bernoulli naive Bayes accepts every training set", "statement": "Fit returns for every training set with binary features and one class attribute, and the fitted classifier answers with a class of that training set.", "quantifier": "every training set with binary features", "why_tests_cant": "it is a totality claim over all training sets; the shipped tests have a feature present in each class", "anchors": ["naive/bernoulli_nb.go: Fit, PredictOne"]}
{"id": "C110", "title": "Automatic class weights follow the class frequencies", "statement": "With WeightClassesAutomatically set and no explicit weights, a linear support vector classifier weights each class by the inverse of the number of training rows of that class.", "quantifier": "every training set with one float class attribute and every parameter setting", "why_tests_cant": "the weights are passed straight to the C library and are never observed; the claim ranges over all class distributions", "anchors": ["linear_models/util.go: generateClassWeightVectorFromDist", "base/util_instances.go: GetClassDistributionByBinaryFloatValue", "linear_models/linearsvc.go: Fit"]}
{"id": "C111", "title": "Multi-class SVC weights", "statement": "Given a weight per class, the classifier that NewMultiLinearSVC builds for a class weights rows of that class with the class's own weight (zero if none was given) and all other rows with the sum of the weights of the other classes, leaves every other parameter as given, and does so identically on every run.", "quantifier": "every map of weights, every class and every iteration order of the map", "why_tests_cant": "the iteration order of a Go map is random and the weight vectors are not observable from outside", "anchors": ["ensemble/multisvc.go: initializeOneVsAllModel", "linear_models/linearsvc.go: Copy"]}
{"id": "C112", "title": "Linear regression never leaves unusable coefficients silently", "statement": "LinearRegression.Fit either returns an error or leaves finite coefficients, also when explanatory variables depend linearly on each other.", "quantifier": "every training set of finite numbers", "why_tests_cant": "dependence is a property of the whole training set and the tests use one well-conditioned data set", "anchors": ["linear_models/linear_regression.go: Fit"]}
{"id": "C113", "title": "The arguments of NewAveragePerceptron mean what they are called", "statement": "The startingThreshold passed to NewAveragePerceptron is the threshold of the fitted perceptron, and learningRate scales what is learned from a row without moving that threshold.", "quantifier": "every training set and all arguments", "why_tests_cant": "the struct is filled by position and every argument is a float64, so neither the compiler nor a test with one choice of arguments sees an exchange", "anchors": ["perceptron/average.go: NewAveragePerceptron, score, updateWeights"]}
{"id": "C114", "title": "Every training row of the averaged perceptron counts", "statement": "With the number of rows and the last row held fixed, the fitted AveragePerceptron still depends on the other rows: training sets lead to more than two different perceptrons.", "quantifier": "all training sets of one size", "why_tests_cant": "it compares the results of fitting on all training sets", "anchors": ["perceptron/average.go: updateWeights, average, Fit"]}
{"id": "C115", "title": "Training moves every connection of a network", "statement": "Network.UpdateWeights changes the weight of each connection from a node to another by learnRate times the output of the source times the error of the target.", "quantifier": "every network, all outputs and errors, every history of earlier updates", "why_tests_cant": "weights are random in practice, and the tests use a single update of fixed, strong connections", "anchors": ["neural/network.go: UpdateWeights, SetWeight"]}
{"id": "C116", "title": "Activate computes the feed-forward state of a layered network", "statement": "If the connections of a network can be ranked into layers, Activate with at least as many iterations as there are layers gives each input node its input and each other node its function of the bias plus the weighted sum of the nodes it listens to; further iterations change nothing, and whatever stood in the other nodes before is irrelevant.", "quantifier": "every network size, ranking, weights, biases, functions and inputs that are no NaN", "why_tests_cant": "it ranges over all layered topologies", "anchors": ["neural/network.go: Activate"]}
{"id": "C117", "title": "Back-propagation computes the gradient", "statement": "In exact arithmetic, for a layered network whose functions have a correct Backward, Error gives for each node the value such that the derivative of half the squared output error by a weight is minus the source's output times the target's value, and by a bias minus the node's value; UpdateWeights and UpdateBias then make a step of gradient descent.", "quantifier": "every layered network, every input, every choice of output nodes and wanted outputs", "why_tests_cant": "a derivative is a limit over infinitely many networks; the tests compare a few rounded numbers", "anchors": ["neural/network.go: Activate, Error, UpdateWeights, UpdateBias", "neural/funcs.go: Sigmoid, Linear"]}
{"id": "C118", "title": "Backward is the derivative of Forward", "statement": "For each neural function of the package, Backward applied to the value of Forward gives the derivative of Forward.", "quantifier": "all arguments", "why_tests_cant": "a statement about a limit at every real number; there is no test of the functions", "anchors": ["neural/funcs.go: Sigmoid, Linear, SoftplusRectifier"]}
{"id": "C119", "title": "A layered network only connects a layer with the next", "statement": "After MultiLayerNet.Fit the nodes form the layers asked for: the inputs, the hidden layers, the outputs. Every connection that is not zero goes from a node to a node of the next layer (or is the 1 that lets an input node keep its value), and before training every such pair is connected by a random weight.", "quantifier": "all layer sizes, data, random numbers, numbers of iterations and learning rates", "why_tests_cant": "it ranges over all topologies and all random draws; the tests only look at the resulting accuracy", "anchors": ["neural/layered.go: Fit"]}
{"id": "C120", "title": "Every node that is no input starts with a random bias", "statement": "Before training, MultiLayerNet.Fit gives each hidden and output node a small random bias.", "quantifier": "all layer sizes, data and random numbers", "why_tests_cant": "biases are random and never inspected by a test", "anchors": ["neural/layered.go: Fit"]}
{"id": "C121", "title": "A layered network predicts from any kind of attribute", "statement": "Predict accepts the categorical and binary attributes that Fit accepted.", "quantifier": "all data with an attribute that is no number", "why_tests_cant": "tests use numeric inputs only", "anchors": ["neural/layered.go: Fit, Predict, convertToFloatInsts"]}
{"id": "C122", "title": "A layered network can be fitted again", "statement": "After another Fit, Predict works with the new network.", "quantifier": "all data and all networks fitted before", "why_tests_cant": "no test fits a network twice", "anchors": ["neural/layered.go: Fit, Predict"]}
{"id": "C123", "title": "A well-formed ARFF file is read as its table", "statement": "ParseDenseARFFToInstances on a well-formed file (comments, empty lines, keywords in any case, real and nominal attributes, rows of valid fields) returns instances with one column per declaration, the value of every field in its cell, and the last attribute as the class.", "quantifier": "all well-formed files, line endings and numbers", "why_tests_cant": "the grammar has endlessly many texts; tests read two sample files", "anchors": ["base/arff.go: ParseDenseARFFToInstances, ParseARFFGetAttributes, ParseARFFGetRows, ParseDenseARFFBuildInstancesFromReader"]}
{"id": "C124", "title": "Instances written as ARFF and read back are the same table", "statement": "Writing instances with SerializeInstancesToWriterDenseARFFWithAttributes and parsing the text gives back the columns, their categories and the values as shown.", "quantifier": "all instances and attribute lists", "why_tests_cant": "names and values are arbitrary strings; tests round-trip one numeric data set", "anchors": ["base/arff.go: SerializeInstancesToWriterDenseARFFWithAttributes, ParseDenseARFFToInstances"]}
{"id": "C125", "title": "White space in a list of categories does not matter", "statement": "ParseARFFGetAttributes reads {a,b}, {a, b} and { a, b } as the same categories.", "quantifier": "all lists of categories and all placements of blanks", "why_tests_cant": "tests use one style of white space", "anchors": ["base/arff.go: ParseARFFGetAttributes"]}
{"id": "C126", "title": "Malformed ARFF data is rejected", "statement": "A row with a value that is not one of its attribute's, or with another number of fields than attributes, makes ParseDenseARFFToInstances return an error, and so does an attribute of another type than real or a list of categories.", "quantifier": "all files with such a row", "why_tests_cant": "tests have no malformed rows", "anchors": ["base/arff.go: ParseDenseARFFBuildInstancesFromReader"]}
{"id": "C127", "title": "Whatever the text, parsed ARFF instances are consistent", "statement": "Instances returned by ParseDenseARFFToInstances have the attributes of ParseARFFGetAttributes and as many rows as ParseARFFGetRows, and every categorical cell holds one of its attribute's values.", "quantifier": "all texts whatsoever", "why_tests_cant": "an unbounded space of texts; needs an argument over every line", "anchors": ["base/arff.go: ParseDenseARFFToInstances"]}
{"id": "C128", "title": "No row of an ARFF file is lost silently", "statement": "Every line of data becomes a row, or an error is returned.", "quantifier": "all files", "why_tests_cant": "needs lines longer than the scanner's buffer, and unusual white space", "anchors": ["base/arff.go: ParseARFFGetRows, ParseDenseARFFBuildInstancesFromReader"]}
{"id": "C129", "title": "A saved ARFF file holds what was saved", "statement": "After SerializeInstancesToDenseARFFWithAttributes the file holds exactly the text of the instances, whatever it held before.", "quantifier": "all instances and all previous contents, including no file", "why_tests_cant": "tests write to a fresh temporary file", "anchors": ["base/arff.go: SerializeInstancesToDenseARFFWithAttributes", "base/serialize_instances.go: SerializeInstancesToCSV"]}
{"id": "C130", "title": "SerializeInstancesToDenseARFF keeps the columns in order and the class last", "statement": "The columns are written in the order of the instances with the class attributes last, so that reading the file back restores the class.", "quantifier": "all instances and map iteration orders", "why_tests_cant": "the iteration order of maps is random", "anchors": ["base/arff.go: SerializeInstancesToDenseARFF", "base/util_attributes.go: NonClassAttributes"]}
{"id": "C131", "title": "NewDenseCopy gives the same table", "statement": "NewDenseCopy(g) has the attributes of g in the same order, the same class attributes, the same number of rows, and the same value for every attribute in every row, for any FixedDataGrid g.", "quantifier": "all data sets (dense, views, matrices) and map iteration orders", "why_tests_cant": "the copy resolves attributes by Equals and groups them by type; tests copy one small file", "anchors": ["base/dense.go: NewDenseCopy, copyFixedDataGridStructure"]}
{"id": "C132", "title": "NewStructuralCopy has the attributes and no rows", "statement": "NewStructuralCopy(g) has the attributes and class attributes of g and no rows, so it can be extended and filled.", "quantifier": "all data sets", "why_tests_cant": "needs all shapes of data sets", "anchors": ["base/dense.go: NewStructuralCopy, copyFixedDataGridStructure"]}
{"id": "C133", "title": "InstancesFromMat64 reads as the matrix", "statement": "The instances have one float attribute per column, which can be found by GetAttribute and reads as that column; MapOverRows shows the rows in order; the class attributes are those that were added and not removed since.", "quantifier": "all matrices, numbers of rows and columns within it, and histories of class changes", "why_tests_cant": "attributes are looked up by names made from numbers; all sizes and histories are needed", "anchors": ["base/mat.go: InstancesFromMat64, GetAttribute, Get, MapOverRows, AddClassAttribute, RemoveClassAttribute, AllClassAttributes"]}
{"id": "C134", "title": "A dense copy of a matrix holds the numbers of the matrix", "statement": "NewDenseCopy(InstancesFromMat64(rows, cols, m)) holds exactly the float64 at (i, j) of m in row i of attribute j, bit for bit, and keeps the class attributes.", "quantifier": "all matrices including NaN and infinities", "why_tests_cant": "all matrices are needed", "anchors": ["base/mat.go", "base/dense.go: NewDenseCopy"]}
{"id": "C135", "title": "InstancesFromMat64 rejects a size the matrix does not have", "statement": "If rows or cols exceed the dimensions of the matrix this is reported when the instances are made, not by a panic when they are read.", "quantifier": "all sizes and matrices", "why_tests_cant": "tests pass the right sizes", "anchors": ["base/mat.go: InstancesFromMat64, Get"]}
{"id": "C136", "title": "SerializeInstancesToCSVStream writes the table", "statement": "The first record holds the names of all attributes, each once with the class attributes last, and there is one record per row, in order, holding the text of each cell under its name.", "quantifier": "all instances and map iteration orders", "why_tests_cant": "the column order comes from a map and differs from run to run; tests compare one file", "anchors": ["base/serialize_instances.go: SerializeInstancesToCSVStream", "base/util_attributes.go: NonClassAttributes, ResolveAttributes"]}
{"id": "C137", "title": "Instances written to CSV can be read back", "statement": "ParseCSVToInstances on what SerializeInstancesToCSV wrote gives the same attributes, kinds and classes, and in each cell the same category or the number that was written.", "quantifier": "all instances", "why_tests_cant": "kinds are guessed from the first row when reading; needs all contents", "anchors": ["base/serialize_instances.go: SerializeInstancesToCSVStream", "base/csv.go: ParseCSVToInstances"]}
{"id": "C138", "title": "PCA components are uncorrelated and carry the most variance", "statement": "FitTransform gives components that have mean zero and are pairwise uncorrelated, in order of decreasing variance, and no k orthonormal directions have more variance in total than the first k components.", "quantifier": "all data with at least one row and feature, all numbers of components; any decomposition U S V^T that meets its specification", "why_tests_cant": "an optimum over all sets of directions cannot be tested; the tests check only the shape", "anchors": ["pca/pca.go: FitTransform, Fit, Transform"]}
{"id": "C139", "title": "PCA with all components keeps distances", "statement": "When all components are kept (zero, or at least as many as there are), the distance between any two rows of the result of FitTransform is the distance between the rows of the data.", "quantifier": "all data, all pairs of rows", "why_tests_cant": "needs all data; also with fewer rows than features", "anchors": ["pca/pca.go: FitTransform"]}
{"id": "C140", "title": "Transform treats new data like the fitted data", "statement": "Transform, given the rows that the model was fitted to, gives the components that FitTransform gave them.", "quantifier": "all data", "why_tests_cant": "the tests never call Transform on other data than FitTransform does", "anchors": ["pca/pca.go: Transform"]}
{"id": "C141", "title": "Fitting a PCA does not change the data", "statement": "Fit and FitTransform leave the matrix of the caller as it was.", "quantifier": "all data", "why_tests_cant": "tests do not look at the matrix afterwards", "anchors": ["pca/pca.go: Fit, matrixSubVector"]}
{"id": "C142", "title": "PCA returns the number of components asked for", "statement": "The result has Num_components columns, and as many columns as there are features if Num_components is zero or larger; a negative number, a model that was not fitted and data with another number of features are refused.", "quantifier": "all data and numbers of components", "why_tests_cant": "needs all shapes, including fewer rows than features", "anchors": ["pca/pca.go: NewPCA, Fit, Transform"]}
{"id": "C143", "title": "Fitted mixture means stay within the data", "statement": "When ExpectationMaximization.Fit returns, there is one mean per component and, in each feature, it lies between any bounds of the observations.", "quantifier": "all tables, numbers of components, random starting points and numbers of iterations", "why_tests_cant": "an invariant of a loop without bound from random starting points", "anchors": ["clustering/em.go: Fit, initMeans, maximization"]}
{"id": "C144", "title": "A mixture of one component is the distribution of the data", "statement": "With one component Fit ends and gives the mean and the sample covariances of the observations (variances only, if there are fewer observations than features), whatever the random starting point.", "quantifier": "all tables with at least two rows whose covariances are positive definite, all random numbers", "why_tests_cant": "the starting point is random", "anchors": ["clustering/em.go: Fit, means, shrunkCovariance"]}
{"id": "C145", "title": "Fit stops at consistent parameters", "statement": "When Fit returns, every component has observations, each observation was given to the component under which it is most likely for parameters whose means are within eps of the result, and the mean and covariances of each component are those of its observations (a component with a single observation keeps its own).", "quantifier": "all tables, numbers of components, random starting points and numbers of iterations", "why_tests_cant": "needs all runs of a loop without bound", "anchors": ["clustering/em.go: Fit, expectation, maximization, distance"]}
{"id": "C146", "title": "Fit accepts any data with enough observations", "statement": "NewExpectationMaximization refuses fewer than one component, Fit refuses fewer observations than components and Predict a model that was not fitted; otherwise Fit and then Predict succeed.", "quantifier": "all tables and numbers of components", "why_tests_cant": "the failures depend on the shape of the data and on random numbers", "anchors": ["clustering/em.go: Fit, where, maximization, estimateLogProb"]}
{"id": "C147", "title": "A saved decision tree predicts the same once loaded", "statement": "Saving an ID3 or random tree whose texts are UTF-8 and whose split values are finite, and loading the file, gives a tree with the same class attribute that makes the same predictions and class probabilities on every data set; a tree with an infinite or NaN split value is refused by Save.", "quantifier": "all trees of any shape, all data, all map iteration orders", "why_tests_cant": "tests save one fitted tree and compare one accuracy; equality of all predictions is over all trees and data", "anchors": ["trees/id3.go: Save, SaveWithPrefix, Load, LoadWithPrefix, MarshalJSON, UnmarshalJSON", "trees/random.go: Save, Load"]}
{"id": "C148", "title": "A saved naive Bayes classifier is restored completely", "statement": "Saving a fitted Bernoulli naive Bayes classifier and loading the file gives the same class counts, conditional probabilities, numbers of features and training instances and training attributes, with the structure of the training data.", "quantifier": "all fitted classifiers with finite probabilities, all attribute orders", "why_tests_cant": "covers every number of classes and attributes, and any order in which maps are written", "anchors": ["naive/bernoulli_nb.go: Save, SaveWithPrefix, Load, LoadWithPrefix", "base/serialize.go"]}
{"id": "C149", "title": "Saved nearest neighbours are restored completely", "statement": "Saving a KNN classifier and loading the file gives the same distance, algorithm, number of neighbours, flags, and the same training data cell by cell.", "quantifier": "all training tables and parameters", "why_tests_cant": "all tables and parameters, not one", "anchors": ["knn/knn.go: GetMetadata, Save, SaveWithPrefix, Load, LoadWithPrefix"]}
{"id": "C150", "title": "A saved ensemble is restored completely", "statement": "Saving a bagged model or random forest and loading the file gives back all members in order, the attributes chosen for each and the number of random features.", "quantifier": "all ensembles of members that can themselves be stored, any nesting", "why_tests_cant": "names of members in the file must never collide, for any number of members and any nesting", "anchors": ["meta/bagging.go: SaveWithPrefix, LoadWithPrefix, Save, Load", "ensemble/randomforest.go: Save, SaveWithPrefix, Load, LoadWithPrefix"]}
{"id": "C151", "title": "Any classifier that can be saved can be saved within a bagged model", "statement": "If a classifier can be saved on its own, a bagged model having it as a member can be saved too.", "quantifier": "all member classifiers", "why_tests_cant": "tests save only bags of random trees", "anchors": ["knn/knn.go: SaveWithPrefix", "meta/bagging.go: SaveWithPrefix"]}
{"id": "C152", "title": "Loading a file of another kind is reported", "statement": "Loading a file that was saved by another kind of classifier, or of another version, returns an error.", "quantifier": "all pairs of kinds, all saved classifiers", "why_tests_cant": "tests load files only as the kind that was saved", "anchors": ["base/serialize.go: ReadSerializedClassifierStub", "knn/knn.go: LoadWithPrefix", "naive/bernoulli_nb.go: Load", "trees/id3.go: Load", "meta/bagging.go: Load", "ensemble/randomforest.go: Load"]}
{"id": "C153", "title": "Linear classifiers train on every row as it is", "statement": "LinearSVC.Fit and LogisticRegression.Fit hand each row of the table to the solver: all values that are not zero of the numeric non-class columns, in the order of the table, negative ones too, with the row's own class.", "quantifier": "for all tables with one float class and at least one row, all contents", "why_tests_cant": "the rows are packed into one shared array with raw pointers; whether the array is large enough and rows do not run into each other depends on the number of zeros in every row", "anchors": ["linear_models/liblinear.go:45-59", "linear_models/liblinear.go:116-155", "linear_models/util.go:37-82"]}
{"id": "C154", "title": "Linear classifiers tell the classes apart", "statement": "After Fit there is one model per class against the rest (one model for two classes), each trained on all rows with exactly the rows of its class on the positive side and with the penalty C times the weight of the class. This holds for whole-number classes; classes such as 0.25 and 0.75 are merged, and the prediction is then a number that is no class at all.", "quantifier": "for all tables, all solvers, all weights", "why_tests_cant": "classes are cast to int inside the native library; tests only use classes 0 and 1", "anchors": ["linear_models/linearsvc.go:150-184", "linear_models/logistic.go:30-36", "linear_models/linear.cpp:2106-2427"]}
{"id": "C155", "title": "Linear classifiers predict by the weighted sum of the features", "statement": "The prediction for a row is the class chosen by the sums of weights times feature values: with two classes by the sign of the sum, otherwise the first class with the highest sum. True for rows without negative values only: negative values are dropped when predicting although they are used in training, so that some linearly separable training sets cannot be classified correctly by any solver result.", "quantifier": "for all models, all rows; for the refutation all solvers", "why_tests_cant": "test data has no negative features; the error only shows up as accuracy", "anchors": ["linear_models/liblinear.go:84-115", "linear_models/linear.cpp:2488-2543"]}
{"id": "C156", "title": "Linear classifiers predict every row of a table", "statement": "Predict gives a table with the class column of the argument, one row for each row, and in each the class chosen for that row's numeric columns. The columns are taken in the order of the table to predict: the same rows with columns in another order get other predictions.", "quantifier": "for all models, tables, row and map orders", "why_tests_cant": "needs a statement about every row and every column order", "anchors": ["linear_models/linearsvc.go:187-215", "linear_models/logistic.go:38-65"]}
{"id": "C157", "title": "Linear classifiers only predict known classes", "statement": "With whole-number classes, every prediction for any table, with any values and any number of numeric columns, is a class of the training set, and Predict does not fail, whatever weights the solver found.", "quantifier": "for all training tables, all solvers, all tables to predict, NaN and infinite values included", "why_tests_cant": "the weights come from a native library and the values to predict are arbitrary; out-of-range feature numbers would read beyond an array", "anchors": ["linear_models/linearsvc.go:150-215", "linear_models/linear.cpp:2488-2543"]}
{"id": "C158", "title": "A saved one-vs-all model is the same when loaded", "statement": "Saving a fitted OneVsAllModel and loading it gives back the same class values, the same per-class column mappings and the same members, and the structure of the table it was fitted on, so that it predicts the same; provided its members can be saved.", "quantifier": "for all training tables with one categorical class of distinct values, all member classifiers, all map orders", "why_tests_cant": "the file has numbered directories nested under prefixes, map contents written in random order, and attributes matched by their text when read", "anchors": ["meta/one_v_all.go:37-88", "meta/one_v_all.go:132-322"]}
{"id": "C159", "title": "One-vs-all models can be members of bagged models that are saved", "statement": "False: saving a OneVsAllModel closes the file, so that saving any BaggedModel with such members fails, although each of them can be saved alone.", "quantifier": "for all bags with such members", "why_tests_cant": "needs the interplay of two meta classifiers; each of them is tested alone", "anchors": ["meta/one_v_all.go:250-322", "meta/bagging.go:232-289"]}
{"id": "C160", "title": "A saved linear support vector classifier predicts the same when loaded", "statement": "LinearSVC.Save and Load give back the parameters, the classes and the weights as written in the file; predictions agree for all tables if 16 digits are enough for the weights. In general they are not: for every way to write floats with 16 digits there is a classifier that predicts another class after it was loaded.", "quantifier": "for all fitted classifiers and tables; for the refutation all implementations of printf and scanf", "why_tests_cant": "the file is written by a native library with 16 digits where 17 are needed; the difference only shows close to the decision boundary", "anchors": ["linear_models/linearsvc.go:218-339", "linear_models/liblinear.go:68-82", "linear_models/linear.cpp:2587-2750"]}
{"id": "C161", "title": "A loaded linear support vector classifier can be fitted again", "statement": "Fit on a loaded LinearSVC gives the same as Fit on the saved one if it was loaded into one with the same solver, C and epsilon. Otherwise it trains with those of the classifier it was loaded into, although its parameters show the saved ones, and panics when it was loaded into an empty LinearSVC.", "quantifier": "for all classifiers, solvers and training tables", "why_tests_cant": "the parameters are kept twice, and only one copy is loaded", "anchors": ["linear_models/linearsvc.go:112-184", "linear_models/linearsvc.go:298-339"]}
{"id": "C162", "title": "A saved ensemble of linear support vector classifiers is the same when loaded", "statement": "MultiLinearSVC.Save and Load give back parameters, class weights, classes and members, and the same ensemble if 16 digits are enough for its weights. Class weights of the ensemble that is loaded into stay if the saved one has none for that class.", "quantifier": "for all training tables, solvers, class weights and map orders", "why_tests_cant": "decoding JSON into an existing map merges; depends on what the target holds", "anchors": ["ensemble/multisvc.go:43-176", "meta/one_v_all.go:132-322"]}
{"id": "C163", "title": "The ChiMerge statistic is Pearson's", "statement": "The statistic ChiMerge computes for two adjacent intervals is, in exact arithmetic, Pearson's chi-squared of the classes against the intervals, with expectations below one half taken as one half in the denominator. It does not depend on the order of the intervals or of map iteration, is never negative, and is 0 exactly for intervals with the same shares of classes.", "quantifier": "for all pairs of intervals, class counts and map orders", "why_tests_cant": "tests check a few tables of the iris data; map order varies", "anchors": ["filters/chimerge_funcs.go:87-157"]}
{"id": "C164", "title": "ChiMerge merges neighbours whose classes do not differ significantly, and no others", "statement": "Merging stops with the least number of intervals, or when the least statistic of neighbours is not significant. Whether it is significant is judged by the chi-squared distribution with one degree of freedom less than there are classes. This is false: with one or two classes nothing is ever merged, whatever the significance, and with four classes or more intervals with large statistics are always merged, whatever the significance. For three classes the percentile is right but for rounding.", "quantifier": "for all tables, significances and implementations of math.Pow, Exp and Gamma with the documented special cases", "why_tests_cant": "the tests use the iris data, which has three classes and few rows", "anchors": ["filters/chimerge_funcs.go:44-95", "filters/chimerge.go:48-114"]}
{"id": "C165", "title": "ChiMerge leaves at least the minimum number of intervals", "statement": "False: all pairs that share the least statistic are merged in one round, so that four intervals become one where at least two are asked for. True if ties do not occur.", "quantifier": "for all tables, statistics and significance tests", "why_tests_cant": "needs ties of the least statistic in the last round", "anchors": ["filters/chimerge.go:71-112"]}
{"id": "C166", "title": "Information gain is Shannon's", "statement": "The information gain rule generator scores an attribute by the entropy of the labels less their average entropy within each value, in bits. The average is never above the entropy, equals it exactly when the labels are spread within every value as overall, and is 0 exactly when the value decides the label. As computed in float64 with a logarithm accurate to 4 ulps, in any map order, the entropies are finite and within an explicit bound of the exact ones, and exactly +0 where the value decides the label; the attribute chosen is within an explicit bound of the best. For numeric attributes with values far enough apart the same holds of the threshold; a constant column is never chosen.", "quantifier": "for all grids, labels, map orders and logarithms", "why_tests_cant": "tests check iris splits only; map order and rounding vary", "anchors": ["trees/entropy.go:36-74", "trees/entropy.go:92-153", "trees/entropy.go:165-223"]}
{"id": "C167", "title": "The gain ratio prefers attributes with few values", "statement": "The gain ratio rule generator picks the attribute with the highest ratio of information gain to the entropy of the attribute's own values (Quinlan), so that an attribute different in every row is not favoured. False: the code divides by the entropy after the split. With exact arithmetic this ranks attributes as information gain does, and an attribute that identifies the rows gets the ratio +Inf and is always taken.", "quantifier": "for all logarithms, map orders and orders of candidates", "why_tests_cant": "tests only check that the accuracy is above a threshold", "anchors": ["trees/gr.go:32-72"]}
{"id": "C168", "title": "A decision tree reproduces consistent training data", "statement": "If training rows with the same attribute values always have the same label and no rule is numeric, the fitted ID3 tree predicts every training row's own label. False: a node with one attribute left is never split, so a table with one attribute that decides the label gets a tree of a single leaf, and with more attributes the last one is ignored. True if the label is decided by the attributes without any one of them, whichever it is.", "quantifier": "for all tables, rule generators and map orders", "why_tests_cant": "tests only measure accuracy on larger tables", "anchors": ["trees/id3.go:191-271", "trees/id3.go:366-409"]}
{"id": "C169", "title": "Equal-width binning survives rounding", "statement": "In float64, whatever the finite training column: training finds its least and greatest number; every number up to the greatest goes to one of the bins 0..bins; bins do not decrease; and the bin is the exact one up to about a ten-thousandth of a width. False in general: the greatest number of a range of a few denormals goes beyond the last bin, and when the range overflows numbers of the upper half go to the first bin. True for ranges from 2^-900 to 2^1023 and up to 10^9 bins.", "quantifier": "for all columns, bin counts and numbers, and any order of the attributes", "why_tests_cant": "rounding at bin borders depends on the numbers; tests bin a handful", "anchors": ["filters/binning.go:40-97", "filters/disc.go:45-63"]}
{"id": "C170", "title": "Every binned value can be read", "statement": "After BinningFilter, GetStringFromSysVal of the new categorical attribute gives, for every number of the filtered data, the label of its bin, the text of the bin's lower edge. False: labels are entered without repetition, so when two edges look the same at the attribute's precision the last bins have no label and reading panics, even on the training data; numbers a width or more above the training data panic as well. True when all labels differ and the number lies in the range of the training data.", "quantifier": "for all tables, precisions, formatting functions and numbers", "why_tests_cant": "tests use columns whose labels happen to differ", "anchors": ["filters/binning.go:76-123", "base/categorical.go:99-137"]}
{"id": "C171", "title": "A discretising filter changes exactly the attributes it was given", "statement": "AddAttribute accepts a numeric attribute of the training data and rejects any other; afterwards exactly the attributes given become categorical, under the same name, and all other columns keep attribute and values. False for an attribute that Equals a column without being the table's own: it is accepted, training succeeds, and the column is left alone silently.", "quantifier": "for all tables, lists of attributes and orders of the map", "why_tests_cant": "tests always pass the table's own attribute", "anchors": ["filters/disc.go:16-26", "filters/binning.go:76-123"]}
{"id": "C172", "title": "Fitting ID3 with a pruning share", "statement": "Fit of an ID3DecisionTree, whatever its PruneSplit and whatever rows are drawn to be held back for pruning, gives a tree whose predictions are the most frequent class of some of the rows fitted, learns no less than the data it keeps, and leaves the caller's data as it was. False in three ways. If no row happens to be held back, which is likely for small shares or tables, pruning removes every split and one class is predicted for everything. If every row is held back, always so for a share of 1, Fit panics. And Fit shuffles the caller's dense data in place. True: if Fit succeeds with some row kept, predictions are as said, and the rows of the data are merely permuted.", "quantifier": "for all tables, shares, shuffles, draws, rule generators and map orders", "why_tests_cant": "the held-back rows are drawn at random; tests see lucky draws on large tables", "anchors": ["trees/id3.go:537-547", "trees/id3.go:316-353", "base/util_instances.go:376-396"]}
{"id": "C173", "title": "ChiMerge gives each row the interval that counted it", "statement": "Training a ChiMerge filter splits the numbers into consecutive intervals; each counts the training rows of each class that fall in it, every row in exactly one, and filtering then gives each row the code of the interval that counted it. Partly false. A row whose number is the lower boundary of its interval gets the code of the interval before: trained on 1 of class u and 2 of class v, the filter keeps two intervals but gives both rows the same code. True, when the training rows are already in ascending order: the counts are those of the rows in the interval, each row is in exactly one, and every other row gets the code of its own interval.", "quantifier": "for all ascending training data, statistics, significance tests, and numbers of intervals", "why_tests_cant": "depends on which intervals merge over unbounded sequences of merges and on comparisons at boundaries", "anchors": ["filters/chimerge.go:48-114", "filters/chimerge.go:166-184", "filters/chimerge_funcs.go:8-42", "filters/chimerge_funcs.go:159-186"]}
{"id": "C174", "title": "ChiMerge values can be read back", "statement": "After filtering with a trained ChiMerge filter every number can be read as the label of its interval, the text of its boundary. False: labels are written with six decimals and repeated ones are dropped, so when two boundaries agree in those, the codes of the last intervals have no label and reading them panics, even for rows of the training data. True when all boundaries have different texts.", "quantifier": "for all tables of intervals, numbers and formatting functions", "why_tests_cant": "needs boundaries that differ beyond the sixth decimal", "anchors": ["filters/chimerge.go:147-184", "base/categorical.go:45-110"]}
{"id": "C175", "title": "Converted columns show the values they were made of", "statement": "Data converted to numbers (FloatConvertFilter) or to ones and zeros (BinaryConvertFilter) has a column for every attribute, or for every value of a categorical attribute with more than two; each can be looked up by name and shows the values of its own attribute, so a row has a one in the column of its own value and zeros for the others. False when names coincide: value b_c of attribute a and value c of attribute a_b both give a column a_b_c, and a row with the value c shows a zero there. True when every attribute is converted and all new names differ.", "quantifier": "for all tables, attributes, rows and values", "why_tests_cant": "depends on every combination of attribute names and values", "anchors": ["filters/binary.go:23-151", "filters/float.go:24-141", "base/filtered.go:24-168"]}
{"id": "C176", "title": "Training a conversion filter again", "statement": "Training a FloatConvertFilter or BinaryConvertFilter a second time changes nothing. False: every new column is listed again, so converted data reports each twice. True: values are converted as before, and do not depend on the order in which attributes were added.", "quantifier": "for all lists of attributes and all values", "why_tests_cant": "needs the state left behind by a previous training, for all lists of attributes", "anchors": ["filters/binary.go:107-151", "filters/float.go:97-141"]}
{"id": "C177", "title": "A random forest learns from the rows it samples", "statement": "Each tree of a random forest is fitted to rows drawn at random from the training data, so the rows of a node are the drawn rows with the values on the path to it, and a forest whose drawn rows determine the class predicts them correctly. False: a node for a value of an attribute holds the rows drawn at those positions at which the undrawn data has that value, so a forest that draws every row once, in another order, can give every row the class of another. True if the rows are drawn in order.", "quantifier": "for all training data, draws, attributes, values, schedules and map orders", "why_tests_cant": "depends on every outcome of the random draws and on how reading and iterating differ for a sample", "anchors": ["ensemble/randomforest.go:35-53", "meta/bagging.go:61-96", "base/view.go:194-227", "base/util_instances.go:325-368", "trees/id3.go:191-271"]}
{"id": "C178", "title": "Naive Bayes classifiers in a bag learn from the rows drawn for them", "statement": "A Bernoulli naive Bayes classifier in a bag estimates the probability of each feature in each class from the rows drawn for it, so rows whose features tell their classes and that are all drawn are predicted correctly. False: Fit pairs the class of the row drawn for a position with the features of the row that stands at that position in the training data, so a bag that draws every row once, in another order, can give every row the class of another. The estimates are those of these pairs.", "quantifier": "for all training data, draws, selections of attributes, classes and features", "why_tests_cant": "depends on every outcome of the random draws and on how reading and iterating differ for a sample", "anchors": ["naive/bernoulli_nb.go:189-266", "meta/bagging.go:61-96", "base/view.go:194-227", "base/util_instances.go:61-84"]}
