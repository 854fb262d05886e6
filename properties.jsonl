{"id": "C01", "title": "Range factories denote the advertised intervals", "statement": "Range.open/closed/closed_open/open_closed/at_most/at_least/less_than/greater_than/all build a range whose `in` operator is exactly the advertised pair of inequalities, and they raise ValueError exactly when the lower endpoint exceeds the upper one or the range would be open(a, a). The endpoints and bound types reported are those given; where there is no bound, the endpoint raises ValueError and the bound type AssertionError.", "quantifier": "every totally ordered endpoint type, every pair of endpoints and every probed value", "why_tests_cant": "quantifies over all ordered types and all values; tests sample a few ints", "anchors": ["vistautils/range.py: Range.open, Range.closed, Range.closed_open, Range.open_closed, Range.at_most, Range.at_least, Range.less_than, Range.greater_than, Range.all, Range.__contains__, _BelowValue, _AboveValue, _BelowAll, _AboveAll"]}
{"id": "C02", "title": "Empty ranges contain nothing; the converse fails on discrete types", "statement": "Range.is_empty() is true exactly for [a,a) and (a,a]; an empty range contains no value. If the endpoint type is dense and has no least and no greatest value, a non-empty range contains a value (for a discrete type, e.g. int, (3,4) is non-empty although nothing is in it).", "quantifier": "every range and every value of every totally ordered type", "why_tests_cant": "universal over ranges and values", "anchors": ["vistautils/range.py: Range.is_empty, Range.__contains__"]}
{"id": "C03", "title": "Range.encloses is a partial order that implies member inclusion", "statement": "encloses is reflexive, transitive and antisymmetric; if a encloses b then every member of b is a member of a; on dense unbounded orders, for a non-empty b the converse also holds.", "quantifier": "all pairs/triples of ranges, all values", "why_tests_cant": "universal law over ranges", "anchors": ["vistautils/range.py: Range.encloses"]}
{"id": "C04", "title": "Range.intersection is the meet", "statement": "a.intersection(b) raises ValueError exactly when a.is_connected(b) is false; otherwise its members are exactly the values in both, it is enclosed by both and it encloses every range enclosed by both.", "quantifier": "all pairs of ranges, all values, all third ranges", "why_tests_cant": "universal law", "anchors": ["vistautils/range.py: Range.intersection, Range.is_connected"]}
{"id": "C05", "title": "Range.is_connected characterises having a common enclosed range", "statement": "a.is_connected(b) is symmetric, reflexive and holds exactly when some (possibly empty) range is enclosed by both.", "quantifier": "all pairs of ranges", "why_tests_cant": "existential over an infinite set of witnesses", "anchors": ["vistautils/range.py: Range.is_connected"]}
{"id": "C06", "title": "Range.span is the join", "statement": "a.span(b) encloses both and is enclosed by every range that encloses both; it is commutative, associative and idempotent.", "quantifier": "all pairs/triples of ranges", "why_tests_cant": "universal law", "anchors": ["vistautils/range.py: Range.span"]}
{"id": "C07", "title": "Range.create_spanning covers a whole collection minimally", "statement": "create_spanning raises ValueError exactly on an empty collection; otherwise the result encloses every given range and is enclosed by any range doing so.", "quantifier": "all finite sequences of ranges of any length", "why_tests_cant": "unbounded length", "anchors": ["vistautils/range.py: Range.create_spanning"]}
{"id": "C08", "title": "Range.intersects is the existence of an intersection", "statement": "a.intersects(b) is true exactly when a.intersection(b) succeeds (equivalently a.is_connected(b)), even if that intersection is empty; so it does not imply that some value lies in both.", "quantifier": "all pairs of ranges", "why_tests_cant": "universal over pairs", "anchors": ["vistautils/range.py: Range.intersects"]}
{"id": "C09", "title": "Range equality and hashing are consistent", "statement": "Two ranges built in the same process are equal exactly when they have the same bound kinds and endpoints, equality is an equivalence, and equal ranges have equal hashes.", "quantifier": "all pairs of ranges, all hash functions on endpoints that respect equality", "why_tests_cant": "universal over pairs and hash functions", "anchors": ["vistautils/range.py: Range.__eq__, Range.__hash__, _Cut.__eq__, _BelowValue.__hash__, _AboveValue.__hash__"]}
{"id": "C10", "title": "Ranges are convex", "statement": "If x and z are in a range and x <= y <= z then y is in the range.", "quantifier": "every range of every totally ordered type, all triples of values", "why_tests_cant": "universal law", "anchors": ["vistautils/range.py: _Cut.compare_to, _Cut.__lt__, _Cut.__le__, _Cut.__gt__, _Cut.__ge__"]}
{"id": "C11", "title": "RangeSet representation invariant", "statement": "After any sequence of add/add_all/clear on a mutable range set (starting empty), as_ranges() lists non-empty, pairwise disconnected ranges in increasing order.", "quantifier": "every finite history of operations", "why_tests_cant": "histories are unbounded", "anchors": ["vistautils/range.py: MutableRangeSet.create_mutable, _MutableSortedDictRangeSet.add, MutableRangeSet.add_all, clear, as_ranges"]}
{"id": "C12", "title": "RangeSet membership is the union of what was added", "statement": "x in rs holds exactly when some range added since the last clear contains x.", "quantifier": "every history, every value", "why_tests_cant": "unbounded histories", "anchors": ["vistautils/range.py: _SortedDictRangeSet.__contains__, add, add_all, clear"]}
{"id": "C13", "title": "RangeSet is canonical: insertion order and duplication do not matter", "statement": "Two histories that add the same collection of ranges (in any order, with any repetition) yield equal range sets.", "quantifier": "all permutations/duplications of all finite collections", "why_tests_cant": "n! orders", "anchors": ["vistautils/range.py: add, __eq__"]}
{"id": "C14", "title": "RangeSet.add is the least coalescing update", "statement": "After add(r) of a non-empty r the set encloses r and everything it enclosed before, and every disconnected range family enclosing the old ranges and r also encloses the new ones; ranges not connected to r are kept unchanged; adding an empty range changes nothing. Adding, one by one, any ranges that are each empty or enclosed by a member changes nothing, whatever their order and number: in particular add_all of the set's own ranges.", "quantifier": "all valid range sets and ranges", "why_tests_cant": "universal", "anchors": ["vistautils/range.py: _MutableSortedDictRangeSet.add"]}
{"id": "C15", "title": "range_containing returns the unique range with the value", "statement": "range_containing(x) returns the unique member range containing x, or None exactly when no member contains x; `in` agrees with it.", "quantifier": "all valid sets and values", "why_tests_cant": "universal", "anchors": ["vistautils/range.py: range_containing, __contains__"]}
{"id": "C16", "title": "encloses/range_enclosing_range are exact", "statement": "range_enclosing_range(r) returns the member range enclosing r when there is one and None otherwise; encloses(r) is its truth value; encloses_all is the conjunction.", "quantifier": "all valid sets and query ranges", "why_tests_cant": "universal", "anchors": ["vistautils/range.py: range_enclosing_range, encloses, encloses_all"]}
{"id": "C17", "title": "ranges_enclosed_by is exact and ordered", "statement": "ranges_enclosed_by(r) is exactly the increasing list of member ranges enclosed by r.", "quantifier": "all valid sets and query ranges", "why_tests_cant": "universal", "anchors": ["vistautils/range.py: ranges_enclosed_by"]}
{"id": "C18", "title": "ranges_overlapping is exact", "statement": "ranges_overlapping(r) is exactly the list of the member ranges connected to r, in increasing order (so a member that merely touches r is included, although it shares no value with r).", "quantifier": "all valid sets and query ranges", "why_tests_cant": "universal", "anchors": ["vistautils/range.py: ranges_overlapping"]}
{"id": "C19", "title": "RangeSet.intersects is exact", "statement": "intersects(r) is true exactly when some member range has a non-empty intersection with r.", "quantifier": "all valid sets and query ranges", "why_tests_cant": "universal", "anchors": ["vistautils/range.py: RangeSet.intersects"]}
{"id": "C20", "title": "rightmost_containing_or_below / leftmost_containing_or_above are exact", "statement": "The first returns the greatest member that contains x or lies wholly below it, the second the least member that contains x or lies wholly above it; None exactly when there is none.", "quantifier": "all valid sets and values", "why_tests_cant": "universal", "anchors": ["vistautils/range.py: rightmost_containing_or_below, leftmost_containing_or_above"]}
{"id": "C21", "title": "RangeSet.span is the least range enclosing all members", "statement": "span() raises ValueError exactly on the empty set, else returns the smallest range enclosing every member.", "quantifier": "all valid sets", "why_tests_cant": "universal", "anchors": ["vistautils/range.py: _SortedDictRangeSet.span, is_empty"]}
{"id": "C22", "title": "Immutable copies and builders agree with the mutable set", "statement": "An immutable copy (or a builder's result) holds the ranges its source had at that moment and is not changed by any later call on any object; distinct sets never influence each other; a builder's result does not depend on the order or repetition of its additions; remove/remove_all always raise NotImplementedError (on a non-empty argument) and leave the set unchanged.", "quantifier": "every history before and after the copy", "why_tests_cant": "unbounded histories", "anchors": ["vistautils/range.py: immutable_copy, ImmutableRangeSet.Builder, remove, remove_all"]}
{"id": "C23", "title": "Hashing range sets", "statement": "Equal range sets should have equal hashes; in this code they do not (hash() is the identity hash of a temporary view), while any hash computed from the listed ranges would agree on equal sets.", "quantifier": "all pairs of equal range sets", "why_tests_cant": "universal", "anchors": ["vistautils/range.py: RangeSet.__hash__, RangeSet.__eq__"]}
{"id": "C24", "title": "Pickling a range or range set round-trips for bounded ranges only", "statement": "Unpickling a pickled range gives an equal range exactly when the range is bounded on both sides (membership always survives, but an unbounded range comes back claiming to be bounded). Unpickling a range set raises ValueError when it has several ranges one of which is unbounded below, and otherwise yields an equal set exactly when all its ranges are bounded.", "quantifier": "all ranges and valid range sets, bounded and unbounded", "why_tests_cant": "universal", "anchors": ["vistautils/range.py: Range, _BelowAll, _AboveAll, __getstate__, __setstate__, ImmutableRangeMap.__reduce__"]}
{"id": "C25", "title": "ImmutableRangeMap construction accepts exactly disconnected non-empty keys", "statement": "Building a range map succeeds exactly when the keys (after last-wins deduplication) are non-empty and pairwise disconnected, otherwise ValueError.", "quantifier": "all finite key/value collections", "why_tests_cant": "unbounded", "anchors": ["vistautils/range.py: ImmutableRangeMap.__init__, ImmutableRangeMap.Builder"]}
{"id": "C26", "title": "ImmutableRangeMap lookups are exact", "statement": "m[x]/x in m/get_from_rightmost_containing_or_below/get_from_leftmost_containing_or_above/get_enclosed_by return exactly the values whose key range contains x (is the nearest below/above, is enclosed by the query), None/empty otherwise.", "quantifier": "all range maps, values and query ranges", "why_tests_cant": "universal", "anchors": ["vistautils/range.py: ImmutableRangeMap.__getitem__, __contains__, get_enclosed_by, get_from_rightmost_containing_or_below, get_from_leftmost_containing_or_above"]}
{"id": "C27", "title": "Span construction and elementary predicates", "statement": "Span(s,e) succeeds exactly when s<e; its length is e-s>0; contains_offset/contains_span/precedes/follows/overlaps hold exactly when the corresponding statement about the set of character offsets {s..e-1} holds.", "quantifier": "all integer spans and offsets", "why_tests_cant": "universal over integers", "anchors": ["vistautils/span.py: Span"]}
{"id": "C28", "title": "Span.intersection and clip_to are set intersection", "statement": "intersection returns None exactly for disjoint spans and otherwise the span whose offsets are exactly those in both; clip_to agrees; shift translates offsets, and is invertible.", "quantifier": "all pairs of spans, all integers", "why_tests_cant": "universal", "anchors": ["vistautils/span.py: Span.intersection, Span.clip_to, Span.shift"]}
{"id": "C29", "title": "Span <-> Range agreement", "statement": "as_range() of a span contains exactly the span's offsets, and enclosure/overlap of spans agree with enclosure/intersection of the corresponding ranges.", "quantifier": "all spans and integer offsets", "why_tests_cant": "universal", "anchors": ["vistautils/span.py: Span.as_range", "vistautils/range.py"]}
{"id": "C30", "title": "minimal_enclosing_span is the least enclosing span", "statement": "For a non-empty collection, minimal_enclosing_span returns the smallest span containing every given span; it raises ValueError on an empty one. (Given a one-shot iterator it always raises ValueError, because it iterates twice.)", "quantifier": "all finite collections of spans", "why_tests_cant": "unbounded", "anchors": ["vistautils/span.py: Span.minimal_enclosing_span"]}
{"id": "C31", "title": "earliest_then_longest ordering is a total order on spans", "statement": "earliest_then_longest_first_key orders spans by start ascending and, for equal starts, longest first; two spans have equal keys exactly when they are equal; a span never sorts after a span it contains.", "quantifier": "all pairs of spans", "why_tests_cant": "universal", "anchors": ["vistautils/span.py: Span.earliest_then_longest_first_key"]}
{"id": "C32", "title": "Disjoint span index: construction", "statement": "index_disjoint(items) succeeds exactly when any two items whose spans differ share no offset, else ValueError. (Items with identical spans are accepted, contrary to the documentation, and all but the last are lost.)", "quantifier": "all finite collections of items", "why_tests_cant": "unbounded", "anchors": ["vistautils/span.py: HasSpanIndex.index_disjoint, _DisjointHasSpanIndex"]}
{"id": "C33", "title": "Disjoint span index: queries", "statement": "On a disjoint index, get_exactly_matching, get_overlapping, get_contained and get_containing return exactly the items in the respective relation to the query span, but of several items with the same span only the last one given (provided only identical items compare ==); if the spans are pairwise different, exactly all the items in the relation.", "quantifier": "all disjoint item collections and query spans", "why_tests_cant": "universal", "anchors": ["vistautils/span.py: _DisjointHasSpanIndex"]}
{"id": "C34", "title": "Overlapping span index: queries", "statement": "get_exactly_matching, get_overlapping, get_contained, get_containing on an overlapping index return exactly the indexed items in the respective relation, each once.", "quantifier": "all item collections and query spans", "why_tests_cant": "universal", "anchors": ["vistautils/span.py: _OverLappingHasSpanIndex"]}
{"id": "C35", "title": "Annotating text loses no text", "statement": "annotated_text writes every character of the text exactly once, in order; before the character at each offset it writes the end tags of the annotations whose (clipped, shifted) span ends there, shortest first, then the start tags of those starting there, longest first. Deleting the tags gives back the text. Holds for windows starting at a non-negative offset (a negative one loses text: refuted); an empty text without window and a window of another length raise ValueError.", "quantifier": "all texts, all annotation lists, all windows", "why_tests_cant": "universal over strings and span sets", "anchors": ["vistautils/annotated_text_utils.py: HTMLStyleAnnotationFormatter.annotated_text, _clip_to_offsets_and_shift, _tag_sequence, to_start_tag, to_end_tag"]}
{"id": "C36", "title": "Annotation tags are balanced and properly nested", "statement": "For pairwise nested-or-disjoint annotations whose clipped spans are distinct, the tags in the output are well nested: each end tag closes the most recently opened start tag, nothing stays open, and each visible annotation has exactly one start and one end tag, at its clipped offsets. (Distinct spans that clip to the same span give crossing tags: refuted.)", "quantifier": "all laminar span families", "why_tests_cant": "unbounded", "anchors": ["vistautils/annotated_text_utils.py: HTMLStyleAnnotationFormatter._tag_sequence, _clip_to_offsets_and_shift"]}
{"id": "C37", "title": "windowed yields every window, in order", "statement": "windowed(it,n): the i-th window returned is the tuple of the n elements from position i, as long as they all exist, then StopIteration; with partial windows one window per element, truncated at the end. Exhausting a list gives exactly its contiguous slices in order. It works on infinite iterators: k results pull at most n+k-1 elements. n<1 raises ValueError; tile_with_pairs is the adjacent pairs.", "quantifier": "all (finite or infinite) iterators, window sizes, numbers of next() calls", "why_tests_cant": "unbounded", "anchors": ["vistautils/iter_utils.py: windowed, _complete_windows, _possibly_incomplete_windows", "vistautils/iterutils.py: tile_with_pairs"]}
{"id": "C38", "title": "drop/only/get_only/non_none", "statement": "drop(it,n) yields the elements from position n on (negative n raises ValueError); only/get_only return x exactly when x is the single element, raise ValueError otherwise and pull at most two elements (only documents LookupError: never raised; and it misses a second element that compares equal to everything: refuted); non_none keeps exactly the non-None elements.", "quantifier": "all (finite or infinite) iterators", "why_tests_cant": "unbounded", "anchors": ["vistautils/iter_utils.py: drop, only, non_none", "vistautils/collection_utils.py: get_only"]}
{"id": "C39", "title": "Topological sort is correct and complete", "statement": "topological_sort yields each node at most once and after all its predecessors; it yields exactly the nodes that no cycle leads to. On an acyclic graph it enumerates all nodes and ends normally; it raises ParameterInterpolationError at the end exactly when the graph has a cycle.", "quantifier": "all finite directed graphs", "why_tests_cant": "unbounded graphs; needs existence of cycle argument", "anchors": ["vistautils/_graph.py: Digraph.topological_sort, InDegreeView, ParameterInterpolationError"]}
{"id": "C40", "title": "Graph validation", "statement": "Building a Digraph succeeds exactly when every edge endpoint is a node (RuntimeError otherwise); the graph then has exactly the given nodes and distinct edges, and the in-degree of a node is the number of its distinct predecessors.", "quantifier": "all node/edge maps", "why_tests_cant": "universal", "anchors": ["vistautils/_graph.py: Digraph, validate_edges, InDegreeView"]}
{"id": "C41", "title": "Parameters nested-dict round trip", "statement": "For every nested dict with distinct string keys, Parameters.from_mapping(m).as_nested_dicts() equals m when no key at any depth contains '.'; it raises ValueError exactly when some key at some depth does; every nested namespace carries its own dotted prefix; a non-mapping argument is a TypeError.", "quantifier": "all nested mappings of any depth", "why_tests_cant": "unbounded depth", "anchors": ["vistautils/parameters.py: Parameters.from_mapping, as_nested_dicts"]}
{"id": "C42", "title": "from_key_value_pairs / namespaced_items round trip", "statement": "from_key_value_pairs(kvs) succeeds exactly when no key is empty and no key goes below a key given a value earlier (else RuntimeError / TypeError; ValueError if a component contains '.'), and then at every path the latest assignment touching that path decides what is found. namespaced_items() lists every leaf once under its dotted path, and rebuilding from it gives the parameters without empty namespaces unless a top-level parameter is called ''. (Refuted: the items of a namespace that went through unify mix prefixes.)", "quantifier": "all nested parameters, all key/value sequences", "why_tests_cant": "unbounded depth and length", "anchors": ["vistautils/parameters.py: Parameters.from_key_value_pairs, namespaced_items"]}
{"id": "C43", "title": "Parameter lookup follows the dotted path", "statement": "A lookup of 'a.b.c' returns exactly the value reached by descending through namespaces a, b and key c; if any component is missing or not a namespace, required access raises ParameterError, optional access returns None, and a given default is returned; 'name in params' holds exactly for stored non-null values.", "quantifier": "all parameters and keys", "why_tests_cant": "unbounded depth", "anchors": ["vistautils/parameters.py: _private_get, get_optional, namespace, __contains__"]}
{"id": "C44", "title": "unify merges with right bias", "statement": "old.unify(new) raises IOError exactly when some path is a parameter on one side and a namespace on the other (a null in new does not count); otherwise at every path the result has new's value if new has a non-null one, else old's, else new's null. Unify with empty is the identity on both sides; when both groupings succeed they agree; without nulls both groupings succeed or both fail (refuted with nulls).", "quantifier": "all pairs/triples of nested parameters", "why_tests_cant": "unbounded depth", "anchors": ["vistautils/parameters.py: Parameters.unify"]}
{"id": "C45", "title": "assert_exactly_one_present", "statement": "assert_exactly_one_present(keys) raises exactly when the number of present keys differs from one.", "quantifier": "all parameters and key lists", "why_tests_cant": "unbounded", "anchors": ["vistautils/parameters.py: assert_exactly_one_present, __contains__"]}
{"id": "C46", "title": "Typed getters return a value of the declared type or raise", "statement": "Each typed getter returns the stored value (or else the default) exactly when it has the type and satisfies the constraint, and otherwise raises ParameterError; no value and no default is a ParameterError; optional getters return the default exactly when the key is absent or null. (Refuted corners: a wrong-typed namespace containing a null raises RuntimeError; integer() accepts booleans.)", "quantifier": "all stored values, constraints and defaults", "why_tests_cant": "universal", "anchors": ["vistautils/parameters.py: integer, positive_integer, optional_positive_integer, floating_point, optional_floating_point, string, boolean, optional_boolean, arbitrary_list"]}
{"id": "C47", "title": "Optional getters return the given default", "statement": "optional_string/integer/boolean return any given default when the parameter is absent; optional_positive_integer, optional_floating_point and optional_arbitrary_list do so for truthy valid defaults. Refuted: the falsy defaults 0.0, 0 and [] are dropped and None is returned.", "quantifier": "all defaults", "why_tests_cant": "universal over values incl. falsy corner values", "anchors": ["vistautils/parameters.py: optional_floating_point, optional_positive_integer"]}
{"id": "C48", "title": "Interpolation substitutes every reference, or fails for a stated reason", "statement": "Interpolating a parameter mapping in a context ends in exactly one of: ParameterInterpolationError iff the references between parameters are circular; ParameterError iff (otherwise) some reference is defined neither in the file nor in the context; RecursionError iff (otherwise) a namespace contains a reference to itself; else a tree with the same paths in which every string is replaced by its text with each %name% replaced by the (recursively interpolated) value of name, a value that is a lone reference keeping the type of what it refers to. Parameters without references are unchanged. (Refuted: no reference remains afterwards - values from the context are not interpolated again; and: every failure is a ParameterError.) A file without references is left exactly as it is, whatever the context.", "quantifier": "all nested mappings, contexts and reference graphs whose references go through namespaces of the file, or are passed over in the sense of C118 (the remaining references are the subject of C118)", "why_tests_cant": "unbounded reference chains", "anchors": ["vistautils/parameters.py: YAMLParametersLoader._interpolate", "vistautils/_graph.py"]}
{"id": "C49", "title": "Reference precedence: file, then context and includes, then environment", "statement": "A reference in a file resolves to the file's own (truthy) value if it defines the name, else to the value from everything loaded before it (context and included files), else to the environment variable of that name. (Finding: an environment variable with a dot in its name makes every load fail.)", "quantifier": "all files, contexts, include trees, environments", "why_tests_cant": "universal", "anchors": ["vistautils/parameters.py: YAMLParametersLoader.load, _inner_load_from_string, _interpolate"]}
{"id": "C50", "title": "Interpolation uses exactly the truthy values of the file", "statement": "A lone reference to a value of the same file that is truthy and not a string is replaced by that value; one to a name absent from the file by the context's value. (Refuted: every defined value is used - 0, false, the empty string, null and the empty list in the file count as undefined.)", "quantifier": "all files, contexts and values", "why_tests_cant": "corner values", "anchors": ["vistautils/parameters.py: _interpolate"]}
{"id": "C51", "title": "Includes are applied in order, later overriding earlier, the file last", "statement": "A successful load gives exactly the merge, later overriding earlier, of: the context, the contributions of the included files in order (each loaded recursively, relative to the directory of the file naming it, in the context of everything before it), and the file's own interpolated parameters. All failures past reading the file are IOErrors; a relative include in a string fails; context and included_context are the same argument and may not both be given.", "quantifier": "all include trees, contexts, file contents, all behaviours of file system and YAML parser", "why_tests_cant": "unbounded include trees", "anchors": ["vistautils/parameters.py: _inner_load_from_string, unify"]}
{"id": "C52", "title": "Non-string keys are rejected", "statement": "File content is accepted by the validity check exactly if it is a dict all of whose keys, and those of dicts nested in dicts, are strings; otherwise loading fails. (Refuted: at any depth - dicts inside lists are not checked.)", "quantifier": "all nested YAML values", "why_tests_cant": "unbounded depth", "anchors": ["vistautils/parameters.py: _check_all_keys_strings"]}
{"id": "C53", "title": "object_from_parameters and evaluate: complete decision table", "statement": "evaluate returns o iff the parameter is a string, or a namespace with a string under the value parameter and an optional list of module names to import, running that code (or its special replacement) in the given context with the needed packages imported yields o of the expected type; or the parameter is missing/null and o is the default; every failure is a ParameterError. object_from_parameters returns o iff o has the expected type and comes from exactly one of: the value or the factory of the namespace, a special value, the evaluated string, the default value, the default factory; with neither or both of value/factory it raises ParameterError. (Refuted: special_factories for a bare string selects that factory; special_values apply inside a namespace; the default factory sees the extended prefix.)", "quantifier": "all parameters, names, contexts, special maps, defaults, and all behaviours of import, eval, factories", "why_tests_cant": "oracle-quantified", "anchors": ["vistautils/parameters.py: object_from_parameters, evaluate"]}
{"id": "C54", "title": "Parameter writer output is loader input", "statement": "Writing Parameters succeeds exactly when every value is a str, int, bool, float, Path, or list/dict of such (else RuntimeError), and the written tree has the same paths in the same order with the same values, Paths turned into strings. (Refuted: parameters with a null value cannot be written or printed.)", "quantifier": "all parameters", "why_tests_cant": "unbounded depth", "anchors": ["vistautils/parameters.py: YAMLParametersWriter._preprocess_dicts"]}
{"id": "C55", "title": "Zip key-value store round trip", "statement": "A session putting distinct keys into an overwriting zip sink succeeds whatever was in the file before, and a source opened on the file then has exactly those keys, gives each value for [] and get, raises KeyError / returns the default for other keys, and iterates over exactly the pairs put, in the order of its key list. This holds for all non-empty keys without newline, NUL and lone surrogates except '__keys'; for each of these exceptions it is refuted. A source outside a with block raises AssertionError; without a key list keys() is None and items() raises NotImplementedError.", "quantifier": "all key/value sequences, file name functions, previous files, set iteration orders", "why_tests_cant": "unbounded histories", "anchors": ["vistautils/key_value.py: _ZipKeyValueSink, _ZipFileKeyValueSource, _read_keys_from_keys_file, _write_keys_to_keys_file"]}
{"id": "C56", "title": "Histories of zip sink sessions", "statement": "After any history of overwriting and appending sessions with any puts, a source shows exactly the store obtained by: an overwriting session starts empty, an appending one from the store so far, the first put of a key counts and each later one raises ValueError and changes nothing. A put of None or before __enter__ fails without effect. (Refuted: duplicate puts raise RuntimeError as documented; a put failing because of the value changes nothing - its key stays reserved, is listed without a value, and can make closing the sink fail; a sink object can be used for a second session.)", "quantifier": "all histories of sessions, all set iteration orders", "why_tests_cant": "unbounded histories", "anchors": ["vistautils/key_value.py: _ZipKeyValueSink.put, __enter__, __exit__"]}
{"id": "C57", "title": "Directory key-value store round trip", "statement": "Entering a directory sink on an existing empty directory, putting keys any number of times and leaving it, then reading the directory's _index as a source gives exactly the keys put, sorted, each with the value last put (text with \\r and \\r\\n read as \\n, bytes unchanged); other keys raise KeyError / give the default. Entering fails if the directory is missing or not empty. (Refuted for a key named _index: its document is overwritten by the index.)", "quantifier": "all put sequences over plain file names", "why_tests_cant": "unbounded histories", "anchors": ["vistautils/key_value.py: _DirectoryCharKeyValueSink, KeyValueSource.from_doc_id_to_file_map, KeyValueSource.from_path_mapping"]}
{"id": "C58", "title": "Key list codec", "statement": "The list of keys stored in a zip file is read back as written exactly when no key contains a newline and it is not the list of just the empty key; other entries are unaffected; reading never yields duplicates or keys with newlines; it yields None exactly when there is no __keys entry.", "quantifier": "all lists of distinct keys, all archives", "why_tests_cant": "universal", "anchors": ["vistautils/key_value.py: _read_keys_from_keys_file, _write_keys_to_keys_file"]}
{"id": "C59", "title": "Interpreted sources are pointwise maps", "statement": "An interpreted key-value source has the same keys as the wrapped one and value = interpretation of (key, wrapped value) for [] and get, passes on missing keys and errors; items() yields the filtered keys in order with their looked-up values up to the first failing look-up; the random-access and the linear wrapper yield the same; interpreting twice is interpreting with the composition.", "quantifier": "all wrapped sources, filters and interpretation functions, including ones that raise", "why_tests_cant": "universal over functions", "anchors": ["vistautils/key_value.py: interpret_values, InterpretedLinearKeyValueSource, _InterpretedKeyValueSource"]}
{"id": "C60", "title": "Linear tar source yields exactly the keyed members in order", "statement": "The tar source yields (key, contents) for exactly the regular-file members whose name passes the name filter and whose key is not None, not empty and passes the key filter, in archive order; an unreadable member ends the iteration with IOError; before __enter__ AssertionError. The str source decodes the same pairs. (Refuted: only a None key is skipped.)", "quantifier": "all archives, key functions and filters", "why_tests_cant": "universal", "anchors": ["vistautils/key_value.py: TarGzipBytesLinearKeyValueSource"]}
{"id": "C61", "title": "Even split is a balanced partition", "statement": "For every source with distinct keys zip stores can hold, every number n >= 1 of slices and every shuffle, the split succeeds; slice j holds exactly the keys at positions j, j+n, j+2n, ... of the sorted/shuffled key list with their values; every key is in exactly one slice; slice sizes differ by at most one; and joining the slices gives a store with exactly the contents of the original.", "quantifier": "all stores, all n >= 1, all shuffles, all previous contents of the output files", "why_tests_cant": "unbounded", "anchors": ["vistautils/scripts/split_key_value_store.py: _split_into_even_slices", "vistautils/scripts/join_key_value_stores.py"]}
{"id": "C62", "title": "Explicit split routes every key to its list", "statement": "If every listed key is in the source, each output holds exactly its listed keys with their values, and the run fails (RuntimeError) iff exhaustiveness is required and some key of the source is in no list. A listed key the source lacks ends the run with RuntimeError, the earlier splits being complete, this one holding the keys before it, later ones untouched. (That the split is checked to be a partition is refuted: a key in two lists is copied to both.)", "quantifier": "all sources and lists of key sets", "why_tests_cant": "universal", "anchors": ["vistautils/scripts/split_key_value_store.py: _explicit_split"]}
{"id": "C63", "title": "Join is union with duplicate detection", "statement": "Joining stores whose keys are disjoint yields exactly their union; if two inputs share a key the run fails with RuntimeError: the inputs before the first one repeating a key are then in the output completely, of that one only keys not seen before, of the later ones nothing; an unreadable input ends the run with its error, and the output then holds exactly the pairs of the inputs before it.", "quantifier": "all lists of stores", "why_tests_cant": "unbounded", "anchors": ["vistautils/scripts/join_key_value_stores.py"]}
{"id": "C64", "title": "Downsampling picks distinct items", "statement": "Whatever the shuffle, downsampling writes exactly min(num_to_sample, number of keys) distinct items of the input, unchanged: those whose keys come first in the shuffled list of keys; asking for at least as many as there are copies the store.", "quantifier": "all stores, all shuffles, all sample sizes", "why_tests_cant": "all permutations", "anchors": ["vistautils/scripts/downsample_key_value_store.py"]}
{"id": "C65", "title": "Character and byte sink/source round trips", "statement": "Writing a text with CharSink.to_file and reading it with CharSource.from_file gives the text with \\r\\n and \\r read as \\n (so the text itself exactly when it has no \\r), leaving other files alone; a string buffer holds exactly what its last session wrote; byte files give back exactly the bytes; an entry written into a zip file reads back as written even if the name existed, other entries and files unchanged. A text with a lone surrogate raises UnicodeEncodeError and empties the file. is_empty is true exactly when the readable text is empty. (Refuted: a second write to a zip entry replaces the first - both entries stay in the file.)", "quantifier": "all strings, byte strings, file systems, archives, names", "why_tests_cant": "universal over Unicode strings", "anchors": ["vistautils/io_utils.py: CharSource, CharSink, ByteSource, ByteSink and their implementations"]}
{"id": "C66", "title": "readlines agrees with read_all", "statement": "CharSource.readlines gives the unique list of newline-free strings that, each followed by a newline, make up read_all() (the last newline may be missing), failing exactly as read_all fails; file_lines_to_set gives the distinct non-blank lines in order of first occurrence. (Refuted: the documentation says line endings are not removed; they always are.)", "quantifier": "all sources and texts", "why_tests_cant": "universal", "anchors": ["vistautils/io_utils.py: CharSource.readlines, file_lines_to_set"]}
{"id": "C67", "title": "doc-id-to-file map codec", "statement": "Writing a doc-id-to-file map and reading it back gives the same entries ordered by id, when ids and paths have no tab, newline, carriage return or outer white space and can be encoded. Reading any text succeeds exactly when each line has exactly one tab and yields the trimmed fields, otherwise IOError. (Refuted: blank lines are skipped - they raise IOError.)", "quantifier": "all maps, all texts", "why_tests_cant": "universal", "anchors": ["vistautils/io_utils.py: write_doc_id_to_file_map, read_doc_id_to_file_map"]}
{"id": "C68", "title": "UTF-8 values survive byte storage", "statement": "Encoding a string to UTF-8 and decoding it gives it back for all strings without lone surrogates; lone surrogates raise.", "quantifier": "all Unicode strings", "why_tests_cant": "universal", "anchors": ["vistautils/key_value.py: _ZipCharFileKeyValuesSource, _ZipCharFileKeyValueSink", "vistautils/io_utils.py"]}
{"id": "C69", "title": "Memory amount parsing", "statement": "MemoryAmount.parse succeeds exactly on strings starting with a positive decimal integer, an optional single space and a letter K, M, G or T of either case, giving that integer and unit; it raises ValueError for amount zero and RuntimeError otherwise; every amount written as '<n>[ ]<letter>[b|B]' is read back. (That the whole string must match is refuted: anything may follow the letter.)", "quantifier": "all strings", "why_tests_cant": "universal", "anchors": ["vistautils/memory_amount.py: MemoryAmount.parse, MemoryUnit"]}
{"id": "C70", "title": "str_list_limited", "statement": "str_list_limited(items, limit) is str(list) when there are at most limit items; otherwise it is what str shows for the first limit items up to the closing bracket, followed by ' and N more]', N the number of items left out; it raises ValueError exactly for a negative limit.", "quantifier": "all lists and limits", "why_tests_cant": "unbounded", "anchors": ["vistautils/misc_utils.py: str_list_limited"]}
{"id": "C71", "title": "strip_extension and flatten_once_to_list", "statement": "strip_extension removes exactly the text from the last dot on and nothing if there is no dot (even if that dot is in a directory name or the first character); flatten_once_to_list is concatenation, in order.", "quantifier": "all strings, all nested lists", "why_tests_cant": "universal", "anchors": ["vistautils/misc_utils.py"]}
{"id": "C72", "title": "Checkpoints behave as a set of names", "statement": "After any history of set, reset_all and restarts of the process, a checkpoint is reported exactly when it was set since the last reset. If processes may die at any point inside reset_all, whatever is reported was set after the last complete reset, and whatever was set after the last (complete or interrupted) reset is reported. Distinct plain file names are distinct checkpoints. (Refuted for other names: '' can be set without effect, 'a', './a' and 'a/' are the same checkpoint.)", "quantifier": "all histories, deletion orders and crash points inside reset_all", "why_tests_cant": "unbounded histories, crash points", "anchors": ["vistautils/checkpoints.py: Checkpoints"]}
{"id": "C73", "title": "Precondition helpers raise exactly when violated", "statement": "check_arg, check_not_none, check_state, check_args_(are|not)_none, check_isinstance, check_all_isinstance, check_issubclass, check_in, WithId and Scored pass exactly when their condition holds and otherwise raise the documented class of exception. (Refuted: check_opt_isinstance accepts every falsy value; a check_arg message with a percent sign may raise another exception; the attrs validator non_empty rejects nothing.)", "quantifier": "all argument values", "why_tests_cant": "universal", "anchors": ["vistautils/preconditions.py", "vistautils/attrutils.py"]}
{"id": "C74", "title": "Logging configuration", "statement": "configure_logging_from(params): without logging.config_file, it sets the root logger to the level named by logging.root_level (CRITICAL, FATAL, ERROR, WARNING, WARN, INFO, DEBUG; INFO when missing or null) and adds one stdout handler of that level, so that in a fresh program every message at or above that level is printed exactly once and no other; an unknown name is a ParameterError and leaves logging as it was.  With logging.config_file naming an existing file logging is configured from that file alone, otherwise ParameterError.  Configuring n times prints every message n times (it is not idempotent).", "quantifier": "all parameters, logging states, file systems, numbers of calls and message levels", "why_tests_cant": "the claim ranges over every parameter tree and every earlier logging state, including repeated configuration", "anchors": ["vistautils/logging_utils.py: configure_logging_from, _config_logging_from_params, _LEVEL_STRINGS_TO_LEVELS"]}
{"id": "C75", "title": "Tar-to-zip and directory-to-store conversions keep content", "statement": "directory_to_key_value_store stores every file at any depth exactly once under its name (or its name without the last extension) with its contents if these keys are distinct, and otherwise fails with ValueError at the second file of a key, keeping the earlier ones. tar_gz_to_zip copies exactly the file members not above the size limit, in order. Output name: .tar and .tgz are replaced by .zip. (Refuted: sub-directories raise an error; .tar.gz is stripped - 'x.tar.gz' gives 'x..zip'.)", "quantifier": "all directory trees, archives, listing orders, names", "why_tests_cant": "unbounded", "anchors": ["vistautils/scripts/directory_to_key_value_store.py", "vistautils/scripts/tar_gz_to_zip.py"]}
{"id": "C76", "title": "Start tags list attributes sorted by key", "statement": "A start tag is <label k1=\"v1\" k2=\"v2\" ...> with the attributes in increasing key order, whatever order they were inserted in.", "quantifier": "all labels and attribute mappings, all insertion orders", "why_tests_cant": "all permutations of unboundedly many attributes", "anchors": ["vistautils/annotated_text_utils.py: to_start_tag"]}
{"id": "C77", "title": "Annotation order is irrelevant", "statement": "annotated_text gives the same output for every order of the annotations, provided no two clipped spans coincide (with coinciding spans it depends on the order: refuted).", "quantifier": "all texts, windows and permutations of annotation lists", "why_tests_cant": "all permutations", "anchors": ["vistautils/annotated_text_utils.py: HTMLStyleAnnotationFormatter.annotated_text"]}
{"id": "C78", "title": "Zip sinks are not crash safe before exit", "statement": "If the process dies at any point between entering an overwriting zip sink and leaving it, the file cannot be opened as a store; in an appending session the old store is intact until the first successful put and unreadable afterwards.", "quantifier": "all crash points of all sessions", "why_tests_cant": "all crash points", "anchors": ["vistautils/key_value.py: _ZipKeyValueSink.__enter__, put, __exit__"]}
{"id": "C79", "title": "text_at_offsets prints exactly the requested characters", "statement": "For offsets in bounds text_at_offsets prints exactly text[start:end] and no warning; otherwise it prints a warning for each offset out of bounds (and, still, some text: for negative offsets the text counted from the end).", "quantifier": "all texts and integer offsets", "why_tests_cant": "unbounded", "anchors": ["vistautils/scripts/text_at_offsets.py: main"]}
{"id": "C80", "title": "Path-valued parameters and the file system", "statement": "existing_file / existing_directory return the normalised absolute path exactly when it is a regular file / a directory, and raise ParameterError otherwise, without touching the file system.  creatable_directory and creatable_file succeed exactly when nothing but directories is in the way; then exactly the missing directories of the path (of its parent, for a file) exist afterwards and every other path is as before; on failure nothing changes.  creatable_empty_directory returns an empty directory: an empty one is left alone, a missing one is made, a non-empty one is refused with nothing changed, or with delete=True loses exactly its contents; a non-directory is refused.  The optional variants return None exactly when the parameter is missing or null and otherwise do the same.  Repeating a successful call changes nothing.  (creatable_file does not notice that the path is itself a directory.)", "quantifier": "all file systems without symbolic links, current directories, parameter trees and path strings", "why_tests_cant": "the frame condition - nothing else on disk changes - ranges over all paths of all file systems", "anchors": ["vistautils/parameters.py: Parameters.creatable_directory, creatable_empty_directory, creatable_file, existing_file, existing_directory and optional_*", "vistautils/io_utils.py: is_empty_directory"]}
{"id": "C81", "title": "Lists and maps of paths", "statement": "path_list_from_file gives, for a string parameter, one path per line of the UTF-8 file it names, in order, skipping exactly the blank lines and those whose first non-blank character is #, and for a list parameter one path per element; each is stripped and taken below resolve_relative_to unless absolute.  path_map_from_file gives a map with one entry per key, the last line for a key deciding its path, provided every line has exactly two tab-separated fields, and raises IOError otherwise.  The _slices.txt file written by split_key_value_store is read back as exactly the slice files in order.  (A listed path beginning with # is silently dropped.)", "quantifier": "all files, parameter trees, base paths and output directories", "why_tests_cant": "the claim ranges over every text file, with every mixture of line terminators, white space and comments", "anchors": ["vistautils/parameters.py: Parameters.path_list_from_file, Parameters.path_map_from_file", "vistautils/scripts/split_key_value_store.py: _split_into_even_slices"]}
{"id": "C82", "title": "Parameters-only entry point", "statement": "parameters_only_entry_point calls main exactly once when loading the file, applying the -p pairs and configuring logging all succeed, and otherwise raises without calling it.  main receives the file's parameters with every -p value (as a string) under its dotted name, later pairs winning, and every parameter not touched by a -p unchanged.  Every outcome is determined: pairs with an empty name (RuntimeError or TypeError) or giving a value below an earlier pair's (TypeError), and pairs that make a namespace of a parameter or the reverse (IOError) are refused before logging is touched; all others are accepted.  (Overrides are always strings, so integer parameters cannot be overridden; and passing parameters= always fails with AttributeError.)", "quantifier": "all loaded parameter trees, override lists, file systems and logging states", "why_tests_cant": "the claim ranges over every parameter file and every combination of overrides", "anchors": ["vistautils/parameters_only_entrypoint.py: parameters_only_entry_point, _real_parameters_only_entry_point"]}
{"id": "C83", "title": "Key-value stores chosen by parameters", "statement": "char/byte_key_value_sink_from_params, ..._source_from_params and ..._linear_source_from_params: `type: zip` gives a zip store on the file named by `path` in the same namespace (for a sink its parent directories are made and nothing else changes; for a source it must be an existing file), so that the same configuration used for writing and for reading means the same file; `type: file-map` gives a sink into the existing directory `path`; a type naming something in the caller's eval_context uses that as the factory (before the module's own names) and passes it the namespace; whatever is returned is a store of the requested kind, else ParameterError. Refuted documentation: `file-map` for sources always gives an empty source; a missing namespace, a namespace without type, a bare shortcut string, and the sink type `directory` always give ParameterError instead of the documented defaults.", "quantifier": "all configurations, namespaces, working directories, file systems, caller contexts, and user classes/functions", "why_tests_cant": "ranges over all configurations, file systems and user-supplied classes and contexts; tests only try a few configurations", "anchors": ["vistautils/key_value.py:char_key_value_sink_from_params", "vistautils/key_value.py:byte_key_value_sink_from_params", "vistautils/key_value.py:char_key_value_source_from_params", "vistautils/key_value.py:byte_key_value_source_from_params", "vistautils/key_value.py:char_key_value_linear_source_from_params", "vistautils/key_value.py:byte_key_value_linear_source_from_params", "vistautils/parameters.py:Parameters.object_from_parameters"]}
{"id": "C84", "title": "split_key_value_store with num_slices, from parameters to files", "statement": "With `input` a zip store, `num_slices` a positive integer n and `output_dir` a creatable directory, the script ends without error; output_dir then holds 0.zip ... (n-1).zip, which together hold every pair of the input exactly once and nothing else, slice i holding the keys at positions i, i+n, ... of the sorted (or, with random_seed, shuffled) keys, so that sizes differ by at most one; _slices.txt lists the slices' paths; the input and every other file are unchanged. With both or neither of num_slices and explicit_split: ParameterError and nothing is changed. With an input that is no readable zip file the script fails and nothing is changed (for explicit_split, too). With a file in the place of output_dir, or of a directory above it, it fails and nothing is changed, whatever the other parameters are. A num_slices that is not a positive integer is rejected, but only after output_dir was created. (Refuted: the input is safe from the script's own outputs. If the input file is one of the files to be written, the run fails when the first pair is copied, every slice is an empty zip and the input's pairs are lost.)", "quantifier": "all parameters, input stores, numbers of slices, seeds, shuffles, set orders and file systems", "why_tests_cant": "ranges over all stores, parameters and file systems; tests try one store and one number of slices", "anchors": ["vistautils/scripts/split_key_value_store.py: main, _split_into_even_slices"]}
{"id": "C85", "title": "join_key_value_stores, from parameters to files", "statement": "If no key occurs in two of the stores listed by `input_store_list_file` (a file of paths or a list), the output zip store given by `output` holds exactly the pairs of all inputs; inputs and all other files are unchanged. If some key occurs twice: RuntimeError; the output holds all pairs of the inputs before the first input that repeats a key, of that input only pairs with new keys, and nothing of the inputs after it. If a listed path is that of no readable zip file, the run fails and the output holds exactly the pairs of the inputs before it. If input_store_list_file is absent, no file, no UTF-8 text, a list with something other than a string in it, or neither a string nor a list, or a file is in the place of a directory above the output, the run fails and nothing is changed. Splitting a store and joining the slices listed in _slices.txt gives a store with exactly the original pairs. (Refuted for an output that is among the inputs: it is emptied before being read.)", "quantifier": "all parameters, lists of input stores, file systems and set orders", "why_tests_cant": "ranges over all lists of stores and all file systems", "anchors": ["vistautils/scripts/join_key_value_stores.py: main"]}
{"id": "C86", "title": "downsample_key_value_store, from parameters to files", "statement": "The output zip holds min(num_to_sample, number of keys) distinct pairs of the input, with the input's values: those whose keys come first when the input's list of keys is shuffled with random_seed (0 if absent), so which pairs are kept depends on nothing but the input, the seed and num_to_sample; missing directories above the output are created; the input and every other file are unchanged. A num_to_sample that is not a positive integer, or an input that is no readable zip file, or a file in the place of a directory above output_zip_path, is rejected with nothing changed. (Refuted: downsampling in place. If output_zip_path is the input's file, the run fails and leaves an empty zip: the input's pairs are lost.)", "quantifier": "all parameters, input stores, sample sizes, seeds, shuffles and file systems", "why_tests_cant": "ranges over all stores, sample sizes and shuffles", "anchors": ["vistautils/scripts/downsample_key_value_store.py: main"]}
{"id": "C87", "title": "directory_to_key_value_store, from parameters to files", "statement": "If the regular files below input_directory, at any depth, have different keys (file name, or file name without its last extension), the output zip store holds exactly one entry per file, with the file's bytes, and no other file is changed. Two files with the same key are an error, and the output holds only files found. If input_directory is absent or names no directory, if key_function is neither of the two, or if a file is in the place of a directory above the output, the script fails and nothing is changed. (Refuted when the output lies below the input directory: it becomes an entry of itself.)", "quantifier": "all directory trees, key functions, output locations and listing orders", "why_tests_cant": "ranges over all directory trees and orders of listing", "anchors": ["vistautils/scripts/directory_to_key_value_store.py: main, key_function_from_params"]}
{"id": "C88", "title": "split_key_value_store with explicit_split, from parameters to files", "statement": "For every sub-namespace of explicit_split the file named by output_file holds exactly the input's pairs whose keys are listed in keys_file (blank lines ignored); only these files and directories above them are written. The script then fails with RuntimeError if must_be_exhaustive (top level, default true) and some key of the input is listed nowhere, and ends normally otherwise. A listed key that the input lacks is a RuntimeError: earlier outputs are complete, that split's output holds part of its keys. A keys_file that is no file is a ParameterError: earlier outputs are complete and nothing else is written. The same holds for an output_file below a file, which may be an earlier split's output: FileExistsError or NotADirectoryError. (Refuted: explicit_split.must_be_exhaustive, which is documented, is read; a split's namespace may have list-valued parameters: the script then fails with TypeError before writing anything; an output_file may be the input's own file: the run then fails, earlier outputs are complete, and the input is left an empty zip.)", "quantifier": "all parameters, stores, lists of splits, key files and file systems", "why_tests_cant": "ranges over all configurations of splits, key files and stores", "anchors": ["vistautils/scripts/split_key_value_store.py: main, _explicit_split", "vistautils/parameters.py: Parameters.sub_namespaces"]}
{"id": "C89", "title": "Fully qualified names of classes, evaluated by parameters, give the classes back", "statement": "fully_qualified_name gives different names to different non-nested classes that have a module. Parameters.evaluate and object_from_parameters, given a parameter that holds the fully qualified name of a non-nested class in an importable module, return that class, provided the context binds nothing else to the names of the module's packages; so does the name of a built-in class that the context does not bind. In a namespace whose import list holds the module, the name of a nested class works too. The name of a module, in a namespace whose import list holds that module, evaluates to the module; the name of a class without a module is looked up in the context and the builtins only. fully_qualified_name_of_type gives every object a name, that of its class (str, module, or the metaclass for strings, modules and classes), which evaluates in the same way to the class of the object. (Refuted: as a plain string the name of a nested class is a ParameterError, since the class around it is imported as a module; without a context, packages called like local variables of evaluate (name, context, default, ...) are hidden.)", "quantifier": "all parameters, classes, modules, contexts and name bindings", "why_tests_cant": "ranges over all module and class names, all object graphs reachable by attributes and all contexts", "anchors": ["vistautils/class_utils.py: fully_qualified_name", "vistautils/parameters.py: Parameters.evaluate, Parameters.object_from_parameters", "vistautils/misc_utils.py: eval_in_context_of_modules", "vistautils/class_utils.py: fully_qualified_name_of_type"]}
{"id": "C90", "title": "tar_gz_to_zip, from the command line to the file system", "statement": "tar_gz_to_zip writes beside the tar file a zip file whose name has .tar, .tgz or tar.gz replaced by .zip (else .zip appended) and which holds exactly the regular-file members that are not larger than the cutoff, in their order; the tar file and everything else on disk are unchanged. If the tar file is damaged after some members, or a name cannot be encoded, the members before are in a complete zip file and the error is raised. An existing output is removed before the tar file is opened: a missing or unreadable tar file leaves an empty zip file in its place. If the output is a directory or its directory is missing, nothing changes. With --dont-stream and only regular files with plain, distinct names, the zip file holds all of them whatever the cutoff, files of the same names in the current directory are gone, and the directories made stay. (Refuted: --dont-stream fails for every tar file with a directory member; the files after it stay unpacked and are not in the zip file.)", "quantifier": "all file systems, tar files, members, names, damages and options", "why_tests_cant": "ranges over all file systems and archives, and over the point where the archive is damaged", "anchors": ["vistautils/scripts/tar_gz_to_zip.py: main, _output_name"]}
{"id": "C91", "title": "Loading parameter files from the file system: includes, cycles, names and the current directory", "statement": "Loading a file of the file system gives the merge of the context, the included files and the file itself, where a relative include is the existing file reached from the directory of the including file's place (every component must exist), and an absolute one is taken as it is; text is UTF-8 with any line ends. The result depends only on the file's place, not on how the path is written nor on the current directory. A file that includes itself, directly or indirectly, or an include that is not a readable file, is an IOError whatever the recursion limit; problems with the file itself are the operating system's errors (FileNotFoundError, NotADirectoryError, OSError, ValueError for NUL, UnicodeDecodeError), not wrapped. A higher recursion limit never changes a successful load, and once it exceeds the depth of includes changes nothing at all. Parameters without references, written with the parameter writer and loaded again, are the same with Paths turned into strings, and no other file changes. (Finding: a write that fails - say because of a null - is a RuntimeError and leaves the file empty, whatever was in it.)", "quantifier": "all file systems (finite trees), current directories, paths, contexts, YAML texts, recursion limits", "why_tests_cant": "ranges over all directory trees, include graphs of any depth and all spellings of paths", "anchors": ["vistautils/parameters.py: YAMLParametersLoader.load, load_string, _inner_load_from_string", "vistautils/parameters.py: YAMLParametersWriter.write"]}
{"id": "C92", "title": "Zip stores with key functions of the caller's, and reusable source objects", "statement": "A zip sink with a function to read keys but none to write them is refused with ValueError, any other combination is accepted. If the reading and writing functions match (the writer leaves the entries of keys alone and the reader finds the keys in what it wrote), then after any history of overwriting and appending sessions with any one-to-one file name function a source with the same functions shows exactly the store: its keys, the value of each key, KeyError or the default for others; the default functions, and taking the entry names as keys, match. Without key functions duplicates of earlier sessions are not refused, each key reads back the value last put under its file name (also when several keys share a file name), and the keys are unknown so that iteration raises NotImplementedError; with only a writer the keys listed after appending are those of the last session alone. A source object may be entered and left any number of times: entering always shows the file as it is then, after leaving every operation raises AssertionError. (The error message of the constructor states the opposite condition, and if the keys function fails on entering the object stays open with the keys of the file before.)", "quantifier": "all key readers and writers, file name functions, prior archives, histories of sessions and puts, and sequences of entering and leaving a source", "why_tests_cant": "tests use the default functions and one or two sessions; the claim is about every matching pair of functions, every history and every reuse of a source object", "anchors": ["vistautils/key_value.py: KeyValueSink.zip_character_sink, KeyValueSink.zip_bytes_sink, _ZipKeyValueSink, _ZipFileKeyValueSource, KeyValueSource.zip_character_source"]}
{"id": "C93", "title": "Checkpoints on a file system", "statement": "For a checkpoint directory in a file system with other contents, and names that are any strings: opening makes the directory and those above it and touches nothing else, or fails unchanged if a non-directory is in the way; setting succeeds exactly if the place the name leads to can be reached, creates an empty file there if there was nothing, and changes nothing else; a checkpoint is in the store exactly if there is a file in its place, and asking never fails for a string; after setting, exactly the checkpoints set before and those (of any object, by any name) in the same place are set; resetting deletes everything in the directory and nothing else; a crash during a reset deletes only things inside the directory. For any history of calls on any number of directories none of which is inside another, a checkpoint is set exactly if it was set since the last reset of its directory, or was there before and there was no reset. Not guaranteed: names with '..' or absolute names survive resets, resetting a directory makes a checkpoint directory inside it unusable, a relative directory is another one after chdir, the name of a subdirectory can be 'set' without effect, and a directory given as '.' is emptied but cannot be reset.", "quantifier": "all file systems without symbolic links, current directories, directory paths, names, histories of set and reset calls on several checkpoint objects, and states a crashed reset can leave", "why_tests_cant": "tests set two or three simple names in one fresh directory; the claim is about every name string, every surrounding file system, every interleaving of calls on several directories and every crash point", "anchors": ["vistautils/checkpoints.py: Checkpoints.from_directory, _CheckPointDirectory.set, _CheckPointDirectory.__contains__, _CheckPointDirectory.reset_all"]}
{"id": "C94", "title": "Tar sources: any interleaving of iterators, entering and leaving", "statement": "A linear tar source, and an interpreted source around it, may have any number of iterators in use at once. Inside a with block every iterator made there (or made earlier and first used there) yields exactly the members that have a key, in archive order, with their contents (interpreted, for the interpreted source), and then ends, with the archive's or the interpretation's error if there is one, whatever calls are made in between on other iterators and however often the source is entered again. In an arbitrary history an iterator yields an initial part of that sequence, and if it is cut short it raises: OSError, only if a block was left; AssertionError, only for an iterator of the interpreted source made before any block. After a block is left nothing more is yielded until the next is entered. Before the first block items() of the source raises AssertionError, that of the interpreted source only when iterated over. items() after a block has been left does not raise, contrary to what one might expect.", "quantifier": "all archives (with or without damage after the last readable member), key functions, name and key filters, interpretations, and all finite histories of enter, exit, items and next calls on any number of iterators", "why_tests_cant": "the iterators share one lazily read tar file with a member cache, so correctness depends on every possible interleaving of their next calls", "anchors": ["vistautils/key_value.py:TarGzipBytesLinearKeyValueSource", "vistautils/key_value.py:InterpretedLinearKeyValueSource", "vistautils/key_value.py:KeyValueLinearSource"]}
{"id": "C95", "title": "From the command line to the files", "statement": "A program made with parameters_only_entry_point reads a command line of words and '-p' as one parameter file with any number of '-p name value' pairs before and after it, in exactly one way; every other such command line is a usage error. The main function is called at most once, with the parameters of the file overridden by the pairs (as strings, later pairs winning); if it is not called, there is an error and no file has changed. For the scripts this holds from end to end: split_key_value_store with a YAML file saying where the input is, how many slices to make and where, writes slices 0.zip, 1.zip, ... that partition the pairs of the input evenly, changes no other file, and join_key_value_stores on the list of slices gives back a store of exactly the same pairs. So it does for join_key_value_stores (the pairs of all listed inputs), downsample_key_value_store (min(num_to_sample, number of keys) pairs of the input), directory_to_key_value_store (one pair per file below the directory) and split_key_value_store with explicit_split (for each split the pairs of its key file; RuntimeError if must_be_exhaustive and a key is in none). (Documented: -p overrides parameters. Refuted for numbers: with '-p num_slices 3' the split fails with a ParameterError after making the output directory.)", "quantifier": "all command lines of '-p' and words that argparse takes for values, all YAML parameter files (for the end-to-end part: without includes and references), all override pairs compatible with the file, all file systems, stores, numbers of slices, seeds and logging levels", "why_tests_cant": "The chain argparse - YAML - overrides - logging - script has unboundedly many command lines, files and stores; tests run a handful of them", "anchors": ["vistautils/parameters_only_entrypoint.py:parameters_only_entry_point", "vistautils/parameters.py:YAMLParametersLoader", "vistautils/scripts/split_key_value_store.py:main", "vistautils/scripts/join_key_value_stores.py:main", "vistautils/logging_utils.py:configure_logging_from"]}
{"id": "C96", "title": "Attributes declared with attrutils", "statement": "A constructor call of a class whose attributes are declared with attrib_instance_of, attrib_opt_instance_of, attrib_factory, attrib_immutable, attrib_opt_immutable and attrib_private_immutable_builder succeeds iff its arguments bind to the attributes (under their names without leading underscores; a private builder is no argument) and every value passes: an instance of the type (None too for the optional variant; defaults are checked like arguments), then holds exactly: the argument or default itself, the immutable collection made of the argument, the empty collection for a missing argument or None, or the result of a new factory call. Otherwise it raises TypeError or what a factory or the collection class raised. In every program no two attributes filled by factories (of the same or different objects) share an object. The immutable variants refuse other classes (ValueError) and non-classes (TypeError). Positional extra arguments to the functions that set a default always give TypeError, a factory= keyword ValueError.", "quantifier": "all lists of declarations, type arguments (classes and nested tuples), positional and keyword arguments, factories and collection classes; all histories of constructor calls, failing ones included", "why_tests_cant": "sharing of default values shows only across histories of several objects; tests use one class with one argument pattern", "anchors": ["vistautils/attrutils.py: attrib_instance_of, attrib_opt_instance_of, attrib_factory, attrib_immutable, attrib_opt_immutable, attrib_private_immutable_builder, opt_instance_of, _check_immutable_collection, _empty_immutable_if_none"]}
{"id": "C97", "title": "Directory key-value stores on the file system", "statement": "A directory sink can be entered only on an existing, empty directory (other than the root), and entering changes nothing. put(key, value) with a key that, read as a relative path without '..', names a file below the directory writes exactly that file, makes the directories above it, and enters it in the index; a value that cannot be written leaves an empty file and no new entry; when a file is in the way or a directory in the file's place nothing is changed and an OSError comes out. Such a session never changes anything outside the directory, whatever fails. After leaving the sink without an exception the source built from the index lists exactly the keys put successfully; if no key's file lies below another's or is the index, every put succeeds and the source gives, for each key, what was last put into its file. For any key at all, the path is followed from the directory (or the root) part by part, making missing directories, with '..' going to the parent: if that succeeds exactly those directories and the file are new; if something other than a directory is in the way, or the end is a directory, no file is written and only directories on the way may be new. The map source opens what the operating system reaches from a key's path at the time of reading; a missing key is a KeyError, or None for get. The join and directory scripts with a file-map output on an empty directory leave a store with exactly the inputs' keys and values and change nothing else. If the join script comes to an input whose keys clash with keys already written, or to one that is no readable zip file, it fails, and the directory's store has exactly the keys and values of the inputs before it; into a directory that is not empty it fails and changes nothing. Keys that are absolute paths or begin with '..' write outside the directory; of two keys whose files are nested the later fails; a key below '_index' makes leaving the sink fail and the key '_index' is overwritten by the index.", "quantifier": "all file systems, directories, keys, values and sequences of puts", "why_tests_cant": "Needs every combination of keys as paths, files in the way and orders of puts; tests use two flat keys in a fresh temporary directory.", "anchors": ["vistautils/key_value.py:_DirectoryCharKeyValueSink", "vistautils/key_value.py:_DirectoryBytesKeyValueSink", "vistautils/key_value.py:_PathMappingCharKeyValueSource", "vistautils/io_utils.py:write_doc_id_to_file_map"]}
{"id": "C98", "title": "Printed forms of ranges, range sets and spans", "statement": "str/repr of a range shows its lower end, '..' and its upper end, with square brackets for closed ends, round ones for open ends and infinity signs for missing ends. Different integer ranges (and ranges over any endpoints whose texts differ and contain no '..', final '.', infinity sign or comma) print differently; a range set prints as the list of its ranges in order, so that range sets over such endpoints print the same exactly when they are equal, whatever was done to them; spans print '[start:end)', differently unless equal. Printing such ranges never raises. A factory refuses ends in the wrong order with a ValueError provided the ends can be formatted: with tuples as ends it is a TypeError and such ranges cannot be printed at all; string ranges with '..' in their ends can print alike.", "quantifier": "all ranges of all factories over all endpoint types, all histories of range sets, all spans", "why_tests_cant": "Injectivity is about all pairs of ranges, sets and spans; tests look at a few printed ranges.", "anchors": ["vistautils/range.py:Range.__repr__", "vistautils/range.py:_Cut.describe_as_lower_bound", "vistautils/range.py:_SortedDictRangeSet.__repr__", "vistautils/range.py:Range.__attrs_post_init__", "vistautils/span.py:Span.__repr__"]}
{"id": "C99", "title": "File sinks and sources of io_utils on the file system", "statement": "CharSink.to_file / ByteSink.to_file make exactly the missing directories above the file (following the path part by part, '..' going to the parent) and change or empty no file; if something that is no directory is in the way they raise an OSError, and only directories can be new. A block 'with sink.open() as out' with any writes leaves the file the path leads to with exactly the accepted writes in order, a rejected write (unencodable text, wrong type) adding nothing, and changes nothing else; if a directory is there or the path leads nowhere, open() raises and nothing is changed. A block on a zip-file entry adds that entry after those the archive held. After any history of constructing and using sinks nothing has been removed, a file holds what the last block that opened it wrote, through whatever spelling of its path it is read (text with line ends read as \\n), a zip entry holds what the last block on it wrote unless the archive was overwritten, and files no block opened are unchanged. The sink to nowhere changes nothing. A str is no path for byte sinks, byte sources and zip entries. (Refuted: file_in_zip makes the directories above the archive like to_file does.)", "quantifier": "all file systems, current directories, path spellings, write sequences and histories of sinks and blocks (one block at a time)", "why_tests_cant": "Histories, spellings and file-system shapes are unbounded; tests write one file and read it back.", "anchors": ["vistautils/io_utils.py: CharSink.to_file", "vistautils/io_utils.py: ByteSink.to_file", "vistautils/io_utils.py: _FileCharSink", "vistautils/io_utils.py: _FileByteSink", "vistautils/io_utils.py: _FileInZipByteSink", "vistautils/io_utils.py: CharSource.from_file", "vistautils/io_utils.py: _NullCharSink", "vistautils/misc_utils.py: pathify"]}
{"id": "C100", "title": "Defaults given to optional getters: results, warnings and the program's logging", "statement": "Warning about a default never changes what an optional getter returns; optional_boolean_with_default returns the Boolean stored, the default if there is none, and raises for anything else, and optional_float behaves like optional_floating_point without a default. After any history of calls of optional getters: if none was given a default, logging is untouched; otherwise the warning was given once per default (twice by optional_boolean and by optional_arbitrary_list with a non-empty list, three times by optional_boolean_with_default) and each time written once by every handler that accepts warnings. After configure_logging_from has run, such calls do not change how other messages are printed. (Refuted: that configuring logging makes every message appear exactly once also holds when an optional getter was given a default before: in a program without handlers this makes every later message appear twice.)", "quantifier": "all Parameters objects, getters, defaults, histories of calls and logging states", "why_tests_cant": "The number of warnings and the state of logging depend on the whole history of calls; tests look at single return values.", "anchors": ["vistautils/parameters.py:Parameters._warn_about_default", "vistautils/parameters.py:Parameters.get_optional", "vistautils/parameters.py:Parameters.optional_boolean", "vistautils/parameters.py:Parameters.optional_boolean_with_default", "vistautils/parameters.py:Parameters.optional_float", "vistautils/parameters.py:Parameters.optional_arbitrary_list", "vistautils/parameters_only_entrypoint.py:configure_logging_from"]}
{"id": "C101", "title": "sub_namespaces gives the namespaces directly inside", "statement": "The namespaces directly inside a Parameters object are what namespace(k) returns for the top-level names k. sub_namespaces returns them in order, without those equal to one returned earlier (so every one of them is returned or equals one that is, no two returned are equal, and all are returned if no two are equal), provided none of them contains at any depth a parameter whose value is a list; it never raises anything but TypeError. In a configuration made from a nested mapping their prefixes are pairwise different, so that all of them are returned. (Refuted: it always returns them; a list anywhere inside one of the namespaces makes it raise TypeError. Refuted: there are as many as there are namespaces; the same Parameters object put under two names of a mapping is returned once.)", "quantifier": "all Parameters objects, at every depth", "why_tests_cant": "Ranges over all configurations; tests use configurations whose namespaces hold only scalars.", "anchors": ["vistautils/parameters.py:Parameters.sub_namespaces", "vistautils/parameters.py:Parameters (frozen attrs class)"]}
{"id": "C102", "title": "Error messages of Parameters say what is wrong", "statement": "A lookup without default has an error message exactly when the parameter is missing, and it is one of two. If the name leads into a namespace that lacks the next component, the message names the parameter, the namespace reached and, as printed lists, exactly the parameters and exactly the namespaces there, in order; each of the names listed can be used in place of the unknown component, and no other dot-free name can. If the name goes through a parameter that is no namespace, the message names it and shows its value. For the same name and prefix, equal messages mean the same namespace and the same names (the lists can be read back whatever characters the names contain). Looked up in a namespace of a configuration made from a mapping, the message begins with the dotted name by which the configuration knows this namespace. unify has its error message exactly when it raises, and the dotted name in it (after the prefix given) is a parameter on one side and a namespace on the other.", "quantifier": "all Parameters objects, names, prefixes and pairs of configurations", "why_tests_cant": "Exactness of the lists and readability are statements about all configurations and all names; tests compare one message or only check that an exception was raised.", "anchors": ["vistautils/parameters.py:Parameters._private_get", "vistautils/parameters.py:Parameters._namespace_message", "vistautils/parameters.py:Parameters.unify"]}
{"id": "C103", "title": "Processes sharing a file system do not break each other's directories and files", "statement": "Any number of processes may at the same time get directories (creatable_directory, Checkpoints.from_directory), get empty directories (creatable_empty_directory), get files (creatable_file) and write them, and set checkpoints, in one file system; between any two system calls of one process the others may run. Whatever they do: nothing that was there is lost or turns into something else, only the files asked for and the directories above what was asked for appear, every process comes to its end within a number of its own system calls fixed by its paths, and when a process has returned its directories exist and its files are there (with the content written if everybody who writes the file writes the same). If they do not get in each other's way (no file where another needs a directory, and nobody else touches a directory which is to be empty), no process fails, even if several create the same missing directories at the same moment. A process which is alone does what the sequential model says. Two processes asking for the same missing empty directory is not safe: one can get a ParameterError saying it is not a directory, or both can get it.", "quantifier": "all file systems, all numbers of processes, all programs of such calls, all schedules of the processes' system calls", "why_tests_cant": "The number of interleavings of system calls is unbounded; a test runs one schedule, and the bad ones need a switch inside a window of microseconds.", "anchors": ["vistautils/parameters.py:Parameters.creatable_directory", "vistautils/parameters.py:Parameters.creatable_empty_directory", "vistautils/parameters.py:Parameters.creatable_file", "vistautils/io_utils.py:is_empty_directory", "vistautils/checkpoints.py:Checkpoints.from_directory", "vistautils/checkpoints.py:_CheckPointDirectory.set"]}
{"id": "C104", "title": "Parameters objects are isolated from the dictionaries they were made from", "statement": "from_mapping, as_nested_dicts, unify, and from_key_value_pairs when no value is a dict, change no existing object and return a new object; as_nested_dicts returns dictionaries which are all new. Whatever a program does afterwards with its dictionaries, lists and other Parameters objects, along every path of names the same immutable value, the very same list object or the same names are found in a Parameters object; without lists its whole value stays what from_mapping computed from the dictionary at the time of the call. The values of the results are those of the value model (C40-C45). A dictionary that contains itself is never converted. Not so: a list is shared, so changing it changes the Parameters object's value; from_key_value_pairs changes a dictionary it was given as a value if a later key leads into it.", "quantifier": "all programs: sequences of making and changing dicts and lists and of calls of from_mapping, from_key_value_pairs, as_nested_dicts and unify, in any order; all objects, sharing and cycles among them; all paths", "why_tests_cant": "Aliasing shows only in later mutations; the claim ranges over all later programs and all shapes of sharing, including cycles.", "anchors": ["vistautils/parameters.py: Parameters.from_mapping, from_key_value_pairs, as_nested_dicts, unify"]}
{"id": "C105", "title": "What a process that dies leaves of a directory store", "statement": "If a process using a directory sink is killed at any moment - between two system calls or in the middle of a write - nothing outside the directory is different, except that, if it dies while entering, the (empty) directory itself may be missing. In the directory, of the first n puts that had returned each document has the value last put; the document being written is untouched or has a beginning of the new value (its old value is then gone); there are no other documents, and until all puts have returned there is no index. So a source cannot be built then (ParameterError), and the sink cannot be entered again on the directory (OSError) once a put has returned. If the process dies while leaving, the index may be torn: then building the source fails, or the source lists the first of the keys in sorted order, each with its own file, and perhaps one key more with a torn path. All these states are possible. A torn index can be read without any error and give a key the value of another key; an index of which nothing is written reads as an empty store; a file that is written again is empty in between.", "quantifier": "all file systems, directories, sequences of puts of writable values under keys naming files side by side, and all points at which the process dies, including after every byte", "why_tests_cant": "A test can kill a process at few moments and cannot choose how many bytes of a write the operating system took; the claim ranges over every such point of every session.", "anchors": ["vistautils/key_value.py:_DirectoryCharKeyValueSink", "vistautils/key_value.py:_DirectoryBytesKeyValueSink", "vistautils/io_utils.py:CharSink.to_file", "vistautils/io_utils.py:write_doc_id_to_file_map", "vistautils/io_utils.py:read_doc_id_to_file_map"]}
{"id": "C106", "title": "as_ranges() is a live view, and adding to a set while iterating over it", "statement": "as_ranges() of a range set is not a copy: at any later time it shows what the set has then (always the same for an immutable set). s.add_all(s) and s.add_all(s.as_ranges()) leave the set as it was: the iteration delivers every range once, in order, and ends. A loop that adds f(r) to the set for each r its own view delivers: if it ends, the set is what adding all these f(r) at once gives, each r was a member when it was delivered, at the place numbered by those delivered before, and no fewer ranges were delivered than the set has at the end; it ends if every f(r) encloses r, and then delivers no more ranges than the set had at the beginning. Such a loop can skip a range that is in the set all the time (when ranges before it coalesce), and need not end when f(r) does not enclose r.", "quantifier": "all programs creating and changing range sets and views, all sets reachable by histories, all functions f", "why_tests_cant": "Depends on the positions of coalescing ranges relative to the iterator in every reachable set; tests only iterate over unchanging sets.", "anchors": ["vistautils/range.py:_SortedDictRangeSet.as_ranges", "vistautils/range.py:_MutableSortedDictRangeSet.add_all", "vistautils/range.py:_MutableSortedDictRangeSet.add"]}
{"id": "C107", "title": "Equality and hash of range maps", "statement": "Two immutable range maps are equal exactly when every range is a key of both with equal values, or a key of neither; the order in which the pairs were given and values replaced by later pairs do not matter. The equality is an equivalence if that of the values is, and equal maps give the same answers (is_empty, in, [], get_from_rightmost_containing_or_below, get_from_leftmost_containing_or_above, get_enclosed_by) up to equality of values. It is not equality of lookups: maps on the integers with keys [1..2] and [1..3) answer every lookup alike and are unequal. Claims that fail: the __eq__ a further subclass of RangeMap inherits ignores the values; hash() of one map asked twice differs unless the temporary view of its ranges gets the same address, and it raises if a value is unhashable.", "quantifier": "all lists of pairs of ranges and values from which maps can be built, all totally ordered endpoint types, all equalities and hash functions on the values", "why_tests_cant": "Ranges over all maps, orders of construction and queries; the hash depends on object addresses, which a test cannot choose.", "anchors": ["vistautils/range.py:ImmutableRangeMap", "vistautils/range.py:RangeMap.__eq__", "vistautils/range.py:RangeSet.__hash__"]}
{"id": "C108", "title": "Equality of Parameters objects", "statement": "Two Parameters objects are equal exactly when they have the same prefix and every dotted name is missing in both, or is in both a namespace with the same prefix, or has in both equal values that are no namespaces; the order of the parameters does not matter. Equality is reflexive, symmetric and transitive if == of the stored values is. Equal objects agree on `in`, has_namespace and string(), and their namespace(k) are equal, as are their as_nested_dicts(); from_mapping of equal nested dicts gives equal objects. (Refuted: a namespace equals the Parameters made from its own nested dicts; its prefix differs, so it never does. Refuted: equal objects are interchangeable; True == 1, so of two equal objects one can have a boolean parameter where boolean() of the other raises ParameterError.)", "quantifier": "all Parameters objects of any depth, all nested mappings, all prefixes, every equality of floats and of values of unknown classes", "why_tests_cant": "Ranges over all pairs and triples of configurations of any nesting; tests compare a few literals.", "anchors": ["vistautils/parameters.py:Parameters (attrs frozen class: __eq__)", "vistautils/parameters.py:Parameters.from_mapping", "vistautils/parameters.py:Parameters.as_nested_dicts"]}
{"id": "C109", "title": "Equality and order of the value classes", "statement": "Spans compare with <, <=, >, >= by start and then end, a strict total order consistent with ==; sorting spans of which no two overlap with sorted() puts them in the order of the text and agrees with sorting by earliest_then_longest_first_key. MemoryAmounts are equal exactly when amount and unit are; those with different amounts compare by the amounts, those with the same amount and different units raise TypeError. WithId objects compare by id, by item only when the ids are equal; annotations are equal exactly when label, span and attributes (in any order) are, and compare by label, then span, and raise TypeError when only their attributes differ. (Refuted: the natural order of spans puts the longer of two that begin together first. Refuted: equal amounts of memory are equal; 1024K != 1M. Refuted: < compares amounts of memory; 1T < 2K. Refuted: scored items are ordered by score; the items are compared first.)", "quantifier": "all spans, lists of non-overlapping spans, amounts and units, ids, items, scores and annotations", "why_tests_cant": "Ranges over all pairs and triples of values and all lists; the comparison methods are generated by attrs and no test uses them.", "anchors": ["vistautils/span.py:Span (attrs class: comparison methods)", "vistautils/memory_amount.py:MemoryAmount", "vistautils/misc_utils.py:WithId", "vistautils/misc_utils.py:Scored", "vistautils/annotated_text_utils.py:AnnotatedSpan"]}
{"id": "C110", "title": "Buffer sinks with several handles open", "statement": "For CharSink.to_string() and ByteSink.to_buffer(): after any history of calls on any number of sinks and of the handles their open() gave out (write, seek, tell, close, leaving a with-block, in any order), last_string_written / last_bytes_written is the text of the handle of that sink whose block was left last: at each place what the last accepted write covering it put there (the character or byte 0 in a gap), i.e. all accepted writes in order if the handle was not moved; None if no block was left. Writes to other handles and to other sinks make no difference; a handle that is only closed leaves no trace. A handle accepts every write until it is closed or its block is left, and then raises ValueError; a value of the wrong type is a TypeError and changes nothing. sink.write(data) makes data the last text; of a value of the wrong type it raises TypeError and the last text becomes empty.", "quantifier": "all histories (interleavings) of calls on any number of buffer sinks and handles, all texts and positions", "why_tests_cant": "the interleavings of calls on several handles are unboundedly many", "anchors": ["vistautils/io_utils.py: StringCharSink", "vistautils/io_utils.py: BufferByteSink", "vistautils/io_utils.py: CharSink.to_string", "vistautils/io_utils.py: CharSink.write", "vistautils/io_utils.py: ByteSink.write"]}
{"id": "C111", "title": "Zip sources: any interleaving of iterators, lookups, entering and leaving", "statement": "For a zip key-value source and its interpreted forms: items() asks for the keys at once (the interpretation of a linear source only at the first next()), raising AssertionError if the source is not entered and NotImplementedError if it does not know its keys. In a with-block any number of iterators, stepped through in any order with lookups in between, give each what one complete iteration gives: every key that passes the filter with its value, up to a value that cannot be read or interpreted, whose exception is raised once. After the block an iterator with a key left raises AssertionError once and is then finished. (Refuted: an iterator goes through the store it was made of: if the source is left and entered again after the file was rewritten, it gives the old keys with the new values, and KeyError for a key that is gone.)", "quantifier": "all histories of entering (with any file contents), leaving, items(), next() and lookups on one source object", "why_tests_cant": "interleavings of iterators and blocks are unboundedly many", "anchors": ["vistautils/key_value.py: KeyValueSource.items", "vistautils/key_value.py: _ZipFileKeyValueSource", "vistautils/key_value.py: _InterpretedKeyValueSource", "vistautils/key_value.py: InterpretedLinearKeyValueSource"]}
{"id": "C112", "title": "Iteration helpers over iterators that raise", "statement": "Over an iterator that raises after some elements, windowed (with or without partial windows) gives the complete windows of these elements, then raises the exception, then stops; drop gives the elements after the skipped ones, then raises (at once, if the exception comes while skipping), then stops; only and get_only raise the exception unless two elements came before it (ValueError), and never return an element followed by an exception; non_none gives the elements that are not None, then raises, then stops. Nothing is asked of the iterator after it has raised. Over iterators that do not raise they do what C37 and C38 say.", "quantifier": "all iterators raising any exception at any point, all window sizes, numbers of skipped elements and of next() calls", "why_tests_cant": "the point of failure, the window size and the number of calls are unbounded", "anchors": ["vistautils/iter_utils.py: windowed", "vistautils/iter_utils.py: drop", "vistautils/iter_utils.py: only", "vistautils/iter_utils.py: non_none", "vistautils/collection_utils.py: get_only"]}
{"id": "C113", "title": "Ranges over values that cannot all be compared", "statement": "For values whose < gives any boolean or raises: closed, closed_open and open_closed accept endpoints a, b exactly if a < b, or neither a < b nor b < a; open accepts them exactly if a < b; a comparison that raises is passed on, otherwise ValueError. Factories with at most one endpoint compare nothing. A value is in a range exactly if the comparisons of the endpoints with it say so (lower < x, or == for a closed bound; not upper < x, and not == for an open one), and the test raises exactly what one of these comparisons raises. intersects is True exactly if intersection gives a range. If < is a partial order (frozensets, floats with NaN), ranges are convex, empty ranges have no members, a value comparable with the endpoints is a member exactly as documented, one comparable with none (NaN) exactly of ranges without lower bound; for ranges with comparable bounds encloses, intersection and span are right about members. For a total order all of this is C01-C09. (Refuted for partial orders: the table of members in the documentation, soundness of encloses, commutativity of intersection; a range made from NaN is not equal to itself.)", "quantifier": "all value types, comparison functions, endpoints, ranges and values", "why_tests_cant": "the comparison function is arbitrary", "anchors": ["vistautils/range.py: Range", "vistautils/range.py: Range.__contains__", "vistautils/range.py: Range.encloses", "vistautils/range.py: Range.intersection", "vistautils/range.py: Range.span"]}
{"id": "C114", "title": "Directory sinks: any history of calls, several sinks on one directory", "statement": "On an empty directory, with keys that name files side by side in it, for any history of __enter__, put and __exit__ calls on any number of directory sinks (text or bytes), in any order and with exceptions caught: entering succeeds exactly until the first put or exit of any of the sinks, and otherwise raises and changes nothing; a put succeeds exactly if the value can be written; leaving always succeeds. Afterwards each key's file holds what was put last, by whichever sink (nothing, if that value could not be written), there is an index exactly if a sink has been left, there are no other files and nothing outside the directory has changed. A source over the index lists exactly the keys which the sink left last had put successfully by then, and reads for them the values put last by any sink, even later. (Refuted: what sinks which have all been left have put, and nobody replaced, can be read.)", "quantifier": "all directories, sinks, keys, values and interleaved histories of calls", "why_tests_cant": "histories and interleavings are unbounded", "anchors": ["vistautils/key_value.py: _DirectoryCharKeyValueSink", "vistautils/key_value.py: _DirectoryBytesKeyValueSink", "vistautils/key_value.py: write_doc_id_to_file_map"]}
{"id": "C115", "title": "Range sets and values of several types: a refused range changes nothing", "statement": "With values of several types, where values of one type are totally ordered and comparing values of different types raises TypeError, for every history of add, add_all, clear, remove and remove_all calls (exceptions caught) with ranges the factories have made: add raises exactly if the range is not empty and has an endpoint of another type than an endpoint in the set; it then raises TypeError and the set is as it was. add_all stops at the first such range and keeps what it had added. So a set never mixes types: every history gives the set that the totally ordered calls without the refused ranges give, and questions about values and ranges of the set's type are answered as there. Questions about a value or range of another type raise TypeError, except: rightmost_containing_or_below gives the range of a set that is one range without lower bound, and encloses, range_enclosing_range and ranges_enclosed_by say no where every member range says no when asked alone. Bisection as Python does it finds the same places in the sorted bounds as a scan from the left, and raises in the same cases. (Refuted: every such question raises TypeError.)", "quantifier": "all total orders on each of any number of types, histories of calls, queried values and ranges", "why_tests_cant": "histories, value types and orders are unbounded; which comparisons are made depends on the whole set", "anchors": ["vistautils/range.py: MutableRangeSet", "vistautils/range.py: RangeSet", "vistautils/range.py: _MutableSortedDictRangeSet", "vistautils/range.py: _value_below", "vistautils/range.py: _clear"]}
{"id": "C116", "title": "Files in .tar.gz archives with links", "statement": "Reading CharSource.from_file_in_tgz follows links: a symbolic link leads to the last member, anywhere in the archive, at its target taken from the directory of the link's own name; a hard link to the last member before it at its target. The text is the decoded contents of the file at the end of the links. KeyError is raised if the name, or a link's target, is not in the archive, IOError if the end is a directory or device, RecursionError if there are more links than nested calls are allowed, as always with two symbolic links to each other; hard links alone always come to an end. is_empty looks only at the size of the named member itself: right for files, but always True for links. Without links all this is the behaviour stated in C65. (Refuted: is_empty tells whether the text read is empty.)", "quantifier": "all archives with files, directories, symbolic and hard links in any order and with any targets, all names, all limits on nested calls", "why_tests_cant": "unbounded archives and chains of links", "anchors": ["vistautils/io_utils.py: _FileWithinTgzCharSource, CharSource.from_file_in_tgz"]}
{"id": "C117", "title": "The key-value scripts can be killed at any moment and simply run again", "statement": "Suppose one of the scripts split_key_value_store (with num_slices or explicit_split), join_key_value_stores, downsample_key_value_store and directory_to_key_value_store is run on a valid configuration with zip outputs that are none of its inputs, and its process is killed at any moment. Then its inputs, and all files and directories other than its outputs and new directories on the way to them, are as before. With num_slices the slices on disk are of three kinds in order: the first ones opened but not finished, then (only once all were opened) complete ones, then untouched ones; _slices.txt is a beginning of its text, and complete if any slice was opened. With explicit_split the outputs before some split are complete, that one is untouched or unfinished, the later ones are untouched. The single output of the other scripts is as before, unfinished, or complete. After any number of killed runs a complete run succeeds with the same result as if the killed runs had never happened: the same bytes in all files (for directory_to_key_value_store and explicit_split: the same pairs in the outputs and the same bytes everywhere else). If an unfinished zip file cannot be opened, then an output that can be opened is complete or that of before. But the old contents of an output are not safe: they are gone as soon as it is opened.", "quantifier": "all configurations, file systems, stores, numbers of slices and splits, all moments at which a run is killed, and all sequences of killed runs", "why_tests_cant": "A test can kill a script at a few moments; the claim is about every moment of every run, with any leftovers of any number of earlier killed runs.", "anchors": ["vistautils/scripts/split_key_value_store.py:main", "vistautils/scripts/join_key_value_stores.py:main", "vistautils/scripts/downsample_key_value_store.py:main", "vistautils/scripts/directory_to_key_value_store.py:main", "vistautils/key_value.py:_ZipBytesFileKeyValueSink", "vistautils/parameters.py:Parameters.creatable_directory"]}
{"id": "C118", "title": "References that lead through a parameter instead of a namespace", "statement": "If a reference %a.b.c% leads through a parameter of the file (a is a value, not a namespace), then: if the parameter is the last part but one, loading raises AttributeError; if an earlier part and the value is neither string nor list, or is a string containing the next part as a substring, or a list having it as an element, loading raises TypeError; the first such reference in the order of the file decides, whatever the context offers and whatever else is wrong. Otherwise (a string without the substring and without references of its own, a list without the element) the reference is treated as not defined in the file and takes the value the context gives it. (Refuted: the order of the parameters in a file does not matter - when the string led through contains references itself, it decides whether the file loads.)", "quantifier": "all nested mappings, contexts, reference names and orders of parameters", "why_tests_cant": "the outcome depends on every prefix of every reference, on the value met there and on the position in the file; tests try a few names", "anchors": ["vistautils/parameters.py: YAMLParametersLoader._interpolate, get_from_nested_dict, gather_interpolation_edges"]}
{"id": "C119", "title": "Range maps and values of several types: made only if the keys are of one type", "statement": "With values of several types, where values of one type are totally ordered and comparing values of different types raises TypeError: immutablerangemap (and the builder) with keys the factories have made gives a map exactly if all endpoints of the keys are of one type and the totally ordered map exists (C25), and then it is that map. It raises TypeError exactly if, with the distinct keys taken in the order of their first appearance, a non-empty key has an endpoint of another type than an endpoint of the ranges that the keys before it make up; every other failure is the ValueError of empty or connected keys. Questions about values and ranges of the map's type are answered as in C26; about another type they raise TypeError, except that get_from_rightmost_containing_or_below gives the value of a map whose only key has no lower bound, and get_enclosed_by gives no values if no key says it is enclosed when asked alone. Rebuilding a map from its items gives the same map. (Refuted: keys of two types always give TypeError.)", "quantifier": "all total orders on each of any number of types, lists of keys and values, queried values and ranges", "why_tests_cant": "which comparisons are made depends on the order of the keys and on how the ranges before a key coalesce", "anchors": ["vistautils/range.py: immutablerangemap, ImmutableRangeMap.__attrs_post_init__, __contains__, __getitem__, get_enclosed_by, get_from_rightmost_containing_or_below, get_from_leftmost_containing_or_above, __reduce__"]}
{"id": "C120", "title": "tar_gz_to_zip can be killed at any moment and simply run again", "statement": "Suppose tar_gz_to_zip is killed at any moment. Without --dont-stream nothing but the output has changed, and the output is as before, missing, unfinished or complete. With --dont-stream and a tar file of regular files that can be unpacked, everything is as before except for: new directories above members; the places of the members, which hold what was there before, nothing, or a beginning of the member; and the output. In both cases, after any number of killed runs, a run that is not killed ends exactly as if the others had never happened: the same bytes in all files, the same directories, and (without --dont-stream, whatever the tar file) the same exception, if any. (Refuted: a killed run with --dont-stream leaves none of the members in the current directory.)", "quantifier": "all file systems, arguments, tar files, cutoffs, all moments at which a run is killed, and all sequences of killed runs", "why_tests_cant": "A test can kill the script at a few moments; the claim is about every moment of every run, with any leftovers of any number of earlier killed runs.", "anchors": ["vistautils/scripts/tar_gz_to_zip.py:main"]}
{"id": "C121", "title": "The zip file that tar_gz_to_zip makes serves instead of the tar file", "statement": "After tar_gz_to_zip has converted a gzipped tar file, a name whose last member in the tar file is a regular file (not larger than --omit-large-files allows) can be read from the zip file beside it: ByteSource.from_file_in_zip gives exactly its bytes, and CharSource.from_file_in_zip the text that CharSource.from_file_in_tgz gives, up to newlines, which only the zip source translates: the texts are equal iff the file has no CR; undecodable bytes raise the same exception. Names of links, directories and only too large files, and unknown names, raise KeyError, although from_file_in_tgz follows links. As a zip store the file gives the same bytes by key, but (without a member \"__keys\") has no key list: keys() is None and items() raises NotImplementedError. A linear tar source with the names as keys gives exactly the entries of the zip file in their order. (Refuted: with --omit-large-files what the zip file has under a name is what the tar file has; a file that was added again, too large, is served in its outdated version.)", "quantifier": "all file systems, arguments, gzipped tar files (with links, duplicated names, any contents), cutoffs and names", "why_tests_cant": "It relates four ways to read to each other for every archive, including duplicated names, links, and cutoffs that fall between versions; a test covers one archive at a time.", "anchors": ["vistautils/scripts/tar_gz_to_zip.py:main", "vistautils/io_utils.py:CharSource.from_file_in_tgz", "vistautils/io_utils.py:CharSource.from_file_in_zip", "vistautils/io_utils.py:ByteSource.from_file_in_zip", "vistautils/key_value.py:KeyValueSource.zip_bytes_source", "vistautils/key_value.py:KeyValueLinearSource.byte_linear_source_from_tar_gz"]}
{"id": "C122", "title": "Range sets and maps answer about NaN as their ranges do", "statement": "Let a range set be built by any calls with ranges whose endpoints are totally ordered (floats without NaN, say), and q be a value that is neither less than, greater than nor equal to any of them (NaN). A range contains q iff it has no lower bound, whatever its upper bound; q in the set iff one of its ranges contains it, and range_containing(q) and rightmost_containing_or_below(q) give that range, or None; the bisection behind this is well defined although the bounds are not sorted with respect to q. In a range map, m[q] and get_from_rightmost_containing_or_below(q) give the value of the key without lower bound, or None, and q in m says whether there is one. Such values change nothing else: sets have the same ranges and say the same about ordinary values as if they did not exist. (Refuted: leftmost_containing_or_above(q) gives the range that contains q: without open lower bounds it gives the last range, or None.)", "quantifier": "all histories of calls and all sequences of pairs, over any totally ordered endpoints, and all values that are comparable to none of them", "why_tests_cant": "It is about every history and about bisection in a list that is not sorted with respect to the query; tests use comparable values.", "anchors": ["vistautils/range.py:_SortedDictRangeSet.range_containing", "vistautils/range.py:_SortedDictRangeSet.rightmost_containing_or_below", "vistautils/range.py:_SortedDictRangeSet.leftmost_containing_or_above", "vistautils/range.py:ImmutableRangeMap", "vistautils/range.py:_value_at_or_below"]}
{"id": "C123", "title": "tar_gz_to_zip --dont-stream: damaged tar files and repeated names", "statement": "With --dont-stream and a tar file that is damaged after some members (with plain names, possibly repeated, nothing in their way), tar_gz_to_zip raises the error of the damage and leaves an empty but complete zip file; all members before the damage stay unpacked in the current directory, each file with the last content of its name, over files of the same names that were there; nothing else changes. (Refuted: --dont-stream adds the tar contents to the zip file. A tar file with two regular files of one name makes it raise FileNotFoundError at the second; the zip file has the files before that one, each with the last content of its name, which are gone from the current directory, and the other files stay unpacked.)", "quantifier": "all file systems, tar files, members, repetitions, damages and options", "why_tests_cant": "the outcome depends on where the damage or the repetition lies among arbitrarily many members and on what is on the disk", "anchors": ["vistautils/scripts/tar_gz_to_zip.py: main"]}
{"id": "C124", "title": "Parameters.as_mapping and pickled_object_from_file", "statement": "as_mapping gives exactly the parameters and namespaces whose names have no dot, null values included, each once; two Parameters objects with the same mapping hold the same value for every dotted name. pickled_object_from_file gives what pickle makes of the bytes of the file the parameter names, and raises ParameterError if the parameter is missing or names no file, the type error if it is no string.", "quantifier": "all parameters, names, file systems and unpicklers", "why_tests_cant": "ranges over all parameter trees and file systems", "anchors": ["vistautils/parameters.py: Parameters.as_mapping", "vistautils/parameters.py: Parameters.pickled_object_from_file"]}
{"id": "C125", "title": "One zip sink object used for several \"with\" blocks, and any history of calls", "statement": "A zip key-value sink object created with overwrite=False can be used for any number of \"with\" blocks, one after the other: each behaves like a new sink, refuses exactly the keys in the store, and the store ends with everything accepted. Whatever is called on a zip sink, in any order: after a put of a key (with a value other than None) has been tried on an entered object, whether it succeeded or not, every later put of that key raises ValueError and changes nothing, so at most one put of a key is ever accepted; after a block has ended well, every put and exit raises and leaves the file alone until the object is entered again. (Refuted: an overwriting sink starts afresh each time. Used again, it refuses the keys of its earlier blocks and lists them in the file's key list, but has lost their values: reading them raises KeyError, and iterating over the store fails.)", "quantifier": "all files, sequences of blocks, histories of calls on one object, keys and values", "why_tests_cant": "an object may be used for arbitrarily many blocks and calls; the guarantee is about all of them", "anchors": ["vistautils/key_value.py: _ZipKeyValueSink.put", "vistautils/key_value.py: _ZipKeyValueSink.__enter__", "vistautils/key_value.py: _ZipKeyValueSink.__exit__"]}
{"id": "C126", "title": "Whether splitting and downsampling a store can be repeated", "statement": "Downsampling the same input file with the same random_seed and num_to_sample keeps the same pairs in every process, whatever the iteration order of Python's sets, the output path and the other files and parameters. Splitting with num_slices gives the same slices for any two inputs holding the same pairs, even if they list their keys in different orders. (Refuted: the docstring's 'the ordering of the key-value pairs in the output is undefined but deterministic': whenever two or more pairs are kept, the order of the output's keys depends on the iteration order of a set of strings, which differs between processes. Refuted: the sample depends only on the pairs: two stores with the same two pairs listed in different orders give different samples of size 1, for every shuffle that looks at positions only.)", "quantifier": "all parameters, file systems, inputs, seeds, numbers of pairs and slices, all iteration orders of sets, all shuffles", "why_tests_cant": "a test runs in one process, with one hash seed and one order of the keys", "anchors": ["vistautils/scripts/downsample_key_value_store.py: main", "vistautils/scripts/split_key_value_store.py: main", "vistautils/key_value.py: _write_keys_to_keys_file, _ZipKeyValueSink.__exit__"]}
{"id": "C127", "title": "Exactly the parameter files that have a meaning can be loaded, with that meaning", "statement": "A YAML parameter file has a meaning when its text is a mapping with string keys, each file of its _includes list can be found and has a meaning in the context of the earlier ones, its own names have no dots, its references form no circle, every reference has a value in the file or in what was loaded before (or the environment), no namespace would contain itself, and it agrees with everything loaded before it on what is a parameter and what is a namespace; the meaning is the merge of the context, the includes in order and its own interpolated parameters. YAMLParametersLoader().load succeeds on every file with a meaning (given enough stack for the chain of includes), and the parameters it returns are that meaning; load_string likewise. Conversely, where references that run through another parameter are only of the kind that is passed over (C118), whatever is loaded has a meaning, and files without one raise IOError. The meaning is unique.", "quantifier": "all file systems, working directories, paths, contexts, environments, YAML parsers, file contents, include structures and namespaces", "why_tests_cant": "Which files load is a condition on the whole chain of includes and on every reference in it; tests try a few include trees and cannot show that no well-formed one is refused.", "anchors": ["vistautils/parameters.py:YAMLParametersLoader.load", "vistautils/parameters.py:YAMLParametersLoader.load_string", "vistautils/parameters.py:YAMLParametersLoader._inner_load_from_string", "vistautils/parameters.py:YAMLParametersLoader._interpolate", "vistautils/parameters.py:Parameters.unify"]}
{"id": "C128", "title": "Scripts from the command line with parameter files that have includes and references", "statement": "A program made with parameters_only_entry_point and started with a parameter file that has a meaning in the sense of C127 (includes, %references%, context and environment resolved) and '-p name value' pairs that do not contradict it calls its main function, once, with exactly the parameters the file means and the pairs put over them, after configuring logging at the level asked for. A file without a meaning ends it with IOError, with main not called and no file and no logging setting changed. So split_key_value_store (with num_slices or explicit_split), join_key_value_stores, downsample_key_value_store and directory_to_key_value_store do from end to end what C95 says, for every parameter file with a meaning.", "quantifier": "all main functions, command lines of '-p' and words that argparse takes for values, parameter files with a meaning (any includes, references, environment), override pairs agreeing with the file, file systems, stores, seeds and logging levels; with enough stack for the nesting of includes", "why_tests_cant": "The parameters the main function sees depend on every file of the include tree, the environment and the command line together; tests try single combinations.", "anchors": ["vistautils/parameters_only_entrypoint.py:parameters_only_entry_point", "vistautils/parameters.py:YAMLParametersLoader.load", "vistautils/scripts/split_key_value_store.py: main", "vistautils/scripts/join_key_value_stores.py: main", "vistautils/scripts/downsample_key_value_store.py: main", "vistautils/scripts/directory_to_key_value_store.py: main"]}
{"id": "C129", "title": "CharSink.to_nowhere in place of another sink", "statement": "A program that only writes to an open sink (entering and leaving its block, write, writelines, flush, close, tell, fileno) and looks at whether a call raised but not at what it returned does with CharSink.to_nowhere() what it does with any other sink that accepts all its calls: it returns the same result, or raises the same exception of its own. The sink that ignores its input accepts each of these calls at any time, also after close() and for values that are no text; reading, seeking and truncating raise NotImplementedError. With any sink CharSink.write succeeds exactly if none of the calls it makes on the opened file raises, and otherwise raises what one of them raised. Writing Parameters to nowhere succeeds exactly if all values can be written, and raises RuntimeError otherwise, as with a string sink. (Refuted: its handle is a text file: closed is true from the start, write gives no number of characters, writelines does not go through its argument.)", "quantifier": "all programs (trees of calls and continuations), all kinds of handles they are compared with, all values written, all Parameters", "why_tests_cant": "a test runs one program against one sink; that the sink can stand in for any other is a statement about all programs and all handles", "anchors": ["vistautils/io_utils.py: CharSink.to_nowhere, _NullCharSink, CharSink.write, StringCharSink", "vistautils/parameters.py: YAMLParametersWriter.write"]}
{"id": "C130", "title": "How long the texts of a loaded parameter file can get", "statement": "When the references in a parameter file have been replaced, a string parameter of the file has become a string of at most L^n * C characters (or a value that is no string), where n is the number of string parameters of the file, L bounds the length of the strings in the file and C that of the strings in the context. (Refuted: a bound that is polynomial in the size of the file: for every n there is a file of n+1 string parameters of at most 2n+4 characters each that is loaded and has then a string of 2^n characters.)", "quantifier": "all parameter files whose references go through namespaces or are passed over, all contexts, all bounds L and C, all string parameters; all n for the exponential family", "why_tests_cant": "a worst-case bound over all files, and a family of files of unbounded size that shows that there is no much better one", "anchors": ["vistautils/parameters.py: YAMLParametersLoader._interpolate, YAMLParametersLoader.load"]}
{"id": "C131", "title": "What sources leave open", "statement": "After a program that reads from sources with \"with source.open() as f\" (nested in any way, also for several members of one archive, with exceptions raised and caught anywhere, handles and ZipFile objects possibly closed before the end of their blocks), or with read_all, readlines, is_empty and read, the files still open are exactly: an archive for each open() that failed after opening the archive (member missing, not a file, not decodable, or a tar file found to be damaged later), and the tar file for each is_empty() of a file in a .tar.gz. So nothing stays open if none of this happens: closing the handle of a file in an archive closes the archive. A handle is not disturbed by what is done with other sources in between, even if the ZipFile it came from is closed. A handle gives its contents once, and after that nothing more; reading one that has been closed raises ValueError. A source of a member of the caller's ZipFile leaves that open, and raises ValueError once it has been closed. Contents are those of C65/C66. (Refuted: is_empty closes what it opens; a failing open leaves nothing open - n calls leave n files open.)", "quantifier": "all programs (trees of calls, with-blocks and continuations), all file systems, all archive formats (as codecs), all sources and decoders", "why_tests_cant": "a test runs one nesting of blocks; the claim is about all interleavings of opening, reading, closing and raising", "anchors": ["vistautils/io_utils.py: CharSource.open, read_all, readlines, is_empty, ByteSource.read, _FileWithinTgzCharSource, _GZipFileSource, _ByteSourceFromPathInZipFile, _ByteSourceFromPathInOpenZipFile, _CharSourceWrappingByteSource"]}
{"id": "C132", "title": "No history of script runs makes up data", "statement": "Whatever sequence of runs of split_key_value_store, join_key_value_stores and downsample_key_value_store, with whatever parameters and however each run ends (also with an exception half-way), interleaved with copying, moving and deleting files, has led to the present state: every value that can be read in any zip store under a key was, at the beginning, in some zip store under that very key. No run ever invents, alters or re-labels a value. (Only the entry __keys, in which a store keeps its list of keys, is written anew. Inputs that are maps of files are left out: for them the claim is false, since their values are the contents of files.) Every run of the join script is such a step as long as the user's own code makes no zip sinks, and every run of the other two whose input has type zip is.", "quantifier": "all histories (finite sequences of runs and rearrangements of files), all parameters of each run, all file systems, zip formats, orders of sets and shuffles, user-defined sources that serve what is stored and user-defined sinks", "why_tests_cant": "a test runs one chain of scripts on one set of stores; the claim is about every chain, including runs that fail, outputs that overwrite inputs, slices used as inputs and files moved in between", "anchors": ["vistautils/scripts/split_key_value_store.py", "vistautils/scripts/join_key_value_stores.py", "vistautils/scripts/downsample_key_value_store.py", "vistautils/key_value.py:_ZipKeyValueSink", "vistautils/key_value.py:_ZipFileKeyValueSource"]}
{"id": "C133", "title": "Objects that have a span", "statement": "An object of a class derived from HasSpan whose span leads to a Span, directly or through other such objects, has the start and end of that Span and contains exactly the offsets and spans that it contains; it can be given to contains_span, in, precedes and follows in its place. If an object on the way has no span, AttributeError is raised, and RecursionError if there is no end. (Refuted: it can be given to overlaps, intersection and clip_to: these raise AttributeError, except that overlaps and intersection say False and None if the span precedes it.) An index of such objects answers every question by the spans that its items had when it was built, whatever has been assigned to them before and since and whatever other indices were built. (Refuted: it follows the changes of its items.)", "quantifier": "all objects, chains of objects, spans and offsets; all histories of assignments to spans, of indices being built and of questions", "why_tests_cant": "tests use one item with one fixed span; chains of any length and all histories of assignments between building an index and asking it cannot be enumerated", "anchors": ["vistautils/span.py:HasSpan", "vistautils/span.py:Span", "vistautils/span.py:HasSpanIndex", "vistautils/span.py:_OverLappingHasSpanIndex"]}
{"id": "C134", "title": "Files that are added do not change what parameter files mean; scripts in a row", "statement": "What has been loaded from a parameter file (with its includes, references and environment) is loaded again, identically, after any files or directories have been added, whatever they are called; a file that means something in the sense of C127 still means the same, and the existing files, directories, path lists and path maps that parameters name are still found. So a parameter file that does not use the outputs of scripts means after any number of runs of the scripts what it meant before, and split_key_value_store followed by join_key_value_stores on the list of slices, each started from the command line with any parameter file that has a meaning, gives a store with exactly the keys and values of the first.", "quantifier": "all file systems and additions to them, parameter files and texts with any includes and references, parameters, sequences of script runs, command lines, stores, numbers of slices, seeds", "why_tests_cant": "Includes can be nested to any depth and paths take any route, so tests see a few file trees and a few added files; the guarantee is about all additions and all sequences of runs.", "anchors": ["vistautils/parameters.py: YAMLParametersLoader.load, load_string, _inner_load_from_string, Parameters.existing_file, existing_directory, path_list_from_file, path_map_from_file", "vistautils/scripts/split_key_value_store.py: main", "vistautils/scripts/join_key_value_stores.py: main"]}
{"id": "C135", "title": "Scripts that run at the same time", "statement": "Runs of downsample_key_value_store, of join_key_value_stores and of split_key_value_store (into slices or by explicit_split), with zip outputs, may be done at the same time, whatever their processes do between each other's steps: if each would work alone, their outputs are different, no output is a directory above another one and none is an input of any of them, then no run fails, each is through after a number of steps of its own, and each output (for a split into slices: the slices and the list of them) has, byte for byte, the content it would have had alone, at whatever moment the inputs were read. At every moment nothing else is different but new directories on the way to the outputs. Once all are through the file system is the one that they leave when run one after the other, in any order. (Refuted: this when an output is an input of another run, which may then fail; and with two runs that have the same output, one of the results being lost.)", "quantifier": "all file systems, any number of runs with any parameters and inputs, all schedules of their steps, all orders", "why_tests_cant": "The number of interleavings of the processes' system calls grows exponentially, and a test cannot make the operating system choose each of them; it says nothing about other numbers of processes and other directories.", "anchors": ["vistautils/scripts/downsample_key_value_store.py: main", "vistautils/scripts/join_key_value_stores.py: main", "vistautils/scripts/split_key_value_store.py: main", "vistautils/scripts/split_key_value_store.py: _split_into_even_slices", "vistautils/scripts/split_key_value_store.py: _explicit_split", "vistautils/parameters.py: Parameters.creatable_file"]}
{"id": "C136", "title": "pathify: a string or a Path, all the same", "statement": "pathify returns a Path as it is and turns a string into a Path; two strings become the same Path exactly if they begin alike (no slash; exactly two; one, three or more) and have the same components, empty ones and \".\" being passed over and \"..\" kept. The text of a string's Path is a normal form: it is the same for two strings exactly if they are the same path, never empty, and no longer than the string (but for the empty string, which becomes \".\"). The text of any Path (also of those made with \"/\") is turned into that same Path again, so that no caller, and nothing done with the result, can tell whether a Path or its text was given.", "quantifier": "all strings and all POSIX Paths", "why_tests_cant": "ranges over all strings: any number of slashes, dots and other characters in any order", "anchors": ["vistautils/misc_utils.py: pathify", "vistautils/io_utils.py: CharSource.from_file"]}
