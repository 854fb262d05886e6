# Design

Formal model of isi-vista/vistautils (the source in /repo, read as text and never run) in Coq 8.16.1, and proofs of
the properties listed in `properties.jsonl`. `MANIFEST.json` maps every property to its theorems
(generated by `tools/gen_manifest.py` from the theorem names `CNN_...`).

## 1. Conventions of the model

* Every Python function is a total Gallina function. A call that may raise returns `res A = Ok a | Raise e`
  (Prelude.v); the exception class is modelled, its message is not. State (dictionaries, archives, file systems, logging) is
  passed explicitly and returned also when an exception is raised, so that what a failed call leaves behind is visible.
* Every definition of a model file carries a comment with the file and lines it models. Where it simplifies, the comment says so.
* A `str` is a list of code points (`list N`), `bytes` a list of numbers below 256, `int` is `Z`, a dict is an insertion-ordered
  association list, a generator is a state machine or the list it produces together with the exception that ends it.
* Endpoints of ranges are an arbitrary type with `<` and `==` satisfying the laws of a total order (Order.v, a type class passed as an
  explicit argument; witnesses: Z and the rationals). Order.v is the reading of range.py:72-75.
* What is outside the repository is either modelled at its documented interface (section 4) or a universally quantified
  parameter of the theorems ("oracle"): the order in which a Python set is listed, `random.shuffle`, `Path.rglob`, `eval`, `import`,
  the parser of YAML files, the environment, zip/tar/gzip codecs, `logging.config.fileConfig`, user functions and classes.
* Loops are structural recursion or folds. The two loops without an evident bound (topological sort; recursive includes) take fuel; for the first a
  theorem shows that the fuel suffices, for the second the theorems state that running out of fuel is the only other outcome (it models Python's
  RecursionError on cyclic includes) and that more fuel does not change a result.

Layout of `rocq/theories`: model files (Range, RangePartial, SortedDict, RangeSet, RangeSetOps, RangeSetHeap, RangeLive, RangeMap, RangeMapEq, MixedSets, MixedMaps, Pickle, Span, AnnotatedText, IterUtils, IterFail, Graph, Params,
ParamsEval, DefaultWarn, Messages, PyRepr, Interp, Load, LoadFs, Heap, Fs, PathLists, OsPath, Io, IoFs, BufferSinks, OpenFiles, KeyValue, KvParams, ZipKeys, ZipIter, DirFs, DirHist, TarSource, ClassNames, ClassOf, Pathify, ValueClasses, Scripts, Mains, TarMain, TarLinks, CheckFs, Repr, Entry,
Command, AttrUtils; executions that are interrupted or interleaved: DirCrash, DirStopped, ScriptCrash, TarCrash, Races, ScriptRaces; model and theorems together: Memory, Misc, Checkpoints, Preconditions, Utf8, RangePartial, BufferSinks, IterFail, ZipIter, TarReplace, NanSets, OtherViews, ZipReuse, NullSink, HasSpan, Pipelines),
specifications (RangeProps/RangeSetProps heads, AnnotatedTextSpec, ParamsSpec, InterpSpec, LoadSpec, OsPathSpec, LoadFsSpec, and the definitions at the head of the other
`*Props.v`), proofs (`*Proofs*.v`, InterpExpand, InterpLoop, InterpWf, ParamsUnify, ParamsPairs, ParamsGet, HeapValues, HeapPairs) and property theorems (`*Props.v`, KeyValueSources, DirMains, CommandMains, CommandFiles, MainsSample, MainsRejected, Provenance, LoadComplete, InterpSize, HeapMain; `*Witness.v`: concrete cases).
Next to each theorem there is an `Example ..._witness`/`..._hypotheses` showing that a concrete non-trivial case meets its hypotheses.

## 2. Trusted base

* Coq 8.16.1's kernel (with its VM: some examples use `vm_compute`) and the build by `coq_makefile`.
* `Print Assumptions` is run in the sources after the property theorems: every one prints "Closed under the global context". No axiom is used, neither of
  the standard library nor our own. (vcheck also lists `Coq.ssr.ssrunder.Under_rel.*`, parameters of a
  standard library module loaded with the tactics; no theorem depends on them.)
* No `Admitted`, no `Axiom`, no functor or module type, no kernel flag. Section variables are discharged: they appear as universally quantified
  premises of the theorems.
* The faithfulness of the model: the reading of the Python source recorded in the definitions' comments, plus sections 3 and 4.

## 3. What is modelled and what is not

| file | modelled | not modelled |
|---|---|---|
| range.py | cuts, Range, RangeSet (mutable, immutable, builders, copies, pickling, hashing, printed forms), ImmutableRangeMap, SortedDict helpers | deprecation warnings, hash values themselves (an arbitrary function), range sets and maps of endpoints whose `<` is not a total order (single ranges: C113; values of several types: C115, C119; questions about NaN: C122) |
| span.py | everything | |
| annotated_text_utils.py | everything | |
| iter_utils.py, iterutils.py, collection_utils.py | everything, over finite and infinite iterators | `warnings` |
| _graph.py | everything (used by parameters.py) | |
| parameters.py | Parameters (construction, getters, namespaces, unify, evaluate, object_from_parameters, path getters, path lists and maps), YAMLParametersLoader (includes, interpolation, environment), the writer (preprocessing, and writing to and loading from a file system) | the text of YAML (parsing and printing are PyYAML's: an oracle from file content to nested values), log messages, error messages other than those of C102 (missing parameters, clashes) |
| key_value.py | zip, directory, tar and path-map stores, interpreted sources, choosing stores by parameters | in-memory caching that is not observable, `__repr__` |
| io_utils.py | character and byte sources and sinks for strings, buffers, files, gzip, tgz and zip members, `readlines`, `is_empty`, doc-id maps, file_lines_to_set | reading methods of the string buffer beside C129, `detach` |
| checkpoints.py, memory_amount.py, preconditions.py, misc_utils.py, logging_utils.py, parameters_only_entrypoint.py | everything except message texts, argparse's own error handling | |
| class_utils.py | everything, together with evaluating dotted names | |
| attrutils.py | all: `non_empty` (C73), the attribute helpers (C96) | attr.ib, attr.s, instance_of (attrs) and the immutable collections are trusted as modelled in AttrUtils.v |
| scripts/*.py | everything after argument parsing, from parameters and file system to file system (Mains.v, TarMain.v) or, for scripts without parameters, from the opened files (Scripts.v) | argparse beyond the forms of Command.v, log output, links in tar files unpacked by --dont-stream (streaming passes over them), directory-store inputs overwritten while being read |

## 4. Assumptions about Python and third-party code

* sortedcontainers 2.1.0 `SortedDict` behaves as documented (SortedDict.v): a key-sorted association list; bisection is a linear scan in the model (C115_bisection: Python's bisection gives the same, and C122_bisection for NaN).
* immutablecollections: `immutabledict`/`ImmutableDict.of` keep the last value of a repeated key at its first position, `immutableset` keeps first occurrences.
* attrs: `__init__`, `__eq__` (same class, equal fields), frozen attributes, converters before validators. Slotted attrs classes are pickled by class and fields, so
  the singletons `_BELOW_ALL`/`_ABOVE_ALL` come back as new objects. Pickle protocol >= 2.
* An iterator over `SortedDict.values()` walks the keys by position (sortedcontainers 2.1.0 with at most 2000 keys; with more, C14_absorbed still says that adding members in any order changes nothing).
* `sorted` is stable. The listing order of a Python `set` is any permutation (oracle).
* `zipfile`: entries in order of writing, reading a name gives the last entry with it, duplicate names only warn, a name is cut at a NUL, `writestr` of
  an empty name raises IndexError (Python up to 3.11), closing writes the directory. Until then the file is unreadable as a zip file: after a crash, a new archive
  is `Partial`, and so is an appended one (the first write overwrites the old directory). A sink that is dropped without being closed is not closed by the garbage collector before the crash.
* `tarfile` yields members in archive order; gzip/tgz decompression is a partial function on bytes (oracle).
* Text files: UTF-8, strict errors, universal newlines when reading, `\n` written unchanged (POSIX).
* File systems have no symbolic links (so `resolve` is lexical; paths that are not resolved are followed part by part, OsPath.v), no permission errors, no full disk, no concurrent changes (except in Races.v); `os.path` names have no lone surrogates.
* A process that is killed (DirCrash.v) leaves what its system calls did so far; of a file being written any beginning of the data may be there, data is never written out of order, and the machine itself does not crash.
* `re`: only the patterns of this repository, modelled as recognisers. `\d`, `str.isspace`, `str.upper` for non-ASCII characters: the Unicode tables are an
  oracle or listed where used. `int()` accepts any number of digits (no 4300-digit limit, as before Python 3.11).
* `logging`: a root logger with a level and a list of handlers; `fileConfig` is an oracle; nothing else configures logging.
* Objects with unusual `__eq__`, `__hash__`, `__bool__` are outside the model, except where a theorem says otherwise (C33_equal_items_refuted, C38).

## 5. Properties: model, theorems, method of proof

Theorem names omit the prefix `CNN_`. Every theorem is for all inputs (no bound on sizes); `_refuted` marks a proof that a plausible stronger claim is false (section 6).

| id | property | model -> theorems | theorems | method |
|---|---|---|---|---|
| C01 | Range factories denote the advertised intervals | Range.v -> RangeProps.v | factories, bounds | case analysis on cuts; membership by the laws of the order |
| C02 | Empty ranges contain nothing; the converse fails on discrete types | Range.v -> RangeProps.v | is_empty, dense_nonempty, discrete_refuted | case analysis; a dense order gives a witness between two cuts; Z refutes the converse |
| C03 | Range.encloses is a partial order that implies member inclusion | Range.v -> RangeProps.v | encloses_partial_order, encloses_exact_on_dense | cut order is total; witnesses for exactness on dense unbounded orders |
| C04 | Range.intersection is the meet | Range.v -> RangeProps.v | intersection, intersection_laws | max/min of cuts; lattice laws |
| C05 | Range.is_connected characterises having a common enclosed range | Range.v -> RangeProps.v | is_connected | cut comparison |
| C06 | Range.span is the join | Range.v -> RangeProps.v | span | min/max of cuts |
| C07 | Range.create_spanning covers a whole collection minimally | Range.v -> RangeProps.v | create_spanning | induction on the collection |
| C08 | Range.intersects is the existence of an intersection | Range.v -> RangeProps.v | intersects, common_member_refuted | from C04/C05; Z refutes the common member |
| C09 | Range equality and hashing are consistent | Range.v -> RangeProps.v | eq_hash, eq_equivalence | equality of cuts; hash is any function of the fields |
| C10 | Ranges are convex | Range.v -> RangeProps.v | convex | transitivity |
| C11 | RangeSet representation invariant | SortedDict.v, RangeSet.v -> RangeSetProps.v | invariant, calls | invariant (sorted, non-empty, disconnected) preserved by add; induction on the call history |
| C12 | RangeSet membership is the union of what was added | RangeSet.v -> RangeSetProps.v | membership | induction on histories |
| C13 | RangeSet is canonical: insertion order and duplication do not matter | RangeSet.v -> RangeSetProps.v | canonical, equality | normal form is determined by the cuts' coverage; two invariant lists with the same coverage are equal |
| C14 | RangeSet.add is the least coalescing update | RangeSet.v -> RangeSetProps.v | add, absorbed | characterisation of the result by enclosure; minimality from C13 |
| C15 | range_containing returns the unique range with the value | RangeSet.v -> RangeSetProps.v | range_containing | bisection lemma on the sorted list |
| C16 | encloses/range_enclosing_range are exact | RangeSet.v -> RangeSetProps.v | enclosing, encloses_all | bisection lemma |
| C17 | ranges_enclosed_by is exact and ordered | RangeSetOps.v -> RangeSetProps.v | ranges_enclosed_by | sub-list between two bisection points |
| C18 | ranges_overlapping is exact | RangeSetOps.v -> RangeSetProps.v | ranges_overlapping, shares_value_refuted | sub-list between two bisection points; refutation on touching bounds |
| C19 | RangeSet.intersects is exact | RangeSetOps.v -> RangeSetProps.v | intersects | neighbours of the bisection point |
| C20 | rightmost_containing_or_below / leftmost_containing_or_above are exact | RangeSet.v -> RangeSetProps.v | nearest, containing, meaning | bisection lemma |
| C21 | RangeSet.span is the least range enclosing all members | RangeSet.v -> RangeSetProps.v | span | first and last of the sorted list |
| C22 | Immutable copies and builders agree with the mutable set | RangeSetHeap.v -> RangeObjProps.v | immutable_never_changes, copy, isolation, own_history, builder_order | heap of objects; induction on interleaved histories of calls on several sets |
| C23 | Hashing range sets | RangeSet.v -> RangeObjProps.v | equal_sets_equal_hash_refuted, listed_ranges_hash | counter-example; equality of listings |
| C24 | Pickling a range or range set round-trips for bounded ranges only | Pickle.v -> RangeObjProps.v | range, unbounded_refuted, range_set, state_round_trip | identity of singletons modelled by a tag lost on pickling |
| C25 | ImmutableRangeMap construction accepts exactly disconnected non-empty keys | RangeMap.v -> RangeMapProps.v | construction | induction on the builder; C11 |
| C26 | ImmutableRangeMap lookups are exact | RangeMap.v -> RangeMapProps.v | getitem, nearest, get_enclosed_by, reduce_round_trip | lookup of the range containing the key, C15, C17, C20 |
| C27 | Span construction and elementary predicates | Span.v -> SpanProps.v | construction, predicates | arithmetic |
| C28 | Span.intersection and clip_to are set intersection | Span.v -> SpanProps.v | intersection_clip, shift | arithmetic |
| C29 | Span <-> Range agreement | Span.v -> SpanProps.v | as_range | arithmetic, C01 |
| C30 | minimal_enclosing_span is the least enclosing span | Span.v -> SpanProps.v | minimal_enclosing_span, iterator_refuted | induction; iterators that are consumed |
| C31 | earliest_then_longest ordering is a total order on spans | Span.v -> SpanProps.v | key, containing_first | lexicographic order; stable sort |
| C32 | Disjoint span index: construction | Span.v -> SpanProps.v | index_disjoint, identical_spans_refuted | reduction to C25 |
| C33 | Disjoint span index: queries | Span.v -> SpanProps.v | last_of_each_span, disjoint_queries, equal_items_refuted | reduction to C26 |
| C34 | Overlapping span index: queries | Span.v -> SpanProps.v | overlapping_queries | filter of the items; sortedness |
| C35 | Annotating text loses no text | AnnotatedText.v -> AnnotatedTextProps.v | annotated_text_spec, default_window, wrong_length, no_text_lost, negative_window_refuted | induction on the text with an invariant on the open spans |
| C36 | Annotation tags are balanced and properly nested | AnnotatedText.v -> AnnotatedTextProps.v | tags_well_nested, clipped_to_same_refuted | parsing of the output by a small grammar (AnnotatedTextSpec.v) |
| C37 | windowed yields every window, in order | IterUtils.v -> IterUtilsProps.v | windowed_complete, windowed_partial_windows, bad_size, windows_of_list, partial_windows_of_list, tile_with_pairs | induction; infinite iterators as functions from positions |
| C38 | drop/only/get_only/non_none | IterUtils.v -> IterUtilsProps.v | drop, drop_negative, drop_list, only, only_equal_to_all_refuted, get_only, only_lookup_error_refuted, non_none | case analysis and induction |
| C39 | Topological sort is correct and complete | Graph.v -> GraphProps.v | topological_sort | invariant of the queue algorithm: remaining in-degrees; a minimal counter-example gives the cycle; fuel suffices |
| C40 | Graph validation | Graph.v -> GraphProps.v | validation, rejected, graph_contents | induction on construction |
| C41 | Parameters nested-dict round trip | Params.v -> ParamsProps.v | roundtrip, dots_rejected, not_a_mapping, prefixes | induction on nested mappings |
| C42 | from_key_value_pairs / namespaced_items round trip | Params.v -> ParamsProps.v | from_pairs, success, last_wins, items, roundtrip, empty_name_refuted, unify_prefix_refuted | induction on the pairs; uniqueness of dotted paths |
| C43 | Parameter lookup follows the dotted path | Params.v -> ParamsProps.v | lookup, dotted_path, from_mapping | induction on the path |
| C44 | unify merges with right bias | Params.v -> ParamsProps.v | unify, consequences, identity, associative, associative_errors, associative_refuted | induction on nested mappings against a path-wise specification |
| C45 | assert_exactly_one_present | Params.v -> ParamsProps.v | exactly_one | case analysis |
| C46 | Typed getters return a value of the declared type or raise | Params.v -> ParamsGetProps.v | required_getters, optional_getters, namespaces, enum, wrong_exception_refuted, bool_is_integer_refuted, null_with_default | decision table |
| C47 | Optional getters return the given default | Params.v -> ParamsGetProps.v | defaults, falsy_defaults_refuted | decision table |
| C48 | Interpolation substitutes every reference, or fails for a stated reason | Interp.v -> InterpProps.v, LoadFsProps.v | outcomes, result, values_unique, unreferenced_kept, no_reference_remains_refuted, failures_are_parameter_errors_refuted, no_references | regex as a recogniser; substitution in topological order (C39) equals the full expansion by well-founded recursion on references |
| C49 | Reference precedence: file, then context and includes, then environment | Interp.v, Load.v -> LoadProps.v | precedence, dotted_environment_breaks_loading | path-wise characterisation of the interpolation context |
| C50 | Interpolation uses exactly the truthy values of the file | Interp.v -> InterpProps.v | file_value_used, context_value_used, falsy_ignored, every_value_refuted | from the outcome theorem of C48 |
| C51 | Includes are applied in order, later overriding earlier, the file last | Load.v -> LoadProps.v | failures_are_IOErrors, load, extends_context, without_includes, relative_include_in_string, load_error, two_contexts, same_context, unreadable_file, load_file | induction on the include tree with fuel, against a relational specification (LoadSpec.v) |
| C52 | Non-string keys are rejected | Load.v -> LoadProps.v | key_check, load_rejects, any_depth_refuted | case analysis; refutation by a nested key |
| C53 | object_from_parameters and evaluate: complete decision table | ParamsEval.v -> ParamsEvalProps.v | evaluate, optional_evaluate, object_from_parameters, expected_type, underspecified, special_factory_refuted, special_value_in_namespace_refuted, default_factory_prefix_refuted | decision table with import/eval oracles |
| C54 | Parameter writer output is loader input | Params.v -> ParamsGetProps.v | preprocess, no_entry_lost, null_refuted | induction on nested values |
| C55 | Zip key-value store round trip | KeyValue.v, Io.v -> KeyValueProps.v | round_trip, default_keys, values, not_entered, enter, no_key_list, keys_key_refuted, nul_key_refuted, newline_key_refuted | archive as an entry list; induction on the puts |
| C56 | Histories of zip sink sessions | KeyValue.v -> KeyValueProps.v | history, history_total, session, duplicate, not_entered, none, failed_put, failed_put_refuted, unclosable_refuted, reuse_refuted | state machine of sinks and disks; induction on histories of sessions |
| C57 | Directory key-value store round trip | KeyValue.v -> KeyValueSources.v | char, bytes, enter, failed_puts, failed_overwrite_refuted, index_key_refuted, plain_names | induction on the puts, for writes that may fail; C67 for the index |
| C58 | Key list codec | KeyValue.v -> KeyValueProps.v | round_trip, read, no_list | split and join are inverse |
| C59 | Interpreted sources are pointwise maps | KeyValue.v -> KeyValueSources.v | lookup, items, items_all, items_none, linear, linear_error, agree, compose | pointwise; induction for items |
| C60 | Linear tar source yields exactly the keyed members in order | KeyValue.v -> KeyValueSources.v | items, error, not_entered, empty_key_refuted, str | relational specification of the listing, induction on members |
| C61 | Even split is a balanced partition | Scripts.v -> ScriptsProps.v | split, balanced, join_split | round robin: index arithmetic; C55 for the stores |
| C62 | Explicit split routes every key to its list | Scripts.v -> ScriptsProps.v | split, missing, partition_refuted | induction on key lists |
| C63 | Join is union with duplicate detection | Scripts.v -> ScriptsProps.v | join, duplicate, bad_input, first_duplicate | induction on inputs with the set of written keys |
| C64 | Downsampling picks distinct items | Scripts.v -> ScriptsProps.v | downsample, all | prefix of a permutation |
| C65 | Character and byte sink/source round trips | Io.v -> IoProps.v | buffer, string, char_file, char_from_bytes, char_file_unencodable, byte_file, zip_entry, zip_overwrite_refuted, is_empty, is_empty_unreadable | composition with C68 and the newline specification |
| C66 | readlines agrees with read_all | Io.v -> IoProps.v | readlines, line_endings_kept_refuted, join, file_lines_to_set | induction on the text |
| C67 | doc-id-to-file map codec | Io.v -> IoProps.v | round_trip, read, blank_line_refuted | line-wise codec, stable sort |
| C68 | UTF-8 values survive byte storage | Utf8.v -> Utf8.v | encodable, round_trip, injective, concat, decode_error | arithmetic on code units, case analysis by length |
| C69 | Memory amount parsing | Memory.v -> Memory.v | accepts, errors, round_trip, whole_string_refuted | recogniser against a grammar |
| C70 | str_list_limited | Misc.v -> Misc.v | short, long, error | induction |
| C71 | strip_extension and flatten_once_to_list | Misc.v -> Misc.v | strip_extension, path_refuted, flatten | last dot; concatenation |
| C72 | Checkpoints behave as a set of names | Checkpoints.v -> Checkpoints.v | history, crash, plain_names, names, set, names_refuted | induction on histories with crashes |
| C73 | Precondition helpers raise exactly when violated | Preconditions.v -> Preconditions.v | not_none, arg, arg_message_refuted, state, args_are_none, args_not_none, isinstance, all_isinstance, opt_isinstance, opt_isinstance_refuted, issubclass, in, with_id, scored, non_empty_refuted | decision table |
| C74 | Logging configuration | Entry.v -> EntryProps.v | levels, printed_once, idempotent_refuted, config_file, log_params | state of the root logger |
| C75 | Tar-to-zip and directory-to-store conversions keep content | Scripts.v -> ScriptsProps.v | files, stem, stem_unique, directory, duplicate, tar, output_name, tar_gz_name_refuted, subdirectory_error_refuted | induction on directory trees and tar members |
| C76 | Start tags list attributes sorted by key | AnnotatedText.v -> AnnotatedTextProps.v | start_tag, insertion_order_irrelevant | sorting by key is canonical |
| C77 | Annotation order is irrelevant | AnnotatedText.v -> AnnotatedTextProps.v | annotation_order_irrelevant, same_span_refuted | the output is a function of the sorted spans |
| C78 | Zip sinks are not crash safe before exit | KeyValue.v -> KeyValueProps.v | overwrite_crash, append_crash | crash after any number of puts |
| C79 | text_at_offsets prints exactly the requested characters | Scripts.v -> ScriptsProps.v | in_bounds, out_of_bounds, negative_refuted | arithmetic on slices |
| C80 | Path-valued parameters and the file system | Fs.v -> FsProps.v | resolution, cases, existing, creatable, creatable_empty, optional, after, creatable_file_is_directory_refuted | file system as a partial map from paths; path resolution by a relation |
| C81 | Lists and maps of paths | PathLists.v -> PathListsProps.v | paths, path_list, path_map, slices_round_trip, hash_path_refuted | composition of C66/C67 with path resolution |
| C82 | Parameters-only entry point | Entry.v -> EntryProps.v | entry_point, outcomes, overrides, override_type_refuted, given_parameters_refuted | decision table of the entry point; composition with C42, C44, C51 |
| C83 | Key-value stores chosen by parameters | KvParams.v -> KvParamsProps.v | zip_sink, zip_source, zip_agree, directory_sink, file_map_source_refuted, map_source, user_type, kind, default_refuted, directory_shortcut_refuted | composition of C53, C80, C55, C57 |
| C84 | split_key_value_store with num_slices, from parameters to files | Mains.v -> MainsProps.v, MainsRejected.v | split, input_overwritten_refuted, choice, bad_num_slices, bad_input, blocked_output | from parameters to files: composition of C46, C53, C80, C83 with the split loop (C61); the runs that are rejected are in MainsRejected.v |
| C85 | join_key_value_stores, from parameters to files | Mains.v -> MainsProps.v, MainsRejected.v | join, duplicate, first_duplicate, unreadable_input, output_among_inputs_refuted, join_split, blocked_output, bad_list | composition of C81, C83 with the join loop (C63); round trip with C84; the runs that are rejected are in MainsRejected.v |
| C86 | downsample_key_value_store, from parameters to files | Mains.v -> MainsProps.v, MainsRejected.v | which, downsample, in_place_refuted, bad_num_to_sample, bad_input, blocked_output | composition of C46, C80, C83 with C64; the runs that are rejected are in MainsRejected.v |
| C87 | directory_to_key_value_store, from parameters to files | Mains.v -> MainsProps.v, MainsRejected.v | copy, duplicate, output_inside_refuted, no_directory, bad_key_function, blocked_output | composition of C80, C83 with the copying loop; the output is opened before the directory is listed; the runs that are rejected are in MainsRejected.v |
| C88 | split_key_value_store with explicit_split, from parameters to files | Mains.v -> MainsProps.v, MainsRejected.v | explicit, missing, input_overwritten_refuted, must_be_exhaustive_refuted, list_refuted, no_keys_file, blocked_output | induction over the splits, composition of C62, C80, C83; the runs that are rejected are in MainsRejected.v |
| C89 | Fully qualified names of classes, evaluated by parameters, give the classes back | ClassNames.v, ClassOf.v -> ClassNamesProps.v, ClassOf.v | evaluate, object, namespace, builtin, module, no_module, distinct, nested_refuted, hidden_package_refuted, of_type, of_type_evaluate | splitting dotted names, composition with C53 |
| C90 | tar_gz_to_zip, from the command line to the file system | TarMain.v -> TarMainProps.v | stream, no_tar, blocked, bad_name, unpack, unpack_directory_refuted | induction over the members; what is at which path after unpacking and removing |
| C91 | Loading parameter files from the file system: includes, cycles, names and the current directory | LoadFs.v (on Load.v, Fs.v) -> CommandProps.v, LoadFsProps.v | simple_file, load, load_string, unreadable, missing_include, cycle, place_decides, recursion_limit, enough_recursion, write_load, failed_write_empties_file | specification LoadFsSpec.v (where paths lead, LoadsAt); derivations of C51 translated place by place; accessibility of the include relation excludes cycles; induction on the recursion limit; write-load by C54, C48_no_references and C51_without_includes |
| C92 | Zip stores with key functions of the caller's, and reusable source objects | ZipKeys.v (on KeyValue.v) -> ZipKeysProps.v | constructor, message_refuted, defaults, default_source, defaults_match, names_match, history, session, no_functions, only_writer, enter, exit, enter_fails, stale_keys_refuted | invariant over the history (archive = exactly the keys' entries and reserved ones); the default functions shown to be an instance, and the sink with them the one of C55-C58 |
| C93 | Checkpoints on a file system | CheckFs.v (on Fs.v, LoadFs.v) -> CheckFsProps.v | open, set, has, not_str, set_has, reset, crashed_reset, history, outside_refuted, nested_refuted, chdir_refuted, subdirectory_refuted, reset_here_refuted | where names lead (LoadFsSpec.opens); frame lemmas for touch, rmtree and mkdir; induction over the history with several directories |
| C94 | Tar sources: any interleaving of iterators, entering and leaving | TarSource.v -> TarSourceProps.v | inside, made_before, any, not_entered, left, items_after_exit_refuted, unreadable | State machine of the source object: each enter, exit, items and next is a step; tar files with their member cache and lazily read rest are part of the state. Invariant: every iterator is at a position that its tar file has already read, and past position 0 only if the first member has been handed out. Induction over the loop gives one next as a step of the ideal iteration; induction over histories gives the theorems. |
| C95 | From the command line to the files | Command.v -> CommandMains.v, CommandProps.v | join, downsample, directory, explicit_split, arguments, command, simple_file, split, num_slices_override_refuted, split_then_join | argparse's reading of the command line as a scan (proved equal to a grammar), the loader on a file system (LoadFs.v), the entry point (Entry.v) and the scripts' main functions (Mains.v) put together; the end-to-end theorems compose C82, C91, C74 and C84-C88 through the parameters' view. |
| C96 | Attributes declared with attrutils | AttrUtils.v -> AttrUtilsProps.v | argument_names, construct, errors, not_shared, needs_immutable_collection, declared, class, positional_refuted, factory_keyword | attr.ib, attr.s and the builtin isinstance as functions (trusted); declarations, binding of arguments, conversion, validation and the number of factory calls as state; induction over the list of declarations, then over histories of constructor calls |
| C97 | Directory key-value stores on the file system | DirFs.v -> DirFsKeys.v, DirFsProps.v, DirFsWitness.v, DirMains.v, DirStopped.v | any_key, no_file, map_source, put, enter, confined, round_trip, index, absolute_refuted, parent_refuted, nested_refuted, index_directory_refuted, index_key_refuted, space_refuted, shared_refuted, join, directory, join_clash, join_unreadable, join_not_empty | The sinks of key_value.py:400-451 over the file system of Fs.v: paths are followed by the operating system part by part (os_walk), directories are made (mkdir -p), files written, the index written line by line at the exit and read back by the map sources. One write is characterised completely (C97_put), then invariants over the sequence of puts: nothing outside the directory changes (C97_confined), the table holds the successful keys (C97_index), below the directory there are only the keys' files and their directories (C97_round_trip). What keys outside the plain ones do is proved as the _refuted theorems. DirFsKeys.v: arbitrary keys, by a relation (way, dead_end) describing part by part what a walk makes; C97_map_source reads. DirMains.v: the join and directory scripts of Mains.v with a directory sink as output; DirStopped.v: what is left when it stops (a key clashing with an earlier one, an input that cannot be read). |
| C98 | Printed forms of ranges, range sets and spans | Repr.v -> ReprProps.v | text, ranges_differ, integer_ranges, sets, spans, integers, constructor, tuples_refuted, strings_refuted | The describe_as_* methods and the three __repr__s as functions over an arbitrary formatting of endpoints ('%s' % x may raise, as for tuples). Injectivity by finding the first '..' (resp. ', ', ':') in the text; the sets through C13_equality over all histories. C98_constructor ties the constructor with its formatted message to mk_range of Range.v. |
| C99 | File sinks and sources of io_utils on the file system | IoFs.v (theorems IoFsProps.v, cases IoFsWitness.v) -> IoFsProps.v | to_file, construction_keeps, str_paths, session, write, zip_session, write_fails, zip_write, nowhere, history_grows, untouched, last_session, zip_last_session, read, zip_directories_refuted | File sinks and sources over the file system of Fs.v with paths followed by OsPath.v; construction, blocks with lists of writes, and histories as lists of operations. One-step theorems by following the path (way / dead_end of DirFsKeys.v, leads of OsPathSpec.v); history theorems by induction with the invariant that the file system stays well formed and only grows. |
| C100 | Defaults given to optional getters: results, warnings and the program's logging | DefaultWarn.v (theorems DefaultWarnProps.v) -> DefaultWarnProps.v | results, history, after_configuring, before_configuring_refuted | The getters threaded through a console state (logger of Entry.v and a count of warnings written); logging.warning calls basicConfig() when there is no handler. A history of calls equals n warnings (induction), n given by a table per call; the results theorem uses C46, the configuring theorems C74. |
| C101 | sub_namespaces gives the namespaces directly inside | Params.v (theorems SubNamespaces.v) -> SubNamespaces.v | sub_namespaces, list_refuted, distinct, shared_refuted | sub_namespaces with the hashing its result needs (hashable: no list below). By induction on the tree: an object is hashable iff no dotted name leads to a list; distinctness from C41_prefixes. The set keeps the first of equal items (first_of_equal over peq, the equality of C108). |
| C102 | Error messages of Parameters say what is wrong | Messages.v, PyRepr.v (theorems MessagesProps.v) -> MessagesProps.v | unknown, leaf, when, advice, tells, namespace, unify | The loop of _private_get with the messages it builds, and unify likewise; repr of str as CPython does it, over an arbitrary isprintable. Messages by induction along the path; reading back: repr is a prefix code (each escaped character is, hex of fixed width), contexts of the same name are dotted prefixes of each other. |
| C103 | Processes sharing a file system do not break each other's directories and files | Races.v -> RacesAlone.v, RacesProps.v, RacesWitness.v | alone_directory, alone_empty, alone_file, alone_checkpoint, nothing_lost, returned_means_done, own_steps, no_failure, completes, frame, content, same_empty_refuted, exclusive_refuted | Interleaving semantics: each process is a stack of pending system calls (pathlib's mkdir -p, touch and open unfolded into single calls), a schedule picks who runs next. Unconditional invariants (nothing lost, promised directory exists or is still pending, own-step measure, frame, content) and, for programs which keep apart, a ten-part inductive invariant over the stacks that excludes every error. RacesAlone.v shows that one process alone does what Fs.v and CheckFs.v say; two refuted claims about creatable_empty_directory. |
| C104 | Parameters objects are isolated from the dictionaries they were made from | Heap.v, HeapProps.v, HeapValues.v, HeapPairs.v, HeapMain.v, HeapWitness.v -> HeapMain.v, HeapWitness.v | from_mapping, as_nested_dicts, unify, from_key_value_pairs, values, frozen, frozen_value, isolated, cycle, list_refuted, pairs_refuted, example, example_values | Parameters, dicts and lists are objects in a heap (list of cells), every function of parameters.py:99-242 a function from heap to heap and result, with a limit of nested calls; programs are sequences of events, in any order. Invariant: objects exist, Parameters objects hold no dict and no dotted name. Each function only appends to the heap (from_key_value_pairs: by an ownership predicate for the dictionaries it makes); the values agree with Params.v by induction on the limit; frozen: Parameters cells never change and lead only to Parameters cells, lists and immutable values. |
| C105 | What a process that dies leaves of a directory store | DirCrash.v, DirCrashProps.v, DirCrashWitness.v -> DirCrashProps.v, DirCrashWitness.v | write, write_possible, outside, documents, possible, restart, torn_index, old_value_refuted, torn_refuted, empty_refuted | The set of states a killed process can leave: after each os.mkdir/os.rmdir, and with any beginning of the data in an opened file, composed along the session of DirFs.v. Frame by C97's lemmas; documents by the invariant of the session at the point of death; torn index by induction on the lines of the index (a cut line either has no TAB or has its whole key), using that a prefix of UTF-8 decodes to a prefix or not at all. Reached states shown possible; three refuted claims. |
| C106 | as_ranges() is a live view, and adding to a set while iterating over it | RangeLive.v, RangeLiveProps.v -> RangeLiveProps.v | view, self, loop, ends, skips_refuted, endless_refuted, snapshot_refuted | A view is the address of the set's dictionary in the world of RangeSetHeap.v; iteration is by position in the current list of ranges, with fuel. Induction on the rounds, each being one add of a history (C14, C22); termination because an add enclosing a member never increases the number of ranges. Three refuted claims (snapshot, skipping, endless loop). |
| C107 | Equality and hash of range maps | RangeMapEq.v, RangeMapEqProps.v -> RangeMapEqProps.v | equality, equivalence, same_answers, order_irrelevant, extensional_refuted, inherited_equality_refuted, hash_refuted | The __eq__ attrs generates compares the immutabledict (trusted to compare like dict) and the range set. Dictionary equality is shown to be pointwise equality by counting keys (pigeonhole on duplicate-free lists); equal key sets give equal well-formed range lists (C13), hence equal answers. Three refuted claims (extensional equality, the inherited __eq__, hash). |
| C108 | Equality of Parameters objects | Params.v (dict_eq, peq; theorems ParamsEq.v) -> ParamsEq.v | equality, equivalence, same_answers, as_nested_dicts, from_mapping, namespace_copy_refuted, boolean_refuted | Python's == as a structural function: the tuple comparison attrs generates, dict equality (same length, every item found), list equality, True == 1; == of floats and unknown objects is an arbitrary function, assumed only not to claim equality with None, strings, dicts and Parameters. Dict equality is shown to be pointwise (pigeonhole on duplicate-free keys), then induction on the tree along dotted names; equivalence by nested induction. |
| C109 | Equality and order of the value classes | ValueClasses.v -> ValueClasses.v | span_order, span_sorted, longest_first_refuted, memory, memory_equal_refuted, memory_order_refuted, scored_refuted, with_id, annotation_equal, annotation | The comparison methods attrs generates (19.2.0; trusted to be those of the tuples of attributes) as a record of == and four fallible operators, composed by lexicographic pairs. Spans by arithmetic; sortedness via the uniqueness of strictly sorted permutations (SortLib.v). Four refuted claims. |
| C110 | Buffer sinks with several handles open | BufferSinks.v -> BufferSinks.v | answers, last, none, write | A machine with sinks, handles (buffer, position, closed) and calls in any order; io.StringIO / io.BytesIO (library) are modelled for write, seek, tell, close, getvalue. Invariant relating the state to the history of calls and answers, by induction on the history; the text of a handle is specified place by place (last covering write). |
| C111 | Zip sources: any interleaving of iterators, lookups, entering and leaving | ZipIter.v -> ZipIter.v | any, inside, left, rewritten_refuted | The source object of ZipKeys.v with iterators stepped one next() at a time. One lemma, by induction on the history, says what the next() calls of one iterator do in terms of the entering and leaving before each of them (C111_any); the others are corollaries through KeyValue.items. |
| C112 | Iteration helpers over iterators that raise | IterFail.v -> IterFail.v | windowed, drop, only, non_none, agrees | The generators of IterUtils.v over streams of results that may be exceptions; induction on the number of next() calls. A theorem says that on streams without exceptions the two models give the same answers. |
| C113 | Ranges over values that cannot all be compared | RangePartial.v -> RangePartial.v | agrees, factories, members, member_raises, intersects, convex, documented, incomparable, empty, encloses, intersection, span, documented_refuted, encloses_refuted, nan_refuted | The functions of Range.v with a comparison that is any function into booleans or exceptions; case analysis on the comparisons, and for partial orders a lemma that compares the sets of values to the right of two bounds. C113_agrees: for total orders it is the model of Range.v. |
| C114 | Directory sinks: any history of calls, several sinks on one directory | DirHist.v -> DirHistProps.v, DirHistWitness.v | calls, files, read, lost_refuted | The put, enter and exit of DirFs.v as steps of a history with one table per sink object; an invariant (the tree of files, the last put of each file, each table, the last index written) kept by every call, then C97's lemmas for reading through the index. |
| C115 | Range sets and values of several types: a refused range changes nothing | MixedSets.v -> MixedSetsProps.v, MixedSetsWitness.v | made, call, atomic, history, questions, other_type, bisection, always_TypeError_refuted | The functions of SortedDict.v and RangeSet.v with a comparison that may raise; in one type they agree with those (by unfolding, comparison by comparison), and with a foreign endpoint the first comparison with a bounded key raises before anything is changed. Invariant of the histories: well-formed (C11) and of one type. |
| C116 | Files in .tar.gz archives with links | TarLinks.v -> TarLinksProps.v, TarLinksWitness.v | read, cases, hard_links, is_empty, without_links, cycle, is_empty_refuted | tarfile's following of links as a function of the archive and the number of nested calls allowed; the theorems state, by a relation of following one link, which member is read; by induction on the calls, hard links by descent of the position. |
| C117 | The key-value scripts can be killed at any moment and simply run again | ScriptCrash.v -> ScriptCrashProps.v | split_moments, split_again, downsample, join, directory, explicit_moments, explicit_again, readable_slice, readable_output, old_output_refuted | The states on the way through each script of Mains.v: after every mkdir, with any beginning of _slices.txt, with any unfinished contents (an arbitrary predicate) of a zip file from its opening to its closing, and with the slices closed in reverse order as the ExitStack does. Each is shown to differ from the start only in new directories on the way to the outputs and in the outputs; this relation is transitive and preserves the hypotheses of C84-C88, so by induction over the killed runs a complete run gives what it gives from the start. |
| C118 | References that lead through a parameter instead of a namespace | Interp.v, InterpSpec.v -> InterpBroken.v | cases, first_broken, broken, unique, passed_over, order_refuted | the relation broken (reference, exception) is stated on the file tree alone; the nested-dict walk is shown by induction on the parts of the name to raise exactly that exception, and the gathering loop by induction on the items of the file to stop at the first one; the loop invariant of C48 was extended to references that are passed over |
| C119 | Range maps and values of several types: made only if the keys are of one type | MixedMaps.v -> MixedMapsProps.v, MixedMapsWitness.v | made, lookups, other_type, rebuilt, always_TypeError_refuted | RangeMap.v over the comparison of MixedSets.v that may raise; the range set by the per-call theorem of C115, success by counting as in C25: the set then consists of the keys, and C115 says that a set never mixes types; questions by C115 applied to that set. |
| C120 | tar_gz_to_zip can be killed at any moment and simply run again | TarCrash.v -> TarCrashProps.v | stream_moments, stream_again, unpack_killed, unpack_again, leftovers_refuted | one invariant (what is left of the original disk, as the specification `remains` says) is shown to hold of every state on the way, from any state that satisfies it, by induction over the members; a complete run from such a state is given by the lemma behind C90 |
| C121 | The zip file that tar_gz_to_zip makes serves instead of the tar file | TarReplace.v -> TarReplace.v | same_text, missing, store, pairs, outdated_refuted | the theorem about a whole run (C90_stream) gives the entries of the zip file as a relation to the members; two inductions over that relation say which entry a name leads to; the readers are then computed on the same file system |
| C122 | Range sets and maps answer about NaN as their ranges do | NanSets.v -> NanSets.v | contains, bisection, ordinary, leftmost_refuted, map | all functions of MixedSets.v and MixedMaps.v commute with an embedding of the ordered values into a type with further values; so every set is the image of one that satisfies the invariant of C11, and only its first bound can be -infinity; bisection with respect to a monotone (for leftmost: constant) test is then computed |
| C123 | tar_gz_to_zip --dont-stream: damaged tar files and repeated names | TarMain.v -> TarUnpack.v | damaged, again_refuted | induction over the members: what extractall leaves at every path if names may be repeated; the packing loop reads contents from the disk, not from the archive |
| C124 | Parameters.as_mapping and pickled_object_from_file | OtherViews.v -> OtherViews.v | pickled, mapping, mapping_determines | from C80 (existing_file) and the specification of stored values |
| C125 | One zip sink object used for several "with" blocks, and any history of calls | ZipReuse.v -> ZipReuse.v | append, overwrite_refuted, never_again, once, closed | the sink invariant of C56 with the key set carried over from one block to the next; for arbitrary calls an invariant (keys only grow, an entered object stays entered) by induction over the calls |
| C126 | Whether splitting and downsampling a store can be repeated | Mains.v -> MainsSample.v | sample_repeatable, output_order_refuted, same_pairs_refuted, split_same | C86_which (the kept keys are the first n of the shuffled key list, whatever the order of sets; the output's key list is the set's order of them) applied to two runs with different orders of sets, files and outputs; for splitting, strictly sorted permutations are equal. Refutations: rev is an order of sets that changes every list of two distinct keys; a position-based shuffle commutes with swapping the two keys. |
| C127 | Exactly the parameter files that have a meaning can be loaded, with that meaning | Load.v, LoadFs.v -> LoadComplete.v | complete, complete_string, sound, sound_string, refused, unique | The converse of C91/C51: an inductive specification (GivesAt/AllGive, in LoadComplete.v) of what a file means, without any function of the program; mutual induction over it for completeness, induction on the recursion depth for soundness; needs that interpolation depends only on what the file and the context look like (den_like). |
| C128 | Scripts from the command line with parameter files that have includes and references | Command.v, LoadFs.v, Mains.v -> CommandFiles.v | any_file, refused, split, join, downsample, directory, explicit_split | Composition of C127 (completeness of loading) with unify of the override pairs (C42, C44), logging (C74) and the main functions (C84-C88). |
| C129 | CharSink.to_nowhere in place of another sink | NullSink.v -> NullSink.v | accepts, stand_in, write, write_tells, refuses, writer, text_file_refuted | programs are trees of method calls; induction over the program, for an arbitrary handle; the parameter writer is one such program |
| C130 | How long the texts of a loaded parameter file can get | Interp.v, InterpSpec.v -> InterpSize.v | bound, polynomial_refuted | Mutual induction over the specification of values (Den/Lookup/Text): the length of a value is bounded along a chain of references; such a chain has no repetitions (loading succeeded, so C48: not circular), so the pigeonhole principle bounds it by the number of string parameters.  The refutation of a polynomial bound is a family of files, one for every n, loaded by C48_outcomes. |
| C131 | What sources leave open | OpenFiles.v -> OpenFilesProps.v | left_open, nothing_left, contents, bytes, after_close, closed_zip, undisturbed, own_zip, is_empty_refuted, missing_member_refuted | programs are trees of calls and with-blocks over a heap of file objects with the replaced close methods; induction over the program with an invariant that relates the objects before and after (closed or untouched, new ones closed unless left open, what is left open unreachable); results compared with the contents model Io.v |
| C132 | No history of script runs makes up data | Mains.v -> Provenance.v | no_invention, any_join, zip_inputs | an invariant of the file system, over a set of pairs of keys and values: what is read in any zip file is in the set; it is kept by every way the scripts write files, hence by every run and every rearrangement, hence by every history (reflexive-transitive closure) |
| C133 | Objects that have a span | HasSpan.v, Span.v -> HasSpan.v | delegates, stands_for_span, overlaps_refuted, spans, no_span, index_history, index_follows_refuted | delegation as recursion with Python's recursion limit as fuel; induction on the chain of objects; indices as snapshots of their items' spans, histories as lists of events; the answers are those of C34 |
| C134 | Files that are added do not change what parameter files mean; scripts in a row | Pipelines.v -> Pipelines.v | load, load_text, meaning, getters, after_script, after_scripts, split_then_join | every step of loading that succeeds (following a path, reading a file, resolving an include) succeeds with the same result in a file system with more in it; induction over the derivation of the meaning and over the recursion of the loader; composition of C84, C85 and C128 |
| C135 | Scripts that run at the same time | ScriptRaces.v -> ScriptRacesProps.v, ScriptRacesWitness.v | at_the_same_time, same_as_one_by_one, steady, input_of_another_refuted, same_output_refuted | Processes that read their inputs at a scheduled moment and then do the system calls of Races.v. A simulation shows that each of their states is one of the calls of Races.v launched with the bytes each script would write alone; this needs that downsample, join and both kinds of split give the same bytes from every state with new directories and other outputs half-written (proved from C84, C85, C86, C88 and the facts of C117; for an explicit split by induction over the splits). C103 then gives completion and content; the comparison with one-after-another runs is by induction over the order. Two refuted claims: an output which is an input of another, and two scripts with one output. |
| C136 | pathify: a string or a Path, all the same | Pathify.v -> PathifyProps.v | path, same, printed, all, either, text | the root as a case analysis on leading slashes; components by splitting and joining (spells, from C97); a Path's text is parsed back |

## 6. Findings: claims that are false of the code

Each is a theorem; the comment is the one at the theorem.

* `C02_discrete_refuted`: On a discrete type the converse fails: (3,4) over the integers.
* `C08_common_member_refuted`: The stronger reading "some value is in both" is false, even on dense types: [2,4) and [4,6) "intersect".
* `C18_shares_value_refuted`: Hence a member sharing no value with the query may be listed: [4, 5] touches (0, 4).
* `C23_equal_sets_equal_hash_refuted`: C23 is false: whatever the identity hash (injective on distinct objects), two calls on equal sets - even on the same set - with two live views give different hashes.
* `C24_unbounded_refuted`: Unbounded ranges do not survive: pickled and loaded, "at most 3" is not equal to itself and claims to have a lower bound (the sentinel is compared by identity).
* `C30_iterator_refuted`: C30 fails for iterators and generators (allowed by the [Iterable] annotation): the second pass sees nothing, so the call always raises.
* `C32_identical_spans_refuted`: The documentation says the disjoint index disallows overlapping spans. That is false for items with identical spans: construction succeeds and one of the items is lost.
* `C33_equal_items_refuted`: C33 needs equal items to be identical: two distinct items at different spans that compare [==] make get_containing return an item that does not contain the query.
* `C35_negative_window_refuted`: The restriction to windows starting at a non-negative offset is needed: the trailing slice uses the unshifted end offset, so text is dropped.
* `C36_clipped_to_same_refuted`: Distinctness of the *clipped* spans is needed: two nested distinct spans that clip to the same window produce crossing tags.
* `C38_only_equal_to_all_refuted`: An element that compares equal to everything is missed: only() returns the first of two.
* `C38_only_lookup_error_refuted`: the documented LookupError is never raised
* `C42_empty_name_refuted`: Without that side condition the round trip fails: a top-level parameter called "".
* `C42_unify_prefix_refuted`: After p.namespace("a").unify({"d": 2}), namespaced_items mixes two prefixes: "b.c" is reported as "a.b.c" but the sibling "d" as "d".
* `C44_associative_refuted`: With a null in the middle only one grouping succeeds.
* `C46_wrong_exception_refuted`: The documented contract "a ParameterError for a value of the wrong type" fails for a namespace that contains a null: printing it into the message raises a RuntimeError instead.
* `C46_bool_is_integer_refuted`: integer() accepts booleans.
* `C47_falsy_defaults_refuted`: The claim fails for falsy defaults: 0.0, 0 and [] are dropped and None is returned.
* `C48_no_reference_remains_refuted`: Refuted: "references in the result are all resolved" - substituted values are not rescanned: [place] above is replaced by the literal text %here%.
* `C48_failures_are_parameter_errors_refuted`: Refuted: "failed interpolations result in a ParameterError": a reference through a parameter that is not a namespace is an AttributeError or a TypeError, even if the context has it.
* `C50_every_value_refuted`: Refuted: "a reference to a defined parameter is substituted whatever its value".
* `C52_any_depth_refuted`: C52, documented claim ("all keys ... at any depth must be strings"), refuted: dicts inside lists are not checked.
* `C53_special_factory_refuted`: Documented: a string that is a key of special_factories selects that factory. Refuted: the default factory is used instead (and without one the call fails).
* `C53_special_value_in_namespace_refuted`: Documented: special_values also apply to the value parameter inside a namespace. Refuted: there the special value is evaluated as code.
* `C53_default_factory_prefix_refuted`: The default factory gets an empty namespace whose prefix is the characters of the name, not the prefix extended by the name.
* `C54_null_refuted`: Parameters holding a null (which the loader produces) cannot be written or printed.
* `C55_keys_key_refuted`: Keys which do not work: "__keys" gives the key list instead of its value; with NUL in a key the value is lost and may even replace another one's.
* `C55_nul_key_refuted`: A key with a NUL: the value put for "a\0" replaces the value of "a", although both keys are listed.
* `C55_newline_key_refuted`: A key with a newline is listed as two keys, and iterating over the store fails.
* `C56_failed_put_refuted`: ... so that "a failed put changes nothing" is false: the key is in the store's key list without a value, and iterating over the store fails.
* `C56_unclosable_refuted`: ... and after a put with an unencodable key the session cannot be closed.
* `C56_reuse_refuted`: A sink object used for a second overwriting session still refuses, and lists, the keys of the first.
* `C57_failed_overwrite_refuted`: A failed put is not without effect, though: when a key was put before, putting a value that cannot be encoded empties its file, and the key stays in the index; reading it gives the empty text.
* `C57_index_key_refuted`: A document called "_index" is lost: its file is overwritten by the index.
* `C60_empty_key_refuted`: The documentation says that an entry is skipped if the key function returns None: it is also skipped for an empty key.
* `C62_partition_refuted`: The explicit split is not checked to be a partition: a key in two lists is copied to both outputs, without an error.
* `C65_zip_overwrite_refuted`: "If you write twice, the second write will overwrite the first": false for zip entries as far as the file is concerned - both entries are in the archive, the file only grows.
* `C66_line_endings_kept_refuted`: The documentation says "line endings are not removed": they always are.
* `C67_blank_line_refuted`: In particular a blank line in the file - which the code means to skip - is an error.
* `C69_whole_string_refuted`: The whole string need not be an amount: whatever follows the letter is ignored.
* `C71_path_refuted`: ... also if the dot is in a directory name, or the first character.
* `C72_names_refuted`: Not every name is: the empty name can be "set" without effect or error, and different strings can be the same checkpoint.
* `C73_arg_message_refuted`: A message with a percent sign and no arguments need not give a ValueError.
* `C73_opt_isinstance_refuted`: ... but, contrary to its documentation, accepts anything that counts as false: 0, "", [] ...
* `C73_non_empty_refuted`: The attrs validator non_empty never rejects anything.
* `C74_idempotent_refuted`: Configuring the logging n times is not the same as once: every message is then printed n times.
* `C75_tar_gz_name_refuted`: USAGE says ".tar.gz" is stripped: only "tar.gz" is, the dot before it stays.
* `C75_subdirectory_error_refuted`: directory_to_key_value_store: "if any sub-directories of the input directory are encountered, an error will be raised".
* `C77_same_span_refuted`: With two annotations on the same span the output depends on the order.
* `C79_negative_refuted`: Even for offsets reported to be out of bounds the text printed need not be empty.
* `C80_creatable_file_is_directory_refuted`: "A file path which can be created": creatable_file accepts a path that is an existing directory.
* `C81_hash_path_refuted`: A path that begins with # cannot be listed: the line is taken as a comment and silently skipped.
* `C82_override_type_refuted`: C82, refuted: overriding cannot supply anything but strings, so a program that asks for an integer fails on an overridden one.
* `C82_given_parameters_refuted`: C82, refuted: the documented parameters= argument never works.
* `C83_file_map_source_refuted`: Documented: "type: file-map" is a shortcut for a docID to file map. Refuted for the sources: it always gives a source without any keys, whatever "path" is and whether it exists.
* `C83_default_refuted`: Documented: without a type, the sources come from a document map and the sinks write to a directory. Refuted: without the namespace, or with a namespace lacking a type, or with just the name of a shortcut, there is always an error (the default factories get an empty namespace).
* `C83_directory_shortcut_refuted`: Documented: for sinks 'directory' is a shortcut. Refuted: it is an error, unless the name is bound.
* `C84_input_overwritten_refuted`: Nothing is said about where the input may be. Refuted: if the input is itself one of the files written - a store 0.zip in output_dir, say -, it is overwritten before it is read: the script fails, all slices are empty, and the pairs of the input are gone.
* `C85_output_among_inputs_refuted`: Documented: "Combine multiple key-value stores". Refuted if the output file is among the inputs: it is emptied before it is read, so joining fails and what it held is lost (here: as the first input, and the output holds nothing).
* `C86_in_place_refuted`: A store cannot be reduced in place. Refuted, if that was meant to be possible: with the input as output_zip_path, the file is emptied before the first pair is read; the script fails and leaves an empty store.
* `C87_output_inside_refuted`: Documented: "Each file in the input directory will become one entry". Refuted when the output lies below the input directory: the output becomes an entry of itself, with what was in the unfinished file as value.
* `C88_input_overwritten_refuted`: Refuted, if writing a split over the input was meant to be possible: the input is emptied before its first pair is read. The script fails at the first split, from the one written over the input on, that lists a key; the splits before the overwritten input are complete, the pairs of the input are gone.
* `C88_must_be_exhaustive_refuted`: Documented: "The split is expected to be exhaustive unless the parameter explicit_split.must_be_exhaustive is set to False". Refuted: that parameter is not read; with it the script fails all the same when a key is not listed.
* `C88_list_refuted`: Refuted: the splits may hold any parameters besides keys_file and output_file. When the namespace of any split has a list-valued parameter, at whatever depth, the script fails with a TypeError before writing anything.
* `C89_nested_refuted`: Documented: "If the parameter is a string, it is evaluated with the module prefix of the name imported". Refuted for nested classes: the class around is taken for a module, too.
* `C89_hidden_package_refuted`: Without a context, names of local variables of evaluate itself (name, context, default, ...) hide packages of the same names.
* `C90_unpack_directory_refuted`: Documented: "Should the tar contents be added to the zip file by unpacking them to disk first". Refuted for tar files with a directory: os.remove fails on it, the zip file has only the files before it, and those after it stay unpacked.
* `C92_message_refuted`: The message says the opposite: "If you specify a key output function, you should also specify a key input function"; this is accepted.
* `C92_stale_keys_refuted`: If the keys function fails, so does entering; but the object is left open, and shows the new file with the keys of the file before:
* `C93_outside_refuted`: A checkpoint whose name leads out of the directory survives a reset.
* `C93_nested_refuted`: If a checkpoint directory is inside another, resetting the outer one makes the inner one unusable.
* `C93_chdir_refuted`: A directory given by a relative path is another one after changing the current directory: checkpoints are gone.
* `C93_subdirectory_refuted`: A name which is that of a subdirectory can be set without error, and is not set.
* `C93_reset_here_refuted`: Resetting a checkpoint directory given as "." deletes what is in it and fails.
* `C94_items_after_exit_refuted`: One might expect items() to fail after the block as it does before ("Need to enter ... before using it"): it does not, the file handle is only closed. The failure comes when the iterator is used, and not even then if no member is wanted.
* `C95_num_slices_override_refuted`: Documented: "The user may override parameters from the parameter file". Refuted for numbers: with "-p num_slices 3" splitting fails with a ParameterError, after having made the output directory, whatever the file says.
* `C96_positional_refuted`: The functions pass further positional arguments on to attr.ib, whose first parameter is the default: those that set a default themselves cannot take any.
* `C97_absolute_refuted`: C97 refuted: a put stays inside the sink's directory. A key that is an absolute path writes that file, wherever it is.
* `C97_parent_refuted`: C97 refuted: a relative key without NUL stays inside the sink's directory. "../" n times followed by a name writes the file of that name n levels above.
* `C97_nested_refuted`: C97 refuted: any two different keys can be put. When one key's file lies below the other's, the second put - in whichever order - is an OSError that changes nothing, whatever its value.
* `C97_index_directory_refuted`: C97 refuted: leaving the sink after successful puts writes the index. After a put under a key "_index/..." the index cannot be written.
* `C97_index_key_refuted`: C97 refuted: what was put can be read. What is put under the key "_index" is replaced by the index, which lists itself.
* `C97_space_refuted`: C97 refuted: keys without line breaks, tabs and surrounding spaces can be read back. A key ending in " /" names a file whose name ends in a space, which is lost when the index is read.
* `C97_shared_refuted`: C97 refuted: different keys are kept apart. "c" and "./c" name the same file.
* `C98_tuples_refuted`: C98 refuted: a factory refuses ends in the wrong order with a ValueError. If the ends are tuples - of any length but one - the message cannot be formatted and it is a TypeError; nor can such a range, once made, be printed.
* `C98_strings_refuted`: C98 refuted: different ranges of any endpoints print differently. Text with ".." in it can be read in two ways.
* `C99_zip_directories_refuted`: C99: unlike to_file, file_in_zip makes no directories: with a directory missing above the archive open() fails.
* `C100_before_configuring_refuted`: C100 refuted: configure_logging_from makes every message be printed exactly once (C74). After any call of an optional getter with a default, in a program without handlers so far, every message is printed twice.
* `C101_list_refuted`: C101 refuted: sub_namespaces always gives the namespaces nested immediately under this one. When any of them has a parameter whose value is a list, at whatever depth, it raises a TypeError (lists cannot be hashed), although every namespace() is there.
* `C101_shared_refuted`: C101 refuted: sub_namespaces gives as many namespaces as there are. A mapping may hold Parameters objects; when it holds the same one twice, under two names, sub_namespaces gives it once.
* `C103_same_empty_refuted`: Two processes want the same empty directory, which is not there yet. One of them may be told that it is not a directory, although it is.
* `C103_exclusive_refuted`: Or both get it, so that neither has it for itself.
* `C104_list_refuted`: C104 restricted to values without lists is not a weakness of the proof: a list is not copied, and when the program changes it the Parameters object's value changes.
* `C104_pairs_refuted`: from_key_value_pairs changes a dictionary it is given as a value, when a later key leads into it: d = {}; Parameters.from_key_value_pairs([("a", d), ("a.b", 1)]) leaves d = {"b": 1}.
* `C105_old_value_refuted`: C105 refuted: a put that does not complete leaves the old value. A file that is written again is emptied first: if the process dies then, its old content is lost and the new not yet there.
* `C105_torn_refuted`: C105 refuted: a store that can be read is right. If the process dies while it writes the index, the torn index can be read without error, the last path in it being that of another document: "ab" then has the value of "a".
* `C105_empty_refuted`: C105 refuted: a store that can be read is complete. An index of which nothing has been written is that of an empty store.
* `C106_skips_refuted`: C106 refuted: such a loop sees every range of the set it began with. When [3, 4] is widened to [1, 4], [0, 1] and it become one range, the others move one place to the left and [6, 7] is never delivered, although it is in the set all the time.
* `C106_endless_refuted`: C106 refuted: such a loop ends. With [r] shifted by two added for each [r], the range just added is the next one: the loop has not ended after any number of rounds.
* `C106_snapshot_refuted`: C106 refuted: a view is a copy.
* `C107_extensional_refuted`: Refuted, if equality of range maps was meant to be equality of their lookups: maps with different key ranges that hold the same integers are different, though each lookup gives the same.
* `C107_inherited_equality_refuted`: Refuted: the equality a subclass of RangeMap inherits compares the keys only: maps that give different values are equal.
* `C107_hash_refuted`: Refuted: equal maps - even one map, asked twice - have different hashes while the views made for hashing them are different objects, if all the values can be hashed; otherwise hash raises.
* `C108_namespace_copy_refuted`: C108 refuted, if equality was meant to be about the parameters: a namespace is never equal to the Parameters made from its own as_nested_dicts(), because of its prefix.
* `C108_boolean_refuted`: C108 refuted, if equal objects were meant to be interchangeable: True == 1, so objects can be equal of which one has a boolean parameter and the other does not.
* `C109_longest_first_refuted`: Refuted, if < was meant to be the order earliest_then_longest_first_key gives: of spans that begin together the shorter comes first.
* `C109_memory_equal_refuted`: Refuted: equal amounts of memory are equal. 1024 of a unit are never equal to one of the next.
* `C109_memory_order_refuted`: Refuted: < compares amounts of memory. One of the larger unit is less than two of the smaller.
* `C109_scored_refuted`: Refuted: scored items are ordered by their scores. The items are compared first; the scores, whatever they are, count only when the items are equal, and when the items cannot be compared it is a TypeError.
* `C111_rewritten_refuted`: Refuted: an iterator goes through the store it was made of. If the source is left and entered again, the file having been rewritten, an iterator made before gives the old keys with the new values; a key the new file lacks is a KeyError.
* `C113_documented_refuted`: Sets meet the requirement of range.py:320 ([<] is consistent with [==]), but the table of the documentation is wrong for them: the set 2 is in [Range.closed(frozenset(), frozenset({1}))] although [frozenset({2}) <= frozenset({1})] is False.
* `C113_encloses_refuted`: [at_least({1}).encloses(at_least({2}))] and the other way round, but neither has the least member of the other; the intersection of the two is the one whose method is called.
* `C113_nan_refuted`: A range can be made from NaN, is not equal to itself, and NaN is in [Range.at_most(2.0)] but not in [Range.at_least(2.0)].
* `C114_lost_refuted`: C114 refuted: what has been put, and not replaced, into a directory through sinks that have all been left can be read. Of two sinks entered on one directory the one left first loses its index: its key is not listed, though its file is there.
* `C115_always_TypeError_refuted`: C115: not every question about a value of another type raises: the set {(-inf..5]} gives its range as the rightmost one containing or below a string.
* `C116_is_empty_refuted`: C116: is_empty of a file in a .tar.gz does not tell whether the text is empty: it says yes for links.
* `C117_old_output_refuted`: Refuted: a script that is killed leaves its old output or the new one. The output is emptied when it is opened: whatever was there before is lost, and any unfinished file can be left.
* `C118_order_refuted`: Refuted: "the order of the parameters in a file does not matter". A reference that leads through a string which itself contains references is looked up before or after that string is interpolated, depending on the order of the file: here [a] is "%x%" when [c] is computed, or already "b".
* `C119_always_TypeError_refuted`: C119: keys of two types do not always give a TypeError: if Range.all() is the first key, it takes them all in, and the exception is the ValueError of connected keys.
* `C120_leftovers_refuted`: Expected: the run needs the disk for unpacking only for its own duration (os.remove). Refuted: a run with --dont-stream that is killed after unpacking leaves all the members in the current directory.
* `C121_outdated_refuted`: Expected: a file that the zip file has is the one that the tar file has. Refuted with --omit-large-files: if a file was added to the tar file again, larger than the cutoff, the zip file has the outdated contents, where reading the tar file gives the new ones.
* `C122_leftmost_refuted`: Expected: leftmost_containing_or_above gives the range that contains NaN, if there is one. Refuted: if no range has an open lower bound, it gives the last range, or None if that one has an open upper bound; a range that contains NaN is then not given unless it is the only one.
* `C123_again_refuted`: Documented: "Should the tar contents be added to the zip file by unpacking them to disk first". Refuted for tar files with two files of one name, as "tar -r" makes them: the second is not there any more when the loop comes to it. The zip file has the files before it, each with the last content of its name; those after it whose names are new stay unpacked.
* `C125_overwrite_refuted`: "overwrite: whether to overwrite the file": refuted for a sink object that is used again. An overwriting object refuses and lists the keys of all its earlier "with" blocks [blocks] as if it appended, but the file has the values of the last one only; if there were any before, iterating over the store fails.
* `C126_output_order_refuted`: "The ordering of the key-value pairs in the output is undefined but deterministic." Refuted: the list of keys of the output is that of a Python set of strings, whose order changes from process to process (unless PYTHONHASHSEED is set). Whenever two pairs or more are kept, there are two orders of sets for which the same run gives two different lists of keys.
* `C126_same_pairs_refuted`: Refuted: the sample depends on the pairs only. The keys are not sorted before they are shuffled (split_key_value_store does that: "guarantee deterministic iteration order"), so two stores with the same two pairs, listed in different orders - such as two outputs of the run above -, give different samples of size 1, with the same seed.
* `C129_text_file_refuted`: Expected: the object can be used as any open text file (it is declared as a TextIO). Refuted: [closed] is true from the beginning, write gives no number of characters, and writelines does not go through its argument, so that an exception of a generator given to it is not raised.
* `C130_polynomial_refuted`: C130: the bound is exponential for a reason. For every n there is a parameter file of n + 1 string parameters, each of at most 2 n + 4 characters, that is loaded (with nothing in the context) and has then a string of 2^n characters.
* `C131_is_empty_refuted`: Refuted: "asking a source whether it is empty closes what it opened". A program that asks n files in a tar file has the tar file open n times.
* `C131_missing_member_refuted`: Refuted: "a source that cannot be opened leaves nothing open": asking for members that are not in the zip file.
* `C133_overlaps_refuted`: Expected: also in overlaps, intersection and clip_to. Refuted: they raise AttributeError, except that overlaps and intersection say False and None when the span precedes that of the object.
* `C133_index_follows_refuted`: Expected: it answers by the spans they have. Refuted.
* `C135_input_of_another_refuted`: Each script would work by itself, and the outputs are apart; but the second reads what the first writes. It may meet a file that is empty.
* `C135_same_output_refuted`: Two scripts with the same output: both get through, and one result is lost.

## 7. Testing the theorems against wrong programs

`seeded/LOG.jsonl` records the mutation tests: each is an edit of a model definition in a scratch copy, in the way a bug would change the program (a wrong boundary, a
missed case, swapped arguments, a dropped update, another exception class). The copy is rebuilt; a proof that no longer goes through is removed and the build goes on, so the log says exactly which
theorems fail. A mutant that no theorem notices is either an equivalent program (the row says why) or a theorem was tightened (the row says which) and the mutant was run again.

## 8. Testing the model's Python

`tools/difftest` compares what the model says about Python itself (string functions, lines, UTF-8, pathlib, os.mkdir and open, shutil.rmtree, tarfile, zipfile, argparse, regular
expressions, closing of files) with CPython 3.11 on random inputs. These are tests of the model, on which no theorem depends. They found two differences, which are corrected or
noted in the model: Path.resolve(strict=True) meets a NUL character part by part (LoadFs.v), and recent versions of Python raise FileExistsError when a directory member of a tar
file is unpacked where a file exists (TarMain.v).
