# Design

Formal model of isi-vista/vistautils (the source in /repo, read as text and never run) in Coq 8.16.1, and proofs of
the properties listed in `properties.jsonl`. `MANIFEST.json` maps every property to its theorems
(generated by `tools/gen_manifest.py` from the theorem names `CNN_...`).

## 1. Conventions of the model

* Every Python function is a total Gallina function. A call that may raise returns `res A = Ok a | Raise e`
  (Prelude.v); the exception class is modelled, its message is not. State (dictionaries, archives, file systems, logging) is
  passed explicitly and returned also when an exception is raised, so that what a failed call leaves behind is visible.
* Every definition of a model file carries a comment with the file and lines it models. Where it simplifies, the comment says so.
* A `str` is a list of code points (`list N`), `bytes` a list of numbers below 256, `int` is `Z`, a dict is an insertion-ordered
  association list, a generator is a state machine or the list it produces together with the exception that ends it.
* Endpoints of ranges are an arbitrary type with `<` and `==` satisfying the laws of a total order (Order.v, a type class passed as an
  explicit argument; witnesses: Z and the rationals). Order.v is the reading of range.py:72-75.
* What is outside the repository is either modelled at its documented interface (section 4) or a universally quantified
  parameter of the theorems ("oracle"): the order in which a Python set is listed, `random.shuffle`, `Path.rglob`, `eval`, `import`,
  the parser of YAML files, the environment, zip/tar/gzip codecs, `logging.config.fileConfig`, user functions and classes.
* Loops are structural recursion or folds. The two loops without an evident bound (topological sort; recursive includes) take fuel; for the first a
  theorem shows that the fuel suffices, for the second the theorems state that running out of fuel is the only other outcome (it models Python's
  RecursionError on cyclic includes) and that more fuel does not change a result.

Layout of `rocq/theories`: model files (Range, RangePartial, SortedDict, RangeSet, RangeSetOps, RangeSetHeap, RangeLive, RangeMap, RangeMapEq, MixedSets, MixedMaps, Pickle, Span, AnnotatedText, IterUtils, IterFail, Graph, Params,
ParamsEval, DefaultWarn, Messages, PyRepr, Interp, Load, LoadFs, Heap, Fs, PathLists, OsPath, Io, IoFs, BufferSinks, OpenFiles, KeyValue, KvParams, ZipKeys, ZipIter, DirFs, DirHist, TarSource, ClassNames, ClassOf, Pathify, ValueClasses, Scripts, Mains, TarMain, TarLinks, CheckFs, Repr, Entry,
Command, AttrUtils; executions that are interrupted or interleaved: DirCrash, DirStopped, ScriptCrash, TarCrash, Races, ScriptRaces; model and theorems together: Memory, Misc, Checkpoints, Preconditions, Utf8, RangePartial, BufferSinks, IterFail, ZipIter, TarReplace, NanSets, OtherViews, ZipReuse, NullSink, HasSpan, Pipelines),
specifications (RangeProps/RangeSetProps heads, AnnotatedTextSpec, ParamsSpec, InterpSpec, LoadSpec, OsPathSpec, LoadFsSpec, and the definitions at the head of the other
`*Props.v`), proofs (`*Proofs*.v`, InterpExpand, InterpLoop, InterpWf, ParamsUnify, ParamsPairs, ParamsGet, HeapValues, HeapPairs) and property theorems (`*Props.v`, KeyValueSources, DirMains, CommandMains, CommandFiles, MainsSample, MainsRejected, Provenance, LoadComplete, InterpSize, HeapMain; `*Witness.v`: concrete cases).
Next to each theorem there is an `Example ..._witness`/`..._hypotheses` showing that a concrete non-trivial case meets its hypotheses.

## 2. Trusted base

* Coq 8.16.1's kernel (with its VM: some examples use `vm_compute`) and the build by `coq_makefile`.
* `Print Assumptions` is run in the sources after the property theorems: every one prints "Closed under the global context". No axiom is used, neither of
  the standard library nor our own. (vcheck also lists `Coq.ssr.ssrunder.Under_rel.*`, parameters of a
  standard library module loaded with the tactics; no theorem depends on them.)
* No `Admitted`, no `Axiom`, no functor or module type, no kernel flag. Section variables are discharged: they appear as universally quantified
  premises of the theorems.
* The faithfulness of the model: the reading of the Python source recorded in the definitions' comments, plus sections 3 and 4.

## 3. What is modelled and what is not

| file | modelled | not modelled |
|---|---|---|
| range.py | cuts, Range, RangeSet (mutable, immutable, builders, copies, pickling, hashing, printed forms), ImmutableRangeMap, SortedDict helpers | deprecation warnings, hash values themselves (an arbitrary function), range sets and maps of endpoints whose `<` is not a total order (single ranges: C113; values of several types: C115, C119; questions about NaN: C122) |
| span.py | everything | |
| annotated_text_utils.py | everything | |
| iter_utils.py, iterutils.py, collection_utils.py | everything, over finite and infinite iterators | `warnings` |
| _graph.py | everything (used by parameters.py) | |
| parameters.py | Parameters (construction, getters, namespaces, unify, evaluate, object_from_parameters, path getters, path lists and maps), YAMLParametersLoader (includes, interpolation, environment), the writer (preprocessing, and writing to and loading from a file system) | the text of YAML (parsing and printing are PyYAML's: an oracle from file content to nested values), log messages, error messages other than those of C102 (missing parameters, clashes) |
| key_value.py | zip, directory, tar and path-map stores, interpreted sources, choosing stores by parameters | in-memory caching that is not observable, `__repr__` |
| io_utils.py | character and byte sources and sinks for strings, buffers, files, gzip, tgz and zip members, `readlines`, `is_empty`, doc-id maps, file_lines_to_set | reading methods of the string buffer beside C129, `detach` |
| checkpoints.py, memory_amount.py, preconditions.py, misc_utils.py, logging_utils.py, parameters_only_entrypoint.py | everything except message texts, argparse's own error handling | |
| class_utils.py | everything, together with evaluating dotted names | |
| attrutils.py | all: `non_empty` (C73), the attribute helpers (C96) | attr.ib, attr.s, instance_of (attrs) and the immutable collections are trusted as modelled in AttrUtils.v |
| scripts/*.py | everything after argument parsing, from parameters and file system to file system (Mains.v, TarMain.v) or, for scripts without parameters, from the opened files (Scripts.v) | argparse beyond the forms of Command.v, log output, links in tar files unpacked by --dont-stream (streaming passes over them), directory-store inputs overwritten while being read |

## 4. Assumptions about Python and third-party code

* sortedcontainers 2.1.0 `SortedDict` behaves as documented (SortedDict.v): a key-sorted association list; bisection is a linear scan in the model (C115_bisection: Python's bisection gives the same, and C122_bisection for NaN).
* immutablecollections: `immutabledict`/`ImmutableDict.of` keep the last value of a repeated key at its first position, `immutableset` keeps first occurrences.
* attrs: `__init__`, `__eq__` (same class, equal fields), frozen attributes, converters before validators. Slotted attrs classes are pickled by class and fields, so
  the singletons `_BELOW_ALL`/`_ABOVE_ALL` come back as new objects. Pickle protocol >= 2.
* An iterator over `SortedDict.values()` walks the keys by position (sortedcontainers 2.1.0 with at most 2000 keys; with more, C14_absorbed still says that adding members in any order changes nothing).
* `sorted` is stable. The listing order of a Python `set` is any permutation (oracle).
* `zipfile`: entries in order of writing, reading a name gives the last entry with it, duplicate names only warn, a name is cut at a NUL, `writestr` of
  an empty name raises IndexError (Python up to 3.11), closing writes the directory. Until then the file is unreadable as a zip file: after a crash, a new archive
  is `Partial`, and so is an appended one (the first write overwrites the old directory). A sink that is dropped without being closed is not closed by the garbage collector before the crash.
* `tarfile` yields members in archive order; gzip/tgz decompression is a partial function on bytes (oracle).
* Text files: UTF-8, strict errors, universal newlines when reading, `\n` written unchanged (POSIX).
* File systems have no symbolic links (so `resolve` is lexical; paths that are not resolved are followed part by part, OsPath.v), no permission errors, no full disk, no concurrent changes (except in Races.v); `os.path` names have no lone surrogates.
* A process that is killed (DirCrash.v) leaves what its system calls did so far; of a file being written any beginning of the data may be there, data is never written out of order, and the machine itself does not crash.
* `re`: only the patterns of this repository, modelled as recognisers. `\d`, `str.isspace`, `str.upper` for non-ASCII characters: the Unicode tables are an
  oracle or listed where used. `int()` accepts any number of digits (no 4300-digit limit, as before Python 3.11).
* `logging`: a root logger with a level and a list of handlers; `fileConfig` is an oracle; nothing else configures logging.
* Objects with unusual `__eq__`, `__hash__`, `__bool__` are outside the model, except where a theorem says otherwise (C33_equal_items_refuted, C38).

