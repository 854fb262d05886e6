{
 "C01": [
  "Range.v",
  "case analysis on cuts; membership by the laws of the order"
 ],
 "C02": [
  "Range.v",
  "case analysis; a dense order gives a witness between two cuts; Z refutes the converse"
 ],
 "C03": [
  "Range.v",
  "cut order is total; witnesses for exactness on dense unbounded orders"
 ],
 "C04": [
  "Range.v",
  "max/min of cuts; lattice laws"
 ],
 "C05": [
  "Range.v",
  "cut comparison"
 ],
 "C06": [
  "Range.v",
  "min/max of cuts"
 ],
 "C07": [
  "Range.v",
  "induction on the collection"
 ],
 "C08": [
  "Range.v",
  "from C04/C05; Z refutes the common member"
 ],
 "C09": [
  "Range.v",
  "equality of cuts; hash is any function of the fields"
 ],
 "C10": [
  "Range.v",
  "transitivity"
 ],
 "C11": [
  "SortedDict.v, RangeSet.v",
  "invariant (sorted, non-empty, disconnected) preserved by add; induction on the call history"
 ],
 "C12": [
  "RangeSet.v",
  "induction on histories"
 ],
 "C13": [
  "RangeSet.v",
  "normal form is determined by the cuts' coverage; two invariant lists with the same coverage are equal"
 ],
 "C14": [
  "RangeSet.v",
  "characterisation of the result by enclosure; minimality from C13"
 ],
 "C15": [
  "RangeSet.v",
  "bisection lemma on the sorted list"
 ],
 "C16": [
  "RangeSet.v",
  "bisection lemma"
 ],
 "C17": [
  "RangeSetOps.v",
  "sub-list between two bisection points"
 ],
 "C18": [
  "RangeSetOps.v",
  "sub-list between two bisection points; refutation on touching bounds"
 ],
 "C19": [
  "RangeSetOps.v",
  "neighbours of the bisection point"
 ],
 "C20": [
  "RangeSet.v",
  "bisection lemma"
 ],
 "C21": [
  "RangeSet.v",
  "first and last of the sorted list"
 ],
 "C22": [
  "RangeSetHeap.v",
  "heap of objects; induction on interleaved histories of calls on several sets"
 ],
 "C23": [
  "RangeSet.v",
  "counter-example; equality of listings"
 ],
 "C24": [
  "Pickle.v",
  "identity of singletons modelled by a tag lost on pickling"
 ],
 "C25": [
  "RangeMap.v",
  "induction on the builder; C11"
 ],
 "C26": [
  "RangeMap.v",
  "lookup of the range containing the key, C15, C17, C20"
 ],
 "C27": [
  "Span.v",
  "arithmetic"
 ],
 "C28": [
  "Span.v",
  "arithmetic"
 ],
 "C29": [
  "Span.v",
  "arithmetic, C01"
 ],
 "C30": [
  "Span.v",
  "induction; iterators that are consumed"
 ],
 "C31": [
  "Span.v",
  "lexicographic order; stable sort"
 ],
 "C32": [
  "Span.v",
  "reduction to C25"
 ],
 "C33": [
  "Span.v",
  "reduction to C26"
 ],
 "C34": [
  "Span.v",
  "filter of the items; sortedness"
 ],
 "C35": [
  "AnnotatedText.v",
  "induction on the text with an invariant on the open spans"
 ],
 "C36": [
  "AnnotatedText.v",
  "parsing of the output by a small grammar (AnnotatedTextSpec.v)"
 ],
 "C37": [
  "IterUtils.v",
  "induction; infinite iterators as functions from positions"
 ],
 "C38": [
  "IterUtils.v",
  "case analysis and induction"
 ],
 "C39": [
  "Graph.v",
  "invariant of the queue algorithm: remaining in-degrees; a minimal counter-example gives the cycle; fuel suffices"
 ],
 "C40": [
  "Graph.v",
  "induction on construction"
 ],
 "C41": [
  "Params.v",
  "induction on nested mappings"
 ],
 "C42": [
  "Params.v",
  "induction on the pairs; uniqueness of dotted paths"
 ],
 "C43": [
  "Params.v",
  "induction on the path"
 ],
 "C44": [
  "Params.v",
  "induction on nested mappings against a path-wise specification"
 ],
 "C45": [
  "Params.v",
  "case analysis"
 ],
 "C46": [
  "Params.v",
  "decision table"
 ],
 "C47": [
  "Params.v",
  "decision table"
 ],
 "C48": [
  "Interp.v",
  "regex as a recogniser; substitution in topological order (C39) equals the full expansion by well-founded recursion on references"
 ],
 "C49": [
  "Interp.v, Load.v",
  "path-wise characterisation of the interpolation context"
 ],
 "C50": [
  "Interp.v",
  "from the outcome theorem of C48"
 ],
 "C51": [
  "Load.v",
  "induction on the include tree with fuel, against a relational specification (LoadSpec.v)"
 ],
 "C52": [
  "Load.v",
  "case analysis; refutation by a nested key"
 ],
 "C53": [
  "ParamsEval.v",
  "decision table with import/eval oracles"
 ],
 "C54": [
  "Params.v",
  "induction on nested values"
 ],
 "C55": [
  "KeyValue.v, Io.v",
  "archive as an entry list; induction on the puts"
 ],
 "C56": [
  "KeyValue.v",
  "state machine of sinks and disks; induction on histories of sessions"
 ],
 "C57": [
  "KeyValue.v",
  "induction on the puts, for writes that may fail; C67 for the index"
 ],
 "C58": [
  "KeyValue.v",
  "split and join are inverse"
 ],
 "C59": [
  "KeyValue.v",
  "pointwise; induction for items"
 ],
 "C60": [
  "KeyValue.v",
  "relational specification of the listing, induction on members"
 ],
 "C61": [
  "Scripts.v",
  "round robin: index arithmetic; C55 for the stores"
 ],
 "C62": [
  "Scripts.v",
  "induction on key lists"
 ],
 "C63": [
  "Scripts.v",
  "induction on inputs with the set of written keys"
 ],
 "C64": [
  "Scripts.v",
  "prefix of a permutation"
 ],
 "C65": [
  "Io.v",
  "composition with C68 and the newline specification"
 ],
 "C66": [
  "Io.v",
  "induction on the text"
 ],
 "C67": [
  "Io.v",
  "line-wise codec, stable sort"
 ],
 "C68": [
  "Utf8.v",
  "arithmetic on code units, case analysis by length"
 ],
 "C69": [
  "Memory.v",
  "recogniser against a grammar"
 ],
 "C70": [
  "Misc.v",
  "induction"
 ],
 "C71": [
  "Misc.v",
  "last dot; concatenation"
 ],
 "C72": [
  "Checkpoints.v",
  "induction on histories with crashes"
 ],
 "C73": [
  "Preconditions.v",
  "decision table"
 ],
 "C74": [
  "Entry.v",
  "state of the root logger"
 ],
 "C75": [
  "Scripts.v",
  "induction on directory trees and tar members"
 ],
 "C76": [
  "AnnotatedText.v",
  "sorting by key is canonical"
 ],
 "C77": [
  "AnnotatedText.v",
  "the output is a function of the sorted spans"
 ],
 "C78": [
  "KeyValue.v",
  "crash after any number of puts"
 ],
 "C79": [
  "Scripts.v",
  "arithmetic on slices"
 ],
 "C80": [
  "Fs.v",
  "file system as a partial map from paths; path resolution by a relation"
 ],
 "C81": [
  "PathLists.v",
  "composition of C66/C67 with path resolution"
 ],
 "C82": [
  "Entry.v",
  "decision table of the entry point; composition with C42, C44, C51"
 ],
 "C83": [
  "KvParams.v",
  "composition of C53, C80, C55, C57"
 ],
 "C84": [
  "Mains.v",
  "from parameters to files: composition of C46, C53, C80, C83 with the split loop (C61); the runs that are rejected are in MainsRejected.v"
 ],
 "C85": [
  "Mains.v",
  "composition of C81, C83 with the join loop (C63); round trip with C84; the runs that are rejected are in MainsRejected.v"
 ],
 "C86": [
  "Mains.v",
  "composition of C46, C80, C83 with C64; the runs that are rejected are in MainsRejected.v"
 ],
 "C87": [
  "Mains.v",
  "composition of C80, C83 with the copying loop; the output is opened before the directory is listed; the runs that are rejected are in MainsRejected.v"
 ],
 "C88": [
  "Mains.v",
  "induction over the splits, composition of C62, C80, C83; the runs that are rejected are in MainsRejected.v"
 ],
 "C89": [
  "ClassNames.v, ClassOf.v",
  "splitting dotted names, composition with C53"
 ],
 "C90": [
  "TarMain.v",
  "induction over the members; what is at which path after unpacking and removing"
 ],
 "C91": [
  "LoadFs.v (on Load.v, Fs.v)",
  "specification LoadFsSpec.v (where paths lead, LoadsAt); derivations of C51 translated place by place; accessibility of the include relation excludes cycles; induction on the recursion limit; write-load by C54, C48_no_references and C51_without_includes"
 ],
 "C92": [
  "ZipKeys.v (on KeyValue.v)",
  "invariant over the history (archive = exactly the keys' entries and reserved ones); the default functions shown to be an instance, and the sink with them the one of C55-C58"
 ],
 "C93": [
  "CheckFs.v (on Fs.v, LoadFs.v)",
  "where names lead (LoadFsSpec.opens); frame lemmas for touch, rmtree and mkdir; induction over the history with several directories"
 ],
 "C94": [
  "TarSource.v",
  "State machine of the source object: each enter, exit, items and next is a step; tar files with their member cache and lazily read rest are part of the state. Invariant: every iterator is at a position that its tar file has already read, and past position 0 only if the first member has been handed out. Induction over the loop gives one next as a step of the ideal iteration; induction over histories gives the theorems."
 ],
 "C95": [
  "Command.v",
  "argparse's reading of the command line as a scan (proved equal to a grammar), the loader on a file system (LoadFs.v), the entry point (Entry.v) and the scripts' main functions (Mains.v) put together; the end-to-end theorems compose C82, C91, C74 and C84-C88 through the parameters' view."
 ],
 "C96": [
  "AttrUtils.v",
  "attr.ib, attr.s and the builtin isinstance as functions (trusted); declarations, binding of arguments, conversion, validation and the number of factory calls as state; induction over the list of declarations, then over histories of constructor calls"
 ],
 "C97": [
  "DirFs.v",
  "The sinks of key_value.py:400-451 over the file system of Fs.v: paths are followed by the operating system part by part (os_walk), directories are made (mkdir -p), files written, the index written line by line at the exit and read back by the map sources. One write is characterised completely (C97_put), then invariants over the sequence of puts: nothing outside the directory changes (C97_confined), the table holds the successful keys (C97_index), below the directory there are only the keys' files and their directories (C97_round_trip). What keys outside the plain ones do is proved as the _refuted theorems. DirFsKeys.v: arbitrary keys, by a relation (way, dead_end) describing part by part what a walk makes; C97_map_source reads. DirMains.v: the join and directory scripts of Mains.v with a directory sink as output; DirStopped.v: what is left when it stops (a key clashing with an earlier one, an input that cannot be read)."
 ],
 "C98": [
  "Repr.v",
  "The describe_as_* methods and the three __repr__s as functions over an arbitrary formatting of endpoints ('%s' % x may raise, as for tuples). Injectivity by finding the first '..' (resp. ', ', ':') in the text; the sets through C13_equality over all histories. C98_constructor ties the constructor with its formatted message to mk_range of Range.v."
 ],
 "C99": [
  "IoFs.v (theorems IoFsProps.v, cases IoFsWitness.v)",
  "File sinks and sources over the file system of Fs.v with paths followed by OsPath.v; construction, blocks with lists of writes, and histories as lists of operations. One-step theorems by following the path (way / dead_end of DirFsKeys.v, leads of OsPathSpec.v); history theorems by induction with the invariant that the file system stays well formed and only grows."
 ],
 "C100": [
  "DefaultWarn.v (theorems DefaultWarnProps.v)",
  "The getters threaded through a console state (logger of Entry.v and a count of warnings written); logging.warning calls basicConfig() when there is no handler. A history of calls equals n warnings (induction), n given by a table per call; the results theorem uses C46, the configuring theorems C74."
 ],
 "C101": [
  "Params.v (theorems SubNamespaces.v)",
  "sub_namespaces with the hashing its result needs (hashable: no list below). By induction on the tree: an object is hashable iff no dotted name leads to a list; distinctness from C41_prefixes. The set keeps the first of equal items (first_of_equal over peq, the equality of C108)."
 ],
 "C102": [
  "Messages.v, PyRepr.v (theorems MessagesProps.v)",
  "The loop of _private_get with the messages it builds, and unify likewise; repr of str as CPython does it, over an arbitrary isprintable. Messages by induction along the path; reading back: repr is a prefix code (each escaped character is, hex of fixed width), contexts of the same name are dotted prefixes of each other."
 ],
 "C103": [
  "Races.v",
  "Interleaving semantics: each process is a stack of pending system calls (pathlib's mkdir -p, touch and open unfolded into single calls), a schedule picks who runs next. Unconditional invariants (nothing lost, promised directory exists or is still pending, own-step measure, frame, content) and, for programs which keep apart, a ten-part inductive invariant over the stacks that excludes every error. RacesAlone.v shows that one process alone does what Fs.v and CheckFs.v say; two refuted claims about creatable_empty_directory."
 ],
 "C104": [
  "Heap.v, HeapProps.v, HeapValues.v, HeapPairs.v, HeapMain.v, HeapWitness.v",
  "Parameters, dicts and lists are objects in a heap (list of cells), every function of parameters.py:99-242 a function from heap to heap and result, with a limit of nested calls; programs are sequences of events, in any order. Invariant: objects exist, Parameters objects hold no dict and no dotted name. Each function only appends to the heap (from_key_value_pairs: by an ownership predicate for the dictionaries it makes); the values agree with Params.v by induction on the limit; frozen: Parameters cells never change and lead only to Parameters cells, lists and immutable values."
 ],
 "C105": [
  "DirCrash.v, DirCrashProps.v, DirCrashWitness.v",
  "The set of states a killed process can leave: after each os.mkdir/os.rmdir, and with any beginning of the data in an opened file, composed along the session of DirFs.v. Frame by C97's lemmas; documents by the invariant of the session at the point of death; torn index by induction on the lines of the index (a cut line either has no TAB or has its whole key), using that a prefix of UTF-8 decodes to a prefix or not at all. Reached states shown possible; three refuted claims."
 ],
 "C106": [
  "RangeLive.v, RangeLiveProps.v",
  "A view is the address of the set's dictionary in the world of RangeSetHeap.v; iteration is by position in the current list of ranges, with fuel. Induction on the rounds, each being one add of a history (C14, C22); termination because an add enclosing a member never increases the number of ranges. Three refuted claims (snapshot, skipping, endless loop)."
 ],
 "C107": [
  "RangeMapEq.v, RangeMapEqProps.v",
  "The __eq__ attrs generates compares the immutabledict (trusted to compare like dict) and the range set. Dictionary equality is shown to be pointwise equality by counting keys (pigeonhole on duplicate-free lists); equal key sets give equal well-formed range lists (C13), hence equal answers. Three refuted claims (extensional equality, the inherited __eq__, hash)."
 ],
 "C108": [
  "Params.v (dict_eq, peq; theorems ParamsEq.v)",
  "Python's == as a structural function: the tuple comparison attrs generates, dict equality (same length, every item found), list equality, True == 1; == of floats and unknown objects is an arbitrary function, assumed only not to claim equality with None, strings, dicts and Parameters. Dict equality is shown to be pointwise (pigeonhole on duplicate-free keys), then induction on the tree along dotted names; equivalence by nested induction."
 ],
 "C109": [
  "ValueClasses.v",
  "The comparison methods attrs generates (19.2.0; trusted to be those of the tuples of attributes) as a record of == and four fallible operators, composed by lexicographic pairs. Spans by arithmetic; sortedness via the uniqueness of strictly sorted permutations (SortLib.v). Four refuted claims."
 ],
 "C110": [
  "BufferSinks.v",
  "A machine with sinks, handles (buffer, position, closed) and calls in any order; io.StringIO / io.BytesIO (library) are modelled for write, seek, tell, close, getvalue. Invariant relating the state to the history of calls and answers, by induction on the history; the text of a handle is specified place by place (last covering write)."
 ],
 "C111": [
  "ZipIter.v",
  "The source object of ZipKeys.v with iterators stepped one next() at a time. One lemma, by induction on the history, says what the next() calls of one iterator do in terms of the entering and leaving before each of them (C111_any); the others are corollaries through KeyValue.items."
 ],
 "C112": [
  "IterFail.v",
  "The generators of IterUtils.v over streams of results that may be exceptions; induction on the number of next() calls. A theorem says that on streams without exceptions the two models give the same answers."
 ],
 "C113": [
  "RangePartial.v",
  "The functions of Range.v with a comparison that is any function into booleans or exceptions; case analysis on the comparisons, and for partial orders a lemma that compares the sets of values to the right of two bounds. C113_agrees: for total orders it is the model of Range.v."
 ],
 "C114": [
  "DirHist.v",
  "The put, enter and exit of DirFs.v as steps of a history with one table per sink object; an invariant (the tree of files, the last put of each file, each table, the last index written) kept by every call, then C97's lemmas for reading through the index."
 ],
 "C115": [
  "MixedSets.v",
  "The functions of SortedDict.v and RangeSet.v with a comparison that may raise; in one type they agree with those (by unfolding, comparison by comparison), and with a foreign endpoint the first comparison with a bounded key raises before anything is changed. Invariant of the histories: well-formed (C11) and of one type."
 ],
 "C116": [
  "TarLinks.v",
  "tarfile's following of links as a function of the archive and the number of nested calls allowed; the theorems state, by a relation of following one link, which member is read; by induction on the calls, hard links by descent of the position."
 ],
 "C117": [
  "ScriptCrash.v",
  "The states on the way through each script of Mains.v: after every mkdir, with any beginning of _slices.txt, with any unfinished contents (an arbitrary predicate) of a zip file from its opening to its closing, and with the slices closed in reverse order as the ExitStack does. Each is shown to differ from the start only in new directories on the way to the outputs and in the outputs; this relation is transitive and preserves the hypotheses of C84-C88, so by induction over the killed runs a complete run gives what it gives from the start."
 ],
 "C118": [
  "Interp.v, InterpSpec.v",
  "the relation broken (reference, exception) is stated on the file tree alone; the nested-dict walk is shown by induction on the parts of the name to raise exactly that exception, and the gathering loop by induction on the items of the file to stop at the first one; the loop invariant of C48 was extended to references that are passed over"
 ],
 "C119": [
  "MixedMaps.v",
  "RangeMap.v over the comparison of MixedSets.v that may raise; the range set by the per-call theorem of C115, success by counting as in C25: the set then consists of the keys, and C115 says that a set never mixes types; questions by C115 applied to that set."
 ],
 "C120": [
  "TarCrash.v",
  "one invariant (what is left of the original disk, as the specification `remains` says) is shown to hold of every state on the way, from any state that satisfies it, by induction over the members; a complete run from such a state is given by the lemma behind C90"
 ],
 "C121": [
  "TarReplace.v",
  "the theorem about a whole run (C90_stream) gives the entries of the zip file as a relation to the members; two inductions over that relation say which entry a name leads to; the readers are then computed on the same file system"
 ],
 "C122": [
  "NanSets.v",
  "all functions of MixedSets.v and MixedMaps.v commute with an embedding of the ordered values into a type with further values; so every set is the image of one that satisfies the invariant of C11, and only its first bound can be -infinity; bisection with respect to a monotone (for leftmost: constant) test is then computed"
 ],
 "C123": [
  "TarMain.v",
  "induction over the members: what extractall leaves at every path if names may be repeated; the packing loop reads contents from the disk, not from the archive"
 ],
 "C124": [
  "OtherViews.v",
  "from C80 (existing_file) and the specification of stored values"
 ],
 "C125": [
  "ZipReuse.v",
  "the sink invariant of C56 with the key set carried over from one block to the next; for arbitrary calls an invariant (keys only grow, an entered object stays entered) by induction over the calls"
 ],
 "C126": [
  "Mains.v",
  "C86_which (the kept keys are the first n of the shuffled key list, whatever the order of sets; the output's key list is the set's order of them) applied to two runs with different orders of sets, files and outputs; for splitting, strictly sorted permutations are equal. Refutations: rev is an order of sets that changes every list of two distinct keys; a position-based shuffle commutes with swapping the two keys."
 ],
 "C127": [
  "Load.v, LoadFs.v",
  "The converse of C91/C51: an inductive specification (GivesAt/AllGive, in LoadComplete.v) of what a file means, without any function of the program; mutual induction over it for completeness, induction on the recursion depth for soundness; needs that interpolation depends only on what the file and the context look like (den_like)."
 ],
 "C128": [
  "Command.v, LoadFs.v, Mains.v",
  "Composition of C127 (completeness of loading) with unify of the override pairs (C42, C44), logging (C74) and the main functions (C84-C88)."
 ],
 "C129": [
  "NullSink.v",
  "programs are trees of method calls; induction over the program, for an arbitrary handle; the parameter writer is one such program"
 ],
 "C130": [
  "Interp.v, InterpSpec.v",
  "Mutual induction over the specification of values (Den/Lookup/Text): the length of a value is bounded along a chain of references; such a chain has no repetitions (loading succeeded, so C48: not circular), so the pigeonhole principle bounds it by the number of string parameters.  The refutation of a polynomial bound is a family of files, one for every n, loaded by C48_outcomes."
 ],
 "C131": [
  "OpenFiles.v",
  "programs are trees of calls and with-blocks over a heap of file objects with the replaced close methods; induction over the program with an invariant that relates the objects before and after (closed or untouched, new ones closed unless left open, what is left open unreachable); results compared with the contents model Io.v"
 ],
 "C132": [
  "Mains.v",
  "an invariant of the file system, over a set of pairs of keys and values: what is read in any zip file is in the set; it is kept by every way the scripts write files, hence by every run and every rearrangement, hence by every history (reflexive-transitive closure)"
 ],
 "C133": [
  "HasSpan.v, Span.v",
  "delegation as recursion with Python's recursion limit as fuel; induction on the chain of objects; indices as snapshots of their items' spans, histories as lists of events; the answers are those of C34"
 ],
 "C134": [
  "Pipelines.v",
  "every step of loading that succeeds (following a path, reading a file, resolving an include) succeeds with the same result in a file system with more in it; induction over the derivation of the meaning and over the recursion of the loader; composition of C84, C85 and C128"
 ],
 "C135": [
  "ScriptRaces.v",
  "Processes that read their inputs at a scheduled moment and then do the system calls of Races.v. A simulation shows that each of their states is one of the calls of Races.v launched with the bytes each script would write alone; this needs that downsample, join and both kinds of split give the same bytes from every state with new directories and other outputs half-written (proved from C84, C85, C86, C88 and the facts of C117; for an explicit split by induction over the splits). C103 then gives completion and content; the comparison with one-after-another runs is by induction over the order. Two refuted claims: an output which is an input of another, and two scripts with one output."
 ],
 "C136": [
  "Pathify.v",
  "the root as a case analysis on leading slashes; components by splitting and joining (spells, from C97); a Path's text is parsed back"
 ]
}