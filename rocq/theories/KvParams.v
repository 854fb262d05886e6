(** * Model of choosing key-value stores by parameters (key_value.py:419-426, 446-451, 510-535, 653-694, 836-1101)

    Python objects are strings, the store classes and functions of key_value.py, the stores these make, and anything else ([X]: objects of
    the user's own modules). *)
From Verif Require Import Prelude PyStr TextLib Params ParamsEval Fs PathLists Io.

(** The classes of key_value.py that a configuration can name; [bytes_]: the version for bytes (else for characters). *)
Inductive kv_class :=
| ZipSinkClass (bytes_ : bool)      (* _ZipCharFileKeyValueSink, _ZipBytesFileKeyValueSink: 510-535 *)
| DirSinkClass (bytes_ : bool)      (* _DirectoryCharKeyValueSink, _DirectoryBytesKeyValueSink: 400-451 *)
| ZipSourceClass (bytes_ : bool)    (* _ZipCharFileKeyValuesSource, _ZipBytesFileKeyValuesSource: 640-694 *)
| MapSourceClass (bytes_ : bool).   (* _PathMappingCharKeyValueSource, _PathMappingBytesKeyValueSource: 541-578 *)
(** Objects.  A zip sink also shows the file system that creatable_file left (its parent directories were made). *)
Inductive kv_obj (X : Type) :=
| OStr (s : str)
| OClass (c : kv_class)
| OMapFunction (bytes_ : bool)      (* _doc_id_source_from_params, _doc_id_binary_source_from_params: 847-852 *)
| OZipSink (bytes_ : bool) (path : list str) (fs : list (list str * fnode))
| ODirSink (bytes_ : bool) (path : list str)
| OZipSource (bytes_ : bool) (path : list str)
| OMapSource (bytes_ : bool) (files : list (str * ppath))
| ONone
| OUser (x : X).
Arguments OStr {X} _. Arguments OClass {X} _. Arguments OMapFunction {X} _. Arguments OZipSink {X} _ _ _. Arguments ODirSink {X} _ _.
Arguments OZipSource {X} _ _. Arguments OMapSource {X} _ _. Arguments ONone {X}. Arguments OUser {X} _.

Section KvParams.
Variable X : Type.
Notation obj := (kv_obj X).
(** What the rest of Python does: importing modules, evaluating expressions other than plain names, built-in names, and the user's
    classes and functions. *)
Variable import_module : str -> res obj.
Variable other_eval : str -> list (str * obj) -> res obj.
Variable builtin : str -> option obj.
Variable locals_of : pv -> str -> list (str * obj).
Variable x_is_class : X -> bool.
Variable x_from_parameters : X -> option (pv -> res obj).
Variable x_construct : X -> res obj.
Variable x_callable : X -> bool.
Variable x_call : X -> pv -> res obj.
(** isinstance(x, KeyValueLinearSource), KeyValueSource, KeyValueSink for other objects *)
Variables x_is_linear x_is_source x_is_sink : X -> bool.
(** the current directory and the file system *)
Variable cwd : list str.
Variable fs : list (list str * fnode).
(** the rest of key_value.py's global names *)
Variable other_globals : list (str * obj).

(** Python names made of ASCII letters, digits and underscores *)
Definition name_start (c : N) : bool := ((65 <=? c) && (c <=? 90) || (97 <=? c) && (c <=? 122) || (c =? 95))%N.
(** see above *)
Definition name_char (c : N) : bool := (name_start c || (48 <=? c) && (c <=? 57))%N.
(** Python's keywords *)
Definition keywords : list str :=
  [!!"False"; !!"None"; !!"True"; !!"and"; !!"as"; !!"assert"; !!"async"; !!"await"; !!"break"; !!"class"; !!"continue"; !!"def"; !!"del";
   !!"elif"; !!"else"; !!"except"; !!"finally"; !!"for"; !!"from"; !!"global"; !!"if"; !!"import"; !!"in"; !!"is"; !!"lambda"; !!"nonlocal";
   !!"not"; !!"or"; !!"pass"; !!"raise"; !!"return"; !!"try"; !!"while"; !!"with"; !!"yield"].
(** see above *)
Definition is_name (s : str) : bool :=
  match s with c :: r => name_start c && forallb name_char r && negb (existsb (str_eqb s) keywords) | [] => false end.
(** The builtin eval: a name gives what it is bound to, else the built-in of that name, else NameError (misc_utils.py:74). *)
Definition py_eval (code : obj) (c : list (str * obj)) : res obj :=
  match code with
  | OStr s => if is_name s then match dfind c s with Some o => Ok o | None => opt_or_raise (builtin s) AnyError end else other_eval s c
  | _ => Raise TypeError
  end.

(** key_value.py:847-852 and 308-330 (from_doc_id_to_file_map), io_utils.py:671-686: the map is read at once *)
Definition map_source_from_params (bytes_ : bool) (p : pv) : res obj :=
  let* q := existing_file cwd p !!"path" fs in
  let* t := read_text fs q in
  let* kvs := mapM parse_map_line (text_lines t) in
  Ok (OMapSource bytes_ (fold_left (fun d kv => dput d (fst kv) (to_path None (snd kv))) kvs [])).
(** The classes' from_parameters methods: 515-524 and 530-535 (zip sinks), 419-426 and 446-451 (directory sinks), 653-664 and 683-694 (zip
    sources); the path-mapping sources have none. *)
Definition class_from_parameters (c : kv_class) : option (pv -> res obj) :=
  match c with
  | ZipSinkClass b => Some (fun p => let (fs', r) := creatable_file cwd p !!"path" fs in let* q := r in Ok (OZipSink b q fs'))
  | DirSinkClass b => Some (fun p => let* q := existing_directory cwd p !!"path" fs in Ok (ODirSink b q))
  | ZipSourceClass b => Some (fun p => let* q := existing_file cwd p !!"path" fs in Ok (OZipSource b q))
  | MapSourceClass _ => None
  end.
(** Calling the class without arguments: the zip and directory classes need a path (TypeError); the path-mapping ones have an
    empty map as default (541-546). *)
Definition class_construct (c : kv_class) : res obj :=
  match c with MapSourceClass b => Ok (OMapSource b []) | _ => Raise TypeError end.
(** inspect.isclass (parameters.py:982) *)
Definition is_class (o : obj) : bool := match o with OClass _ => true | OUser x => x_is_class x | _ => false end.
(** hasattr / getattr "from_parameters" (parameters.py:983-984); the store objects have these static methods, too, but are no classes *)
Definition from_parameters (o : obj) : option (pv -> res obj) :=
  match o with OClass c => class_from_parameters c | OUser x => x_from_parameters x | _ => None end.
(** factory() (parameters.py:986) *)
Definition construct (o : obj) : res obj := match o with OClass c => class_construct c | OUser x => x_construct x | _ => Raise TypeError end.
(** callable (parameters.py:987) *)
Definition callable (o : obj) : bool := match o with OClass _ | OMapFunction _ => true | OUser x => x_callable x | _ => false end.
(** factory(params) (parameters.py:988) *)
Definition call (o : obj) (p : pv) : res obj :=
  match o with OMapFunction b => map_source_from_params b p | OUser x => x_call x p | _ => Raise TypeError end.
(** isinstance(o, KeyValueSource): every source class of key_value.py named here is one *)
Definition is_source (o : obj) : bool := match o with OZipSource _ _ | OMapSource _ _ => true | OUser x => x_is_source x | _ => false end.
(** isinstance(o, KeyValueLinearSource) *)
Definition is_linear (o : obj) : bool := match o with OZipSource _ _ | OMapSource _ _ => true | OUser x => x_is_linear x | _ => false end.
(** isinstance(o, KeyValueSink) *)
Definition is_sink (o : obj) : bool := match o with OZipSink _ _ _ | ODirSink _ _ => true | OUser x => x_is_sink x | _ => false end.

(** globals() of key_value.py, as far as its own stores are concerned *)
Definition store_globals : list (str * obj) :=
  [(!!"_ZipCharFileKeyValueSink", OClass (ZipSinkClass false)); (!!"_ZipBytesFileKeyValueSink", OClass (ZipSinkClass true));
   (!!"_DirectoryCharKeyValueSink", OClass (DirSinkClass false)); (!!"_DirectoryBytesKeyValueSink", OClass (DirSinkClass true));
   (!!"_ZipCharFileKeyValuesSource", OClass (ZipSourceClass false)); (!!"_ZipBytesFileKeyValuesSource", OClass (ZipSourceClass true));
   (!!"_PathMappingCharKeyValueSource", OClass (MapSourceClass false)); (!!"_PathMappingBytesKeyValueSource", OClass (MapSourceClass true));
   (!!"_doc_id_source_from_params", OMapFunction false); (!!"_doc_id_binary_source_from_params", OMapFunction true)].
(** effective_context (key_value.py:886-887, 929-930, 968-969, 1007-1008, 1055-1056, 1092-1093) *)
Definition effective_context (user : option (list (str * obj))) : list (str * obj) :=
  fold_left (fun c kv => dput c (fst kv) (snd kv)) (match user with Some u => u | None => [] end) (store_globals ++ other_globals).
(** key_value.py:836-844: values are names to be evaluated *)
Definition source_shortcuts (bytes_ : bool) : list (str * obj) :=
  if bytes_ then [(!!"zip", OStr !!"_ZipBytesFileKeyValuesSource"); (!!"file-map", OStr !!"_PathMappingBytesKeyValueSource")]
  else [(!!"zip", OStr !!"_ZipCharFileKeyValuesSource"); (!!"file-map", OStr !!"_PathMappingCharKeyValueSource")].
(** key_value.py:1019-1027 *)
Definition sink_shortcuts (bytes_ : bool) : list (str * obj) :=
  if bytes_ then [(!!"zip", OStr !!"_ZipBytesFileKeyValueSink"); (!!"file-map", OStr !!"_DirectoryBytesKeyValueSink")]
  else [(!!"zip", OStr !!"_ZipCharFileKeyValueSink"); (!!"file-map", OStr !!"_DirectoryCharKeyValueSink")].
(** The call of object_from_parameters that all six functions make; value_namespace_param_name keeps its default "value". *)
Definition store_from_params (p : pv) (name : str) (ty : obj -> bool) (shortcuts : list (str * obj)) (default_factory : obj) (user : option (list (str * obj))) : res obj :=
  object_from_parameters obj OStr import_module py_eval locals_of [] is_class from_parameters construct callable call ONone
    p name ty (Some (effective_context user)) !!"value" !!"type" [] shortcuts None (Some default_factory).
(** key_value.py:855-895 (char_key_value_linear_source_from_params), 898-938 (byte_key_value_linear_source_from_params) *)
Definition linear_source_from_params (bytes_ : bool) (p : pv) (input_namespace : str) (user : option (list (str * obj))) : res obj :=
  store_from_params p input_namespace is_linear (source_shortcuts bytes_) (OMapFunction bytes_) user.
(** key_value.py:941-977 (char_key_value_source_from_params), 980-1016 (byte_key_value_source_from_params): here the default factory is the one for
    characters in both *)
Definition source_from_params (bytes_ : bool) (p : pv) (input_namespace : str) (user : option (list (str * obj))) : res obj :=
  store_from_params p input_namespace is_source (source_shortcuts bytes_) (OMapFunction false) user.
(** key_value.py:1030-1064 (char_key_value_sink_from_params), 1067-1101 (byte_key_value_sink_from_params) *)
Definition sink_from_params (bytes_ : bool) (p : pv) (output_namespace : str) (user : option (list (str * obj))) : res obj :=
  store_from_params p output_namespace is_sink (sink_shortcuts bytes_) (OClass (DirSinkClass bytes_)) user.
End KvParams.
