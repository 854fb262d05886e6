(** * Model of the YAML parameter loader (parameters.py:1375-1554) *)
From Verif Require Import Prelude PyStr Params Interp.

(** What yaml.safe_load returns: keys need not be strings.  [YLeaf] is any value that is neither a
    dict nor a list. *)
Inductive ykey := KStr (s : str) | KOther (tag : N).
(** what the YAML parser delivers (parameters.py:1482) *)
Inductive yaml := YLeaf (v : pv) | YList (l : list yaml) | YMap (m : list (ykey * yaml)).
(** isinstance(key, str) (parameters.py:1538-1554) *)
Definition key_is_str (k : ykey) : bool := match k with KStr _ => true | KOther _ => false end.
(** The Python value.  A dict with a key that is not a string can only occur inside a list (see
    [check_keys]); nothing looks into it, so it is an opaque value here. *)
Fixpoint to_pv (y : yaml) : pv :=
  match y with
  | YLeaf v => v
  | YList l => PList (map to_pv l)
  | YMap m => if forallb (fun kv => key_is_str (fst kv)) m
              then PMap (flat_map (fun kv => match fst kv with KStr k => [(k, to_pv (snd kv))] | KOther _ => [] end) m)
              else POther 0
  end.

(** parameters.py:1538-1554 (_check_all_keys_strings) *)
Fixpoint check_keys (y : yaml) : res unit :=
  match y with
  | YMap m =>
      if forallb (fun kv => key_is_str (fst kv)) m
      then (fix go (m : list (ykey * yaml)) : res unit :=
              match m with
              | [] => Ok tt
              | (_, v) :: r => let* _ := check_keys v in go r
              end) m
      else Raise IOError
  | _ => Ok tt
  end.
(** parameters.py:1529-1536 (_validate) *)
Definition validate (y : yaml) : res unit :=
  match y with YMap _ => check_keys y | _ => Raise ValueError end.

(** Iterating over the value of "_includes" (parameters.py:1488): lists give their elements,
    strings their characters, dicts their keys; other values are not iterable.  An element that
    is not a string makes os.path.isabs raise (parameters.py:1490). *)
Definition includes_of (v : pv) : res (list str) :=
  match v with
  | PList l => mapM (fun x => match x with PStr s => Ok s | _ => Raise TypeError end) l
  | PStr s => Ok (map (fun c => [c]) s)
  | PMap m => Ok (map fst m)
  | _ => Raise TypeError
  end.
(** parameters.py:1487-1510 *)
Definition includes_key : str := !!"_includes".
(** Path.is_absolute (parameters.py:1490-1502) *)
Definition is_abs (f : str) : bool := match f with c :: _ => (c =? 47)%N | [] => false end.
(** del d[k] (parameters.py:1510) *)
Fixpoint ddrop {A} (d : list (str * A)) (k : str) : list (str * A) :=
  match d with [] => [] | (k', v) :: r => if str_eqb k' k then ddrop r k else (k', v) :: ddrop r k end.

Section Load.
Variable is_word : N -> bool.
Variable float_truthy : N -> bool.
(** The file system and the YAML parser: reading a file's text, parsing a text, Path(base,
    f).resolve(strict=True), and Path.parent.  Any of the first three may raise. *)
Variable read : str -> res str.
Variable parse : str -> res yaml.
Variable resolve : str -> str -> res str.
Variable parent : str -> str.
(** os.environ.items(), when interpolate_environmental_variables is set; [] otherwise. *)
Variable environ : list (str * str).

(** parameters.py:1490-1502 *)
Definition locate (base : option str) (f : str) : res str :=
  if is_abs f then Ok f
  else match base with Some b => resolve b f | None => Raise ParameterError end.
(** parameters.py:1513-1518 *)
Definition add_environ (d : data_t) : data_t :=
  fold_left (fun d kv => match dfind d (fst kv) with Some _ => d | None => dput d (fst kv) (PStr (snd kv)) end) environ d.
(** the mapping behind a dict value (parameters.py:1466-1527) *)
Definition as_dict (v : pv) : data_t := match v with PMap d => d | _ => [] end.
(** parameters.py:1526-1527: every exception becomes an IOError *)
Definition wrap {A} (r : res A) : res A := match r with Ok a => Ok a | Raise _ => Raise IOError end.
(** parameters.py:1466-1527 (_inner_load_from_string), on the parsed content; [fuel] is the depth of
    nested includes the interpreter's recursion limit allows. *)
Fixpoint inner_load (fuel : nat) (content : str) (ctx : pv) (base : option str) (ns : list str) : res pv :=
  match fuel with
  | 0 => Raise RecursionError
  | S f =>
      wrap (let* raw := parse content in
            let* _ := validate raw in
            let m := as_dict (to_pv raw) in
            let* prev := match dfind m includes_key with
                         | None => Ok ctx
                         | Some v =>
                             let* incs := includes_of v in
                             foldM (fun prev inc =>
                               let* path := locate base inc in
                               let* text := read path in
                               let* loaded := inner_load f text prev (Some (parent path)) [] in
                               unify prev loaded []) incs ctx
                         end in
            let m := ddrop m includes_key in
            let ictx := add_environ (as_dict (dictify prev)) in
            let* p := from_mapping (PMap m) [] in
            let* c := from_mapping (PMap ictx) [] in
            let* own := interpolate is_word float_truthy p c in
            unify prev own ns)
  end.
(** parameters.py:1404-1444 (load) *)
Definition load (fuel : nat) (file : str) (context included_context : option pv) (ns : list str) : res pv :=
  let* ic := match context, included_context with
             | Some _, Some _ => Raise ParameterError
             | Some c, None => Ok (Some c)
             | None, x => Ok x
             end in
  let* c := match ic with Some c => Ok c | None => empty_params [] end in
  let* text := read file in
  inner_load fuel text c (Some (parent file)) ns.
(** parameters.py:1446-1464 (load_string) *)
Definition load_string (fuel : nat) (content : str) (included_context : pv) (ns : list str) : res pv :=
  inner_load fuel content included_context None ns.
End Load.
