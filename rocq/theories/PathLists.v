(** * Model of vistautils/parameters.py:1174-1262: path_list_from_file, path_map_from_file *)
From Verif Require Import Prelude PyStr Params TextLib Utf8 Fs SortLib Io Decimals.

(** A pathlib.Path that has not been resolved: its root (0: relative, 1: "/", 2: "//", which POSIX pathlib keeps
    apart) and its components; Path(s) drops empty and "." components but keeps "..". *)
Record ppath := MkPath { p_root : N; p_parts : list str }.
(** pathlib's parsing of the root: no, one, or (exactly two slashes) two *)
Definition root_of (s : str) : N :=
  match s with
  | a :: r => if (a =? slash)%N then match r with
                                     | b :: r' => if (b =? slash)%N then match r' with
                                                                         | c :: _ => if (c =? slash)%N then 1%N else 2%N
                                                                         | [] => 2%N
                                                                         end else 1%N
                                     | [] => 1%N
                                     end else 0%N
  | [] => 0%N
  end.
(** Path(s) (parameters.py:1174-1262) *)
Definition parse_path (s : str) : ppath :=
  MkPath (root_of s) (filter (fun c => negb (str_eqb c [] || str_eqb c !!".")) (py_split slash s)).
(** base / s : an absolute s replaces the base *)
Definition join_path (base : ppath) (s : str) : ppath :=
  let b := parse_path s in
  if (p_root b =? 0)%N then MkPath (p_root base) (p_parts base ++ p_parts b) else b.
(** Path(line), below relative_to if given (parameters.py:1174-1262) *)
Definition to_path (relative_to : option ppath) (s : str) : ppath :=
  match relative_to with Some b => join_path b s | None => parse_path s end.
(** The absolute path with the given components (last first), as a Path object. *)
Definition abs_path (q : list str) : ppath := MkPath 1%N (rev q).

(** Path.read_text(encoding="utf-8") / open(encoding="utf-8").read() of an existing file.  (Iterating over
    an open file decodes piece by piece, so on undecodable files path_map_from_file may meet a malformed line before the
    UnicodeDecodeError; the model always reports the latter.) *)
Definition read_text (fs : list (list str * fnode)) (q : list str) : res str :=
  match look fs q with
  | Some (KFile b) => let* s := decode b in Ok (universal_newlines s)
  | _ => Raise IOError
  end.

(** the comment character (parameters.py:1174-1262) *)
Definition hash : N := 35%N.
(** line.startswith("#") (parameters.py:1174-1262) *)
Definition starts_hash (s : str) : bool := match s with c :: _ => (c =? hash)%N | [] => false end.
(** path_string.strip() of a list element: only str and bytes objects have strip, and Path(bytes) is a TypeError *)
Definition list_path (relative_to : option ppath) (v : pv) : res ppath :=
  match v with
  | PStr s => Ok (to_path relative_to (py_strip s))
  | PBytes _ => Raise TypeError
  | _ => Raise AttributeError
  end.
(** parameters.py:1174-1216; the log message is not modelled *)
Definition path_list_from_file (cwd : list str) (p : pv) (name : str) (relative_to : option ppath) (fs : list (list str * fnode)) : res (list ppath) :=
  let* raw := private_get p name false PNone in
  match raw with
  | PStr _ =>
      let* f := existing_file cwd p name fs in
      let* t := read_text fs f in
      let strings := map py_strip (filter (fun l => negb (is_nil (py_strip l)) && negb (starts_hash (py_strip l))) (splitlines t)) in
      Ok (map (fun s => to_path relative_to (py_strip s)) strings)
  | _ =>
      let* l := arbitrary_list p name PNone in
      match l with
      | PList vs => mapM (list_path relative_to) vs
      | _ => Raise TypeError  (* not reachable: arbitrary_list only returns lists *)
      end
  end.
(** parameters.py:1218-1262: put into an ImmutableDict builder, a later entry for a key replacing the value *)
Definition path_map_from_file (cwd : list str) (p : pv) (name : str) (relative_to : option ppath) (fs : list (list str * fnode)) : res (list (str * ppath)) :=
  let* f := existing_file cwd p name fs in
  let* t := read_text fs f in
  foldM (fun d line => let* kv := parse_map_line line in Ok (dput d (fst kv) (to_path relative_to (snd kv)))) (text_lines t) [].

(** split_key_value_store.py:68-71: the list of output files *)
Definition slice_file (outdir : list str) (i : nat) : list str := (decimal (N.of_nat i) ++ !!".zip") :: outdir.
(** scripts/split_key_value_store.py:68-71 *)
Definition slices_text (outdir : list str) (n : nat) : str := py_join [LF] (map (fun i => path_str (slice_file outdir i)) (seq 0 n)).
