(** * Model of the path-valued getters of vistautils/parameters.py (244-437, 1174-1270)

    The file system is a finite table from absolute paths to objects.  An absolute path is the list
    of its components, last component first, so the parent of [c :: q] is [q] and the root is [[]].
    Not modelled: symbolic links (so Path.resolve is lexical), permissions, full disks, over-long
    names, lone surrogates in names, and other processes changing the file system meanwhile. *)
From Verif Require Import Prelude PyStr Params TextLib Utf8.

(** A file-system entry as seen by pathlib in parameters.py:244-437: regular file, directory, anything else (device, socket, ...) *)
Inductive fnode : Type := KFile (content : list N) | KDir | KOther.
Notation rpath := (list str) (only parsing).
Notation fsys := (list (list str * fnode)) (only parsing).
(** equality of resolved paths (pathlib, parameters.py:244-437) *)
Definition rpath_eqb (a b : rpath) : bool := if list_eq_dec (list_eq_dec N.eq_dec) a b then true else false.
(** what the file system holds at a path (pathlib stat, parameters.py:244-437) *)
Fixpoint find_path (fs : fsys) (q : rpath) : option fnode :=
  match fs with [] => None | (k, v) :: r => if rpath_eqb k q then Some v else find_path r q end.
(** The root always exists and is a directory. *)
Definition look (fs : fsys) (q : rpath) : option fnode := match q with [] => Some KDir | _ => find_path fs q end.

(** Path(s) followed by Path.resolve: relative paths start at the current directory, empty and "."
    components are dropped, ".." drops the previous component (the root's parent is the root).
    A NUL character makes the system calls raise ValueError. *)
Definition slash : N := 47%N.
(** Path.resolve (parameters.py:254, 289, 342), component by component; no symbolic links *)
Fixpoint walk_comps (at_ : rpath) (comps : list str) : rpath :=
  match comps with
  | [] => at_
  | c :: r => if str_eqb c [] || str_eqb c !!"." then walk_comps at_ r
              else if str_eqb c !!".." then walk_comps (tl at_) r
              else walk_comps (c :: at_) r
  end.
(** Path.resolve(Path(s)) (parameters.py:254, 289, 342, 366, 407); a NUL raises ValueError *)
Definition resolve (cwd : rpath) (s : str) : res rpath :=
  if existsb (N.eqb 0) s then Raise ValueError
  else Ok (walk_comps (match s with c :: _ => if (c =? slash)%N then [] else cwd | [] => cwd end) (py_split slash s)).
(** str() of an absolute path *)
Definition path_str (q : rpath) : str := slash :: py_join [slash] (rev q).

(** Path.is_dir, is_file, exists *)
Definition is_dir (fs : fsys) (q : rpath) : bool := match look fs q with Some KDir => true | _ => false end.
(** Path.is_file (parameters.py:368) *)
Definition is_file (fs : fsys) (q : rpath) : bool := match look fs q with Some (KFile _) => true | _ => false end.
(** Path.exists (parameters.py:367, 408) *)
Definition exists_ (fs : fsys) (q : rpath) : bool := match look fs q with Some _ => true | None => false end.
(** io_utils.py:35-40 (is_empty_directory): no entry directly inside *)
Definition child_of (q : rpath) (e : list str * fnode) : bool := match fst e with [] => false | _ :: r => rpath_eqb r q end.
(** io_utils.py:35-40 *)
Definition is_empty_directory (fs : fsys) (q : rpath) : bool := is_dir fs q && negb (existsb (child_of q) fs).

(** os.mkdir: the path's directory is searched component by component, then the entry is made. *)
Fixpoint search (fs : fsys) (q : rpath) : res unit :=
  match q with
  | [] => Ok tt
  | _ :: r => let* _ := search fs r in
              match look fs q with
              | None => Raise FileNotFoundError
              | Some KDir => Ok tt
              | Some _ => Raise NotADirectoryError
              end
  end.
(** os.mkdir, used by Path.mkdir (parameters.py:255) *)
Definition os_mkdir (fs : fsys) (q : rpath) : res fsys :=
  match q with
  | [] => Raise FileExistsError
  | _ :: r => let* _ := search fs r in
              match look fs q with
              | Some _ => Raise FileExistsError
              | None => Ok ((q, KDir) :: fs)
              end
  end.
(** pathlib's Path.mkdir(parents=True, exist_ok=True) *)
Fixpoint mkdir_p (fs : fsys) (q : rpath) : fsys * res unit :=
  match os_mkdir fs q with
  | Ok fs' => (fs', Ok tt)
  | Raise FileNotFoundError =>
      match q with
      | [] => (fs, Raise FileNotFoundError)
      | _ :: r =>
          match mkdir_p fs r with
          | (fs1, Raise e) => (fs1, Raise e)
          | (fs1, Ok _) =>
              match os_mkdir fs1 q with
              | Ok fs2 => (fs2, Ok tt)
              | Raise FileNotFoundError => (fs1, Raise FileNotFoundError)
              | Raise e => if is_dir fs1 q then (fs1, Ok tt) else (fs1, Raise e)
              end
          end
      end
  | Raise e => if is_dir fs q then (fs, Ok tt) else (fs, Raise e)
  end.
(** [q] is [d] or lies below it (in reversed notation: [d] is a suffix of [q]) *)
Fixpoint at_or_below (d q : rpath) : bool :=
  rpath_eqb q d || match q with [] => false | _ :: r => at_or_below d r end.
(** shutil.rmtree of a directory; the root cannot be removed itself (the last rmdir fails). *)
Definition rmtree (fs : fsys) (d : rpath) : fsys * res unit :=
  (filter (fun e => negb (at_or_below d (fst e))) fs, match d with [] => Raise AnyError | _ => Ok tt end).

(** The string-valued parameter itself: self.string(param) *)
Definition string_param (p : pv) (name : str) : res str :=
  match string_ p name None PNone with
  | Ok (PStr s) => Ok s
  | Ok _ => Raise TypeError   (* not reachable: string() only returns str objects *)
  | Raise e => Raise e
  end.
(** Path(self.string(param)), resolved (parameters.py:254, 289, 342) *)
Definition path_param (cwd : rpath) (p : pv) (name : str) : res rpath :=
  let* s := string_param p name in resolve cwd s.

Section Getters.
Variables (cwd : rpath) (p : pv) (name : str).
(** parameters.py:244-256 (creatable_directory) *)
Definition creatable_directory (fs : fsys) : fsys * res rpath :=
  match path_param cwd p name with
  | Raise e => (fs, Raise e)
  | Ok q => let (fs', r) := mkdir_p fs q in (fs', let* _ := r in Ok q)
  end.
(** parameters.py:275-307 (creatable_empty_directory) *)
Definition creatable_empty_directory (delete : bool) (fs : fsys) : fsys * res rpath :=
  match path_param cwd p name with
  | Raise e => (fs, Raise e)
  | Ok q =>
      if is_dir fs q then
        if negb (is_empty_directory fs q) then
          if delete then
            match rmtree fs q with
            | (fs1, Raise e) => (fs1, Raise e)
            | (fs1, Ok _) => let (fs2, r) := mkdir_p fs1 q in (fs2, let* _ := r in Ok q)
            end
          else (fs, Raise ParameterError)
        else (fs, Ok q)
      else if exists_ fs q then (fs, Raise ParameterError)
      else creatable_directory fs
  end.
(** parameters.py:332-344 (creatable_file); the parent of the root is the root *)
Definition creatable_file (fs : fsys) : fsys * res rpath :=
  match path_param cwd p name with
  | Raise e => (fs, Raise e)
  | Ok q => let (fs', r) := mkdir_p fs (tl q) in (fs', let* _ := r in Ok q)
  end.
(** parameters.py:357-383 (existing_file), 398-424 (existing_directory); they only read *)
Definition existing_file (fs : fsys) : res rpath :=
  let* q := path_param cwd p name in
  if exists_ fs q then if is_file fs q then Ok q else Raise ParameterError else Raise ParameterError.
(** parameters.py:398-424 *)
Definition existing_directory (fs : fsys) : res rpath :=
  let* q := path_param cwd p name in
  if exists_ fs q then if is_dir fs q then Ok q else Raise ParameterError else Raise ParameterError.
(** parameters.py:258-273, 309-330, 346-355, 385-396, 426-437: the optional variants *)
Definition optional_fs {A} (getter : fsys -> fsys * res A) (fs : fsys) : fsys * res (option A) :=
  if contains p name then let (fs', r) := getter fs in (fs', let* a := r in Ok (Some a)) else (fs, Ok None).
(** parameters.py:385-396, 426-437: the getter runs only if the parameter is present *)
Definition optional_ro {A} (getter : fsys -> res A) (fs : fsys) : res (option A) :=
  if contains p name then let* a := getter fs in Ok (Some a) else Ok None.
(** parameters.py:258-273 *)
Definition optional_creatable_directory := optional_fs creatable_directory.
(** parameters.py:309-330 *)
Definition optional_creatable_empty_directory (delete : bool) := optional_fs (creatable_empty_directory delete).
(** parameters.py:346-355 *)
Definition optional_creatable_file := optional_fs creatable_file.
(** parameters.py:385-396 *)
Definition optional_existing_file := optional_ro existing_file.
(** parameters.py:426-437 *)
Definition optional_existing_directory := optional_ro existing_directory.
End Getters.
