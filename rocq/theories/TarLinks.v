(** * C116: CharSource.from_file_in_tgz and links in the archive (io_utils.py:128-139, 218-248)

    Io.v has archives without links.  Here the members include symbolic and hard links, which tarfile follows when reading. *)
From Verif Require Import Prelude PyStr TextLib Utf8 Io Fs TarMain.
Local Open Scope nat_scope.

(** What a member is (tarfile.TarInfo; used in io_utils.py:225-248): a regular file with its data, a symbolic or hard link with its linkname, or something else (a directory, device, fifo). *)
Inductive entry := EFile (d : bytes) | ESym (linkname : str) | EHard (linkname : str) | EOther.
(** TarInfo (io_utils.py:225-248): the name and what it is *)
Notation tmember := (str * entry)%type (only parsing).
(** os.path.normpath (posix), used by TarFile._getmember for link targets (io_utils.py:228) *)
Definition normpath (s : str) : str :=
  let slashes := match s with
    | c :: r => if (c =? slash)%N then match r with
        | c2 :: r2 => if (c2 =? slash)%N then match r2 with c3 :: _ => if (c3 =? slash)%N then 1 else 2 | [] => 2 end else 1
        | [] => 1
        end else 0
    | [] => 0
    end in
  match repeat slash slashes ++ py_join [slash] (norm_parts (0 <? slashes) [] (py_split slash s)) with
  | [] => !!"."
  | p => p
  end.
(** os.path.dirname (posix), used by TarFile._find_link_target (io_utils.py:228): up to the last slash, without the slashes at its end unless there is nothing else *)
Definition dirname (s : str) : str :=
  match rev (py_split slash s) with
  | [] | [_] => []
  | _ :: front =>
      let head := py_join [slash] (rev front) ++ [slash] in
      if forallb (N.eqb slash) head then head
      else rev ((fix drop (l : str) : str := match l with c :: r => if (c =? slash)%N then drop r else l | [] => [] end) (rev head))
  end.
(** the last member with a property (TarFile._getmember searches backwards; io_utils.py:228, 248) *)
Fixpoint last_index (P : tmember -> bool) (ms : list tmember) : option nat :=
  match ms with
  | [] => None
  | m :: r => match last_index P r with Some i => Some (S i) | None => if P m then Some 0 else None end
  end.
(** TarFile.getmember(name) (io_utils.py:228, 248): the last member of exactly that name.  (Python from 3.10 on first strips slashes at the end of [name].) *)
Definition getmember (ms : list tmember) (name : str) : option nat := last_index (fun m => str_eqb (fst m) name) ms.
(** TarFile._find_link_target (for io_utils.py:228) of a symbolic link: searched in the whole archive *)
Definition sym_target (ms : list tmember) (name linkname : str) : option nat :=
  let to := normpath (match dirname name, linkname with [], l => l | d, [] => d | d, l => d ++ [slash] ++ l end) in
  last_index (fun m => str_eqb (normpath (fst m)) to) ms.
(** TarFile._find_link_target (for io_utils.py:228) of the hard link at [i]: searched before it *)
Definition hard_target (ms : list tmember) (i : nat) (linkname : str) : option nat :=
  last_index (fun m => str_eqb (normpath (fst m)) (normpath linkname)) (firstn i ms).
(** TarFile.extractfile and read() (io_utils.py:228-230): [limit] is the number of nested calls Python allows; None: not a file *)
Fixpoint extractfile (limit : nat) (ms : list tmember) (i : nat) : res (option bytes) :=
  match limit with
  | 0 => Raise RecursionError
  | S limit =>
      match nth_error ms i with
      | Some (_, EFile d) => Ok (Some d)
      | Some (name, ESym l) => match sym_target ms name l with Some j => extractfile limit ms j | None => Raise KeyError end
      | Some (_, EHard l) => match hard_target ms i l with Some j => extractfile limit ms j | None => Raise KeyError end
      | _ => Ok None
      end
  end.

Section TarLinks.
Variable gunzip : bytes -> res bytes.
Variable untar : bytes -> res (list tmember).
(** tarfile.open(path, "r:gz") (io_utils.py:225, 247) *)
Definition open_tgz (w : world) (p : str) : res (list tmember) := let* b := read_file w p in let* u := gunzip b in untar u.
(** io_utils.py:224-244, and read_all() (68-73) of the result *)
Definition tgz_text (limit : nat) (dec : bytes -> res str) (w : world) (p name : str) : res str :=
  let* ms := open_tgz w p in
  match getmember ms name with
  | None => Raise KeyError
  | Some i => let* data := extractfile limit ms i in
              match data with Some d => dec d | None => Raise IOError end
  end.
(** io_utils.py:246-248: the size in the member's header; tar programs write 0 for what is not a regular file *)
Definition tgz_is_empty (w : world) (p name : str) : res bool :=
  let* ms := open_tgz w p in
  match getmember ms name with
  | None => Raise KeyError
  | Some i => match nth_error ms i with Some (_, EFile d) => Ok (is_nil d) | _ => Ok true end
  end.
End TarLinks.
