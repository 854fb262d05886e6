(** * How the operating system follows a path that was not resolved (open(), os.mkdir, ...)

    In the file system of Fs.v (no symbolic links, permissions or lone surrogates in names). *)
From Verif Require Import Prelude PyStr TextLib Utf8 Io Fs PathLists.

(** an "embedded null byte" (ValueError) in a path given to the operating system (parameters.py:1439, 1494, 1504; io_utils.py:289-291) *)
Definition has_nul (s : str) : bool := existsb (N.eqb 0) s.
(** The operating system follows the parts of a path (open(), parameters.py:1439, 1504; io_utils.py:188-189, 366-367): each is looked up in a directory *)
Fixpoint os_walk (fs : list (list str * fnode)) (q : list str) (cs : list str) : res (list str) :=
  match cs with
  | [] => Ok q
  | c :: r => match look fs q with
              | Some KDir => if str_eqb c !!".." then os_walk fs (tl q) r else os_walk fs (c :: q) r
              | None => Raise FileNotFoundError
              | Some _ => Raise NotADirectoryError
              end
  end.
(** A Path handed to the operating system (io_utils.py:188-189, 289-291, 366-367, 443-445, 590-599; key_value.py:491-502, 624-632): an embedded NUL is a ValueError *)
Definition os_find (cwd : list str) (fs : list (list str * fnode)) (p : ppath) : res (list str) :=
  if existsb has_nul (p_parts p) then Raise ValueError
  else os_walk fs (if (p_root p =? 0)%N then cwd else []) (p_parts p).
(** Path.open and read (io_utils.py:188-189, 366-367) *)
Definition read_at (cwd : list str) (fs : list (list str * fnode)) (p : ppath) : res bytes :=
  let* q := os_find cwd fs p in
  match look fs q with None => Raise FileNotFoundError | Some (KFile b) => Ok b | Some _ => Raise IOError end.
