(** * Model of checkpoints.py on the file system of Fs.v

    [Checkpoints.v] models a checkpoint directory as a list of names.  Here it is a directory of a file system with other things in it, the
    path to it may be relative to the current directory, and names may be any strings.  Not modelled: symbolic links, permissions, lone surrogates. *)
From Verif Require Import Prelude PyStr TextLib Params Load Fs OsPath OsPathSpec OsPathProofs Mains LoadFs.
From Verif Require Checkpoints.
Notation fsys := (list (list str * fnode)) (only parsing).
Notation rpath := (list str) (only parsing).

(** from_directory, checkpoints.py:28-39: Path(directory).mkdir(parents=True, exist_ok=True).  Simplification: ".." in the path is
    resolved first, so that directories named before a ".." are not created. *)
Definition open_directory (fs : fsys) (cwd : rpath) (dir : str) : fsys * res unit :=
  match resolve cwd dir with
  | Raise e => (fs, Raise e)
  | Ok q => mkdir_p fs q
  end.
(** Path(self.directory, name), followed by the operating system (checkpoints.py:55, 59): an absolute name replaces the directory *)
Definition place (fs : fsys) (cwd : rpath) (dir name : str) : res rpath :=
  if is_abs name then if has_nul name then Raise ValueError else os_walk fs [] (parts name)
  else if has_nul dir || has_nul name then Raise ValueError else os_walk fs (start cwd dir) (parts dir ++ parts name).
(** set, checkpoints.py:53-55: Path.touch(exist_ok=True) sets the time of whatever is there, and otherwise creates an empty file *)
Definition set_checkpoint (fs : fsys) (cwd : rpath) (dir : str) (a : Checkpoints.arg) : fsys * res unit :=
  match a with
  | Checkpoints.NotStr => (fs, Raise TypeError)
  | Checkpoints.Name n =>
      match place fs cwd dir n with
      | Raise e => (fs, Raise e)
      | Ok q => if exists_ fs q then (fs, Ok tt) else (set_node fs q [], Ok tt)
      end
  end.
(** __contains__, checkpoints.py:57-59: Path.is_file() is False if the path leads nowhere, and (since Python 3.8) if it contains NUL *)
Definition has_checkpoint (fs : fsys) (cwd : rpath) (dir : str) (a : Checkpoints.arg) : res bool :=
  match a with
  | Checkpoints.NotStr => Raise TypeError
  | Checkpoints.Name n =>
      match place fs cwd dir n with
      | Raise _ => Ok false
      | Ok q => Ok (is_file fs q)
      end
  end.
(** reset_all, checkpoints.py:61-63: shutil.rmtree(str(self.directory)), then mkdir.  If the path is that of the root or of the current directory or
    ends in "..", the last rmdir of rmtree fails after everything in the directory is gone. *)
Definition reset_checkpoints (fs : fsys) (cwd : rpath) (dir : str) : fsys * res unit :=
  if has_nul dir then (fs, Raise ValueError)
  else match os_walk fs (start cwd dir) (parts dir) with
       | Raise e => (fs, Raise e)
       | Ok q => match look fs q with
                 | None => (fs, Raise FileNotFoundError)
                 | Some KDir => if match parts dir with [] => true | l => str_eqb (last l []) !!".." end
                                then (filter (fun e => negb (at_or_below q (fst e)) || rpath_eqb (fst e) q) fs, Raise AnyError)
                                else let (fs1, r) := rmtree fs q in match r with Raise e => (fs1, Raise e) | Ok _ => open_directory fs1 cwd dir end
                 | Some _ => (fs, Raise NotADirectoryError)
                 end
       end.

(** A call on one of several checkpoint objects, given by their directories (checkpoints.py:53-63) *)
Inductive call := Set_ (dir : str) (name : str) | Reset (dir : str).
(** checkpoints.py:53-63 *)
Definition run_call (cwd : rpath) (fs : fsys) (c : call) : fsys :=
  match c with
  | Set_ dir n => fst (set_checkpoint fs cwd dir (Checkpoints.Name n))
  | Reset dir => fst (reset_checkpoints fs cwd dir)
  end.
(** a history of calls (checkpoints.py:53-63) *)
Definition run_calls (cwd : rpath) (fs : fsys) (h : list call) : fsys := fold_left (run_call cwd) h fs.
