(** * Several processes using the same file system at once

    parameters.py:244-344 and checkpoints.py:28-59 as sequences of system calls.  The processes share the file system; a schedule says which process makes
    the next system call.  Each act below is one system call, so between any two of them the other processes may do anything.
    pathlib is modelled as follows.  Path.mkdir(parents=True, exist_ok=True) is: try mkdir; if that raises FileNotFoundError, do
    parent.mkdir(parents=True, exist_ok=True) and then mkdir(parents=False, exist_ok=True); if it raises another OSError, raise it again unless is_dir.
    Path.touch(exist_ok=True) is utime, and, if that fails, open with O_CREAT.  open(path, "w") creates or truncates the file; the content is then written
    with one system call.
    Not modelled: deletions (delete=True, reset_all), crashes, more than one write per file, and what Fs.v leaves out. *)
From Verif Require Import Prelude PyStr TextLib Params Fs Mains.

(** The system calls of parameters.py:244-344 and checkpoints.py:28-59 *)
Inductive act : Type :=
| Mk (parents : bool) (q : rpath)   (* Path.mkdir(parents=..., exist_ok=True): its mkdir *)
| Chk (e : exn) (q : rpath)         (* Path.mkdir: not self.is_dir() after the error [e] *)
| EIsDir (q : rpath)                (* parameters.py:290 *)
| EIsDir2 (q : rpath)               (* parameters.py:291, io_utils.py:40: path.is_dir() *)
| EList (q : rpath)                 (* parameters.py:291, io_utils.py:40: path.iterdir() *)
| EExists (q : rpath)               (* parameters.py:301 *)
| Open (q : rpath) (b : list N)     (* open(path, "w") *)
| Fill (q : rpath) (b : list N)     (* write of the content *)
| Utime (q : rpath)                 (* checkpoints.py:55, Path.touch: os.utime *)
| Create (q : rpath).               (* checkpoints.py:55, Path.touch: os.open(O_CREAT) *)

(** One system call (of parameters.py:244-344, io_utils.py:35-40, checkpoints.py:28-59): the file system after it and what the process does next, before the
    rest of its program; or the error it dies of. *)
Definition perform (fs : fsys) (a : act) : fsys * res (list act) :=
  match a with
  | Mk parents q =>
      match os_mkdir fs q with
      | Ok fs' => (fs', Ok [])
      | Raise FileNotFoundError => match q with
                                   | _ :: r => if parents then (fs, Ok [Mk true r; Mk false q]) else (fs, Raise FileNotFoundError)
                                   | [] => (fs, Raise FileNotFoundError)
                                   end
      | Raise e => (fs, Ok [Chk e q])
      end
  | Chk e q => (fs, if is_dir fs q then Ok [] else Raise e)
  | EIsDir q => (fs, Ok [if is_dir fs q then EIsDir2 q else EExists q])
  | EIsDir2 q => (fs, if is_dir fs q then Ok [EList q] else Raise ParameterError)
  | EList q => (fs, if existsb (child_of q) fs then Raise ParameterError else Ok [])
  | EExists q => (fs, if exists_ fs q then Raise ParameterError else Ok [Mk true q])
  | Open q b => match can_write fs q with Ok _ => (set_node fs q [], Ok [Fill q b]) | Raise e => (fs, Raise e) end
  | Fill q b => (if is_file fs q then set_node fs q b else fs, Ok [])
  | Utime q => (fs, Ok (if exists_ fs q then [] else [Create q]))
  | Create q => match can_write fs q with Ok _ => (if exists_ fs q then fs else set_node fs q [], Ok []) | Raise e => (fs, Raise e) end
  end.

(** What the processes do: get a directory (parameters.py:244-256 or checkpoints.py:28-39), get an empty directory (parameters.py:275-307, delete=False), get a file
    (parameters.py:332-344) and write it, set a checkpoint in a directory which is opened first (checkpoints.py:28-39, 53-55) *)
Inductive call : Type := DirCall (q : rpath) | EmptyCall (q : rpath) | FileCall (q : rpath) (b : list N) | SetCall (q : rpath).
(** the first system calls of each (parameters.py:244-344, checkpoints.py:28-55) *)
Definition compile (c : call) : list act :=
  match c with
  | DirCall q => [Mk true q]
  | EmptyCall q => [EIsDir q]
  | FileCall q b => [Mk true (tl q); Open q b]
  | SetCall q => [Mk true (tl q); Utime q]
  end.

(** A process: what it still has to do, or the exception which ended it (parameters.py:244-344) *)
Inductive proc : Type := Running (todo : list act) | Failed (e : exn).
(** One step of a process (parameters.py:244-344); one which has finished or failed does nothing. *)
Definition step_proc (fs : fsys) (p : proc) : fsys * proc :=
  match p with
  | Running (a :: rest) => match perform fs a with (fs', Ok new) => (fs', Running (new ++ rest)) | (fs', Raise e) => (fs', Failed e) end
  | _ => (fs, p)
  end.
(** The [i]-th process makes its next system call (parameters.py:244-344). *)
Fixpoint step (fs : fsys) (ps : list proc) (i : nat) : fsys * list proc :=
  match ps, i with
  | [], _ => (fs, [])
  | p :: r, O => let (fs', p') := step_proc fs p in (fs', p' :: r)
  | p :: r, S j => let (fs', r') := step fs r j in (fs', p :: r')
  end.
(** All processes, scheduled one system call at a time (parameters.py:244-344) *)
Fixpoint run (fs : fsys) (ps : list proc) (schedule : list nat) : fsys * list proc :=
  match schedule with [] => (fs, ps) | i :: s => let (fs', ps') := step fs ps i in run fs' ps' s end.
(** The processes before their first system call (parameters.py:244-344) *)
Definition launch (programs : list (list call)) : list proc := map (fun p => Running (flat_map compile p)) programs.
