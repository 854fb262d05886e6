(** * The states a process that dies can leave behind
    (key_value.py:400-451 directory sinks; io_utils.py:281-310, 439-458, 586-599 file sinks; io_utils.py:658-669)

    DirFs.v gives the state after each call.  Here are the states in between: after every system call that changes the file system, and, while a
    file is being written, after any number of bytes.  A process that is killed leaves one of these states.  Everything the system calls did before
    is kept (the machine itself does not crash).  What Python still has in its buffers is lost, and the operating system may have taken only a
    part of a write: any beginning of the content may be in the file. *)
From Verif Require Import Prelude PyStr TextLib Utf8 Params Fs PathLists SortLib Io KeyValue KvParams OsPath Mains LoadFs DirFs.

Section DirCrash.
Notation fsys := (list (list str * fnode)) (only parsing).
Variable cwd : list str.

(** Path.mkdir(parents=True, exist_ok=True) (io_utils.py:291, 444): the states before and after each os.mkdir, as in [mkdir_parents] *)
Fixpoint mkdir_states (fs : fsys) (root : N) (rparts : list str) : list fsys :=
  match mkdir_at cwd fs (MkPath root (rev rparts)) with
  | Ok fs' => [fs; fs']
  | Raise FileNotFoundError =>
      match rparts with
      | [] => [fs]
      | _ :: r =>
          mkdir_states fs root r ++
          match mkdir_parents cwd fs root r with
          | (fs1, Ok _) => match mkdir_at cwd fs1 (MkPath root (rev rparts)) with Ok fs2 => [fs2] | Raise _ => [] end
          | _ => []
          end
      end
  | Raise _ => [fs]
  end.
(** CharSink.to_file(p).write(...) / ByteSink.to_file(p).write(...) (io_utils.py:281-310, 439-458, 586-599): while the directories are made, or
    with the file opened (and so emptied) and some of the data in it *)
Definition write_state (fs : fsys) (p : ppath) (data : bytes) (st : fsys) : Prop :=
  In st (mkdir_states fs (p_root p) (tl (rev (p_parts p)))) \/
  exists fs1 q written rest, mkdir_parents cwd fs (p_root p) (tl (rev (p_parts p))) = (fs1, Ok tt) /\ os_find cwd fs1 p = Ok q /\ can_write fs1 q = Ok tt /\
    data = written ++ rest /\ st = set_node fs1 q written.
Section Sink.
Variable bytes_ : bool.
Variable d : list str.
(** __enter__ (key_value.py:410-414, 437-441): before, after rmdir, after mkdir.  rmdir succeeds only if the parent is there, so that mkdir makes
    one directory. *)
Definition enter_states (fs : fsys) : list fsys :=
  fs :: match os_rmdir d fs with Ok fs1 => [fs1; fst (mkdir_p fs1 d)] | Raise _ => [] end.
(** One "with" block (key_value.py:400-451), the exceptions of the puts being caught: the states a process that dies somewhere in it can leave.  [done]: how
    many puts had returned (or raised). *)
Inductive session_state (fs : fsys) (ops : list (str * value)) : nat -> fsys -> Prop :=
| in_enter st : In st (enter_states fs) -> session_state fs ops 0 st
| in_put fs1 ran k v more fs2 m os st : fs_enter d fs = (fs1, Ok tt) -> ops = ran ++ (k, v) :: more -> fs_puts cwd bytes_ d fs1 [] ran = (fs2, m, os) ->
    write_state fs2 (out_file d k) (fst (content bytes_ v)) st -> session_state fs ops (length ran) st
| in_exit fs1 fs2 m os st : fs_enter d fs = (fs1, Ok tt) -> fs_puts cwd bytes_ d fs1 [] ops = (fs2, m, os) ->
    write_state fs2 (out_file d index_name) (fst (write_lines (index_lines m))) st -> session_state fs ops (length ops) st.
End Sink.
End DirCrash.
