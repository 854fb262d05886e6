(** * C114: histories of calls on directory sinks, several of them on one directory (key_value.py:400-451) *)
From Verif Require Import Prelude PyStr TextLib Utf8 Params Fs PathLists SortLib Io KeyValue KvParams OsPath Mains LoadFs DirFs.

Section DirHist.
Notation fsys := (list (list str * fnode)) (only parsing).
Variable cwd : list str.
(** the directory, and for each sink object whether it is the one for bytes (key_value.py:427-451) or the one for text (400-424) *)
Variable d : list str.
Variable kind : nat -> bool.
(** entering, put and leaving (key_value.py:405-417, 432-444), of the sink object number [i] *)
Inductive dcall := DEnter (i : nat) | DPut (i : nat) (k : str) (v : value) | DExit (i : nat).
(** the attribute id_to_file of each object (key_value.py:403, 430: empty at first) *)
Definition tables := nat -> list (str * ppath).
(** assigning it *)
Definition set_table (t : tables) (i : nat) (m : list (str * ppath)) : tables := fun j => if (j =? i)%nat then m else t j.
(** one call: __enter__ assigns a new table after making the directory (key_value.py:410-414, 437-441), put changes it (405-408, 432-435), __exit__ writes it (416-417, 443-444) *)
Definition dcall_step (fs : fsys) (t : tables) (c : dcall) : fsys * tables * res unit :=
  match c with
  | DEnter i => match fs_enter d fs with (fs', Ok _) => (fs', set_table t i [], Ok tt) | (fs', Raise e) => (fs', t, Raise e) end
  | DPut i k v => let '(fs', m', o) := fs_put cwd (kind i) d fs (t i) k v in (fs', set_table t i m', o)
  | DExit i => let (fs', o) := fs_exit cwd d fs (t i) in (fs', t, o)
  end.
(** a history of calls, the caller catching exceptions (key_value.py:400-451) *)
Fixpoint dcalls (fs : fsys) (t : tables) (h : list dcall) : fsys * tables * list (res unit) :=
  match h with
  | [] => (fs, t, [])
  | c :: r => let '(fs1, t1, o) := dcall_step fs t c in let '(fs2, t2, os) := dcalls fs1 t1 r in (fs2, t2, o :: os)
  end.
End DirHist.
