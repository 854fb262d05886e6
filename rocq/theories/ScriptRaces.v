(** * Several scripts at the same time
    (scripts/downsample_key_value_store.py, join_key_value_stores.py, split_key_value_store.py)

    Mains.v gives what each script does to the file system when it is alone, Races.v the system calls which make directories and write files, any process making
    the next one.  Here whole scripts run that way: at some moment a process reads its inputs from the file system as it is then, and then it makes the
    directories of its output (or outputs) and writes it, one system call at a time, other processes being anywhere in between.
    Simplified: the inputs are read at one moment (C135_steady is about all moments), and, as in Races.v, the content of an output is written with one
    system call after the one that creates or truncates it, one output after the other.  (The scripts read and write item by item, and
    split_key_value_store.py holds all slices open at once; with explicit_split it makes
    the directories of an output and writes it before it goes on to the next one, as here.)  A script which fails has changed nothing here; those considered do not fail. *)
From Verif Require Import Prelude PyStr TextLib Params Fs Mains Races.

(** A run of a script: what it does when it is alone (downsample_key_value_store.py:33-46, join_key_value_stores.py:22-35, split_key_value_store.py:52-126) and where its outputs go *)
Record job : Type := Job { job_main : list (list str * fnode) -> list (list str * fnode) * option exn; job_outs : list rpath }.
(** Its process: not started, or going on (downsample_key_value_store.py:33-46, join_key_value_stores.py:22-35, split_key_value_store.py:52-126) *)
Inductive script_proc : Type := Waiting (j : job) | Going (p : proc).
(** the bytes of a file (downsample_key_value_store.py:44-46, join_key_value_stores.py:27-35, split_key_value_store.py:74-84, 96-103) *)
Definition content (fs : list (list str * fnode)) (q : rpath) : list N := match look fs q with Some (KFile b) => b | _ => [] end.
(** What a script has to do after reading: getting its output files and writing the bytes (downsample_key_value_store.py:40-46,
    join_key_value_stores.py:27-35, split_key_value_store.py:64-84, 94-103, parameters.py:332-344); or the exception it dies of. *)
Definition start (j : job) (fs : list (list str * fnode)) : proc :=
  match job_main j fs with
  | (_, Some e) => Failed e
  | (f, None) => Running (flat_map compile (map (fun o => FileCall o (content f o)) (job_outs j)))
  end.
(** One step (downsample_key_value_store.py:33-46, join_key_value_stores.py:22-35, split_key_value_store.py:52-126): reading, or one system call *)
Definition step_script (fs : list (list str * fnode)) (p : script_proc) : list (list str * fnode) * script_proc :=
  match p with
  | Waiting j => (fs, Going (start j fs))
  | Going q => let (fs', q') := step_proc fs q in (fs', Going q')
  end.
(** The [i]-th process makes its next step (downsample_key_value_store.py:33-46, join_key_value_stores.py:22-35, split_key_value_store.py:52-126). *)
Fixpoint step_scripts (fs : list (list str * fnode)) (ps : list script_proc) (i : nat) : list (list str * fnode) * list script_proc :=
  match ps, i with
  | [], _ => (fs, [])
  | p :: r, O => let (fs', p') := step_script fs p in (fs', p' :: r)
  | p :: r, S j => let (fs', r') := step_scripts fs r j in (fs', p :: r')
  end.
(** All processes, by a schedule (downsample_key_value_store.py:33-46, join_key_value_stores.py:22-35, split_key_value_store.py:52-126) *)
Fixpoint run_scripts (fs : list (list str * fnode)) (ps : list script_proc) (schedule : list nat) : list (list str * fnode) * list script_proc :=
  match schedule with [] => (fs, ps) | i :: s => let (fs', ps') := step_scripts fs ps i in run_scripts fs' ps' s end.
(** The scripts run one after the other, stopping at the first that fails
    (downsample_key_value_store.py:33-46, join_key_value_stores.py:22-35, split_key_value_store.py:52-126) *)
Fixpoint one_by_one (fs : list (list str * fnode)) (js : list job) : list (list str * fnode) * option exn :=
  match js with
  | [] => (fs, None)
  | j :: r => match job_main j fs with (f, Some e) => (f, Some e) | (f, None) => one_by_one f r end
  end.
