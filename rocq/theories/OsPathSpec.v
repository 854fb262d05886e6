(** * Specification: where a path leads *)
From Verif Require Import Prelude PyStr TextLib Fs.

(** Following the components of a path, each of them in an existing directory. *)
Inductive opens (fs : list (list str * fnode)) : list str -> list str -> list str -> Prop :=
| op_end q : opens fs q [] q
| op_stay q c cs q' : c = [] \/ c = !!"." -> opens fs q cs q' -> opens fs q (c :: cs) q'
| op_up q cs q' : look fs q = Some KDir -> opens fs (tl q) cs q' -> opens fs q (!!".." :: cs) q'
| op_into q c cs q' : c <> [] -> c <> !!"." -> c <> !!".." -> look fs q = Some KDir -> opens fs (c :: q) cs q' -> opens fs q (c :: cs) q'.
(** The path [s], used in the current directory [cwd], leads to [q]. *)
Definition leads (fs : list (list str * fnode)) (cwd : list str) (s : str) (q : list str) : Prop :=
  ~ In 0%N s /\ ((exists r, s = slash :: r) /\ opens fs [] (py_split slash s) q \/ (forall r, s <> slash :: r) /\ opens fs cwd (py_split slash s) q).
