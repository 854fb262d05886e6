(** * Model of pathify (misc_utils.py:84-93), and of str(Path) *)
From Verif Require Import Prelude PyStr Params Fs PathLists.

(** Union[str, Path] (misc_utils.py:84) *)
Inductive str_or_path := IsStr (s : str) | IsPath (p : ppath).
(** misc_utils.py:84-93 *)
Definition pathify (x : str_or_path) : ppath :=
  match x with IsPath p => p | IsStr s => parse_path s end.
(** pathlib's str(p), which is what a caller of pathify (misc_utils.py:84-93) may pass instead of p: the root and the components; "." if there is neither *)
Definition path_text (p : ppath) : str :=
  match p_root p, p_parts p with
  | 0%N, [] => !!"."
  | 0%N, l => py_join [slash] l
  | 1%N, l => slash :: py_join [slash] l
  | _, l => slash :: slash :: py_join [slash] l
  end.
