(** * Model of names of classes and modules (class_utils.py), and of evaluating such names

    Objects: strings, modules, classes, others. *)
From Verif Require Import Prelude PyStr Params ParamsEval KvParams.

Section ClassNames.
Variable X : Type.
(** a class has a __module__ (which may be None) and a __qualname__ *)
Inductive py := YStr (s : str) | YModule (name : str) | YClass (module : option str) (qualname : str) | YOther (x : X).
(** getattr, if the object has the attribute *)
Variable attr : py -> str -> option py.
(** built-in names; eval for code that is not a dotted name *)
Variable builtin : str -> option py.
Variable other_eval : str -> list (str * py) -> res py.

(** str.__class__.__module__ (class_utils.py:24-26) *)
Definition builtins : str := !!"builtins".
(** class_utils.py:6-28; other objects have no __qualname__ *)
Definition fully_qualified_name (o : py) : res str :=
  match o with
  | YModule n => Ok n
  | YClass None q => Ok q
  | YClass (Some m) q => Ok (if str_eqb m builtins then q else m ++ [dot] ++ q)
  | _ => Raise AttributeError
  end.
(** the builtin eval (misc_utils.py:74) for a dotted name: the first part is looked up in the context, then in the built-ins (else NameError), the others are
    attributes (else AttributeError) *)
Fixpoint attributes (o : py) (names : list str) : res py :=
  match names with
  | [] => Ok o
  | n :: r => match attr o n with Some o' => attributes o' r | None => Raise AttributeError end
  end.
(** misc_utils.py:74 *)
Definition eval_name (code : py) (c : list (str * py)) : res py :=
  match code with
  | YStr s => match py_split dot s with
              | n :: r => if forallb is_name (n :: r) then
                            match dfind c n with
                            | Some o => attributes o r
                            | None => match builtin n with Some o => attributes o r | None => Raise AnyError end
                            end
                          else other_eval s c
              | [] => other_eval s c
              end
  | _ => Raise TypeError
  end.
End ClassNames.
Arguments YStr {X}. Arguments YModule {X}. Arguments YClass {X}. Arguments YOther {X}.
