(** * Model of fully_qualified_name_of_type (class_utils.py:31-41), and its properties (C89) *)
From Verif Require Import Prelude PyStr Params ParamsSpec ParamsProofs ParamsGet ParamsEval ParamsEvalProps KvParams ClassNames ClassNamesProps.

Section ClassOf.
Variable X : Type.
Notation py := (py X).
(** the metaclass of a class, and the class of any other object: its __module__ and __qualname__ *)
Variable metaclass : option str -> str -> option str * str.
Variable class_of : X -> option str * str.
(** obj.__class__ (class_utils.py:41) *)
Definition the_class (o : py) : py :=
  match o with
  | YStr _ => YClass (Some builtins) !!"str"
  | YModule _ => YClass (Some builtins) !!"module"
  | YClass m q => let (m', q') := metaclass m q in YClass m' q'
  | YOther x => let (m', q') := class_of x in YClass m' q'
  end.
(** class_utils.py:31-41 *)
Definition fully_qualified_name_of_type (o : py) : res str := fully_qualified_name X (the_class o).

(** C89: every object's class has a name (there is never an exception): a string's is "str", a module's "module", a class's that of its metaclass; it is that of the object's class. *)
Theorem C89_of_type : forall o, (exists s, fully_qualified_name_of_type o = Ok s) /\
  (forall s, o = YStr s -> fully_qualified_name_of_type o = Ok !!"str") /\ (forall m, o = YModule m -> fully_qualified_name_of_type o = Ok !!"module") /\
  (forall m q, o = YClass m q -> metaclass m q = (Some !!"builtins", !!"type") -> fully_qualified_name_of_type o = Ok !!"type") /\
  (forall x q, o = YOther x -> class_of x = (Some !!"builtins", q) -> fully_qualified_name_of_type o = Ok q) /\
  (forall x q, o = YOther x -> class_of x = (None, q) -> fully_qualified_name_of_type o = Ok q) /\
  (forall x m q, o = YOther x -> class_of x = (Some m, q) -> m <> !!"builtins" -> fully_qualified_name_of_type o = Ok (m ++ !!"." ++ q)).
Proof.
  intros o. unfold fully_qualified_name_of_type. split.
  - destruct o as [s|m|m q|x]; cbn [the_class]; [eexists; reflexivity|eexists; reflexivity| |].
    + destruct (metaclass m q) as [[m'|] q']; eexists; reflexivity.
    + destruct (class_of x) as [[m'|] q']; eexists; reflexivity.
  - split; [intros s ->; reflexivity|]. split; [intros m ->; reflexivity|]. split; [intros m q -> E; cbn [the_class]; rewrite E; reflexivity|].
    split; [intros x q -> E; cbn [the_class]; rewrite E; reflexivity|]. split; [intros x q -> E; cbn [the_class]; rewrite E; reflexivity|].
    intros x m q -> E N. cbn [the_class]. rewrite E. exact (named X m q N).
Qed.

Variable attr : py -> str -> option py.
Variable builtin : str -> option py.
Variable other_eval : str -> list (str * py) -> res py.
Variable import_module : str -> res py.
Variable locals_of : pv -> str -> list (str * py).
Hypothesis other_ext : forall s c c', (forall n, dfind c n = dfind c' n) -> other_eval s c = other_eval s c'.
Notation evaluate := (evaluate py YStr import_module (eval_name X attr builtin other_eval) locals_of).
(** C89: a parameter holding the name of an object's type evaluates to that type, if the class is at the top level of a module that can be imported. *)
Theorem C89_of_type_evaluate : forall p name ty ctx vp sp default x m q s, wf_params p -> importable X attr import_module m -> class_in X attr m q -> ~ In dot q ->
  class_of x = (Some m, q) -> fully_qualified_name_of_type (YOther x) = Ok s -> Stored p name (PStr s) -> dfind sp s = None -> unshadowed X (the_context X ctx (locals_of p name)) m -> ty (YClass (Some m) q) = true ->
  evaluate p name ty ctx vp sp default = Ok (YClass (Some m) q).
Proof.
  intros p name ty ctx vp sp default x m q s W I C D Cx Fq S1 Sp U T. unfold fully_qualified_name_of_type in Fq. cbn [the_class] in Fq. rewrite Cx in Fq.
  eapply C89_evaluate; eassumption.
Qed.
End ClassOf.

(** A concrete case: every other object is an instance of the class Outer of ClassNamesProps.v *)
Definition class89 (x : unit) : option str * str := (Some !!"pkg.mod", !!"Outer").
Example C89_of_type_hypotheses : wf_params cfg89 /\ importable unit attr89 import89 !!"pkg.mod" /\ class_in unit attr89 !!"pkg.mod" !!"Outer" /\
  fully_qualified_name_of_type unit (fun _ _ => (Some !!"builtins", !!"type")) class89 (YOther tt) = Ok !!"pkg.mod.Outer" /\ Stored cfg89 !!"top" (PStr !!"pkg.mod.Outer") /\ eval89 !!"top" = Ok (YClass (Some !!"pkg.mod") !!"Outer") /\
  fully_qualified_name_of_type unit (fun _ _ => (Some !!"builtins", !!"type")) class89 (YClass (Some !!"pkg.mod") !!"Outer") = Ok !!"type".
Proof.
  split; [apply C89_hypotheses|]. split; [apply C89_hypotheses|]. split; [apply C89_hypotheses|]. split; [vm_compute; reflexivity|]. split; [|split; vm_compute; reflexivity].
  apply stored_walk; [apply C89_hypotheses|reflexivity].
Qed.
Print Assumptions C89_of_type.
Print Assumptions C89_of_type_evaluate.
