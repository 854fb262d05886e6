(** * Prelude: Python results, exceptions and a few built-ins.

    A Python call that may raise is a function into [res]; an exception is the
    value [Raise e].  Only the exception class is modelled, not the message. *)
From Coq Require Export List Bool Arith ZArith NArith Lia Permutation.
From Coq Require Export ZifyBool ZifyNat ZifyN.
Export ListNotations.

(** Exception classes raised by the modelled code (built-in Python classes,
    plus ParameterError (parameters.py:31) and ParameterInterpolationError
    (_graph.py:12-13)). *)
Inductive exn : Type :=
| ValueError | KeyError | IndexError | TypeError | AttributeError
| RuntimeError | IOError | NotImplementedError | AssertionError
| ParameterError | ParameterInterpolationError | UnicodeEncodeError
| UnicodeDecodeError | LookupError | FileExistsError | NotADirectoryError
| FileNotFoundError | RecursionError | AnyError.

(** the outcome of a Python call: a value or an exception *)
Inductive res (A : Type) : Type :=
| Ok (a : A)
| Raise (e : exn).
Arguments Ok {A} a.
Arguments Raise {A} e.

(** sequencing: an exception ends the computation *)
Definition bind {A B} (r : res A) (k : A -> res B) : res B :=
  match r with Ok a => k a | Raise e => Raise e end.

Notation "'let*' x := e 'in' k" := (bind e (fun x => k))
  (at level 200, x pattern, e at level 100, k at level 200, right associativity).

(** whether a call returned *)
Definition is_ok {A} (r : res A) : bool :=
  match r with Ok _ => true | Raise _ => false end.

(** [for x in xs: f(x)] collecting results; stops at the first exception. *)
Fixpoint mapM {A B} (f : A -> res B) (xs : list A) : res (list B) :=
  match xs with
  | [] => Ok []
  | x :: r => let* y := f x in let* ys := mapM f r in Ok (y :: ys)
  end.

(** [for x in xs: s = f(s, x)]; stops at the first exception. *)
Fixpoint foldM {A S} (f : S -> A -> res S) (xs : list A) (s : S) : res S :=
  match xs with
  | [] => Ok s
  | x :: r => let* s' := f s x in foldM f r s'
  end.

(** [xs[i]] for a non-negative index. *)
Definition getitem {A} (xs : list A) (i : nat) : res A :=
  match nth_error xs i with Some a => Ok a | None => Raise IndexError end.

(** "if x is None: raise e" *)
Definition opt_or_raise {A} (o : option A) (e : exn) : res A :=
  match o with Some a => Ok a | None => Raise e end.

(** Strings: lists of Unicode code points. *)
Definition str := list N.

(** == on str *)
Definition str_eqb (a b : str) : bool :=
  if list_eq_dec N.eq_dec a b then true else false.

Lemma str_eqb_eq a b : str_eqb a b = true <-> a = b.
Proof. unfold str_eqb; destruct (list_eq_dec N.eq_dec a b); split; congruence. Qed.
Lemma str_eqb_refl a : str_eqb a a = true.
Proof. now apply str_eqb_eq. Qed.
Lemma str_eqb_neq a b : str_eqb a b = false <-> a <> b.
Proof. unfold str_eqb; destruct (list_eq_dec N.eq_dec a b); split; congruence. Qed.

(** ASCII literals as code-point lists. *)
From Coq Require Import Ascii String.
(** string literals *)
Fixpoint s2l (s : string) : str :=
  match s with
  | EmptyString => []
  | String a r => N_of_ascii a :: s2l r
  end.
Notation "!! s" := (s2l s%string) (at level 1, s at level 0, format "!! s").
Close Scope string_scope.

(** ** Lemmas on the monad *)
Lemma bind_ok {A B} (r : res A) (k : A -> res B) b :
  bind r k = Ok b <-> exists a, r = Ok a /\ k a = Ok b.
Proof.
  destruct r as [a|e]; simpl; split; intros H.
  - now exists a.
  - destruct H as (a' & E & H). now inversion E; subst.
  - discriminate.
  - destruct H as (a' & E & H). discriminate.
Qed.

Lemma mapM_ok {A B} (f : A -> res B) xs ys :
  mapM f xs = Ok ys <-> Forall2 (fun x y => f x = Ok y) xs ys.
Proof.
  revert ys; induction xs as [|x xs IH]; intros ys; simpl.
  - split; intros H; [inversion H; constructor | inversion H; reflexivity].
  - rewrite bind_ok. split.
    + intros (y & Hy & H). apply bind_ok in H. destruct H as (zs & Hz & H).
      inversion H; subst. constructor; [assumption | now apply IH].
    + intros H. inversion H as [|? y ? ys' Hxy Hr]; subst.
      exists y; split; [assumption|]. apply bind_ok.
      exists ys'; split; [now apply IH | reflexivity].
Qed.
