(** * Python string operations on code-point lists *)
From Coq Require String.
From Verif Require Import Prelude.
Export Coq.Strings.String.StringSyntax.

(** [s[a:b]]: negative indices count from the end, both are clamped. *)
Definition py_index (n : Z) (i : Z) : Z := Z.max 0 (Z.min n (if (i <? 0)%Z then n + i else i)).
(** s[a:b] for 0 <= a *)
Definition py_slice {A} (s : list A) (a b : Z) : list A :=
  let n := Z.of_nat (length s) in
  let a := py_index n a in
  let b := py_index n b in
  firstn (Z.to_nat (b - a)) (skipn (Z.to_nat a) s).

(** [sep.join(xs)] *)
Fixpoint py_join (sep : str) (xs : list str) : str :=
  match xs with
  | [] => []
  | [x] => x
  | x :: r => x ++ sep ++ py_join sep r
  end.

(** [<] on str: lexicographic by code point; [<] on tuples of two strings. *)
Fixpoint str_ltb (a b : str) : bool :=
  match a, b with
  | _, [] => false
  | [], _ :: _ => true
  | x :: a', y :: b' => if (x <? y)%N then true else if (y <? x)%N then false else str_ltb a' b'
  end.
(** < on pairs of str *)
Definition str_pair_ltb (a b : str * str) : bool :=
  if str_eqb (fst a) (fst b) then str_ltb (snd a) (snd b) else str_ltb (fst a) (fst b).

(** [s.split(sep)] for a one-character separator. *)
Fixpoint py_split (c : N) (s : str) : list str :=
  match s with
  | [] => [[]]
  | x :: r => if (x =? c)%N then [] :: py_split c r
              else match py_split c r with
                   | [] => [[x]]
                   | p :: ps => (x :: p) :: ps
                   end
  end.
Lemma py_split_nonnil c s : py_split c s <> [].
Proof. destruct s as [|x r]; simpl; [discriminate|]. destruct (x =? c)%N; [discriminate|]. destruct (py_split c r); discriminate. Qed.
Lemma py_split_join c s : py_join [c] (py_split c s) = s.
Proof.
  induction s as [|x r IH]; [reflexivity|]. simpl. destruct (N.eqb_spec x c) as [->|NE].
  - assert (H := py_split_nonnil c r). destruct (py_split c r) as [|q qs] eqn:E; [congruence|].
    change (py_join [c] ([] :: q :: qs)) with ([] ++ [c] ++ py_join [c] (q :: qs)). now rewrite IH.
  - assert (H := py_split_nonnil c r). destruct (py_split c r) as [|p ps] eqn:E; [congruence|].
    destruct ps; simpl in *; now rewrite IH.
Qed.
Lemma py_split_no c s : ~ In c s -> py_split c s = [s].
Proof.
  induction s as [|x r IH]; intros H; [reflexivity|]. simpl. destruct (N.eqb_spec x c) as [->|NE]; [exfalso; apply H; simpl; auto|].
  rewrite IH; [reflexivity|]. intros K. apply H. simpl; auto.
Qed.
Lemma py_split_app c p s : ~ In c p -> py_split c (p ++ c :: s) = p :: py_split c s.
Proof.
  induction p as [|x p IH]; intros H; simpl.
  - now rewrite N.eqb_refl.
  - destruct (N.eqb_spec x c) as [->|NE]; [exfalso; apply H; simpl; auto|].
    rewrite IH; [reflexivity|]. intros K. apply H. simpl; auto.
Qed.
Lemma py_join_split c l : l <> [] -> (forall p, In p l -> ~ In c p) -> py_split c (py_join [c] l) = l.
Proof.
  induction l as [|p l IH]; intros H N; [congruence|]. destruct l as [|q l].
  - simpl. apply py_split_no. apply N. simpl; auto.
  - change (py_join [c] (p :: q :: l)) with (p ++ c :: py_join [c] (q :: l)). rewrite py_split_app by (apply N; simpl; auto).
    f_equal. apply IH; [discriminate|]. intros; apply N; simpl; auto.
Qed.
Lemma py_split_parts c s p : In p (py_split c s) -> ~ In c p.
Proof.
  revert p. induction s as [|x r IH]; simpl; intros p.
  - intros [<-|[]] [].
  - destruct (N.eqb_spec x c) as [->|NE].
    + intros [<-|H]; [intros []|auto].
    + destruct (py_split c r) as [|q qs] eqn:E.
      * intros [<-|[]] [<-|[]]. congruence.
      * intros [<-|H]; [|apply IH; simpl; auto]. intros [<-|K]; [congruence|]. apply (IH q); simpl; auto.
Qed.
