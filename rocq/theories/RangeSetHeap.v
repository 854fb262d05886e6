(** * Range set objects, builders and immutable copies (object identity)

    The world is a store of SortedDict objects and a list of range-set/builder objects, each
    holding the address of its dictionary (range.py:910-914).  Programs are sequences of
    public calls naming objects by creation order. *)
From Verif Require Import Prelude Order Range SortedDict RangeSet RangeSetOps.

Section Heap.
Context {T : Type} {O : TotalOrder T}.

(** Mutable set / immutable set (range.py:1087-1163) / ImmutableRangeSet.Builder (1165-1174,
    which holds one mutable set that is never exposed). *)
Inductive kind := KMut | KImm | KBuilder.
(** all dictionaries and range-set objects of a program *)
Record world := MkWorld { dicts : list (rset T); objs : list (kind * nat) }.
(** a program's start *)
Definition empty_world : world := MkWorld [] [].

(** the calls that create or change range sets (range.py:636-638, 829-903, 1087-1174) *)
Inductive cmd :=
| NewMutable                         (* MutableRangeSet.create_mutable(), range.py:1090-1092 *)
| NewBuilder                         (* ImmutableRangeSet.builder(), range.py:816-818, 1166-1167 *)
| Call (i : nat) (o : op T)          (* a mutator on object i *)
| BuilderAdd (i : nat) (r : range T) (* range.py:1169-1171 *)
| Build (i : nat)                    (* range.py:1173-1174 *)
| ImmutableCopy (i : nat).           (* range.py:1072-1073 *)

Fixpoint set_nth {A} (l : list A) (n : nat) (a : A) : list A :=
  match l, n with
  | [], _ => []
  | _ :: r, 0 => a :: r
  | x :: r, S n => x :: set_nth r n a
  end.

(** Allocate dictionary [d] and an object of kind [k] holding it. *)
Definition alloc (w : world) (k : kind) (d : rset T) : world :=
  MkWorld (dicts w ++ [d]) (objs w ++ [(k, length (dicts w))]).
(** an object's dictionary *)
Definition deref (w : world) (a : nat) : rset T := nth a (dicts w) [].
(** In-place mutation of the dictionary at address [a]. *)
Definition store (w : world) (a : nat) (d : rset T) : world :=
  MkWorld (set_nth (dicts w) a d) (objs w).

(** One public call; calling a method the object does not have is an AttributeError. *)
Definition exec (w : world) (c : cmd) : world * option exn :=
  match c with
  | NewMutable => (alloc w KMut create_mutable, None)
  | NewBuilder => (alloc w KBuilder create_mutable, None)
  | Call i o =>
      match nth_error (objs w) i with
      | Some (KMut, a) => let (d, e) := step (deref w a) o in (store w a d, e)
      | _ => (w, Some AttributeError)
      end
  | BuilderAdd i r =>
      match nth_error (objs w) i with
      | Some (KBuilder, a) => let (d, e) := step (deref w a) (Add r) in (store w a d, e)
      | _ => (w, Some AttributeError)
      end
  | Build i =>
      match nth_error (objs w) i with
      | Some (KBuilder, a) => (alloc w KImm (deref w a), None)  (* SortedDict.copy() *)
      | _ => (w, Some AttributeError)
      end
  | ImmutableCopy i =>
      match nth_error (objs w) i with
      | Some (KMut, a) | Some (KImm, a) => (alloc w KImm (deref w a), None)
      | _ => (w, Some AttributeError)
      end
  end.
(** a program *)
Definition exec_all (w : world) (p : list cmd) : world := fold_left (fun w c => fst (exec w c)) p w.

(** What the user sees of object [i]: its kind and [as_ranges()] (for a builder, what
    [build()] would list). *)
Definition observe (w : world) (i : nat) : option (kind * list (range T)) :=
  match nth_error (objs w) i with
  | Some (k, a) => Some (k, as_ranges (deref w a))
  | None => None
  end.

(** ** Proofs *)
Definition Sep (w : world) : Prop :=
  NoDup (map snd (objs w)) /\ Forall (fun o => snd o < length (dicts w)) (objs w).

Lemma set_nth_length {A} (l : list A) n a : length (set_nth l n a) = length l.
Proof. revert n. induction l; destruct n; simpl; auto. Qed.
Lemma nth_set_nth_other {A} (l : list A) n m a d : n <> m -> nth m (set_nth l n a) d = nth m l d.
Proof. revert n m. induction l; destruct n, m; simpl; auto; congruence. Qed.
Lemma nth_set_nth_same {A} (l : list A) n a d : n < length l -> nth n (set_nth l n a) d = a.
Proof. revert n. induction l; destruct n; simpl; intros; try lia; auto. apply IHl. lia. Qed.
Lemma sep_alloc w k d : Sep w -> Sep (alloc w k d).
Proof.
  intros [N F]. split; simpl.
  - rewrite map_app. simpl.
    rewrite Forall_forall in F. induction (objs w) as [|o l IH]; simpl.
    + repeat constructor. intros [].
    + simpl in N. inversion N; subst. constructor.
      * rewrite in_app_iff. intros [H|[H|[]]]; [contradiction|].
        specialize (F o (or_introl eq_refl)). lia.
      * apply IH; auto. intros x Hx. apply F. now right.
  - apply Forall_app. split.
    + revert F. apply Forall_impl. intros o. rewrite app_length. simpl. lia.
    + repeat constructor. simpl. rewrite app_length. simpl. lia.
Qed.
Lemma sep_store w a d : Sep w -> Sep (store w a d).
Proof. intros [N F]. split; simpl; [assumption|]. now rewrite set_nth_length. Qed.
Lemma sep_exec w c : Sep w -> Sep (fst (exec w c)).
Proof.
  intros S. destruct c as [| |i o|i r|i|i]; cbn [exec fst];
    try (now apply sep_alloc); destruct (nth_error (objs w) i) as [[[] a]|]; cbn [fst]; auto;
    try (now apply sep_alloc);
    match goal with |- context [step ?d ?o] => destruct (step d o) end; now apply sep_store.
Qed.
Lemma sep_addr w i j k k' a : Sep w -> nth_error (objs w) i = Some (k, a) ->
  nth_error (objs w) j = Some (k', a) -> i = j.
Proof.
  intros [N _] Hi Hj. assert (L : i < length (map snd (objs w))).
  { rewrite map_length. apply nth_error_Some. congruence. }
  eapply NoDup_nth_error; eauto. rewrite !nth_error_map, Hi, Hj. reflexivity.
Qed.
Lemma observe_alloc w k d i : Sep w -> i < length (objs w) -> observe (alloc w k d) i = observe w i.
Proof.
  intros [_ F] L. unfold observe, alloc, deref. simpl. rewrite nth_error_app1 by assumption.
  destruct (nth_error (objs w) i) as [[k' a]|] eqn:E; [|reflexivity].
  rewrite Forall_forall in F. specialize (F _ (nth_error_In _ _ E)). simpl in F.
  rewrite app_nth1 by assumption. reflexivity.
Qed.
Lemma observe_new w k d : observe (alloc w k d) (length (objs w)) = Some (k, as_ranges d).
Proof.
  unfold observe, alloc, deref. simpl. rewrite nth_error_app2, Nat.sub_diag by lia. simpl.
  rewrite app_nth2, Nat.sub_diag by lia. reflexivity.
Qed.
Lemma observe_store w i j k a d : Sep w -> nth_error (objs w) i = Some (k, a) -> i <> j ->
  observe (store w a d) j = observe w j.
Proof.
  intros S Hi NE. unfold observe, store, deref. simpl.
  destruct (nth_error (objs w) j) as [[k' a']|] eqn:E; [|reflexivity].
  rewrite nth_set_nth_other; [reflexivity|]. intros <-. apply NE. eapply sep_addr; eauto.
Qed.
Lemma objs_grow w c : exists l, map fst (objs (fst (exec w c))) = map fst (objs w) ++ l.
Proof.
  destruct c as [| |i o|i r|i|i]; cbn [exec fst];
    try (simpl; rewrite map_app; eauto; fail);
    destruct (nth_error (objs w) i) as [[[] a]|]; cbn [fst];
    try (exists []; now rewrite app_nil_r); try (simpl; rewrite map_app; eauto; fail);
    match goal with |- context [step ?d ?o] => destruct (step d o) end; simpl; exists []; now rewrite app_nil_r.
Qed.

(** Which object a command mutates. *)
Definition target (c : cmd) : option nat :=
  match c with Call i _ | BuilderAdd i _ => Some i | _ => None end.
Lemma frame w c j : Sep w -> j < length (objs w) -> target c <> Some j ->
  observe (fst (exec w c)) j = observe w j.
Proof.
  intros S L NE. destruct c as [| |i o|i r|i|i]; cbn [exec target] in *;
    try (now apply observe_alloc);
    destruct (nth_error (objs w) i) as [[[] a]|] eqn:E; cbn [fst]; auto;
    try (now apply observe_alloc);
    match goal with |- context [step ?d ?o] => destruct (step d o) end; cbn [fst];
    (eapply observe_store; eauto; congruence).
Qed.
Lemma frame_imm w c j l : Sep w -> observe w j = Some (KImm, l) ->
  observe (fst (exec w c)) j = Some (KImm, l).
Proof.
  intros S H. assert (L : j < length (objs w)).
  { unfold observe in H. apply nth_error_Some. destruct (nth_error (objs w) j); congruence. }
  assert (D : target c <> Some j \/ target c = Some j) by (destruct (target c) as [n|]; [destruct (Nat.eq_dec n j)|]; (right; congruence) || (left; congruence)).
  destruct D as [D|D]; [rewrite frame; auto|].
  unfold observe in H. destruct (nth_error (objs w) j) as [[k a]|] eqn:E; [|discriminate].
  inversion H; subst. destruct c as [| |i o|i r|i|i]; simpl in D; try discriminate; inversion D; subst;
    simpl; rewrite E; cbn [fst]; unfold observe; now rewrite E.
Qed.
Lemma sep_all p w : Sep w -> Sep (exec_all w p).
Proof. revert w. induction p as [|c p IH]; intros w S; simpl; auto. apply IH. now apply sep_exec. Qed.
Lemma sep_empty : Sep empty_world.
Proof. split; constructor. Qed.
Lemma imm_all p w j l : Sep w -> observe w j = Some (KImm, l) -> observe (exec_all w p) j = Some (KImm, l).
Proof.
  revert w. induction p as [|c p IH]; intros w S H; simpl; auto.
  apply IH; [now apply sep_exec|now apply frame_imm].
Qed.

(** The history of one mutable set (or builder) inside a program: the mutator calls aimed
    at it. *)
Fixpoint calls_on (j : nat) (k : kind) (p : list cmd) : list (op T) :=
  match p with
  | [] => []
  | Call i o :: p' =>
      match k with KMut => if (i =? j)%nat then o :: calls_on j k p' else calls_on j k p'
                 | _ => calls_on j k p' end
  | BuilderAdd i r :: p' =>
      match k with KBuilder => if (i =? j)%nat then Add r :: calls_on j k p' else calls_on j k p'
                 | _ => calls_on j k p' end
  | _ :: p' => calls_on j k p'
  end.
(** what can be seen of an object *)
Definition obj_state (w : world) (j : nat) : option (kind * rset T) :=
  match nth_error (objs w) j with Some (k, a) => Some (k, deref w a) | None => None end.
Lemma obj_state_alloc w k d j : Sep w -> j < length (objs w) -> obj_state (alloc w k d) j = obj_state w j.
Proof.
  intros [_ F] L. unfold obj_state, alloc, deref. simpl. rewrite nth_error_app1 by assumption.
  destruct (nth_error (objs w) j) as [[k' a]|] eqn:E; [|reflexivity].
  rewrite Forall_forall in F. specialize (F _ (nth_error_In _ _ E)). simpl in F.
  rewrite app_nth1 by assumption. reflexivity.
Qed.
Lemma obj_state_store w i j k a d : Sep w -> nth_error (objs w) i = Some (k, a) ->
  obj_state (store w a d) j = if (i =? j)%nat then Some (k, d) else obj_state w j.
Proof.
  intros S Hi. unfold obj_state, store, deref. simpl. destruct (Nat.eqb_spec i j) as [<-|NE].
  - rewrite Hi. rewrite nth_set_nth_same; [reflexivity|]. destruct S as [_ F].
    rewrite Forall_forall in F. exact (F _ (nth_error_In _ _ Hi)).
  - destruct (nth_error (objs w) j) as [[k' a']|] eqn:E; [|reflexivity].
    rewrite nth_set_nth_other; [reflexivity|]. intros <-. apply NE. eapply sep_addr; eauto.
Qed.
Lemma own_history p w j k d : Sep w -> obj_state w j = Some (k, d) ->
  obj_state (exec_all w p) j = Some (k, fold_left (fun d o => fst (step d o)) (calls_on j k p) d).
Proof.
  revert w d. induction p as [|c p IH]; intros w d S H; [exact H|].
  assert (L : j < length (objs w)).
  { unfold obj_state in H. apply nth_error_Some. destruct (nth_error (objs w) j); congruence. }
  pose proof (sep_exec w c S) as S'. unfold exec_all. cbn [fold_left].
  fold (exec_all (fst (exec w c)) p).
  assert (SAME : obj_state (fst (exec w c)) j = Some (k, d) -> calls_on j k (c :: p) = calls_on j k p ->
     obj_state (exec_all (fst (exec w c)) p) j =
     Some (k, fold_left (fun d o => fst (step d o)) (calls_on j k (c :: p)) d)).
  { intros E1 ->. now apply IH. }
  destruct c as [| |i o|i r|i|i]; cbn [exec fst] in *.
  - apply SAME; [now rewrite obj_state_alloc|reflexivity].
  - apply SAME; [now rewrite obj_state_alloc|reflexivity].
  - destruct (nth_error (objs w) i) as [[[] a]|] eqn:E; cbn [fst] in *.
    + pose proof (obj_state_store w i j KMut a (fst (step (deref w a) o)) S E) as ST.
      destruct (step (deref w a) o) as [d' e] eqn:Es; cbn [fst] in *.
      destruct (Nat.eqb_spec i j) as [<-|NE].
      * unfold obj_state in H. rewrite E in H. inversion H; subst k d.
        cbn [calls_on]. rewrite Nat.eqb_refl. cbn [fold_left]. rewrite Es. cbn [fst]. now apply IH.
      * cbn [calls_on]. rewrite (proj2 (Nat.eqb_neq i j) NE).
        replace (match k with KMut => calls_on j k p | _ => calls_on j k p end) with (calls_on j k p) by (destruct k; reflexivity).
        apply IH; [assumption|]. congruence.
    + apply SAME; [assumption|]. cbn [calls_on]. destruct k; auto. destruct (Nat.eqb_spec i j) as [<-|NE]; auto.
      unfold obj_state in H. rewrite E in H. discriminate.
    + apply SAME; [assumption|]. cbn [calls_on]. destruct k; auto. destruct (Nat.eqb_spec i j) as [<-|NE]; auto.
      unfold obj_state in H. rewrite E in H. discriminate.
    + apply SAME; [assumption|]. cbn [calls_on]. destruct k; auto. destruct (Nat.eqb_spec i j) as [<-|NE]; auto.
      unfold obj_state in H. rewrite E in H. discriminate.
  - destruct (nth_error (objs w) i) as [[[] a]|] eqn:E; cbn [fst] in *.
    + apply SAME; [assumption|]. cbn [calls_on]. destruct k; auto. destruct (Nat.eqb_spec i j) as [<-|NE]; auto.
      unfold obj_state in H. rewrite E in H. discriminate.
    + apply SAME; [assumption|]. cbn [calls_on]. destruct k; auto. destruct (Nat.eqb_spec i j) as [<-|NE]; auto.
      unfold obj_state in H. rewrite E in H. discriminate.
    + pose proof (obj_state_store w i j KBuilder a (fst (step (deref w a) (Add r))) S E) as ST.
      destruct (step (deref w a) (Add r)) as [d' e] eqn:Es; cbn [fst] in *.
      destruct (Nat.eqb_spec i j) as [<-|NE].
      * unfold obj_state in H. rewrite E in H. inversion H; subst k d.
        cbn [calls_on]. rewrite Nat.eqb_refl. cbn [fold_left]. rewrite Es. cbn [fst]. now apply IH.
      * cbn [calls_on]. rewrite (proj2 (Nat.eqb_neq i j) NE).
        replace (match k with KBuilder => calls_on j k p | _ => calls_on j k p end) with (calls_on j k p) by (destruct k; reflexivity).
        apply IH; [assumption|]. congruence.
    + apply SAME; [assumption|]. cbn [calls_on]. destruct k; auto. destruct (Nat.eqb_spec i j) as [<-|NE]; auto.
      unfold obj_state in H. rewrite E in H. discriminate.
  - apply SAME; [|reflexivity]. destruct (nth_error (objs w) i) as [[[] a]|]; cbn [fst]; auto.
    now rewrite obj_state_alloc.
  - apply SAME; [|reflexivity]. destruct (nth_error (objs w) i) as [[[] a]|]; cbn [fst]; auto;
    now rewrite obj_state_alloc.
Qed.
End Heap.
Arguments cmd T : clear implicits.
Arguments world T : clear implicits.
