(** * Proofs about Range *)
From Verif Require Import Prelude Order Range RangeFacts.

(** ** Vocabulary of the statements *)
Section Spec.
Context {T : Type} {O : TotalOrder T}.

(** The call returned a range whose members are exactly the values in [P]. *)
Definition denotes (c : res (range T)) (P : T -> Prop) : Prop :=
  exists r, c = Ok r /\ forall x, contains r x = true <-> P x.

(** The ranges a user can hold: results of the nine public factories. *)
Inductive factory_made : range T -> Prop :=
| fm_open a b r : open_ a b = Ok r -> factory_made r
| fm_closed a b r : closed a b = Ok r -> factory_made r
| fm_closed_open a b r : closed_open a b = Ok r -> factory_made r
| fm_open_closed a b r : open_closed a b = Ok r -> factory_made r
| fm_less_than b r : less_than b = Ok r -> factory_made r
| fm_at_most b r : at_most b = Ok r -> factory_made r
| fm_greater_than a r : greater_than a = Ok r -> factory_made r
| fm_at_least a r : at_least a = Ok r -> factory_made r
| fm_all r : all_ = Ok r -> factory_made r.

Definition dense : Prop := forall x y : T, lt x y -> exists z, lt x z /\ lt z y.
Definition no_least : Prop := forall x : T, exists y, lt y x.
Definition no_greatest : Prop := forall x : T, exists y, lt x y.
End Spec.

Section Proofs.
Context {T : Type} {O : TotalOrder T}.
Implicit Types (r a b c : range T) (x y : T).

Lemma valid_spec r :
  valid r <->
  cltb (upper r) (lower r) = false /\ cltb (lower r) AboveAll = true /\
  cltb BelowAll (upper r) = true.
Proof.
  unfold valid. rewrite mk_range_spec. destruct r as [l u]; cbn [lower upper].
  destruct (cltb u l), (cltb l AboveAll), (cltb BelowAll u); simpl;
    split; intros H; try discriminate; intuition congruence.
Qed.

Lemma mk_range_ok lb ub r : mk_range lb ub = Ok r <-> r = MkRange lb ub /\ valid r.
Proof.
  split.
  - intros H. assert (E : r = MkRange lb ub).
    { rewrite mk_range_spec in H.
      destruct (negb (cltb ub lb) && cltb lb AboveAll && cltb BelowAll ub);
        [now inversion H|].
      destruct (negb (cltb ub lb)); [discriminate|].
      destruct (negb (cltb lb AboveAll && cltb BelowAll ub)); discriminate. }
    subst. split; [reflexivity|]. exact H.
  - intros [-> H]. exact H.
Qed.

Lemma lt_cut x y : lt x y <-> cltb (AboveV x) (BelowV y) = true.
Proof. unfold cltb. rewrite cut_lt_table. reflexivity. Qed.
Lemma le_cut x y : le x y <-> cltb (BelowV x) (AboveV y) = true.
Proof. unfold cltb, le. rewrite cut_lt_table. simpl. now rewrite negb_true_iff. Qed.
Lemma lt_cut2 x y : lt x y <-> cltb (BelowV x) (BelowV y) = true.
Proof. unfold cltb. rewrite cut_lt_table. reflexivity. Qed.
Lemma below_above x : cltb (BelowV x) (AboveV x) = true.
Proof. unfold cltb. rewrite cut_lt_table. simpl. now rewrite ltb_irrefl. Qed.
Lemma lt_cut3 x y : lt x y <-> cltb (AboveV x) (AboveV y) = true.
Proof. unfold cltb. rewrite cut_lt_table. reflexivity. Qed.
(** no cut lies strictly between [BelowV x] and [AboveV x] *)
Lemma no_between x (c : cut T) : cltb (BelowV x) c = true -> cltb c (AboveV x) = true -> False.
Proof.
  unfold cltb. rewrite !cut_lt_table. destruct c as [|y|y|]; simpl; try discriminate;
    intros H1 H2; rewrite ?negb_true_iff in *; congruence.
Qed.
Lemma contains_spec r x :
  contains r x = true <-> cltb (BelowV x) (lower r) = false /\ cltb (BelowV x) (upper r) = true.
Proof. cut_norm. destruct (cltb (BelowV x) (lower r)), (cltb (BelowV x) (upper r)); simpl; intuition congruence. Qed.

Lemma below_all_lt x : cltb BelowAll (BelowV x) = true. Proof. reflexivity. Qed.

(** *** Factories *)
Ltac fac :=
  unfold open_, closed, closed_open, open_closed, less_than, at_most, greater_than, at_least, all_;
  rewrite mk_range_spec.
Ltac fac_true := (* both checks pass *)
  eexists; split; [reflexivity|]; intros x; rewrite contains_spec; cbn [lower upper];
  unfold lt, le, cltb; rewrite !cut_lt_table; simpl; rewrite ?negb_false_iff, ?negb_true_iff;
  intuition congruence.

Lemma open_spec x y :
  if ltb x y then denotes (open_ x y) (fun z => lt x z /\ lt z y)
  else open_ x y = Raise ValueError.
Proof.
  fac. replace (cltb (BelowV y) (AboveV x)) with (negb (ltb x y))
    by (unfold cltb; now rewrite cut_lt_table).
  destruct (ltb x y) eqn:E; simpl; [|reflexivity].
  eexists; split; [reflexivity|]. intros z. rewrite contains_spec; cbn [lower upper].
  unfold lt, cltb; rewrite !cut_lt_table; simpl. rewrite negb_false_iff. reflexivity.
Qed.
Lemma closed_spec x y :
  if ltb y x then closed x y = Raise ValueError
  else denotes (closed x y) (fun z => le x z /\ le z y).
Proof.
  fac. replace (cltb (AboveV y) (BelowV x)) with (ltb y x)
    by (unfold cltb; now rewrite cut_lt_table).
  destruct (ltb y x) eqn:E; simpl; [reflexivity|].
  eexists; split; [reflexivity|]. intros z. rewrite contains_spec; cbn [lower upper].
  unfold le, cltb; rewrite !cut_lt_table; simpl. rewrite negb_true_iff. reflexivity.
Qed.
Lemma closed_open_spec x y :
  if ltb y x then closed_open x y = Raise ValueError
  else denotes (closed_open x y) (fun z => le x z /\ lt z y).
Proof.
  fac. replace (cltb (BelowV y) (BelowV x)) with (ltb y x)
    by (unfold cltb; now rewrite cut_lt_table).
  destruct (ltb y x) eqn:E; simpl; [reflexivity|].
  eexists; split; [reflexivity|]. intros z. rewrite contains_spec; cbn [lower upper].
  unfold le, lt, cltb; rewrite !cut_lt_table; simpl. reflexivity.
Qed.
Lemma open_closed_spec x y :
  if ltb y x then open_closed x y = Raise ValueError
  else denotes (open_closed x y) (fun z => lt x z /\ le z y).
Proof.
  fac. replace (cltb (AboveV y) (AboveV x)) with (ltb y x)
    by (unfold cltb; now rewrite cut_lt_table).
  destruct (ltb y x) eqn:E; simpl; [reflexivity|].
  eexists; split; [reflexivity|]. intros z. rewrite contains_spec; cbn [lower upper].
  unfold le, lt, cltb; rewrite !cut_lt_table; simpl.
  rewrite negb_false_iff, negb_true_iff. reflexivity.
Qed.
Lemma half_spec x :
  denotes (less_than x) (fun z => lt z x) /\ denotes (at_most x) (fun z => le z x) /\
  denotes (greater_than x) (fun z => lt x z) /\ denotes (at_least x) (fun z => le x z) /\
  denotes all_ (fun _ => True).
Proof.
  repeat split; eexists; (split; [reflexivity|]); intros z; rewrite contains_spec;
    cbn [lower upper]; unfold le, lt, cltb; rewrite !cut_lt_table; simpl;
    rewrite ?negb_false_iff, ?negb_true_iff; intuition.
Qed.

Lemma valid_factory r : valid r <-> factory_made r.
Proof.
  split.
  - intros H. destruct r as [[|l|l|] [|u|u|]];
      try (unfold valid in H; simpl in H; discriminate H).
    + now apply (fm_less_than u).
    + now apply (fm_at_most u).
    + now apply fm_all.
    + now apply (fm_closed_open l u).
    + now apply (fm_closed l u).
    + now apply (fm_at_least l).
    + now apply (fm_open l u).
    + now apply (fm_open_closed l u).
    + now apply (fm_greater_than l).
  - intros H; destruct H as [? ? ? H|? ? ? H|? ? ? H|? ? ? H|? ? H|? ? H|? ? H|? ? H|? H];
      apply mk_range_ok in H; tauto.
Qed.

(** *** emptiness *)
Lemma is_empty_iff r : is_empty r = true <-> lower r = upper r.
Proof. unfold is_empty. apply cut_eq_spec. Qed.

Lemma empty_shape r : valid r ->
  (is_empty r = true <-> exists x, closed_open x x = Ok r \/ open_closed x x = Ok r).
Proof.
  intros V. rewrite is_empty_iff. split.
  - destruct r as [l u]; simpl; intros <-. destruct l as [|x|x|];
      try (unfold valid in V; simpl in V; discriminate V).
    + exists x. left. exact V.
    + exists x. right. exact V.
  - intros [x [H|H]]; apply mk_range_ok in H; destruct H as [-> _]; reflexivity.
Qed.
Lemma empty_no_member r x : is_empty r = true -> contains r x = false.
Proof. destruct (contains r x) eqn:E; [|reflexivity]. intros H. cord. Qed.

Lemma dense_between : dense (T:=T) -> no_least (T:=T) -> no_greatest (T:=T) -> inhabited T ->
  forall (c d : cut T), cltb c d = true ->
  exists x, cltb (BelowV x) c = false /\ cltb (BelowV x) d = true.
Proof.
  intros D NL NG [t0] c d H. unfold cltb in *. rewrite cut_lt_table in H.
  destruct c as [|x|x|], d as [|y|y|]; simpl in H; try discriminate.
  - destruct (NL y) as [z Hz]. exists z. rewrite !cut_lt_table. auto.
  - exists y. rewrite !cut_lt_table; simpl. now rewrite ltb_irrefl.
  - exists t0. rewrite !cut_lt_table; auto.
  - exists x. rewrite !cut_lt_table; simpl. now rewrite ltb_irrefl.
  - exists x. rewrite !cut_lt_table; simpl. now rewrite ltb_irrefl.
  - exists x. rewrite !cut_lt_table; simpl. now rewrite ltb_irrefl.
  - destruct (D _ _ H) as (z & H1 & H2). exists z. rewrite !cut_lt_table; simpl.
    unfold lt in *. now rewrite H1, H2.
  - exists y. rewrite !cut_lt_table; simpl. now rewrite H, ltb_irrefl.
  - destruct (NG x) as [z Hz]. exists z. rewrite !cut_lt_table; simpl. unfold lt in Hz.
    now rewrite Hz.
Qed.
Lemma nonempty_member r : dense (T:=T) -> no_least (T:=T) -> no_greatest (T:=T) ->
  inhabited T -> valid r ->
  is_empty r = false -> exists x, contains r x = true.
Proof.
  intros D NL NG I V E. apply valid_spec in V.
  destruct (dense_between D NL NG I (lower r) (upper r)) as (x & H1 & H2).
  - cord.
  - exists x. apply contains_spec. auto.
Qed.

(** *** convexity *)
Lemma convex r x y z : contains r x = true -> contains r z = true -> le x y -> le y z ->
  contains r y = true.
Proof.
  rewrite !contains_spec. intros [H1 H2] [H3 H4] L1 L2.
  apply le_lt_or_eq in L1. apply le_lt_or_eq in L2.
  destruct L1 as [L1| ->]; [|auto]. destruct L2 as [L2| ->]; [|auto].
  rewrite lt_cut2 in L1, L2. split; cord.
Qed.

(** *** enclosure *)
Lemma encloses_refl r : encloses r r = true.
Proof. cord. Qed.
Lemma encloses_trans a b c : encloses a b = true -> encloses b c = true -> encloses a c = true.
Proof. cord. Qed.
Lemma encloses_antisym a b : encloses a b = true -> encloses b a = true -> a = b.
Proof.
  intros H1 H2. destruct a as [la ua], b as [lb ub].
  assert (la = lb) by (cut_norm; simpl in *; cord).
  assert (ua = ub) by (cut_norm; simpl in *; cord). congruence.
Qed.
Lemma encloses_members a b x : encloses a b = true -> contains b x = true -> contains a x = true.
Proof. cord. Qed.
Lemma members_encloses a b : dense (T:=T) -> no_least (T:=T) -> no_greatest (T:=T) ->
  inhabited T -> valid a -> valid b -> is_empty b = false ->
  (forall x, contains b x = true -> contains a x = true) -> encloses a b = true.
Proof.
  intros D NL NG I Va Vb E H. apply valid_spec in Va, Vb.
  assert (Hlt : cltb (lower b) (upper b) = true) by cord.
  destruct (cltb (lower b) (lower a)) eqn:E1.
  { exfalso. set (m := if cltb (lower a) (upper b) then lower a else upper b).
    assert (M : cltb (lower b) m = true) by (unfold m; destruct (cltb (lower a) (upper b)); cord).
    destruct (dense_between D NL NG I _ _ M) as (x & H1 & H2).
    assert (C : contains b x = true).
    { apply contains_spec. unfold m in *. destruct (cltb (lower a) (upper b)) eqn:?; split; cord. }
    apply H in C. apply contains_spec in C. unfold m in *.
    destruct (cltb (lower a) (upper b)) eqn:?; cord. }
  destruct (cltb (upper a) (upper b)) eqn:E2.
  { exfalso. set (m := if cltb (lower b) (upper a) then upper a else lower b).
    assert (M : cltb m (upper b) = true) by (unfold m; destruct (cltb (lower b) (upper a)); cord).
    destruct (dense_between D NL NG I _ _ M) as (x & H1 & H2).
    assert (C : contains b x = true).
    { apply contains_spec. unfold m in *. destruct (cltb (lower b) (upper a)) eqn:?; split; cord. }
    apply H in C. apply contains_spec in C. unfold m in *.
    destruct (cltb (lower b) (upper a)) eqn:?; cord. }
  cord.
Qed.

(** *** connection, intersection, span *)
Lemma connected_sym a b : is_connected a b = is_connected b a.
Proof. cord. Qed.
Lemma connected_refl a : valid a -> is_connected a a = true.
Proof. intros V. apply valid_spec in V. cord. Qed.
Definition cmax (c d : cut T) := if cltb c d then d else c.
Definition cmin (c d : cut T) := if cltb d c then d else c.

Lemma intersection_eq a b : valid a -> valid b ->
  intersection a b =
  if is_connected a b then Ok (MkRange (cmax (lower a) (lower b)) (cmin (upper a) (upper b)))
  else Raise ValueError.
Proof.
  intros Va Vb. apply valid_spec in Va, Vb. unfold intersection, cmax, cmin.
  rewrite mk_range_spec. destruct a as [la ua], b as [lb ub]; cbn [lower upper] in *.
  destruct (is_connected _ _) eqn:C; cut_norm; cbn [lower upper] in *;
  destruct (cltb la lb) eqn:E1, (cltb lb la) eqn:E2, (cltb ua ub) eqn:E3, (cltb ub ua) eqn:E4;
    simpl in *; try (exfalso; cord);
    repeat match goal with
    | |- context [cltb ?x ?y] => let E := fresh in destruct (cltb x y) eqn:E; simpl in *
    end; try reflexivity; try (exfalso; cord); try (f_equal; f_equal; cord).
Qed.
Lemma connected_common a b : valid a -> valid b ->
  (is_connected a b = true <->
   exists c, valid c /\ encloses a c = true /\ encloses b c = true).
Proof.
  intros Va Vb. split.
  - intros C. exists (MkRange (cmax (lower a) (lower b)) (cmin (upper a) (upper b))).
    apply valid_spec in Va, Vb. rewrite valid_spec. unfold cmax, cmin.
    destruct (cltb (lower a) (lower b)) eqn:E1, (cltb (upper b) (upper a)) eqn:E2;
      repeat split; cut_norm; cbn [lower upper] in *; cord.
  - intros (c & Vc & H1 & H2). apply valid_spec in Vc. cord.
Qed.
Lemma intersection_raises a b : valid a -> valid b ->
  (is_connected a b = false <-> intersection a b = Raise ValueError).
Proof.
  intros Va Vb. rewrite intersection_eq by assumption.
  destruct (is_connected a b); split; congruence.
Qed.
Lemma intersection_valid a b c : valid a -> valid b -> intersection a b = Ok c -> valid c.
Proof.
  intros Va Vb. rewrite intersection_eq by assumption. destruct (is_connected a b) eqn:C; [|discriminate].
  intros H; inversion H; subst; clear H. apply valid_spec in Va, Vb. apply valid_spec.
  unfold cmax, cmin; cbn [lower upper].
  destruct (cltb (lower a) (lower b)) eqn:E1, (cltb (upper b) (upper a)) eqn:E2; cord.
Qed.
Lemma intersection_meet a b c : valid a -> valid b -> intersection a b = Ok c ->
  (forall x, contains c x = contains a x && contains b x) /\
  encloses a c = true /\ encloses b c = true /\
  (forall d, encloses a d = true -> encloses b d = true -> encloses c d = true).
Proof.
  intros Va Vb. rewrite intersection_eq by assumption. destruct (is_connected a b) eqn:C; [|discriminate].
  intros H; inversion H; subst; clear H. unfold cmax, cmin.
  destruct (cltb (lower a) (lower b)) eqn:E1, (cltb (upper b) (upper a)) eqn:E2;
    repeat split; intros; cut_norm; cbn [lower upper] in *; cord.
Qed.
Lemma intersection_comm a b : valid a -> valid b -> intersection a b = intersection b a.
Proof.
  intros Va Vb. rewrite !intersection_eq by assumption. rewrite connected_sym.
  destruct (is_connected b a); [|reflexivity]. f_equal. unfold cmax, cmin.
  f_equal;
  destruct (cltb (lower a) (lower b)) eqn:E1, (cltb (upper b) (upper a)) eqn:E2,
    (cltb (lower b) (lower a)) eqn:E3, (cltb (upper a) (upper b)) eqn:E4; cord.
Qed.
Lemma intersection_idem a : valid a -> intersection a a = Ok a.
Proof.
  intros Va. rewrite intersection_eq by assumption. rewrite connected_refl by assumption.
  unfold cmax, cmin. rewrite !cltb_irrefl. now destruct a.
Qed.
Lemma intersection_assoc a b c : valid a -> valid b -> valid c ->
  (let* ab := intersection a b in intersection ab c) =
  (let* bc := intersection b c in intersection a bc).
Proof.
  intros Va Vb Vc.
  assert (Iv : forall (x y z : range T), valid x -> valid y -> intersection x y = Ok z ->
     z = MkRange (cmax (lower x) (lower y)) (cmin (upper x) (upper y)) /\ valid z /\ is_connected x y = true).
  { intros x y z Vx Vy E. pose proof (intersection_valid x y z Vx Vy E).
    rewrite intersection_eq in E by assumption. destruct (is_connected x y); [|discriminate].
    injection E as E; subst; auto. }
  destruct (intersection a b) as [ab|e] eqn:Eab; destruct (intersection b c) as [bc|e'] eqn:Ebc; simpl.
  - apply Iv in Eab; auto. apply Iv in Ebc; auto. destruct Eab as (-> & V1 & C1), Ebc as (-> & V2 & C2).
    rewrite !intersection_eq by assumption. apply valid_spec in Va, Vb, Vc.
    unfold cmax, cmin in *; cbn [lower upper] in *. 
    match goal with |- (if ?p then _ else _) = (if ?q then _ else _) =>
      assert (E : p = q) end.
    { cut_norm; cbn [lower upper] in *.
      destruct (cltb (lower a) (lower b)) eqn:?, (cltb (upper b) (upper a)) eqn:?,
       (cltb (lower b) (lower c)) eqn:?, (cltb (upper c) (upper b)) eqn:?; cord. }
    rewrite E. clear Iv V1 V2 C1 C2. match goal with |- (if ?p then _ else _) = _ => destruct p; [|reflexivity] end. clear E. f_equal.
    destruct (cltb (lower a) (lower b)) eqn:?, (cltb (lower b) (lower c)) eqn:?;
      destruct (cltb (upper b) (upper a)) eqn:?, (cltb (upper c) (upper b)) eqn:?;
      f_equal; repeat match goal with |- context [if cltb ?x ?y then _ else _] => destruct (cltb x y) eqn:? end; cord.
  - apply Iv in Eab; auto. destruct Eab as (-> & V1 & C1).
    rewrite intersection_eq in Ebc |- * by assumption.
    destruct (is_connected b c) eqn:C2; [discriminate|].
    match goal with |- context [is_connected ?x c] => destruct (is_connected x c) eqn:C3 end.
    + exfalso. apply valid_spec in Va, Vb, Vc. unfold cmax, cmin in *; cut_norm; cbn [lower upper] in *.
      destruct (cltb (lower a) (lower b)) eqn:?, (cltb (upper b) (upper a)) eqn:?; cord.
    + congruence.
  - apply Iv in Ebc; auto. destruct Ebc as (-> & V1 & C1).
    rewrite intersection_eq in Eab |- * by assumption.
    destruct (is_connected a b) eqn:C2; [discriminate|].
    match goal with |- context [is_connected a ?x] => destruct (is_connected a x) eqn:C3 end.
    + exfalso. apply valid_spec in Va, Vb, Vc. unfold cmax, cmin in *; cut_norm; cbn [lower upper] in *.
      destruct (cltb (lower b) (lower c)) eqn:?, (cltb (upper c) (upper b)) eqn:?; cord.
    + congruence.
  - rewrite intersection_eq in Eab, Ebc by assumption.
    destruct (is_connected a b), (is_connected b c); congruence.
Qed.
End Proofs.
