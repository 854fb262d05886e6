(** * C113: ranges over values that cannot all be compared
    (range.py:121-156, 169-170, 202-203, 243-258, 279-295, 380-592)

    Range.v is about values with a total order.  Python only asks for [<] and [==]: floats have NaN, frozensets are ordered by inclusion, and comparing an int with a string raises TypeError.
    Here [x < y] is any function that gives a boolean or raises and [x == y] any function that gives a boolean. *)
From Verif Require Import Prelude Order Range.
Local Open Scope Z_scope.

(** ** Model *)
Section Model.
Context {T : Type}.
Variable lt : T -> T -> res bool.
Variable eq : T -> T -> bool.

(** range.py:125-129: the two tests on the endpoints, then [otherwise] *)
Definition by_endpoint (x y : T) (otherwise : Z) : res Z :=
  let* less := lt x y in
  if less then Ok (-1) else let* more := lt y x in if more then Ok 1 else Ok otherwise.
(** range.py:121-142, 184-188, 217-221 *)
Definition pcompare_to (self other : cut T) : res Z :=
  match self, other with
  | BelowAll, BelowAll => Ok 0
  | BelowAll, _ => Ok (-1)
  | AboveAll, AboveAll => Ok 0
  | AboveAll, _ => Ok 1
  | _, BelowAll => Ok 1
  | _, AboveAll => Ok (-1)
  | BelowV a, BelowV b => by_endpoint a b 0
  | BelowV a, AboveV b => by_endpoint a b (-1)
  | AboveV a, AboveV b => by_endpoint a b 0
  | AboveV a, BelowV b => by_endpoint a b 1
  end.
(** range.py:149-150 *)
Definition pcut_le (a b : cut T) : res bool := let* c := pcompare_to a b in Ok (c <=? 0).
(** range.py:158-159, 255-258, 292-295; the identity comparisons of 187 and 220 do not raise *)
Definition pcut_eq (a b : cut T) : bool :=
  match a, b with
  | BelowAll, BelowAll | AboveAll, AboveAll => true
  | BelowV x, BelowV y | AboveV x, AboveV y => eq x y
  | _, _ => false
  end.
(** range.py:169-170, 202-203, 243-244, 279-280 *)
Definition pis_less_than (c : cut T) (x : T) : res bool :=
  match c with
  | BelowAll => Ok true
  | AboveAll => Ok false
  | BelowV a => let* less := lt a x in if less then Ok true else Ok (eq a x)
  | AboveV a => lt a x
  end.
(** range.py:380-387 *)
Definition pmk_range (lb ub : cut T) : res (range T) :=
  let* fine := pcut_le lb ub in
  if (fine : bool) then
    if is_above_all lb then Raise ValueError
    else if is_below_all ub then Raise ValueError
    else Ok (MkRange lb ub)
  else if is_above_all lb || is_below_all ub then Raise AssertionError
  else Raise ValueError.
(** range.py:389-391 *)
Definition popen (a b : T) := pmk_range (AboveV a) (BelowV b).
(** range.py:393-395 *)
Definition pclosed (a b : T) := pmk_range (BelowV a) (AboveV b).
(** range.py:397-399 *)
Definition pclosed_open (a b : T) := pmk_range (BelowV a) (BelowV b).
(** range.py:401-403 *)
Definition popen_closed (a b : T) := pmk_range (AboveV a) (AboveV b).
(** range.py:405-407 *)
Definition pless_than (b : T) := pmk_range BelowAll (BelowV b).
(** range.py:409-411 *)
Definition pat_most (b : T) := pmk_range BelowAll (AboveV b).
(** range.py:413-415 *)
Definition pgreater_than (a : T) := pmk_range (AboveV a) AboveAll.
(** range.py:417-419 *)
Definition pat_least (a : T) := pmk_range (BelowV a) AboveAll.
(** range.py:421-423 *)
Definition pall := pmk_range BelowAll AboveAll.
(** range.py:469-473, values other than None; [and] does not look at the upper bound when the first test is False *)
Definition pcontains (r : range T) (x : T) : res bool :=
  let* above := pis_less_than (lower r) x in
  if (above : bool) then let* over := pis_less_than (upper r) x in Ok (negb over) else Ok false.
(** range.py:475-480 *)
Definition pencloses (a b : range T) : res bool :=
  let* l := pcompare_to (lower a) (lower b) in
  if l <=? 0 then let* u := pcompare_to (upper a) (upper b) in Ok (0 <=? u) else Ok false.
(** range.py:482-506 *)
Definition pis_connected (a b : range T) : res bool :=
  let* x := pcut_le (lower a) (upper b) in
  if (x : bool) then pcut_le (lower b) (upper a) else Ok false.
(** range.py:508-531 *)
Definition pspan (a b : range T) : res (range T) :=
  let* lower_cmp := pcompare_to (lower a) (lower b) in
  let* upper_cmp := pcompare_to (upper a) (upper b) in
  if (lower_cmp <=? 0) && (0 <=? upper_cmp) then Ok a
  else if (0 <=? lower_cmp) && (upper_cmp <=? 0) then Ok b
  else pmk_range (if lower_cmp <=? 0 then lower a else lower b) (if 0 <=? upper_cmp then upper a else upper b).
(** range.py:533-560 *)
Definition pintersection (a b : range T) : res (range T) :=
  let* lower_cmp := pcompare_to (lower a) (lower b) in
  let* upper_cmp := pcompare_to (upper a) (upper b) in
  if (0 <=? lower_cmp) && (upper_cmp <=? 0) then Ok a
  else if (lower_cmp <=? 0) && (0 <=? upper_cmp) then Ok b
  else pmk_range (if 0 <=? lower_cmp then lower a else lower b) (if upper_cmp <=? 0 then upper a else upper b).
(** range.py:562-584 *)
Definition pintersects (a b : range T) : res bool :=
  let* lower_cmp := pcompare_to (lower a) (lower b) in
  let* upper_cmp := pcompare_to (upper a) (upper b) in
  if (0 <=? lower_cmp) && (upper_cmp <=? 0) then Ok true
  else if (lower_cmp <=? 0) && (0 <=? upper_cmp) then Ok true
  else pcut_le (if 0 <=? lower_cmp then lower a else lower b) (if upper_cmp <=? 0 then upper a else upper b).
(** range.py:455-466 *)
Definition pis_empty (r : range T) : bool := pcut_eq (lower r) (upper r).
(** range.py:586-592 *)
Definition prange_eq (a b : range T) : bool := pcut_eq (lower a) (lower b) && pcut_eq (upper a) (upper b).
End Model.

(** On totally ordered values this is the model of Range.v. *)
Theorem C113_agrees {T} {O : TotalOrder T} : 
  let lt a b := Ok (ltb a b) in
  (forall l u, pmk_range lt l u = mk_range l u) /\
  (forall r x, pcontains lt eqb r x = Ok (contains r x)) /\
  (forall a b, pencloses lt a b = Ok (encloses a b)) /\
  (forall a b, pis_connected lt a b = Ok (is_connected a b)) /\
  (forall a b, pspan lt a b = span a b) /\
  (forall a b, pintersection lt a b = intersection a b) /\
  (forall a b, pintersects lt a b = Ok (intersects a b)) /\
  (forall r, pis_empty eqb r = is_empty r) /\
  (forall a b, prange_eq eqb a b = range_eq a b).
Proof.
  intro lt.
  assert (C : forall a b, pcompare_to lt a b = Ok (compare_to a b)).
  { intros [|a|a|] [|b|b|]; try reflexivity; cbn; unfold by_endpoint, lt; cbn; destruct (ltb a b); try reflexivity; destruct (ltb b a); reflexivity. }
  assert (M : forall l u, pmk_range lt l u = mk_range l u).
  { intros. unfold pmk_range, pcut_le, mk_range, cut_le. rewrite C. reflexivity. }
  repeat split.
  - exact M.
  - intros [l u] x. unfold pcontains, contains. cbn [lower upper].
    assert (L : forall c, pis_less_than lt eqb c x = Ok (is_less_than c x)) by (intros [|a|a|]; try reflexivity; cbn; unfold lt; cbn; destruct (ltb a x); reflexivity).
    rewrite !L. cbn. destruct (is_less_than l x); reflexivity.
  - intros a b. unfold pencloses, encloses. rewrite !C. cbn. destruct (compare_to (lower a) (lower b) <=? 0); reflexivity.
  - intros a b. unfold pis_connected, is_connected, pcut_le, cut_le. rewrite !C. cbn. destruct (compare_to (lower a) (upper b) <=? 0); reflexivity.
  - intros a b. unfold pspan, span. rewrite !C. cbn. rewrite M. reflexivity.
  - intros a b. unfold pintersection, intersection. rewrite !C. cbn. rewrite M. reflexivity.
  - intros a b. unfold pintersects, intersects, pcut_le, cut_le. rewrite !C. cbn. rewrite C. cbn. repeat (destruct (_ && _); [reflexivity|]). reflexivity.
  - intros [[|a|a|] [|b|b|]]; reflexivity.
  - intros [[|a|a|] u] [[|b|b|] u']; try reflexivity; destruct u, u'; reflexivity.
Qed.

(** ** Any comparison *)
Section Any.
Context {T : Type}.
Variable lt : T -> T -> res bool.
Variable eq : T -> T -> bool.
Notation Less x y := (lt x y = Ok true).
Notation NotLess x y := (lt x y = Ok false).
(** what an exception of a factory comes from *)
Definition order_error (a b : T) (e : exn) : Prop := lt a b = Raise e \/ NotLess a b /\ lt b a = Raise e.

(** Which endpoints the factories accept, with what range, and what they raise. *)
Theorem C113_factories : forall a b,
  (forall made l u, In (made, (l, u)) [(pclosed lt a b, (BelowV a, AboveV b)); (pclosed_open lt a b, (BelowV a, BelowV b)); (popen_closed lt a b, (AboveV a, AboveV b))] ->
     (made = Ok (MkRange l u) <-> Less a b \/ NotLess a b /\ NotLess b a) /\
     (forall r, made = Ok r -> r = MkRange l u) /\
     (forall e, made = Raise e <-> order_error a b e \/ e = ValueError /\ NotLess a b /\ Less b a)) /\
  (popen lt a b = Ok (MkRange (AboveV a) (BelowV b)) <-> Less a b) /\
  (forall r, popen lt a b = Ok r -> r = MkRange (AboveV a) (BelowV b)) /\
  (forall e, popen lt a b = Raise e <-> order_error a b e \/ e = ValueError /\ NotLess a b /\ (NotLess b a \/ Less b a)) /\
  pless_than lt b = Ok (MkRange BelowAll (BelowV b)) /\
  pat_most lt b = Ok (MkRange BelowAll (AboveV b)) /\
  pgreater_than lt a = Ok (MkRange (AboveV a) AboveAll) /\
  pat_least lt a = Ok (MkRange (BelowV a) AboveAll) /\
  pall lt = Ok (MkRange BelowAll AboveAll).
Proof.
  intros a b. unfold pclosed, pclosed_open, popen_closed, popen, pmk_range, pcut_le, order_error; cbn; unfold by_endpoint.
  split.
  - intros made l u [E|[E|[E|[]]]]; apply pair_equal_spec in E; destruct E as [<- E]; apply pair_equal_spec in E; destruct E as [<- <-];
      destruct (lt a b) as [[|]|x]; cbn; try (destruct (lt b a) as [[|]|y]; cbn); repeat split; intros; intuition congruence.
  - destruct (lt a b) as [[|]|x]; cbn; try (destruct (lt b a) as [[|]|y]; cbn); repeat split; intros; intuition congruence.
Qed.

(** [a <= x] as the code tests it *)
Definition AtLeast (a x : T) : Prop := Less a x \/ NotLess a x /\ eq a x = true.
(** ... and its negation *)
Definition NotAtLeast (a x : T) : Prop := NotLess a x /\ eq a x = false.

(** The members of the nine kinds of range. *)
Theorem C113_members : forall a b x,
  let has l u := pcontains lt eq (MkRange l u) x = Ok true in
  (has (AboveV a) (BelowV b) <-> Less a x /\ NotAtLeast b x) /\
  (has (BelowV a) (AboveV b) <-> AtLeast a x /\ NotLess b x) /\
  (has (BelowV a) (BelowV b) <-> AtLeast a x /\ NotAtLeast b x) /\
  (has (AboveV a) (AboveV b) <-> Less a x /\ NotLess b x) /\
  (has (AboveV a) AboveAll <-> Less a x) /\
  (has (BelowV a) AboveAll <-> AtLeast a x) /\
  (has BelowAll (BelowV b) <-> NotAtLeast b x) /\
  (has BelowAll (AboveV b) <-> NotLess b x) /\
  has BelowAll AboveAll.
Proof.
  intros a b x has. unfold has, pcontains, AtLeast, NotAtLeast; cbn.
  destruct (lt a x) as [[|]|e1]; cbn; destruct (lt b x) as [[|]|e2]; cbn; destruct (eq a x); cbn; destruct (eq b x); cbn; repeat split; intros; intuition congruence.
Qed.

(** The membership test raises exactly what the comparison of an endpoint with the value raises; the upper endpoint is looked at only if the value is not below the range. *)
Theorem C113_member_raises : forall l u x e,
  pcontains lt eq (MkRange l u) x = Raise e <->
  (exists a, (l = BelowV a \/ l = AboveV a) /\ lt a x = Raise e) \/
  (l = BelowAll \/ (exists a, l = BelowV a /\ AtLeast a x) \/ (exists a, l = AboveV a /\ Less a x)) /\ exists b, (u = BelowV b \/ u = AboveV b) /\ lt b x = Raise e.
Proof.
  intros l u x e. unfold pcontains, AtLeast; cbn [lower upper].
  assert (U : (let* over := pis_less_than lt eq u x in Ok (negb over)) = Raise e <-> exists b, (u = BelowV b \/ u = AboveV b) /\ lt b x = Raise e).
  { destruct u as [|b|b|]; cbn.
    - split; [discriminate|intros (b & [H|H] & _); discriminate].
    - split.
      + intro H. exists b. split; [now left|]. destruct (lt b x) as [[|]|y]; cbn in H; try discriminate. congruence.
      + intros (b' & [H|H] & R); inversion H; subst. now rewrite R.
    - split.
      + intro H. exists b. split; [now right|]. destruct (lt b x) as [[|]|y]; cbn in H; try discriminate. congruence.
      + intros (b' & [H|H] & R); inversion H; subst. now rewrite R.
    - split; [discriminate|intros (b & [H|H] & _); discriminate]. }
  destruct l as [|a|a|]; cbn.
  - rewrite U. split; [intro H; right; split; [now left|exact H]|]. intros [(a & [H|H] & _)|[_ H]]; [discriminate|discriminate|exact H].
  - destruct (lt a x) as [[|]|y] eqn:E; cbn.
    + rewrite U. split; [intro H; right; split; [right; left; exists a; split; [reflexivity|left; reflexivity || exact E]|exact H]|].
      intros [(a' & [H|H] & R)|[_ H]]; [inversion H; subst; congruence|discriminate|exact H].
    + destruct (eq a x) eqn:Q.
      * rewrite U. split; [intro H; right; split; [right; left; exists a; split; [reflexivity|right; split; [reflexivity||exact E|reflexivity||exact Q]]|exact H]|].
        intros [(a' & [H|H] & R)|[_ H]]; [inversion H; subst; congruence|discriminate|exact H].
      * split; [discriminate|].
        intros [(a' & [H|H] & R)|[[H|[(a' & H & [G|[_ G]])|(a' & H & G)]] _]]; try discriminate; inversion H; subst; congruence.
    + split.
      * intro H. left. exists a. split; [now left|]. congruence.
      * intros [(a' & [H|H] & R)|[[H|[(a' & H & [G|[G _]])|(a' & H & G)]] _]]; try discriminate; inversion H; subst; congruence.
  - destruct (lt a x) as [[|]|y] eqn:E; cbn.
    + rewrite U. split; [intro H; right; split; [right; right; exists a; split; [reflexivity|reflexivity || exact E]|exact H]|].
      intros [(a' & [H|H] & R)|[_ H]]; [discriminate|inversion H; subst; congruence|exact H].
    + split; [discriminate|].
      intros [(a' & [H|H] & R)|[[H|[(a' & H & G)|(a' & H & G)]] _]]; try discriminate; inversion H; subst; congruence.
    + split.
      * intro H. left. exists a. split; [now right|]. congruence.
      * intros [(a' & [H|H] & R)|[[H|[(a' & H & G)|(a' & H & G)]] _]]; try discriminate; inversion H; subst; congruence.
  - split; [discriminate|]. intros [(a' & [H|H] & R)|[[H|[(a' & H & G)|(a' & H & G)]] _]]; discriminate.
Qed.

(** [intersects] is True exactly if [intersection] gives a range, and raises what a comparison raises exactly if [intersection] does. *)
Theorem C113_intersects : forall a b, lower a <> AboveAll -> lower b <> AboveAll -> upper a <> BelowAll -> upper b <> BelowAll ->
  (pintersects lt a b = Ok true <-> exists r, pintersection lt a b = Ok r) /\
  (pintersects lt a b = Ok false -> pintersection lt a b = Raise ValueError) /\
  (forall e, pintersects lt a b = Raise e -> pintersection lt a b = Raise e).
Proof.
  intros a b La Lb Ua Ub. unfold pintersects, pintersection.
  destruct (pcompare_to lt (lower a) (lower b)) as [l|]; cbn; [|split; [split; [discriminate|intros [r H]; discriminate]|split; [discriminate|congruence]]].
  destruct (pcompare_to lt (upper a) (upper b)) as [u|]; cbn; [|split; [split; [discriminate|intros [r H]; discriminate]|split; [discriminate|congruence]]].
  destruct (_ && _); [split; [split; [eauto|reflexivity]|split; discriminate]|].
  destruct (_ && _); [split; [split; [eauto|reflexivity]|split; discriminate]|].
  set (lb := if 0 <=? l then lower a else lower b). set (ub := if u <=? 0 then upper a else upper b). unfold pmk_range.
  assert (A : is_above_all lb = false) by (unfold lb; destruct (0 <=? l); [destruct (lower a)|destruct (lower b)]; auto; congruence).
  assert (B : is_below_all ub = false) by (unfold ub; destruct (u <=? 0); [destruct (upper a)|destruct (upper b)]; auto; congruence).
  rewrite A, B. destruct (pcut_le lt lb ub) as [[|]|y]; cbn.
  - split; [split; [eauto|reflexivity]|split; discriminate].
  - split; [split; [discriminate|intros [r H]; discriminate]|split; [reflexivity|discriminate]].
  - split; [split; [discriminate|intros [r H]; discriminate]|split; [discriminate|congruence]].
Qed.
End Any.

(** ** Partial orders: [<] never raises, is irreflexive and transitive, and [==] is compatible with it. NaN need not equal itself. *)
Record partial_order {T} (lt eq : T -> T -> bool) : Prop := {
  po_irrefl : forall x, lt x x = false;
  po_trans : forall x y z, lt x y = true -> lt y z = true -> lt x z = true;
  po_sym : forall x y, eq x y = true -> eq y x = true;
  po_eq_trans : forall x y z, eq x y = true -> eq y z = true -> eq x z = true;
  po_left : forall x y z, eq x y = true -> lt y z = true -> lt x z = true;
  po_right : forall x y z, lt x y = true -> eq y z = true -> lt x z = true }.

Section Partial.
Context {T : Type}.
Variable lt : T -> T -> bool.
Variable eq : T -> T -> bool.
Hypothesis P : partial_order lt eq.
Notation less := (fun a b => Ok (lt a b)).
Notation le x y := (lt x y = true \/ eq x y = true).
(** [x in r] is True (range.py:469-473) *)
Definition in_range (r : range T) (x : T) : Prop := pcontains (fun a b => Ok (lt a b)) eq r x = Ok true.
(** one of [x < y], [y < x] and [x == y] is True *)
Definition comparable (x y : T) : Prop := lt x y = true \/ lt y x = true \/ eq x y = true.
(** two bounds of which one is infinite, or with comparable endpoints *)
Definition bounds_comparable (c d : cut T) : Prop :=
  forall x y, (c = BelowV x \/ c = AboveV x) -> (d = BelowV y \/ d = AboveV y) -> comparable x y.

(** the value is on the right of the cut *)
Definition right_of (c : cut T) (x : T) : Prop :=
  match c with BelowAll => True | AboveAll => False | BelowV a => le a x | AboveV a => lt a x = true end.
Lemma right_spec c x : pis_less_than less eq c x = Ok true <-> right_of c x.
Proof. destruct c as [|a|a|]; cbn; try destruct (lt a x); try destruct (eq a x); cbn; intuition congruence. Qed.
Lemma right_total c x : exists b, pis_less_than less eq c x = Ok b.
Proof. destruct c as [|a|a|]; cbn; eauto. destruct (lt a x); eauto. Qed.
Lemma in_spec r x : in_range r x <-> right_of (lower r) x /\ ~ right_of (upper r) x.
Proof.
  unfold in_range, pcontains. rewrite <- !right_spec. destruct (right_total (lower r) x) as [b E], (right_total (upper r) x) as [b' E']. rewrite E, E'. cbn. destruct b, b'; cbn; intuition congruence.
Qed.
Lemma right_up c x y : right_of c x -> le x y -> right_of c y.
Proof.
  destruct P as [I Tr Sy Et Le Ri]. destruct c as [|a|a|]; cbn; auto.
  - intros [H|H] [G|G]; eauto.
  - intros H [G|G]; eauto.
Qed.
(** Ranges are convex: this holds for every partial order. *)
Theorem C113_convex : forall r c1 c2 c3, le c1 c2 -> le c2 c3 -> in_range r c1 -> in_range r c3 -> in_range r c2.
Proof.
  intros r c1 c2 c3 L1 L2. rewrite !in_spec. intros [A _] [_ B]. split.
  - exact (right_up _ _ _ A L1).
  - intro C. apply B. exact (right_up _ _ _ C L2).
Qed.

(** A value that is comparable with the endpoints is in the range exactly if the documentation says so (range.py:320-332). *)
Theorem C113_documented : forall a b x, comparable a x -> comparable b x ->
  (in_range (MkRange (AboveV a) (BelowV b)) x <-> lt a x = true /\ lt x b = true) /\
  (in_range (MkRange (BelowV a) (AboveV b)) x <-> le a x /\ le x b) /\
  (in_range (MkRange (BelowV a) (BelowV b)) x <-> le a x /\ lt x b = true) /\
  (in_range (MkRange (AboveV a) (AboveV b)) x <-> lt a x = true /\ le x b) /\
  (in_range (MkRange (AboveV a) AboveAll) x <-> lt a x = true) /\
  (in_range (MkRange (BelowV a) AboveAll) x <-> le a x) /\
  (in_range (MkRange BelowAll (BelowV b)) x <-> lt x b = true) /\
  (in_range (MkRange BelowAll (AboveV b)) x <-> le x b) /\
  in_range (MkRange BelowAll AboveAll) x.
Proof.
  intros a b x Ca Cb. rewrite !in_spec. cbn [lower upper right_of].
  assert (N1 : ~ (lt b x = true \/ eq b x = true) <-> lt x b = true).
  { destruct P as [I Tr Sy Et Le Ri]. split.
    - intro H. destruct Cb as [C|[C|C]]; tauto.
    - intros H [G|G].
      + pose proof (I x). pose proof (Tr _ _ _ H G). congruence.
      + pose proof (I x). pose proof (Ri _ _ _ H G). congruence. }
  assert (N2 : ~ lt b x = true <-> (lt x b = true \/ eq x b = true)).
  { destruct P as [I Tr Sy Et Le Ri]. split.
    - intro H. destruct Cb as [C|[C|C]]; auto; tauto.
    - intros [H|H] G.
      + pose proof (I x). pose proof (Tr _ _ _ H G). congruence.
      + pose proof (I x). pose proof (Le _ _ _ H G). congruence. }
  rewrite N1, N2. tauto.
Qed.

(** A value that is comparable with no endpoint (such as NaN among floats) is in exactly the ranges without a lower endpoint. *)
Theorem C113_incomparable : forall r x,
  (forall a, (lower r = BelowV a \/ lower r = AboveV a) \/ (upper r = BelowV a \/ upper r = AboveV a) -> ~ comparable a x) ->
  upper r <> BelowAll -> (in_range r x <-> lower r = BelowAll).
Proof.
  intros [l u] x N U. rewrite in_spec. cbn [lower upper] in *.
  assert (NU : ~ right_of u x).
  { destruct u as [|b|b|]; cbn; auto.
    - intros [H|H]; apply (N b); unfold comparable; auto.
    - intro H. apply (N b); unfold comparable; auto. }
  split.
  - intros [A _]. destruct l as [|a|a|]; cbn in A; [reflexivity| | |tauto]; exfalso.
    + destruct A as [H|H]; apply (N a); unfold comparable; auto.
    + apply (N a); unfold comparable; auto.
  - intros ->. cbn. auto.
Qed.

(** An empty range has no members. *)
Theorem C113_empty : forall r x, pis_empty eq r = true -> ~ in_range r x.
Proof.
  intros [l u] x E. rewrite in_spec. cbn [lower upper]. unfold pis_empty in E. cbn [lower upper] in E. destruct P as [I Tr Sy Et Le Ri].
  intros [A B]. apply B. destruct l as [|a|a|], u as [|b|b|]; cbn in *; try discriminate; auto.
  - destruct A as [A|A]; eauto.
  - eauto.
Qed.

Lemma compare_right c d z : pcompare_to less c d = Ok z -> bounds_comparable c d ->
  (z <= 0 -> forall x, right_of d x -> right_of c x) /\ (0 <= z -> forall x, right_of c x -> right_of d x).
Proof.
  intros E B. destruct P as [I Tr Sy Et Le Ri].
  destruct c as [|a|a|], d as [|b|b|]; cbn in E; try (inversion E; subst z; clear E; split; intro H; try lia; cbn; tauto).
  all: assert (C : comparable a b) by (apply B; auto); unfold by_endpoint in E; cbn in E; destruct (lt a b) eqn:Lab; cbn in E;
    [inversion E; subst z; clear E; split; intro H; try lia; intros x; cbn; intros; repeat match goal with H : _ \/ _ |- _ => destruct H end; eauto|];
    destruct (lt b a) eqn:Lba; cbn in E; inversion E; subst z; clear E; 
    (split; intro H; try lia; intros x; cbn; intros; repeat match goal with H : _ \/ _ |- _ => destruct H end; eauto).
  all: destruct C as [C|[C|C]]; try congruence; eauto.
Qed.

(** When the endpoints can be compared, enclosing is sound. *)
Theorem C113_encloses : forall a b, bounds_comparable (lower a) (lower b) -> bounds_comparable (upper a) (upper b) ->
  pencloses less a b = Ok true -> forall x, in_range b x -> in_range a x.
Proof.
  intros a b Bl Bu E x. rewrite !in_spec. unfold pencloses in E.
  destruct (pcompare_to less (lower a) (lower b)) as [l|] eqn:El; [|discriminate]. cbn in E.
  destruct (Z.leb_spec l 0); [|discriminate].
  destruct (pcompare_to less (upper a) (upper b)) as [u|] eqn:Eu; [|discriminate]. cbn in E.
  destruct (Z.leb_spec 0 u); [|discriminate].
  intros [A B]. split.
  - exact (proj1 (compare_right _ _ _ El Bl) H x A).
  - intro C. exact (B (proj2 (compare_right _ _ _ Eu Bu) H0 x C)).
Qed.

Lemma mk_gives l u r : pmk_range less l u = Ok r -> r = MkRange l u.
Proof. unfold pmk_range. destruct (pcut_le less l u) as [[|]|]; cbn; [|destruct (_ || _); discriminate|discriminate]. destruct (is_above_all l); [discriminate|]. destruct (is_below_all u); [discriminate|]. intro E. inversion E. reflexivity. Qed.

(** ... the intersection has exactly the common members ... *)
Theorem C113_intersection : forall a b r, bounds_comparable (lower a) (lower b) -> bounds_comparable (upper a) (upper b) ->
  pintersection less a b = Ok r -> forall x, in_range r x <-> in_range a x /\ in_range b x.
Proof.
  intros a b r Bl Bu E x. rewrite !in_spec. unfold pintersection in E.
  destruct (pcompare_to less (lower a) (lower b)) as [l|] eqn:El; [|discriminate]. cbn in E.
  destruct (pcompare_to less (upper a) (upper b)) as [u|] eqn:Eu; [|discriminate]. cbn in E.
  destruct (compare_right _ _ _ El Bl) as [L1 L2], (compare_right _ _ _ Eu Bu) as [U1 U2].
  destruct (Z.leb_spec 0 l), (Z.leb_spec u 0), (Z.leb_spec l 0), (Z.leb_spec 0 u); cbn in E; try lia;
    first [inversion E; subst r | apply mk_gives in E; subst r]; cbn [lower upper];
    repeat match goal with H : ?p -> forall x, _ |- _ => first [specialize (H ltac:(lia) x) | clear H] end; tauto.
Qed.

(** ... and the span all members of both. *)
Theorem C113_span : forall a b r, bounds_comparable (lower a) (lower b) -> bounds_comparable (upper a) (upper b) ->
  pspan less a b = Ok r -> forall x, in_range a x \/ in_range b x -> in_range r x.
Proof.
  intros a b r Bl Bu E x. rewrite !in_spec. unfold pspan in E.
  destruct (pcompare_to less (lower a) (lower b)) as [l|] eqn:El; [|discriminate]. cbn in E.
  destruct (pcompare_to less (upper a) (upper b)) as [u|] eqn:Eu; [|discriminate]. cbn in E.
  destruct (compare_right _ _ _ El Bl) as [L1 L2], (compare_right _ _ _ Eu Bu) as [U1 U2].
  destruct (Z.leb_spec 0 l), (Z.leb_spec u 0), (Z.leb_spec l 0), (Z.leb_spec 0 u); cbn in E; try lia;
    first [inversion E; subst r | apply mk_gives in E; subst r]; cbn [lower upper];
    repeat match goal with H : ?p -> forall x, _ |- _ => first [specialize (H ltac:(lia) x) | clear H] end; tauto.
Qed.
End Partial.

(** ** Two partial orders of Python *)
(** frozensets of numbers 0, 1, ...: bit [n] of the code is set if [n] is an element; [<] is "proper subset" *)
Definition fs_lt (a b : N) : bool := (N.land a b =? a)%N && negb (a =? b)%N.
(** floats, those that are integers and NaN: all comparisons with NaN are False *)
Definition nan_lt (a b : option Z) : bool := match a, b with Some x, Some y => x <? y | _, _ => false end.
(** [==] of these floats *)
Definition nan_eq (a b : option Z) : bool := match a, b with Some x, Some y => x =? y | _, _ => false end.

Lemma fs_partial : partial_order fs_lt N.eqb.
Proof.
  assert (S : forall a b, fs_lt a b = true <-> N.land a b = a /\ a <> b).
  { intros. unfold fs_lt. rewrite andb_true_iff, negb_true_iff, N.eqb_eq, N.eqb_neq. reflexivity. }
  split.
  - intro x. destruct (fs_lt x x) eqn:E; [|reflexivity]. apply S in E. tauto.
  - intros x y z A B. apply S in A, B. apply S. destruct A as [A A'], B as [B B']. split.
    + rewrite <- A at 1. rewrite <- N.land_assoc, B. exact A.
    + intros ->. apply A'. rewrite <- A, N.land_comm. rewrite N.land_comm in A. rewrite N.land_comm. congruence.
  - intros x y. rewrite !N.eqb_eq. congruence.
  - intros x y z. rewrite !N.eqb_eq. congruence.
  - intros x y z. rewrite N.eqb_eq. intros ->. auto.
  - intros x y z L. rewrite N.eqb_eq. intros <-. auto.
Qed.
Lemma nan_partial : partial_order nan_lt nan_eq.
Proof.
  split.
  - intros [x|]; cbn; [apply Z.ltb_irrefl|reflexivity].
  - intros [x|] [y|] [z|]; cbn; try discriminate. rewrite !Z.ltb_lt. lia.
  - intros [x|] [y|]; cbn; try discriminate. rewrite !Z.eqb_eq. lia.
  - intros [x|] [y|] [z|]; cbn; try discriminate. rewrite !Z.eqb_eq. lia.
  - intros [x|] [y|] [z|]; cbn; try discriminate. rewrite !Z.ltb_lt, Z.eqb_eq. lia.
  - intros [x|] [y|] [z|]; cbn; try discriminate. rewrite !Z.ltb_lt, Z.eqb_eq. lia.
Qed.

(** Sets meet the requirement of range.py:320 ([<] is consistent with [==]), but the table of the documentation is wrong for them: the set 2 is in [Range.closed(frozenset(), frozenset({1}))] although [frozenset({2}) <= frozenset({1})] is False. *)
Theorem C113_documented_refuted :
  partial_order fs_lt N.eqb /\
  ~ (forall a b x, in_range fs_lt N.eqb (MkRange (BelowV a) (AboveV b)) x <-> (fs_lt a x = true \/ N.eqb a x = true) /\ (fs_lt x b = true \/ N.eqb x b = true)).
Proof. split; [exact fs_partial|]. intro H. destruct (proj1 (H 0%N 2%N 4%N) eq_refl) as [_ [C|C]]; discriminate. Qed.

(** [at_least({1}).encloses(at_least({2}))] and the other way round, but neither has the least member of the other; the intersection of the two is the one whose method is called. *)
Theorem C113_encloses_refuted : exists a b : range N,
  pat_least (fun x y => Ok (fs_lt x y)) 2%N = Ok a /\ pat_least (fun x y => Ok (fs_lt x y)) 4%N = Ok b /\
  pencloses (fun x y => Ok (fs_lt x y)) a b = Ok true /\ pencloses (fun x y => Ok (fs_lt x y)) b a = Ok true /\
  in_range fs_lt N.eqb a 2%N /\ ~ in_range fs_lt N.eqb b 2%N /\ in_range fs_lt N.eqb b 4%N /\ ~ in_range fs_lt N.eqb a 4%N /\
  pintersection (fun x y => Ok (fs_lt x y)) a b = Ok a /\ pintersection (fun x y => Ok (fs_lt x y)) b a = Ok b /\ prange_eq N.eqb a b = false.
Proof. eexists; eexists. split; [reflexivity|]. split; [reflexivity|]. repeat split; try reflexivity; discriminate. Qed.

(** A range can be made from NaN, is not equal to itself, and NaN is in [Range.at_most(2.0)] but not in [Range.at_least(2.0)]. *)
Theorem C113_nan_refuted :
  partial_order nan_lt nan_eq /\
  (exists r, pclosed (fun x y => Ok (nan_lt x y)) None (Some 2) = Ok r /\ prange_eq nan_eq r r = false) /\
  popen (fun x y => Ok (nan_lt x y)) None (Some 2) = Raise ValueError /\
  in_range nan_lt nan_eq (MkRange BelowAll (AboveV (Some 2))) None /\
  ~ in_range nan_lt nan_eq (MkRange (BelowV (Some 2)) AboveAll) None.
Proof. split; [exact nan_partial|]. split; [eexists; split; reflexivity|]. repeat split; try reflexivity. discriminate. Qed.

(** ints and strings: comparing one with the other raises TypeError *)
Definition mixed_lt (a b : Z + Z) : res bool :=
  match a, b with inl x, inl y | inr x, inr y => Ok (x <? y) | _, _ => Raise TypeError end.
(** [==] of ints and strings *)
Definition mixed_eq (a b : Z + Z) : bool := match a, b with inl x, inl y | inr x, inr y => x =? y | _, _ => false end.

Example C113_witness :
  (* ordinary members of a range of sets, with comparable endpoints *)
  (comparable fs_lt N.eqb 2%N 6%N /\ comparable fs_lt N.eqb 14%N 6%N /\ in_range fs_lt N.eqb (MkRange (BelowV 2%N) (AboveV 14%N)) 6%N) /\
  (bounds_comparable fs_lt N.eqb (BelowV 2%N) (AboveV 6%N) /\
   pintersection (fun x y => Ok (fs_lt x y)) (MkRange (BelowV 2%N) (AboveV 14%N)) (MkRange (BelowV 6%N) (AboveV 30%N)) = Ok (MkRange (BelowV 6%N) (AboveV 14%N)) /\
   pspan (fun x y => Ok (fs_lt x y)) (MkRange (BelowV 2%N) (AboveV 14%N)) (MkRange (BelowV 6%N) (AboveV 30%N)) = Ok (MkRange (BelowV 2%N) (AboveV 30%N)) /\
   pencloses (fun x y => Ok (fs_lt x y)) (MkRange (BelowV 2%N) (AboveV 30%N)) (MkRange (BelowV 6%N) (AboveV 14%N)) = Ok true) /\
  (pis_empty N.eqb (MkRange (BelowV 2%N) (BelowV 2%N)) = true /\ pintersects (fun x y => Ok (fs_lt x y)) (MkRange (BelowV 2%N) (AboveV 14%N)) (MkRange (BelowV 6%N) (AboveV 30%N)) = Ok true /\
   (forall x, ~ comparable nan_lt nan_eq x None)) /\
  (* exceptions *)
  pclosed mixed_lt (inl 1) (inr 2) = Raise TypeError /\
  pcontains mixed_lt mixed_eq (MkRange (BelowV (inl 1)) AboveAll) (inr 2) = Raise TypeError /\
  pcontains mixed_lt mixed_eq (MkRange (BelowV (inl 5)) (AboveV (inr 7))) (inl 2) = Ok false /\
  pcontains mixed_lt mixed_eq (MkRange BelowAll AboveAll) (inr 2) = Ok true /\
  pclosed mixed_lt (inl 2) (inl 1) = Raise ValueError.
Proof.
  split; [repeat split; try reflexivity; unfold comparable; cbn; tauto|].
  split; [|split; [repeat split; try reflexivity; intros [x|] [H|[H|H]]; discriminate|repeat split; reflexivity]].
  repeat split; try reflexivity.
  intros x y [H|H] [G|G]; inversion H; inversion G; subst; unfold comparable; cbn; tauto.
Qed.
