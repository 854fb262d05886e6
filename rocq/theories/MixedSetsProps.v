(** * C115: range sets over values of several types *)
From Coq Require Import Sorted.
From Verif Require Import Prelude Order Range RangeFacts RangeProofs1 RangeProofs SortedDict RangeSet RangeSetOps RangeSetProofs RangeSetProofs2 RangeSetProps RangePartial MixedSets.
Local Open Scope nat_scope.

Section MixedSets.
Context {T : Type} {O : TotalOrder T}.
Notation rng := (range T).
(** ** Specification *)
(** Values of several types: values of one type are totally ordered, comparing values of different types raises TypeError. *)
Variable cls : T -> nat.
Definition typed_lt (a b : T) : res bool := if cls a =? cls b then Ok (ltb a b) else Raise TypeError.
Notation plt := typed_lt.
(** the endpoints of a range *)
Definition has_endpoint (r : rng) (x : T) : Prop := In (lower r) [BelowV x; AboveV x] \/ In (upper r) [BelowV x; AboveV x].
(** a range which one of the nine factories has made *)
Definition made (r : rng) : Prop :=
  pall plt = Ok r \/ exists a b, In (Ok r) [popen plt a b; pclosed plt a b; pclosed_open plt a b; popen_closed plt a b; pless_than plt b; pat_most plt b; pgreater_than plt a; pat_least plt a].
Definition made_op (o : op T) : Prop := Forall made (op_ranges o).
(** Some endpoint of [r] has another type than some endpoint in the set. *)
Definition clashes (s : list rng) (r : rng) : Prop := exists m x y, In m s /\ has_endpoint m x /\ has_endpoint r y /\ cls x <> cls y.
(** All endpoints in the set are of one type. *)
Definition one_type (s : list rng) : Prop := forall m m' x y, In m s -> In m' s -> has_endpoint m x -> has_endpoint m' y -> cls x = cls y.
(** What a call does to the set [d] (and gives): as the set with totally ordered values, up to the first range that clashes. *)
Definition right_call (d : rset T) (o : op T) (out : rset T * res unit) : Prop :=
  match o with
  | Add r => (is_empty r = true \/ ~ clashes (as_ranges d) r) /\ (exists d', add d r = Ok d' /\ out = (d', Ok tt)) \/
             is_empty r = false /\ clashes (as_ranges d) r /\ out = (d, Raise TypeError)
  | AddAll rs => (exists d', add_all d rs = Ok d' /\ out = (d', Ok tt)) \/
             exists a r b d', rs = a ++ r :: b /\ add_all d a = Ok d' /\ is_empty r = false /\ clashes (as_ranges d') r /\ out = (d', Raise TypeError)
  | Clear => out = ([], Ok tt)
  | Remove _ | RemoveAll (_ :: _) => out = (d, Raise NotImplementedError)
  | RemoveAll [] => out = (d, Ok tt)
  end.
(** What is left of a call: a refused add is dropped, add_all is cut off. *)
Definition kept_call (o o' : op T) : Prop :=
  match o with
  | Add r => o' = Add r \/ o' = AddAll []
  | AddAll rs => exists a b, rs = a ++ b /\ o' = AddAll a
  | _ => o' = o
  end.

(** ** Proofs *)
Definition endp (k : cut T) : option T := match k with BelowV x | AboveV x => Some x | _ => None end.
Definition cutc (c : nat) (k : cut T) : Prop := forall x, endp k = Some x -> cls x = c.
Definition uni (c : nat) (r : rng) : Prop := cutc c (lower r) /\ cutc c (upper r).
Lemma endp_in k x : endp k = Some x <-> In k [BelowV x; AboveV x].
Proof. destruct k; cbn; split; try discriminate; try (intros [E|[E|[]]]; congruence); intros E; inversion E; auto. Qed.
Lemma uni_spec c r : uni c r <-> forall x, has_endpoint r x -> cls x = c.
Proof.
  unfold uni, cutc, has_endpoint. split.
  - intros [A B] x [H|H]; apply endp_in in H; auto.
  - intros H. split; intros x E; apply H; apply endp_in in E; auto.
Qed.
Lemma cmp_ok c a b : cutc c a -> cutc c b -> pcompare_to plt a b = Ok (compare_to a b).
Proof.
  intros A B. destruct a as [|x|x|], b as [|y|y|]; try reflexivity; cbn; unfold by_endpoint, typed_lt; rewrite (A x eq_refl), (B y eq_refl), Nat.eqb_refl; cbn; destruct (ltb x y); try reflexivity; destruct (ltb y x); reflexivity.
Qed.
Lemma cmp_bad a b x y : endp a = Some x -> endp b = Some y -> cls x <> cls y -> pcompare_to plt a b = Raise TypeError.
Proof.
  intros A B N. apply Nat.eqb_neq in N. destruct a as [|x'|x'|], b as [|y'|y'|]; try discriminate; inversion A; inversion B; subst; cbn; unfold by_endpoint, typed_lt; rewrite N; reflexivity.
Qed.
Lemma plt_ok c a b : cutc c a -> cutc c b -> pcut_lt plt a b = Ok (cut_lt a b).
Proof. intros A B. unfold pcut_lt, cut_lt. now rewrite (cmp_ok c) by assumption. Qed.
Lemma ple_ok c a b : cutc c a -> cutc c b -> pcut_le plt a b = Ok (cut_le a b).
Proof. intros A B. unfold pcut_le, cut_le. now rewrite (cmp_ok c) by assumption. Qed.
Lemma peq_ok a b : pcut_eq eqb a b = cut_eq a b.
Proof. destruct a as [|x|x|], b as [|y|y|]; reflexivity. Qed.
Lemma pempty_ok r : pis_empty eqb r = is_empty r.
Proof. apply peq_ok. Qed.
Lemma pmk_ok c l u : cutc c l -> cutc c u -> pmk_range plt l u = mk_range l u.
Proof. intros A B. unfold pmk_range, mk_range. now rewrite (ple_ok c) by assumption. Qed.

Lemma made_spec r : made r <-> factory_made r /\ exists c, uni c r.
Proof.
  assert (K : forall l u, pmk_range plt l u = Ok r -> valid r /\ r = MkRange l u /\ exists c, uni c r).
  { intros l u E. unfold pmk_range in E. destruct (pcut_le plt l u) as [b|e] eqn:L; [|discriminate]. assert (C : exists c, cutc c l /\ cutc c u).
    { unfold pcut_le in L. destruct (pcompare_to plt l u) as [z|e] eqn:P; [|discriminate]. destruct (endp l) as [x|] eqn:El.
      - exists (cls x). split; [intros x' E'; congruence|]. intros y Ey. destruct (Nat.eq_dec (cls y) (cls x)) as [Q|Q]; [exact Q|]. rewrite (cmp_bad l u x y) in P; [discriminate|assumption|assumption|congruence].
      - destruct (endp u) as [y|] eqn:Eu; [exists (cls y)|exists 0]; split; intros z' E'; congruence. }
    destruct C as (c & Cl & Cu). fold (pmk_range plt l u) in E. assert (E2 : mk_range l u = Ok r).
    { rewrite <- (pmk_ok c l u Cl Cu). unfold pmk_range. rewrite L. exact E. }
    assert (R : r = MkRange l u). { unfold mk_range in E2. destruct (cut_le l u), (is_above_all l), (is_below_all u); cbn in E2; congruence. }
    subst r. split; [exact E2|]. split; [reflexivity|]. exists c. now split. }
  split.
  - intros [E|(a & b & H)]; [destruct (K _ _ E) as (V & _ & U); split; [now apply valid_factory|exact U]|].
    repeat (destruct H as [H|H]; [destruct (K _ _ H) as (V & _ & U); split; [now apply valid_factory|exact U]|]). destruct H.
  - intros (F & c & [L U]). apply valid_factory in F. assert (E : pmk_range plt (lower r) (upper r) = Ok r) by (rewrite (pmk_ok c) by assumption; exact F). clear K.
    destruct r as [[|x|x|] [|y|y|]]; cbn [lower upper] in *; try (exfalso; vm_compute in F; discriminate F); [right; exists y, y|right; exists y, y|left; exact E|right; exists x, y|right; exists x, y|right; exists x, x|right; exists x, y|right; exists x, y|right; exists x, x];
      cbn [In]; unfold popen, pclosed, pclosed_open, popen_closed, pless_than, pat_most, pgreater_than, pat_least; tauto.
Qed.

(** *** Values of one type: as in RangeSet.v *)
Section Same.
Variable c : nat.
Notation keysc d := (Forall (cutc c) (sd_keys d)).
Lemma bl_ok (d : rset T) k : keysc d -> cutc c k -> pbisect_left plt (sd_keys d) k = Ok (bisect_left d k).
Proof.
  intros F K. induction d as [|[k' v] d IH]; [reflexivity|]. inversion F as [|? ? F1 F2]; subst. cbn [sd_keys map fst pbisect_left bisect_left]. rewrite (plt_ok c) by assumption. cbn [bind].
  destruct (cut_lt k' k); [|reflexivity]. unfold sd_keys in IH. rewrite (IH F2). reflexivity.
Qed.
Lemma br_ok (d : rset T) k : keysc d -> cutc c k -> pbisect_right plt (sd_keys d) k = Ok (bisect_right d k).
Proof.
  intros F K. induction d as [|[k' v] d IH]; [reflexivity|]. inversion F as [|? ? F1 F2]; subst. cbn [sd_keys map fst pbisect_right bisect_right]. rewrite (plt_ok c) by assumption. cbn [bind].
  destruct (cut_lt k k'); [reflexivity|]. unfold sd_keys in IH. rewrite (IH F2). reflexivity.
Qed.
Lemma get_ok (d : rset T) k : psd_get eqb d k = sd_get d k.
Proof. induction d as [|[k' v] d IH]; [reflexivity|]. cbn [psd_get sd_get]. rewrite peq_ok. destruct (cut_eq k' k); [reflexivity|exact IH]. Qed.
Lemma index_ok (d : rset T) k : keysc d -> cutc c k -> psd_index plt eqb d k = sd_index d k.
Proof. intros F K. unfold psd_index, sd_index. rewrite bl_ok by assumption. cbn [bind]. destruct (nth_error _ _); [|reflexivity]. now rewrite peq_ok. Qed.
Lemma without_ok (d : rset T) k : without eqb d k = sd_del d k.
Proof. induction d as [|[k' v] d IH]; [reflexivity|]. cbn [without sd_del]. rewrite peq_ok. destruct (cut_eq k' k); [reflexivity|]. now rewrite IH. Qed.
Lemma del_keys (d d' : rset T) k : sd_del d k = Ok d' -> keysc d -> keysc d'.
Proof.
  revert d'. induction d as [|[k' v] d IH]; intros d' E F; [discriminate|]. inversion F as [|? ? F1 F2]; subst. cbn [sd_del] in E. destruct (cut_eq k' k); [inversion E; subst; exact F2|].
  destruct (sd_del d k) as [r'|e]; [|discriminate]. cbn in E. inversion E; subst. cbn. constructor; [exact F1|]. exact (IH r' eq_refl F2).
Qed.
Lemma del_ok (d d' : rset T) k : keysc d -> cutc c k -> sd_del d k = Ok d' -> psd_del plt eqb d k = (d', Ok tt).
Proof. intros F K E. unfold psd_del. rewrite without_ok, E, bl_ok by assumption. reflexivity. Qed.
Lemma dels_ok ks : forall (d d' : rset T), keysc d -> Forall (cutc c) ks -> foldM sd_del ks d = Ok d' -> del_each plt eqb ks d = (d', Ok tt) /\ keysc d'.
Proof.
  induction ks as [|k ks IH]; intros d d' F K E.
  - cbn in E |- *. inversion E; subst. auto.
  - inversion K as [|? ? K1 K2]; subst. cbn [foldM] in E. destruct (sd_del d k) as [d1|e] eqn:D; [|discriminate]. cbn [bind] in E. cbn [del_each]. rewrite (del_ok d d1 k F K1 D). apply IH; [exact (del_keys _ _ _ D F)|exact K2|exact E].
Qed.
Lemma between_ok (ks : list (cut T)) a b : Forall (cutc c) ks -> cutc c a -> cutc c b -> pbetween plt ks a b = Ok (filter (fun k => cut_le a k && cut_lt k b) ks).
Proof.
  intros F A B. induction ks as [|k ks IH]; [reflexivity|]. inversion F as [|? ? F1 F2]; subst. cbn [pbetween filter]. rewrite (ple_ok c) by assumption. cbn [bind].
  destruct (cut_le a k); cbn [andb]; [rewrite (plt_ok c) by assumption|]; cbn [bind]; rewrite (IH F2); cbn [bind]; [destruct (cut_lt k b)|]; reflexivity.
Qed.
Lemma clear_ok (d d' : rset T) a b : keysc d -> cutc c a -> cutc c b -> clear_keys d a b = Ok d' -> pclear_keys plt eqb d a b = (d', Ok tt) /\ keysc d'.
Proof.
  intros F A B E. unfold pclear_keys. rewrite (between_ok _ _ _ F A B). apply dels_ok; [exact F| |exact E]. apply Forall_forall. intros k J. apply filter_In in J. rewrite Forall_forall in F. now apply F.
Qed.
Lemma replace_none (d : rset T) k v : (forall k', In k' (sd_keys d) -> cut_eq k' k = false) -> replace_value eqb d k v = None.
Proof.
  induction d as [|[k' v'] d IH]; intros N; [reflexivity|]. cbn [replace_value]. rewrite peq_ok, (N k') by now left. rewrite IH; [reflexivity|]. intros k2 J. apply N. now right.
Qed.
Lemma set_ok (d : rset T) k v : keysc d -> cutc c k -> StronglySorted (fun a b => cltb a b = true) (sd_keys d) -> psd_set plt eqb d k v = (sd_set d k v, Ok tt).
Proof.
  intros F K SS. unfold psd_set. rewrite (br_ok d k F K). destruct (replace_value eqb d k v) as [d'|] eqn:R.
  - f_equal. revert d' R SS. clear F. induction d as [|[k' v'] d IH]; intros d' R SS; [discriminate|]. cbn [replace_value] in R. cbn [sd_set]. rewrite peq_ok in R. inversion SS as [|? ? SS' HF]; subst. destruct (cut_eq k' k) eqn:E; [congruence|].
    destruct (replace_value eqb d k v) as [r'|] eqn:R'; [|discriminate]. inversion R; subst. destruct (cut_lt k k') eqn:L.
    + exfalso. assert (X : exists k2, In k2 (sd_keys d) /\ cut_eq k2 k = true).
      { clear -R'. revert r' R'. induction d as [|[k2 v2] d IH]; intros r' R'; [discriminate|]. cbn [replace_value] in R'. rewrite peq_ok in R'. destruct (cut_eq k2 k) eqn:E; [exists k2; split; [now left|exact E]|].
        destruct (replace_value eqb d k v) as [r2|]; [|discriminate]. destruct (IH r2 eq_refl) as (k3 & J & E3). exists k3. split; [now right|exact E3]. }
      destruct X as (k2 & J & E2). apply cut_eq_spec in E2. subst k2. rewrite Forall_forall in HF. specialize (HF k J). change (cltb k k' = true) in L. cord.
    + f_equal. exact (IH r' eq_refl SS').
  - f_equal. revert R SS. clear F. induction d as [|[k' v'] d IH]; intros R SS; [reflexivity|]. cbn [replace_value] in R. rewrite peq_ok in R. cbn [sd_set bisect_right]. inversion SS as [|? ? SS' HF]; subst. destruct (cut_eq k' k) eqn:E; [discriminate|].
    destruct (replace_value eqb d k v) as [r'|] eqn:R'; [discriminate|]. destruct (cut_lt k k'); [reflexivity|]. cbn [firstn skipn app]. f_equal. exact (IH eq_refl SS').
Qed.
Lemma below_ok (d : rset T) k : keysc d -> cutc c k -> pvalue_below plt eqb d k = value_below d k.
Proof.
  intros F K. unfold pvalue_below, value_below. rewrite bl_ok by assumption. cbn [bind]. destruct (bisect_left d k) as [|i]; [reflexivity|]. cbv zeta. destruct (getitem _ _) as [k'|]; [|reflexivity]. cbn [bind]. now rewrite get_ok.
Qed.
Lemma at_or_below_ok (d : rset T) k : keysc d -> cutc c k -> pvalue_at_or_below plt eqb d k = value_at_or_below d k.
Proof.
  intros F K. unfold pvalue_at_or_below, value_at_or_below. destruct d as [|x d]; [reflexivity|]. rewrite bl_ok by assumption. cbn [bind]. cbv zeta.
  assert (E : match nth_error (sd_keys (x :: d)) (bisect_left (x :: d) k) with Some k' => negb (pcut_eq eqb k k') | None => true end = match nth_error (sd_keys (x :: d)) (bisect_left (x :: d) k) with Some k' => negb (cut_eq k k') | None => true end) by (destruct (nth_error _ _); [now rewrite peq_ok|reflexivity]).
  rewrite E. clear E. destruct (match nth_error _ _ with Some _ => _ | None => _ end).
  - destruct (bisect_left (x :: d) k) as [|i]; [reflexivity|]. destruct (getitem _ _) as [k'|]; [|reflexivity]. cbn [bind]. now rewrite get_ok.
  - now rewrite get_ok.
Qed.
Lemma at_or_above_ok (d : rset T) k : keysc d -> cutc c k -> pvalue_at_or_above plt eqb d k = value_at_or_above d k.
Proof.
  intros F K. unfold pvalue_at_or_above, value_at_or_above. destruct d as [|x d]; [reflexivity|]. rewrite bl_ok by assumption. cbn [bind]. cbv zeta.
  destruct (_ <=? _); [reflexivity|]. destruct (getitem _ _) as [k'|]; [|reflexivity]. cbn [bind]. now rewrite get_ok.
Qed.

(** the predicates of Range on ranges of one type *)
Lemma pencloses_ok a b : uni c a -> uni c b -> pencloses plt a b = Ok (encloses a b).
Proof. intros [A1 A2] [B1 B2]. unfold pencloses, encloses. rewrite !(cmp_ok c) by assumption. cbn [bind]. destruct (_ <=? 0)%Z; reflexivity. Qed.
Lemma pconnected_ok a b : uni c a -> uni c b -> pis_connected plt a b = Ok (is_connected a b).
Proof. intros [A1 A2] [B1 B2]. unfold pis_connected, is_connected. rewrite !(ple_ok c) by assumption. cbn [bind]. destruct (cut_le (lower a) (upper b)); reflexivity. Qed.
Lemma pintersection_ok a b : uni c a -> uni c b -> pintersection plt a b = intersection a b.
Proof.
  intros [A1 A2] [B1 B2]. unfold pintersection, intersection. rewrite !(cmp_ok c) by assumption. cbn [bind]. cbv zeta. destruct (_ && _); [reflexivity|]. destruct (_ && _); [reflexivity|]. apply (pmk_ok c); destruct (_ <=? _)%Z; assumption.
Qed.
Lemma pintersects_ok a b : uni c a -> uni c b -> pintersects plt a b = Ok (intersects a b).
Proof.
  intros [A1 A2] [B1 B2]. unfold pintersects, intersects. rewrite !(cmp_ok c) by assumption. cbn [bind]. cbv zeta. destruct (_ && _); [reflexivity|]. destruct (_ && _); [reflexivity|]. apply (ple_ok c); destruct (_ <=? _)%Z; assumption.
Qed.
Lemma pcontains_ok r x : uni c r -> cls x = c -> pcontains plt eqb r x = Ok (contains r x).
Proof.
  intros [A B] X. unfold pcontains, contains. assert (L : forall k, cutc c k -> pis_less_than plt eqb k x = Ok (is_less_than k x)).
  { intros [|a|a|] K; try reflexivity; cbn; unfold typed_lt; rewrite X, (K a eq_refl), Nat.eqb_refl; cbn; [destruct (ltb a x); reflexivity|reflexivity]. }
  rewrite (L _ A). cbn [bind]. destruct (is_less_than (lower r) x); [|reflexivity]. rewrite (L _ B). reflexivity.
Qed.
Lemma pnonempty_ok a b : uni c a -> uni c b -> pconnected_nonempty plt eqb a b = connected_nonempty a b.
Proof.
  intros A B. unfold pconnected_nonempty, connected_nonempty. rewrite pconnected_ok by assumption. cbn [bind]. destruct (is_connected a b); [|reflexivity]. rewrite pintersection_ok by assumption. destruct (intersection a b); [|reflexivity]. cbn [bind]. now rewrite pempty_ok.
Qed.
Lemma get_in (d : rset T) k v : sd_get d k = Ok v -> In v (sd_values d).
Proof. induction d as [|[k' v'] d IH]; cbn; [discriminate|]. destruct (cut_eq k' k); [intros E; left; congruence|]. intros E. right. now apply IH. Qed.
Lemma aob_in (d : rset T) k v : value_at_or_below d k = Ok (Some v) -> In v (sd_values d).
Proof.
  unfold value_at_or_below. destruct d as [|x d]; [discriminate|]. cbv zeta. destruct (match nth_error _ _ with Some _ => _ | None => _ end).
  - destruct (bisect_left (x :: d) k) as [|i]; [discriminate|]. destruct (getitem _ _) as [k'|]; [|discriminate]. cbn [bind]. destruct (sd_get (x :: d) k') as [w|] eqn:G; [|discriminate]. cbn [bind]. intros E. inversion E; subst. now apply get_in in G.
  - destruct (sd_get (x :: d) k) as [w|] eqn:G; [|discriminate]. cbn [bind]. intros E. inversion E; subst. now apply get_in in G.
Qed.
Lemma aoa_in (d : rset T) k v : value_at_or_above d k = Ok (Some v) -> In v (sd_values d).
Proof.
  unfold value_at_or_above. destruct d as [|x d]; [discriminate|]. cbv zeta. destruct (_ <=? _); [discriminate|]. destruct (getitem _ _) as [k'|]; [|discriminate]. cbn [bind]. destruct (sd_get (x :: d) k') as [w|] eqn:G; [|discriminate]. cbn [bind]. intros E. inversion E; subst. now apply get_in in G.
Qed.
Lemma below_in (d : rset T) k v : value_below d k = Ok (Some v) -> In v (sd_values d).
Proof.
  unfold value_below. destruct (bisect_left d k) as [|i]; [discriminate|]. cbv zeta. destruct (getitem _ _) as [k'|]; [|discriminate]. cbn [bind]. destruct (sd_get d k') as [w|] eqn:G; [|discriminate]. cbn [bind]. intros E. inversion E; subst. now apply get_in in G.
Qed.
Lemma pat_index_ok (d : rset T) i : pat_index eqb d i = at_index d i.
Proof. unfold pat_index, at_index. destruct (getitem _ _); [|reflexivity]. cbn [bind]. apply get_ok. Qed.
Lemma at_index_in (d : rset T) i v : at_index d i = Ok v -> In v (sd_values d).
Proof. unfold at_index. destruct (getitem _ _); [|discriminate]. cbn [bind]. apply get_in. Qed.
Lemma dedupe_ok l : forall seen, pdedupe eqb seen l = dedupe seen l.
Proof.
  assert (E : forall a b : rng, prange_eq eqb a b = range_eq a b) by (intros; unfold prange_eq, range_eq; now rewrite !peq_ok).
  assert (X : forall (a : rng) l, existsb (prange_eq eqb a) l = existsb (range_eq a) l) by (intros a l'; induction l' as [|y l' IH]; [reflexivity|]; cbn; now rewrite E, IH).
  induction l as [|r l IH]; intros seen; [reflexivity|]. cbn. rewrite X. destruct (existsb _ _); [apply IH|]. f_equal. apply IH.
Qed.

Section SameSet.
Variable rs : list rng.
Hypothesis W : WF rs.
Hypothesis U : Forall (uni c) rs.
Notation d := (map kv rs).
Lemma keys_uni : Forall (cutc c) (sd_keys d).
Proof using U. rewrite keys_kv. apply Forall_forall. intros k J. apply in_map_iff in J. destruct J as (r & <- & J). rewrite Forall_forall in U. now apply U. Qed.
Lemma in_uni v : In v (sd_values d) -> uni c v.
Proof using U. rewrite values_kv. rewrite Forall_forall in U. apply U. Qed.
Lemma sorted_keys l : WF l -> StronglySorted (fun a b => cltb a b = true) (sd_keys (map kv l)).
Proof.
  clear. rewrite keys_kv. intros [F S]. induction S as [|r l S IH HF]; [constructor|]. inversion F as [|? ? G F']; subst. cbn. constructor; [now apply IH|]. apply Forall_forall. intros k J. apply in_map_iff in J. destruct J as (q & <- & J).
  rewrite Forall_forall in HF. specialize (HF q J). unfold before in HF. apply good_lt in G. cord.
Qed.
(** adding *)
Lemma padd_ok r : valid r -> uni c r -> exists rs', add d r = Ok (map kv rs') /\ WF rs' /\ Forall (uni c) rs' /\ padd plt eqb d r = (map kv rs', Ok tt).
Proof using W U.
  intros V Ur. destruct (add_spec rs r W V) as (rs' & A & W' & R). exists rs'. split; [exact A|]. split; [exact W'|]. split.
  - unfold add_result in R. destruct (is_empty r) eqn:E; [subst rs'; exact U|]. assert (G : good r) by (apply good_nonempty; auto). destruct (add_core rs r W G) as (h & H1 & _ & Hl & Hu & _ & _).
    destruct R as (h' & H1' & ->). assert (h' = h) by congruence. subst h'. apply Forall_app. rewrite Forall_forall in U. split; [|constructor]; [apply Forall_forall; intros q J; apply filter_In in J; now apply U| |apply Forall_forall; intros q J; apply filter_In in J; now apply U].
    split; [destruct Hl as [->|(e & J & _ & ->)]|destruct Hu as [->|(e & J & _ & ->)]]; try apply Ur; now apply U.
  - unfold padd. rewrite pempty_ok. unfold add in A. destruct (is_empty r) eqn:E; [inversion A; reflexivity|]. unfold bounds_to_add. assert (Ku := keys_uni). destruct Ur as [Rl Ru]. rewrite (below_ok _ _ Ku Rl). destruct (value_below d (lower r)) as [bl|] eqn:B; [|discriminate]. cbn [bind] in A |- *.
    assert (Ub : forall b, bl = Some b -> uni c b). { intros b ->. apply in_uni. now apply below_in in B. }
    set (hit := match bl with Some b => if cut_le (lower r) (upper b) then Some b else None | None => None end) in A.
    assert (H1 : (match bl with Some b => let* x := pcut_le plt (lower r) (upper b) in Ok (if (x : bool) then Some b else None) | None => Ok None end) = Ok hit).
    { destruct bl as [b|]; [|reflexivity]. rewrite (ple_ok c _ _ Rl (proj2 (Ub b eq_refl))). reflexivity. }
    rewrite H1. cbn [bind]. assert (Uh : forall b, hit = Some b -> uni c b). { unfold hit. destruct bl as [b|]; [|discriminate]. destruct (cut_le (lower r) (upper b)); [|discriminate]. exact Ub. }
    clearbody hit. clear H1 B Ub bl.
    assert (H2 : (match hit with Some b => pcut_lt plt (upper r) (upper b) | None => Ok false end) = Ok (match hit with Some b => cut_lt (upper r) (upper b) | None => false end)).
    { destruct hit as [b|]; [|reflexivity]. now rewrite (plt_ok c _ _ Ru (proj2 (Uh b eq_refl))). }
    rewrite H2. cbn [bind]. clear H2. destruct (match hit with Some b => cut_lt (upper r) (upper b) | None => false end); [inversion A; reflexivity|].
    rewrite (at_or_below_ok _ _ Ku Ru). destruct (value_at_or_below d (upper r)) as [bu|] eqn:B; [|discriminate]. cbn [bind] in A |- *.
    assert (Ub : forall b, bu = Some b -> uni c b). { intros b ->. apply in_uni. now apply aob_in in B. }
    assert (H3 : (match bu with Some b => let* x := pcut_lt plt (upper r) (upper b) in Ok (if (x : bool) then Some b else None) | None => Ok None end) = Ok (match bu with Some b => if cut_lt (upper r) (upper b) then Some b else None | None => None end)).
    { destruct bu as [b|]; [|reflexivity]. rewrite (plt_ok c _ _ Ru (proj2 (Ub b eq_refl))). reflexivity. }
    rewrite H3. cbn [bind]. clear H3.
    set (lb := match hit with Some b => lower b | None => lower r end) in *. set (ub := match bu with Some b => if cut_lt (upper r) (upper b) then upper b else upper r | None => upper r end) in A.
    assert (Eub : match (match bu with Some b => if cut_lt (upper r) (upper b) then Some b else None | None => None end) with Some b => upper b | None => upper r end = ub). { unfold ub. destruct bu as [b|]; [|reflexivity]. destruct (cut_lt (upper r) (upper b)); reflexivity. }
    rewrite Eub. clear Eub. assert (Cl : cutc c lb) by (unfold lb; destruct hit as [b|]; [now apply Uh|exact Rl]). assert (Cu : cutc c ub) by (unfold ub; destruct bu as [b|]; [destruct (cut_lt (upper r) (upper b)); [now apply Ub|exact Ru]|exact Ru]).
    clearbody lb ub. destruct (clear_keys d lb ub) as [d'|] eqn:C; [|discriminate]. cbn [bind] in A. destruct (clear_ok _ _ _ _ Ku Cl Cu C) as (-> & Kd').
    rewrite (pmk_ok c) by assumption. destruct (mk_range lb ub) as [h|] eqn:M; [|discriminate]. cbn [bind] in A.
    assert (Eh : lower h = lb). { unfold mk_range in M. destruct (cut_le lb ub), (is_above_all lb), (is_below_all ub); cbn in M; try discriminate; inversion M; reflexivity. }
    unfold replace_range in A. unfold preplace_range. rewrite pempty_ok. rewrite Eh in *. destruct (is_empty h).
    + exact (del_ok _ _ _ Kd' Cl A).
    + inversion A as [A']. apply (set_ok _ _ _ Kd' Cl). unfold clear_keys, sd_irange in C. rewrite keys_kv, (clear_kv rs _ W) in C. inversion C as [C']. apply sorted_keys. now apply wf_filter.
Qed.
(** asking *)
Lemma same_containing x : cls x = c -> prange_containing plt eqb d x = range_containing d x /\ pset_contains plt eqb d x = rs_contains d x /\ prightmost plt eqb d x = rightmost_containing_or_below d x /\ pleftmost plt eqb d x = leftmost_containing_or_above d x.
Proof using W U.
  intros X. assert (K1 : cutc c (BelowV x)) by (intros y E; inversion E; subst; reflexivity). assert (K2 : cutc c (AboveV x)) by (intros y E; inversion E; subst; reflexivity). assert (Ku := keys_uni).
  unfold prange_containing, pset_contains, prightmost, pleftmost, range_containing, rs_contains, rightmost_containing_or_below, leftmost_containing_or_above. rewrite (at_or_below_ok _ _ Ku K1), (bl_ok _ _ Ku K2). cbv zeta. cbn [bind]. split; [|split; [|split; [reflexivity|]]].
  - destruct (value_at_or_below d (BelowV x)) as [[r|]|] eqn:B; try reflexivity. cbn [bind]. rewrite pcontains_ok; [cbn [bind]; destruct (contains r x); reflexivity|apply in_uni; now apply aob_in in B|exact X].
  - destruct (value_at_or_below d (BelowV x)) as [[r|]|] eqn:B; try reflexivity. cbn [bind]. apply pcontains_ok; [apply in_uni; now apply aob_in in B|exact X].
  - assert (H : match bisect_left d (AboveV x) with 0 => Ok None | S i => let* latest := pat_index eqb d i in let* c0 := pcut_le plt (AboveV x) (upper latest) in Ok (if (c0 : bool) then Some latest else None) end
      = match bisect_left d (AboveV x) with 0 => Ok None | S i => let* latest := at_index d i in Ok (if cut_le (AboveV x) (upper latest) then Some latest else None) end).
    { destruct (bisect_left d (AboveV x)) as [|i]; [reflexivity|]. rewrite pat_index_ok. destruct (at_index d i) as [m|] eqn:E; [|reflexivity]. cbn [bind]. rewrite (ple_ok c); [reflexivity|exact K2|]. apply in_uni. now apply at_index_in in E. }
    rewrite H. clear H. destruct (match bisect_left d (AboveV x) with 0 => _ | S _ => _ end) as [[m|]|]; try reflexivity. cbn [bind]. destruct (_ <? _); [|reflexivity]. now rewrite pat_index_ok.
Qed.
Lemma take_ok q l : uni c q -> Forall (uni c) l -> ptake_enclosed plt q l = Ok (take_enclosed q l).
Proof. clear W U. intros Q F. induction l as [|r l IH]; [reflexivity|]. inversion F as [|? ? F1 F2]; subst. cbn [ptake_enclosed take_enclosed]. rewrite pencloses_ok by assumption. cbn [bind]. destruct (encloses q r); [|reflexivity]. now rewrite (IH F2). Qed.
Lemma overlapping_at_ok q is : uni c q -> poverlapping_at plt eqb d q is = let* l := mapM (at_index d) is in Ok (filter (fun r => intersects r q) l).
Proof using U.
  intros Q. induction is as [|i is IH]; [reflexivity|]. cbn [poverlapping_at mapM]. rewrite pat_index_ok. destruct (at_index d i) as [m|] eqn:E; [|reflexivity]. cbn [bind]. rewrite pintersects_ok; [|apply in_uni; now apply at_index_in in E|exact Q]. cbn [bind]. rewrite IH.
  destruct (mapM (at_index d) is) as [l|]; [|reflexivity]. cbn [bind filter]. destruct (intersects m q); reflexivity.
Qed.
Lemma same_ranges q : uni c q -> prange_enclosing_range plt eqb d q = range_enclosing_range d q /\ pset_encloses plt eqb d q = rs_encloses d q /\ pranges_enclosed_by plt eqb d q = ranges_enclosed_by d q /\
  pset_intersects plt eqb d q = rs_intersects d q /\ pranges_overlapping plt eqb d q = ranges_overlapping d q.
Proof using W U.
  intros Uq. pose proof Uq as [Ql Qu]. assert (Ku := keys_uni).
  unfold prange_enclosing_range, pset_encloses, pranges_enclosed_by, pset_intersects, pranges_overlapping, range_enclosing_range, rs_encloses, ranges_enclosed_by, rs_intersects, ranges_overlapping.
  rewrite (at_or_below_ok _ _ Ku Ql), (at_or_above_ok _ _ Ku Ql), (below_ok _ _ Ku Ql), (br_ok _ _ Ku Ql), (br_ok _ _ Ku Qu). cbn [bind]. split; [|split; [|split; [|split]]].
  - destruct (value_at_or_below d (lower q)) as [[r|]|] eqn:B; try reflexivity. cbn [bind]. rewrite pencloses_ok; [cbn [bind]; destruct (encloses r q); reflexivity|apply in_uni; now apply aob_in in B|exact Uq].
  - destruct (value_at_or_below d (lower q)) as [[r|]|] eqn:B; try reflexivity. cbn [bind]. apply pencloses_ok; [apply in_uni; now apply aob_in in B|exact Uq].
  - destruct (value_at_or_above d (lower q)) as [[r|]|] eqn:B; try reflexivity. cbn [bind]. rewrite index_ok; [|exact Ku|apply in_uni; now apply aoa_in in B]. destruct (sd_index d (lower r)) as [i|]; [|reflexivity]. cbn [bind].
    rewrite take_ok; [cbn [bind]; unfold immutableset; now rewrite dedupe_ok|exact Uq|]. apply Forall_forall. intros m J. apply in_uni. rewrite <- (firstn_skipn i (sd_values d)). apply in_or_app. now right.
  - assert (H : match value_at_or_above d (lower q) with Ok (Some r) => pconnected_nonempty plt eqb r q | Ok None => Ok false | Raise e => Raise e end = match value_at_or_above d (lower q) with Ok (Some r) => connected_nonempty r q | Ok None => Ok false | Raise e => Raise e end).
    { destruct (value_at_or_above d (lower q)) as [[r|]|] eqn:B; try reflexivity. apply pnonempty_ok; [apply in_uni; now apply aoa_in in B|exact Uq]. }
    destruct (value_at_or_above d (lower q)) as [ce|]; [|reflexivity]. cbn [bind]. assert (H' : match ce with Some r => pconnected_nonempty plt eqb r q | None => Ok false end = match ce with Some r => connected_nonempty r q | None => Ok false end) by (destruct ce; exact H). rewrite H'.
    destruct (match ce with Some r => connected_nonempty r q | None => Ok false end) as [[|]|]; try reflexivity. cbn [bind]. destruct (value_below d (lower q)) as [[r|]|] eqn:B; try reflexivity. cbn [bind]. apply pnonempty_ok; [apply in_uni; now apply below_in in B|exact Uq].
  - unfold rs_is_empty. destruct (length d =? 0); [reflexivity|]. destruct (bisect_right d (lower q) =? length d).
    + rewrite pat_index_ok. destruct (at_index d _) as [m|] eqn:E; [|reflexivity]. cbn [bind]. rewrite pintersects_ok; [reflexivity|apply in_uni; now apply at_index_in in E|exact Uq].
    + cbv zeta. destruct (bisect_right d (upper q) =? 0).
      * rewrite pat_index_ok. destruct (at_index d _) as [m|] eqn:E; [|reflexivity]. cbn [bind]. rewrite pintersects_ok; [reflexivity|apply in_uni; now apply at_index_in in E|exact Uq].
      * rewrite overlapping_at_ok by exact Uq. destruct (mapM _ _) as [l|]; [|reflexivity]. cbn [bind]. unfold immutableset. now rewrite dedupe_ok.
Qed.
End SameSet.
End Same.

(** *** Values of another type *)
Section Other.
Variables (c c' : nat) (rs : list rng).
Hypothesis W : WF rs.
Hypothesis U : Forall (uni c) rs.
Hypothesis N : c <> c'.
Hypothesis HE : exists m x, In m rs /\ has_endpoint m x.
Notation d := (map kv rs).
Lemma lt_other x y : cls x = c -> cls y = c' -> plt x y = Raise TypeError /\ plt y x = Raise TypeError.
Proof using N. intros X Y. unfold typed_lt. rewrite X, Y. split; [rewrite (proj2 (Nat.eqb_neq _ _) N)|rewrite (proj2 (Nat.eqb_neq _ _) (not_eq_sym N))]; reflexivity. Qed.
(** the shapes of a set with endpoints: [x, ...; (-inf, u), [x, ...; (-inf, u) alone *)
Lemma shape : (exists m l, rs = m :: l /\ exists x, endp (lower m) = Some x) \/
  (exists m m2 l, rs = m :: m2 :: l /\ lower m = BelowAll /\ (exists u, endp (upper m) = Some u) /\ exists x, endp (lower m2) = Some x) \/
  (exists m, rs = [m] /\ lower m = BelowAll /\ exists u, endp (upper m) = Some u).
Proof using W U HE.
  destruct HE as (m0 & x0 & J0 & X0). assert (L : forall m, In m rs -> lower m = BelowAll \/ exists x, endp (lower m) = Some x).
  { intros m J. destruct (wf_good _ _ W J) as [V _]. destruct m as [[|x|x|] u]; cbn [lower]; eauto; [right; exists x; reflexivity|right; exists x; reflexivity|]. apply valid_spec in V. destruct V as (_ & V & _). exfalso. vm_compute in V. discriminate V. }
  destruct rs as [|m l]; [destruct J0|]. destruct (L m (or_introl eq_refl)) as [Em|(x & Em)]; [|left; eauto 6].
  right. destruct l as [|m2 l].
  - right. exists m. split; [reflexivity|]. split; [exact Em|]. destruct J0 as [<-|[]]. destruct X0 as [X|X]; apply endp_in in X; [rewrite Em in X; discriminate|eauto].
  - left. exists m, m2, l. split; [reflexivity|]. split; [exact Em|].
    assert (B : before m m2). { destruct W as [_ S]. inversion S as [|? ? _ HF]; subst. inversion HF; subst. assumption. }
    assert (G := wf_good _ _ W (or_introl eq_refl)). unfold before in B. apply good_lt in G. split.
    + destruct (upper m) as [|u|u|] eqn:Eu; [exfalso|exists u; reflexivity|exists u; reflexivity|exfalso]; [rewrite Em in G; vm_compute in G; discriminate|]. destruct (lower m2); vm_compute in B; discriminate.
    + destruct (L m2 (or_intror (or_introl eq_refl))) as [E2|E2]; [|exact E2]. exfalso. rewrite E2 in B. destruct (upper m); vm_compute in B; discriminate.
Qed.
Lemma uni_lower m x : In m rs -> endp (lower m) = Some x -> cls x = c.
Proof using U. intros J E. rewrite Forall_forall in U. exact (proj1 (U m J) x E). Qed.
Lemma uni_upper m x : In m rs -> endp (upper m) = Some x -> cls x = c.
Proof using U. intros J E. rewrite Forall_forall in U. exact (proj2 (U m J) x E). Qed.
(** comparisons with a bound of another type *)
Lemma cmp_other a b x y : endp a = Some x -> endp b = Some y -> cls x = c -> cls y = c' -> pcompare_to plt a b = Raise TypeError /\ pcompare_to plt b a = Raise TypeError.
Proof using N. intros A B X Y. split; eapply cmp_bad; eauto; congruence. Qed.
Lemma cmp_low k : forall m, lower m = BelowAll -> forall y, endp k = Some y -> pcompare_to plt (lower m) k = Ok (-1)%Z /\ pcompare_to plt k (lower m) = Ok 1%Z.
Proof. intros m -> y E. destruct k; try discriminate; split; reflexivity. Qed.

Lemma bisect_other k y : endp k = Some y -> cls y = c' ->
  (pbisect_left plt (sd_keys d) k = Raise TypeError /\ pbisect_right plt (sd_keys d) k = Raise TypeError) \/
  exists m, rs = [m] /\ lower m = BelowAll /\ (exists u, endp (upper m) = Some u) /\ pbisect_left plt (sd_keys d) k = Ok 1 /\ pbisect_right plt (sd_keys d) k = Ok 1.
Proof using W U N HE.
  intros K Y. rewrite keys_kv. destruct shape as [(m & l & E & x & Em)|[(m & m2 & l & E & Em & _ & x & Em2)|(m & E & Em & Eu)]]; pose proof U as U'; rewrite E in *; cbn [map pbisect_left pbisect_right]; unfold pcut_lt.
  - left. assert (U1 := Forall_inv U'). destruct (cmp_other (lower m) k x y Em K (proj1 U1 x Em) Y) as (C1 & C2). rewrite C1, C2. split; reflexivity.
  - left. assert (U1 := Forall_inv (Forall_inv_tail U')). destruct (cmp_low k m Em y K) as (C1 & C2). rewrite C1, C2. cbn. destruct (cmp_other (lower m2) k x y Em2 K (proj1 U1 x Em2) Y) as (C3 & C4). rewrite C3, C4. split; reflexivity.
  - right. exists m. split; [reflexivity|]. split; [exact Em|]. split; [exact Eu|]. destruct (cmp_low k m Em y K) as (C1 & C2). rewrite C1, C2. split; reflexivity.
Qed.
Lemma other_contains x : cls x = c' -> prange_containing plt eqb d x = Raise TypeError /\ pset_contains plt eqb d x = Raise TypeError /\ pleftmost plt eqb d x = Raise TypeError /\
  (prightmost plt eqb d x = Raise TypeError \/ exists m, rs = [m] /\ lower m = BelowAll /\ prightmost plt eqb d x = Ok (Some m)).
Proof using W U N HE.
  intros X. unfold prange_containing, pset_contains, pleftmost, prightmost, pvalue_at_or_below. cbv zeta.
  assert (D : exists z z', d = z :: z'). { destruct HE as (m & _ & J & _). destruct rs as [|m' l]; [destruct J|]. cbn. eauto. } destruct D as (z & z' & D).
  destruct (bisect_other (BelowV x) x eq_refl X) as [(B1 & _)|(m & E & Em & (u & Eu) & B1 & _)]; destruct (bisect_other (AboveV x) x eq_refl X) as [(B2 & _)|(m' & E' & Em' & _ & B2 & _)].
  - rewrite B2. rewrite D in *. rewrite B1. repeat split; try reflexivity. now left.
  - exfalso. rewrite E', keys_kv in B1. cbn in B1. unfold pcut_lt in B1. rewrite Em' in B1. discriminate.
  - exfalso. rewrite E, keys_kv in B2. cbn in B2. unfold pcut_lt in B2. rewrite Em in B2. discriminate.
  - clear m' E' Em'. rewrite B2. rewrite D in *. rewrite B1. cbn [bind]. rewrite <- D. clear D. rewrite E in *. assert (Cu : cls u = c). { exact (proj2 (Forall_inv U) u Eu). }
    assert (G0 : psd_get eqb (map kv [m]) (lower m) = Ok m) by (rewrite get_ok; apply sd_get_kv; [exact W|now left]).
    assert (G1 : getitem (sd_keys (map kv [m])) 0 = Ok (lower m)) by reflexivity. assert (G2 : nth_error (sd_keys (map kv [m])) 1 = None) by reflexivity. rewrite G2, G1. cbn [bind]. rewrite G0. cbn [bind].
    assert (PC : pcontains plt eqb m x = Raise TypeError). { unfold pcontains. rewrite Em. cbn [pis_less_than bind]. destruct (upper m) as [|v|v|]; try discriminate Eu; cbn in Eu; injection Eu as ->; cbn; rewrite (proj1 (lt_other u x Cu X)); reflexivity. }
    rewrite PC. split; [reflexivity|]. split; [reflexivity|]. split.
    + unfold pat_index. rewrite G1. cbn [bind]. rewrite G0. cbn [bind]. unfold pcut_le. destruct (cmp_other (upper m) (AboveV x) u x Eu eq_refl Cu X) as (_ & C). rewrite C. reflexivity.
    + right. exists m. split; [reflexivity|]. split; [exact Em|reflexivity].
Qed.

(** questions about a range of another type *)
Lemma first_get m l : rs = m :: l -> psd_get eqb d (lower m) = Ok m.
Proof using W. intros E. rewrite get_ok. apply sd_get_kv; [exact W|]. rewrite E. now left. Qed.
Lemma first_key m l : rs = m :: l -> getitem (sd_keys d) 0 = Ok (lower m) /\ nth_error (sd_keys d) 0 = Some (lower m).
Proof. clear. intros ->. split; reflexivity. Qed.
Section Q.
Variable q : rng.
Hypothesis Uq : uni c' q.
(** what each member says: the answer is False, or TypeError *)
Definition all_say (f : rng -> res bool) : Prop := forall m, In m rs -> f m = Ok false.
Definition some_raise (f : rng -> res bool) : Prop := exists m, In m rs /\ f m = Raise TypeError.
Lemma at_zero k : bisect_left d k = 0 -> cutc c k -> forall m l, rs = m :: l -> pvalue_at_or_above plt eqb d k = Ok (Some m) /\ pvalue_at_or_below plt eqb d k = (if cut_eq k (lower m) then Ok (Some m) else Ok None).
Proof using W U.
  intros B K m l E. assert (Ku := keys_uni c rs U). assert (G := first_get m l E). destruct (first_key m l E) as (G1 & G2). unfold pvalue_at_or_above, pvalue_at_or_below. rewrite (bl_ok c _ _ Ku K), B. cbn [bind]. rewrite G1, G2. cbn [bind]. rewrite G. cbn [bind]. cbv zeta.
  assert (D : exists z z', d = z :: z') by (rewrite E; cbn; eauto). destruct D as (z & z' & D). rewrite D. cbn [length Nat.leb]. split; [reflexivity|]. rewrite peq_ok. destruct (cut_eq k (lower m)) eqn:Q; [|reflexivity]. cbn [negb]. apply cut_eq_spec in Q. subst k. rewrite <- D, G. reflexivity.
Qed.
Lemma bl_low : bisect_left d BelowAll = 0.
Proof. clear. destruct rs as [|m l]; [reflexivity|]. cbn. unfold cut_lt. destruct (lower m); reflexivity. Qed.
Lemma low_c k : k = BelowAll -> cutc c k.
Proof. clear. intros -> x E. discriminate. Qed.
(** the two shapes of [q] *)
Hypothesis HQ : exists y, has_endpoint q y.
Lemma q_shape (V : valid q) : (exists y, endp (lower q) = Some y /\ cls y = c' /\ (upper q = AboveAll \/ exists z, endp (upper q) = Some z /\ cls z = c')) \/ (lower q = BelowAll /\ exists z, endp (upper q) = Some z /\ cls z = c').
Proof using Uq HQ.
  clear HE W U N. destruct Uq as [Ul Uu], HQ as (y & Hy). apply valid_spec in V. destruct V as (_ & V1 & V2).
  destruct (endp (lower q)) as [x|] eqn:El.
  - left. exists x. split; [reflexivity|]. split; [now apply Ul|]. destruct (upper q) as [|z|z|] eqn:Eu; [exfalso; vm_compute in V2; discriminate|right; exists z; split; [reflexivity|now apply Uu]|right; exists z; split; [reflexivity|now apply Uu]|now left].
  - right. destruct (lower q) as [|x|x|] eqn:Eq; try discriminate. split; [reflexivity|]. destruct Hy as [Hy|Hy]; apply endp_in in Hy; [rewrite Eq in Hy; discriminate|]. exists y. split; [exact Hy|now apply Uu].
Qed.

Hypothesis V : valid q.
Lemma nonempty_d : exists z z', d = z :: z'.
Proof using HE. destruct HE as (m & _ & J & _). clear -J. destruct rs as [|m' l]; [destruct J|]. cbn. eauto. Qed.
Lemma aob_one k m : rs = [m] -> pbisect_left plt (sd_keys d) k = Ok 1 -> pvalue_at_or_below plt eqb d k = Ok (Some m) /\ pvalue_at_or_above plt eqb d k = Ok None /\ pvalue_below plt eqb d k = Ok (Some m).
Proof using W.
  intros E B. assert (G := first_get m [] E). destruct (first_key m [] E) as (G1 & _). unfold pvalue_at_or_below, pvalue_at_or_above, pvalue_below. rewrite B. cbn [bind]. cbv zeta. clear B G1 HE U. rewrite E in G |- *. cbn -[psd_get] in G |- *. rewrite G. repeat split; reflexivity.
Qed.
Lemma aob_raise k : pbisect_left plt (sd_keys d) k = Raise TypeError -> pvalue_at_or_below plt eqb d k = Raise TypeError /\ pvalue_at_or_above plt eqb d k = Raise TypeError /\ pvalue_below plt eqb d k = Raise TypeError.
Proof using HE.
  intros B. unfold pvalue_at_or_below, pvalue_at_or_above, pvalue_below. rewrite B. destruct nonempty_d as (z & z' & ->). repeat split; reflexivity.
Qed.
(** a member with a lower endpoint, or one alone *)
Lemma lowest : exists m l, rs = m :: l /\ In m rs /\ ((exists x, endp (lower m) = Some x /\ cls x = c) \/ lower m = BelowAll /\ exists u, endp (upper m) = Some u /\ cls u = c).
Proof using W U HE.
  destruct shape as [(m & l & E & x & Em)|[(m & m2 & l & E & Em & (u & Eu) & _)|(m & E & Em & u & Eu)]]; assert (J : In m rs) by (rewrite E; now left); exists m; eexists; (split; [exact E|]); (split; [exact J|]); [left; exists x; split; [exact Em|exact (uni_lower m x J Em)]|right|right]; (split; [exact Em|]); exists u; (split; [exact Eu|exact (uni_upper m u J Eu)]).
Qed.
Lemma other_encloses :
  (all_say (fun m => pencloses plt m q) /\ pset_encloses plt eqb d q = Ok false /\ prange_enclosing_range plt eqb d q = Ok None) \/
  (some_raise (fun m => pencloses plt m q) /\ pset_encloses plt eqb d q = Raise TypeError /\ prange_enclosing_range plt eqb d q = Raise TypeError).
Proof using W U N HE Uq HQ V.
  unfold pset_encloses, prange_enclosing_range, all_say, some_raise. destruct (q_shape V) as [(y & Ey & Cy & Hu)|(El & z & Ez & Cz)].
  - destruct (bisect_other (lower q) y Ey Cy) as [(B & _)|(m & E & Em & (u & Eu) & B & _)].
    + right. destruct (aob_raise _ B) as (-> & _). split; [|split; reflexivity]. assert (X : exists m x, In m rs /\ endp (lower m) = Some x).
      { destruct shape as [(m & l & E & x & Em)|[(m & m2 & l & E & Em & _ & x & Em2)|(m & E & Em & _)]]; [exists m, x|exists m2, x|]; [rewrite E; split; [now left|exact Em]|rewrite E; split; [right; now left|exact Em2]|].
        exfalso. rewrite keys_kv, E in B. cbn in B. unfold pcut_lt in B. rewrite (proj1 (cmp_low (lower q) m Em y Ey)) in B. discriminate. }
      destruct X as (m & x & J & Em). exists m. split; [exact J|]. unfold pencloses. rewrite (proj1 (cmp_other (lower m) (lower q) x y Em Ey (uni_lower m x J Em) Cy)). reflexivity.
    + destruct (aob_one _ _ E B) as (-> & _). cbn [bind]. assert (J : In m rs) by (rewrite E; now left). destruct Hu as [Hu|(z & Ez & Cz)].
      * left. assert (P : pencloses plt m q = Ok false). { unfold pencloses. rewrite (proj1 (cmp_low (lower q) m Em y Ey)). cbn [bind Z.leb Z.compare]. rewrite Hu. destruct (upper m); try discriminate Eu; reflexivity. }
        rewrite P. split; [|split; reflexivity]. intros m' J'. rewrite E in J'. destruct J' as [<-|[]]. exact P.
      * right. assert (P : pencloses plt m q = Raise TypeError). { unfold pencloses. rewrite (proj1 (cmp_low (lower q) m Em y Ey)). cbn [bind Z.leb Z.compare]. rewrite (proj1 (cmp_other (upper m) (upper q) u z Eu Ez (uni_upper m u J Eu) Cz)). reflexivity. }
        rewrite P. split; [|split; reflexivity]. exists m. split; [exact J|exact P].
  - destruct lowest as (m & l & E & J & Hm). destruct (at_zero (lower q)) with (m := m) (l := l) as (_ & A); [rewrite El; apply bl_low|now apply low_c|exact E|]. rewrite A. clear A. destruct Hm as [(x & Em & Cx)|(Em & u & Eu & Cu)].
    + left. assert (cut_eq (lower q) (lower m) = false) as ->. { rewrite El. destruct (lower m); try discriminate Em; reflexivity. } split; [|split; reflexivity].
      intros m' J'. assert (X : exists x', endp (lower m') = Some x').
      { rewrite E in J'. destruct J' as [<-|J']; [eauto|]. destruct W as [F SS]. rewrite E in SS, F. inversion SS as [|? ? _ HF]; subst. rewrite Forall_forall in HF. specialize (HF m' J'). unfold before in HF. assert (V' : valid m') by (rewrite Forall_forall in F; apply F; now right). apply valid_spec in V'. destruct V' as (_ & V' & _).
        destruct (lower m') as [|x'|x'|]; [exfalso; destruct (upper m); vm_compute in HF; discriminate|exists x'; reflexivity|exists x'; reflexivity|exfalso; vm_compute in V'; discriminate]. }
      destruct X as (x' & Em'). unfold pencloses. rewrite El. destruct (lower m'); try discriminate Em'; reflexivity.
    + right. assert (cut_eq (lower q) (lower m) = true) as -> by (rewrite El, Em; reflexivity). cbn [bind]. assert (P : pencloses plt m q = Raise TypeError). { unfold pencloses. rewrite El, Em. cbn [pcompare_to bind Z.leb Z.compare]. rewrite (proj1 (cmp_other (upper m) (upper q) u z Eu Ez Cu Cz)). reflexivity. }
      rewrite P. split; [|split; reflexivity]. exists m. split; [exact J|exact P].
Qed.
Lemma other_enclosed_by :
  (all_say (fun m => pencloses plt q m) /\ pranges_enclosed_by plt eqb d q = Ok []) \/ (some_raise (fun m => pencloses plt q m) /\ pranges_enclosed_by plt eqb d q = Raise TypeError).
Proof using W U N HE Uq HQ V.
  unfold pranges_enclosed_by, all_say, some_raise. destruct (q_shape V) as [(y & Ey & Cy & Hu)|(El & z & Ez & Cz)].
  - destruct (bisect_other (lower q) y Ey Cy) as [(B & _)|(m & E & Em & (u & Eu) & B & _)].
    + right. destruct (aob_raise _ B) as (_ & -> & _). split; [|reflexivity]. assert (X : exists m x, In m rs /\ endp (lower m) = Some x).
      { destruct shape as [(m & l & E & x & Em)|[(m & m2 & l & E & Em & _ & x & Em2)|(m & E & Em & _)]]; [exists m, x|exists m2, x|]; [rewrite E; split; [now left|exact Em]|rewrite E; split; [right; now left|exact Em2]|].
        exfalso. rewrite keys_kv, E in B. cbn in B. unfold pcut_lt in B. rewrite (proj1 (cmp_low (lower q) m Em y Ey)) in B. discriminate. }
      destruct X as (m & x & J & Em). exists m. split; [exact J|]. unfold pencloses. rewrite (proj2 (cmp_other (lower m) (lower q) x y Em Ey (uni_lower m x J Em) Cy)). reflexivity.
    + left. destruct (aob_one _ _ E B) as (_ & -> & _). split; [|reflexivity]. intros m' J'. rewrite E in J'. destruct J' as [<-|[]]. unfold pencloses. rewrite (proj2 (cmp_low (lower q) m Em y Ey)). reflexivity.
  - destruct lowest as (m & l & E & J & Hm). destruct (at_zero (lower q)) with (m := m) (l := l) as (A & _); [rewrite El; apply bl_low|now apply low_c|exact E|]. rewrite A. clear A. cbn [bind].
    assert (I : psd_index plt eqb d (lower m) = Ok 0).
    { rewrite (index_ok c); [|exact (keys_uni c rs U)|rewrite Forall_forall in U; now apply U]. unfold sd_index. assert (B : bisect_left d (lower m) = 0). { rewrite E. cbn [map kv bisect_left]. change (cut_lt (lower m) (lower m)) with (cltb (lower m) (lower m)). now rewrite cltb_irrefl. }
      rewrite B, (proj2 (first_key m l E)). now rewrite (proj2 (cut_eq_spec (lower m) (lower m)) eq_refl). }
    rewrite I. cbn [bind skipn]. rewrite values_kv.
    assert (Lo : exists n, pcompare_to plt (lower q) (lower m) = Ok n /\ (n <=? 0)%Z = true) by (rewrite El; destruct (lower m); eexists; split; reflexivity). destruct Lo as (n & Lo & Ln).
    assert (P : pencloses plt q m = let* u := pcompare_to plt (upper q) (upper m) in Ok (0 <=? u)%Z) by (unfold pencloses; rewrite Lo; cbn [bind]; rewrite Ln; reflexivity).
    destruct (endp (upper m)) as [u|] eqn:Eu.
    + right. rewrite (proj2 (cmp_other (upper m) (upper q) u z Eu Ez (uni_upper m u J Eu) Cz)) in P. cbn [bind] in P. split; [exists m; split; [exact J|exact P]|]. rewrite E. cbn [ptake_enclosed]. rewrite P. reflexivity.
    + left. assert (Um : upper m = AboveAll). { destruct (wf_good _ _ W J) as [Vm _]. apply valid_spec in Vm. destruct Vm as (_ & _ & Vm). destruct (upper m); try discriminate Eu; [vm_compute in Vm; discriminate|reflexivity]. }
      assert (P2 : pencloses plt q m = Ok false) by (rewrite P, Um; destruct (upper q); try discriminate Ez; reflexivity).
      assert (E1 : l = []). { destruct l as [|m2 l]; [reflexivity|]. exfalso. destruct W as [_ SS]. rewrite E in SS. inversion SS as [|? ? _ HF]; subst. apply Forall_inv in HF. unfold before in HF. rewrite Um in HF. destruct (lower m2); vm_compute in HF; discriminate. }
      subst l. rewrite E. cbn [ptake_enclosed]. rewrite P2. split; [|reflexivity]. intros m' [<-|[]]. exact P2.
Qed.
Lemma other_intersects : pset_intersects plt eqb d q = Raise TypeError.
Proof using W U N HE Uq HQ V.
  unfold pset_intersects, pconnected_nonempty, pis_connected, pcut_le. destruct (q_shape V) as [(y & Ey & Cy & Hu)|(El & z & Ez & Cz)].
  - destruct (bisect_other (lower q) y Ey Cy) as [(B & _)|(m & E & Em & (u & Eu) & B & _)].
    + destruct (aob_raise _ B) as (_ & -> & _). reflexivity.
    + destruct (aob_one _ _ E B) as (_ & -> & ->). cbn [bind]. assert (J : In m rs) by (rewrite E; now left).
      assert (A : exists n, pcompare_to plt (lower m) (upper q) = Ok n /\ (n <=? 0)%Z = true). { rewrite Em. destruct (upper q); eexists; split; reflexivity. } destruct A as (n & -> & Hn). cbn [bind]. rewrite Hn. cbn [bind].
      rewrite (proj2 (cmp_other (upper m) (lower q) u y Eu Ey (uni_upper m u J Eu) Cy)). reflexivity.
  - destruct lowest as (m & l & E & J & Hm). destruct (at_zero (lower q)) with (m := m) (l := l) as (A & _); [rewrite El; apply bl_low|now apply low_c|exact E|]. rewrite A. clear A. cbn [bind]. destruct Hm as [(x & Em & Cx)|(Em & u & Eu & Cu)].
    + rewrite (proj1 (cmp_other (lower m) (upper q) x z Em Ez Cx Cz)). reflexivity.
    + unfold pintersection. rewrite El, Em. destruct (upper m) as [|u'|u'|] eqn:Um; try discriminate Eu; destruct (upper q) as [|z'|z'|] eqn:Uz; try discriminate Ez; cbn [pcompare_to bind Z.leb Z.compare];
      match goal with |- context [by_endpoint plt ?a ?b ?n] => assert (Q : by_endpoint plt a b n = Raise TypeError) by (cbn in Eu, Ez; unfold by_endpoint; rewrite (proj1 (lt_other a b ltac:(congruence) ltac:(congruence))); reflexivity); rewrite Q; reflexivity end.
Qed.
Lemma other_overlapping : pranges_overlapping plt eqb d q = Raise TypeError.
Proof using W U N HE Uq HQ V.
  unfold pranges_overlapping. assert (L0 : length d =? 0 = false) by (destruct nonempty_d as (a & b & ->); reflexivity). rewrite L0.
  assert (One : forall m, rs = [m] -> pat_index eqb d (length d - 1) = Ok m). { intros m E. unfold pat_index. assert (G := first_get m [] E). destruct (first_key m [] E) as (G1 & _). assert (length d - 1 = 0) as -> by (rewrite E; reflexivity). rewrite G1. cbn [bind]. exact G. }
  destruct (q_shape V) as [(y & Ey & Cy & Hu)|(El & z & Ez & Cz)].
  - destruct (bisect_other (lower q) y Ey Cy) as [(_ & B)|(m & E & Em & (u & Eu) & _ & B)]; rewrite B; [reflexivity|]. cbn [bind]. assert (1 =? length d = true) as -> by (rewrite E; reflexivity). rewrite (One m E). cbn [bind]. assert (J : In m rs) by (rewrite E; now left). assert (Cu := uni_upper m u J Eu).
    unfold pintersects. rewrite (proj1 (cmp_low (lower q) m Em y Ey)). cbn [bind]. destruct Hu as [Hu|(z & Ez & Cz)].
    + rewrite Hu. destruct (upper m) as [|u'|u'|] eqn:Um; try discriminate Eu; cbn [pcompare_to bind Z.leb Z.compare andb]; unfold pcut_le; rewrite <- Um in Eu |- *; rewrite (proj2 (cmp_other (upper m) (lower q) u y Eu Ey Cu Cy)); reflexivity.
    + rewrite (proj1 (cmp_other (upper m) (upper q) u z Eu Ez Cu Cz)). reflexivity.
  - rewrite (br_ok c d (lower q) (keys_uni c rs U) (low_c _ El)). cbn [bind]. destruct shape as [(m & l & E & x & Em)|[(m & m2 & l & E & Em & (u & Eu) & x & Em2)|(m & E & Em & u & Eu)]].
    + assert (B0 : bisect_right d (lower q) = 0). { rewrite E, El. cbn. unfold cut_lt. destruct (lower m); try discriminate Em; reflexivity. } rewrite B0. assert (0 =? length d = false) as -> by (rewrite E; reflexivity).
      destruct (bisect_other (upper q) z Ez Cz) as [(_ & B)|(m' & E' & Em' & _)]; [rewrite B; reflexivity|]. exfalso. rewrite E in E'. inversion E'; subst. rewrite Em' in Em. discriminate.
    + assert (B0 : bisect_right d (lower q) = 1). { rewrite E, El. cbn. rewrite Em. cbn. unfold cut_lt. destruct (lower m2); try discriminate Em2; reflexivity. } rewrite B0. assert (1 =? length d = false) as -> by (rewrite E; reflexivity).
      destruct (bisect_other (upper q) z Ez Cz) as [(_ & B)|(m' & E' & Em' & _)]; [rewrite B; reflexivity|]. exfalso. rewrite E in E'. discriminate.
    + assert (B0 : bisect_right d (lower q) = 1). { rewrite E, El. cbn. rewrite Em. reflexivity. } rewrite B0. assert (1 =? length d = true) as -> by (rewrite E; reflexivity). rewrite (One m E). cbn [bind]. unfold pintersects. rewrite El, Em. cbn [pcompare_to bind]. assert (J : In m rs) by (rewrite E; now left).
      rewrite (proj1 (cmp_other (upper m) (upper q) u z Eu Ez (uni_upper m u J Eu) Cz)). reflexivity.
Qed.
Lemma other_add : is_empty q = false -> padd plt eqb d q = (d, Raise TypeError).
Proof using W U N HE Uq HQ V.
  intros NE. unfold padd. rewrite pempty_ok, NE. assert (B : bounds_to_add plt eqb d q = Raise TypeError); [|now rewrite B]. unfold bounds_to_add. destruct (q_shape V) as [(y & Ey & Cy & Hu)|(El & z & Ez & Cz)].
  - destruct (bisect_other (lower q) y Ey Cy) as [(B & _)|(m & E & Em & (u & Eu) & B & _)].
    + destruct (aob_raise _ B) as (_ & _ & ->). reflexivity.
    + destruct (aob_one _ _ E B) as (_ & _ & ->). cbn [bind]. unfold pcut_le. assert (J : In m rs) by (rewrite E; now left). rewrite (proj2 (cmp_other (upper m) (lower q) u y Eu Ey (uni_upper m u J Eu) Cy)). reflexivity.
  - unfold pvalue_below. rewrite (bl_ok c d (lower q) (keys_uni c rs U) (low_c _ El)), El, bl_low. cbn [bind]. destruct (bisect_other (upper q) z Ez Cz) as [(B & _)|(m & E & Em & (u & Eu) & B & _)].
    + destruct (aob_raise _ B) as (-> & _). reflexivity.
    + destruct (aob_one _ _ E B) as (-> & _). cbn [bind]. unfold pcut_lt. assert (J : In m rs) by (rewrite E; now left). rewrite (proj2 (cmp_other (upper m) (upper q) u z Eu Ez (uni_upper m u J Eu) Cz)). reflexivity.
Qed.
End Q.
End Other.

(** *** Bisection *)
Lemma halve_left_split (l1 l2 : list (cut T)) k : (forall a, In a l1 -> pcut_lt plt a k = Ok true) -> (forall a, In a l2 -> pcut_lt plt a k = Ok false) ->
  forall fuel lo hi, lo <= length l1 -> length l1 <= hi -> hi <= length (l1 ++ l2) -> hi - lo <= fuel -> halve_left plt fuel (l1 ++ l2) k lo hi = Ok (length l1).
Proof.
  intros A B. induction fuel as [|fuel IH]; intros lo hi H1 H2 H3 H4; cbn [halve_left]; [f_equal; lia|].
  destruct (Nat.ltb_spec lo hi) as [L|L]; [|f_equal; lia]. cbv zeta. set (mid := (lo + hi) / 2). assert (M : lo <= mid < hi) by (unfold mid; split; [apply Nat.div_le_lower_bound|apply Nat.div_lt_upper_bound]; lia). clearbody mid.
  unfold getitem. destruct (nth_error (l1 ++ l2) mid) as [a|] eqn:E; [|exfalso; apply nth_error_None in E; lia]. cbn [bind].
  destruct (Nat.lt_ge_cases mid (length l1)) as [Q|Q].
  - rewrite nth_error_app1 in E by exact Q. rewrite (A a (nth_error_In _ _ E)). cbn [bind]. apply IH; lia.
  - rewrite nth_error_app2 in E by exact Q. rewrite (B a (nth_error_In _ _ E)). cbn [bind]. apply IH; lia.
Qed.
Lemma halve_right_split (l1 l2 : list (cut T)) k : (forall a, In a l1 -> pcut_lt plt k a = Ok false) -> (forall a, In a l2 -> pcut_lt plt k a = Ok true) ->
  forall fuel lo hi, lo <= length l1 -> length l1 <= hi -> hi <= length (l1 ++ l2) -> hi - lo <= fuel -> halve_right plt fuel (l1 ++ l2) k lo hi = Ok (length l1).
Proof.
  intros A B. induction fuel as [|fuel IH]; intros lo hi H1 H2 H3 H4; cbn [halve_right]; [f_equal; lia|].
  destruct (Nat.ltb_spec lo hi) as [L|L]; [|f_equal; lia]. cbv zeta. set (mid := (lo + hi) / 2). assert (M : lo <= mid < hi) by (unfold mid; split; [apply Nat.div_le_lower_bound|apply Nat.div_lt_upper_bound]; lia). clearbody mid.
  unfold getitem. destruct (nth_error (l1 ++ l2) mid) as [a|] eqn:E; [|exfalso; apply nth_error_None in E; lia]. cbn [bind].
  destruct (Nat.lt_ge_cases mid (length l1)) as [Q|Q].
  - rewrite nth_error_app1 in E by exact Q. rewrite (A a (nth_error_In _ _ E)). cbn [bind]. apply IH; lia.
  - rewrite nth_error_app2 in E by exact Q. rewrite (B a (nth_error_In _ _ E)). cbn [bind]. apply IH; lia.
Qed.
Lemma bisection c rs k : WF rs -> Forall (uni c) rs -> let ks := sd_keys (map kv rs) in
  halve_left plt (length ks) ks k 0 (length ks) = pbisect_left plt ks k /\ halve_right plt (length ks) ks k 0 (length ks) = pbisect_right plt ks k.
Proof.
  intros W U ks. assert (Ku := keys_uni c rs U). destruct (endp k) as [y|] eqn:Ek; [destruct (Nat.eq_dec (cls y) c) as [Cy|Cy]|]; [|destruct rs as [|m l]; [split; reflexivity|]; destruct (endp (lower m)) as [x|] eqn:Em; [|destruct l as [|m2 l]]|].
  1,5: assert (Kc : cutc c k) by (intros z Ez; congruence); unfold ks; rewrite (bl_ok c _ _ Ku Kc), (br_ok c _ _ Ku Kc); split;
    [destruct (bisect_left_spec rs k W) as (l1 & l2 & E & -> & A & B)|destruct (bisect_right_spec rs k W) as (l1 & l2 & E & -> & A & B)];
    rewrite keys_kv in *; rewrite E in *; rewrite map_app in *; rewrite Forall_app in Ku; destruct Ku as [K1 K2]; rewrite Forall_forall in K1, K2; rewrite <- (map_length lower l1);
    [apply halve_left_split|apply halve_right_split]; try (rewrite app_length; lia); try lia; intros a J; rewrite (plt_ok c) by auto; apply in_map_iff in J; destruct J as (r & <- & J); f_equal; [apply A|apply B|apply A|apply B]; exact J.
  - (* a foreign key first *)
    assert (Bad : forall r z, In r (m :: l) -> endp (lower r) = Some z -> pcut_lt plt (lower r) k = Raise TypeError /\ pcut_lt plt k (lower r) = Raise TypeError).
    { intros r z J Ez. rewrite Forall_forall in U. assert (Cz : cls z = c) by exact (proj1 (U r J) z Ez). unfold pcut_lt. rewrite (cmp_bad (lower r) k z y Ez Ek), (cmp_bad k (lower r) y z Ek Ez) by congruence. split; reflexivity. }
    assert (All : forall r, In r (m :: l) -> exists z, endp (lower r) = Some z).
    { intros r [<-|J]; [eauto|]. destruct W as [F SS]. inversion SS as [|? ? _ HF]; subst. rewrite Forall_forall in HF. specialize (HF r J). unfold before in HF. assert (V' : valid r) by (rewrite Forall_forall in F; apply F; now right). apply valid_spec in V'. destruct V' as (_ & V' & _).
      destruct (lower r) as [|x'|x'|]; [exfalso; destruct (upper m); vm_compute in HF; discriminate|exists x'; reflexivity|exists x'; reflexivity|exfalso; vm_compute in V'; discriminate]. }
    unfold ks. rewrite keys_kv. cbn [map pbisect_left pbisect_right length]. destruct (Bad m x (or_introl eq_refl) Em) as (B1 & B2). rewrite B1, B2. cbn [bind]. cbn [halve_left halve_right]. assert (0 <? S (length (map lower l)) = true) as -> by reflexivity. cbv zeta.
    unfold getitem. destruct (nth_error (lower m :: map lower l) ((0 + S (length (map lower l))) / 2)) as [a|] eqn:E; [|exfalso; apply nth_error_None in E; assert (Q : (0 + S (length (map lower l))) / 2 < S (length (map lower l))) by (apply Nat.div_lt_upper_bound; lia); cbn [length] in E; lia].
    cbn [bind]. apply nth_error_In in E. change (lower m :: map lower l) with (map lower (m :: l)) in E. apply in_map_iff in E. destruct E as (r & <- & J). destruct (All r J) as (z & Ez). destruct (Bad r z J Ez) as (-> & ->). split; reflexivity.
  - (* (-inf, .. alone *)
    assert (El : lower m = BelowAll). { destruct W as [F _]. apply Forall_inv in F. destruct F as [V _]. apply valid_spec in V. destruct V as (_ & V & _). destruct (lower m); try discriminate Em; [reflexivity|vm_compute in V; discriminate]. }
    unfold ks. rewrite keys_kv. cbn [map length pbisect_left pbisect_right halve_left halve_right Nat.ltb Nat.leb]. cbv zeta. change ((0 + 1) / 2) with 0. unfold getitem. cbn [nth_error bind]. destruct (cmp_low k m El y Ek) as (C1 & C2). unfold pcut_lt. rewrite C1, C2. split; reflexivity.
  - (* (-inf, .. and others *)
    assert (Bad : forall r z, In r (m2 :: l) -> endp (lower r) = Some z -> pcut_lt plt (lower r) k = Raise TypeError /\ pcut_lt plt k (lower r) = Raise TypeError).
    { intros r z J Ez. rewrite Forall_forall in U. assert (Cz : cls z = c) by exact (proj1 (U r (or_intror J)) z Ez). unfold pcut_lt. rewrite (cmp_bad (lower r) k z y Ez Ek), (cmp_bad k (lower r) y z Ek Ez) by congruence. split; reflexivity. }
    assert (All : forall r, In r (m2 :: l) -> exists z, endp (lower r) = Some z).
    { intros r J. destruct W as [F SS]. inversion SS as [|? ? _ HF]; subst. rewrite Forall_forall in HF. specialize (HF r J). unfold before in HF. assert (V' : valid r) by (rewrite Forall_forall in F; apply F; now right). apply valid_spec in V'. destruct V' as (_ & V' & _).
      destruct (lower r) as [|x'|x'|]; [exfalso; destruct (upper m); vm_compute in HF; discriminate|exists x'; reflexivity|exists x'; reflexivity|exfalso; vm_compute in V'; discriminate]. }
    assert (El : lower m = BelowAll). { destruct W as [F _]. apply Forall_inv in F. destruct F as [V _]. apply valid_spec in V. destruct V as (_ & V & _). destruct (lower m); try discriminate Em; [reflexivity|vm_compute in V; discriminate]. }
    unfold ks. rewrite keys_kv. destruct (cmp_low k m El y Ek) as (C1 & C2). destruct (All m2 (or_introl eq_refl)) as (x2 & E2). destruct (Bad m2 x2 (or_introl eq_refl) E2) as (B1 & B2).
    cbn [map pbisect_left pbisect_right]. assert (L1 : pcut_lt plt (lower m) k = Ok true) by (unfold pcut_lt; rewrite C1; reflexivity). assert (L2 : pcut_lt plt k (lower m) = Ok false) by (unfold pcut_lt; rewrite C2; reflexivity). rewrite L1, L2. cbn [bind]. rewrite B1, B2. cbn [bind].
    cbn [length halve_left halve_right]. set (n := length (map lower l)). assert (0 <? S (S n) = true) as -> by reflexivity. cbv zeta. assert (Q : 1 <= (0 + S (S n)) / 2 < S (S n)) by (split; [apply Nat.div_le_lower_bound|apply Nat.div_lt_upper_bound]; lia).
    unfold getitem. destruct ((0 + S (S n)) / 2) as [|i]; [lia|]. cbn [nth_error]. destruct (nth_error (lower m2 :: map lower l) i) as [a|] eqn:E; [|exfalso; apply nth_error_None in E; cbn [length] in E; fold n in E; lia].
    cbn [bind]. apply nth_error_In in E. change (lower m2 :: map lower l) with (map lower (m2 :: l)) in E. apply in_map_iff in E. destruct E as (r & <- & J). destruct (All r J) as (z & Ez). destruct (Bad r z J Ez) as (-> & ->). split; reflexivity.
Qed.

(** *** Histories *)
Lemma endpoints_dec (rs : list rng) : (exists m x, In m rs /\ has_endpoint m x) \/ (forall m x, In m rs -> ~ has_endpoint m x).
Proof.
  induction rs as [|m l IH]; [right; intros m x []|]. destruct IH as [(m' & x & J & X)|IH]; [left; exists m', x; split; [now right|exact X]|].
  destruct (endp (lower m)) as [x|] eqn:E1; [left; exists m, x; split; [now left|left; now apply endp_in]|]. destruct (endp (upper m)) as [x|] eqn:E2; [left; exists m, x; split; [now left|right; now apply endp_in]|].
  right. intros m' x [<-|J]; [|now apply IH]. intros [X|X]; apply endp_in in X; congruence.
Qed.
Lemma range_endpoint_dec (r : rng) : (exists x, has_endpoint r x) \/ (forall x, ~ has_endpoint r x).
Proof. destruct (endpoints_dec [r]) as [(m & x & [<-|[]] & X)|H]; [left; eauto|right; intros x; apply H; now left]. Qed.
Lemma one_type_uni rs : one_type rs <-> exists c, Forall (uni c) rs.
Proof.
  split.
  - intros H. destruct (endpoints_dec rs) as [(m & x & J & X)|E]; [exists (cls x)|exists 0]; apply Forall_forall; intros m' J'; apply uni_spec; intros y Y; [symmetry; exact (H m m' x y J J' X Y)|exfalso; exact (E m' y J' Y)].
  - intros (c & F) m m' x y J J' X Y. rewrite Forall_forall in F. rewrite (proj1 (uni_spec c m) (F m J) x X), (proj1 (uni_spec c m') (F m' J') y Y). reflexivity.
Qed.
(** either all of one type, or a clash *)
Lemma clash_cases c rs r : Forall (uni c) rs -> (exists c, uni c r) -> (~ clashes rs r /\ exists c, Forall (uni c) rs /\ uni c r) \/
  (clashes rs r /\ (exists m x, In m rs /\ has_endpoint m x) /\ (exists y, has_endpoint r y) /\ exists c', uni c' r /\ c <> c').
Proof.
  intros F (cr & Ur). assert (No : (exists c, Forall (uni c) rs /\ uni c r) -> ~ clashes rs r).
  { intros (c0 & F0 & U0) (m & x & y & J & X & Y & Q). rewrite Forall_forall in F0. apply Q. rewrite (proj1 (uni_spec c0 m) (F0 m J) x X), (proj1 (uni_spec c0 r) U0 y Y). reflexivity. }
  destruct (endpoints_dec rs) as [(m & x & J & X)|E].
  - destruct (range_endpoint_dec r) as [(y & Y)|E].
    + destruct (Nat.eq_dec c cr) as [<-|Q]; [left; split; [apply No|]; exists c; auto|]. right. split; [|split; [eauto|split; [eauto|exists cr; auto]]]. exists m, x, y. split; [exact J|]. split; [exact X|]. split; [exact Y|]. rewrite Forall_forall in F. rewrite (proj1 (uni_spec c m) (F m J) x X), (proj1 (uni_spec cr r) Ur y Y). exact Q.
    + left. assert (uni c r) by (apply uni_spec; intros y Y; exfalso; exact (E y Y)). split; [apply No|]; exists c; auto.
  - left. assert (Forall (uni cr) rs) by (apply Forall_forall; intros m J; apply uni_spec; intros x X; exfalso; exact (E m x J X)). split; [apply No|]; exists cr; auto.
Qed.
Definition fine (rs : list rng) : Prop := WF rs /\ exists c, Forall (uni c) rs.
Lemma add_call rs r : fine rs -> made r -> right_call (map kv rs) (Add r) (padd plt eqb (map kv rs) r) /\ exists rs', fst (padd plt eqb (map kv rs) r) = map kv rs' /\ fine rs'.
Proof.
  intros (W & c & F) M. apply made_spec in M. destruct M as (FM & C). apply valid_factory in FM. cbn [right_call]. rewrite as_ranges_kv. destruct (is_empty r) eqn:E.
  - assert (P : padd plt eqb (map kv rs) r = (map kv rs, Ok tt)) by (unfold padd; now rewrite pempty_ok, E). rewrite P. split; [|exists rs; split; [reflexivity|split; eauto]]. left. split; [now left|]. exists (map kv rs). split; [unfold add; now rewrite E|reflexivity].
  - destruct (clash_cases c rs r F C) as [(NC & c1 & F1 & U1)|(CL & HE & HQ & c' & Ur & Q)].
    + destruct (padd_ok c1 rs W F1 r FM U1) as (rs' & A & W' & F' & P). rewrite P. split; [|exists rs'; split; [reflexivity|split; eauto]]. left. split; [now right|]. exists (map kv rs'). auto.
    + rewrite (other_add c c' rs W F Q HE r Ur HQ FM E). split; [right; auto|]. exists rs. split; [reflexivity|split; eauto].
Qed.
Lemma add_all_call l : forall rs, fine rs -> Forall made l -> right_call (map kv rs) (AddAll l) (padd_all plt eqb (map kv rs) l) /\ exists rs', fst (padd_all plt eqb (map kv rs) l) = map kv rs' /\ fine rs'.
Proof.
  induction l as [|r l IH]; intros rs H M; cbn [padd_all].
  - split; [left; exists (map kv rs); split; reflexivity|]. exists rs. auto.
  - inversion M as [|? ? M1 M2]; subst. destruct (add_call rs r H M1) as (RC & rs1 & E1 & H1). cbn [right_call] in RC. destruct (padd plt eqb (map kv rs) r) as [d1 o1]. cbn [fst] in E1. subst d1. destruct RC as [(_ & d' & A & Q)|(NE & CL & Q)].
    + inversion Q; subst. destruct (IH rs1 H1 M2) as (RC & X). split; [|exact X]. cbn [right_call] in RC |- *. unfold add_all in *. destruct RC as [(d2 & A2 & ->)|(a & r' & b & d2 & -> & A2 & R)].
      * left. exists d2. split; [cbn [foldM]; rewrite A; exact A2|reflexivity].
      * right. exists (r :: a), r', b, d2. split; [reflexivity|]. split; [cbn [foldM]; rewrite A; exact A2|exact R].
    + assert (o1 = Raise TypeError /\ map kv rs1 = map kv rs) as (-> & E1) by (split; congruence). split; [|exists rs1; split; [reflexivity|exact H1]]. rewrite E1. clear Q. right. exists [], r, l, (map kv rs). split; [reflexivity|]. split; [reflexivity|]. split; [exact NE|]. split; [exact CL|]. first [reflexivity|congruence].
Qed.
Lemma call_fine rs o : fine rs -> made_op o -> right_call (map kv rs) o (pstep plt eqb (map kv rs) o) /\ exists rs', fst (pstep plt eqb (map kv rs) o) = map kv rs' /\ fine rs'.
Proof.
  intros H M. destruct o as [r|l| |r|l]; cbn [pstep].
  - apply add_call; [exact H|]. exact (Forall_inv M).
  - now apply add_all_call.
  - destruct H as (W & c & F). assert (C := clear_all rs W). unfold clear in C. assert (B : cutc c BelowAll) by (intros x E; discriminate). assert (A : cutc c AboveAll) by (intros x E; discriminate).
    destruct (clear_ok c _ _ _ _ (keys_uni c rs F) B A C) as (-> & _). split; [reflexivity|]. exists []. split; [reflexivity|]. split; [split; constructor|exists 0; constructor].
  - split; [reflexivity|]. exists rs. auto.
  - destruct l; (split; [reflexivity|exists rs; auto]).
Qed.
Lemma prun_snoc ops o : prun plt eqb (ops ++ [o]) = fst (pstep plt eqb (prun plt eqb ops) o).
Proof. unfold prun. rewrite fold_left_app. reflexivity. Qed.
Lemma run_snoc (ops : list (op T)) o : run (ops ++ [o]) = fst (step (run ops) o).
Proof. unfold run. rewrite fold_left_app. reflexivity. Qed.
Lemma prun_fine ops : Forall made_op ops -> exists rs, prun plt eqb ops = map kv rs /\ fine rs.
Proof.
  induction ops as [|o ops IH] using rev_ind; intros M; [exists []; split; [reflexivity|split; [split; constructor|exists 0; constructor]]|].
  apply Forall_app in M. destruct M as [M1 M2]. destruct (IH M1) as (rs & E & H). rewrite prun_snoc, E. exact (proj2 (call_fine rs o H (Forall_inv M2))).
Qed.

(** ** Theorems *)
(** C115: what the factories make: the ranges of the totally ordered case (C01) whose endpoints are of one type. *)
Theorem C115_made : forall r, made r <-> factory_made r /\ forall x y, has_endpoint r x -> has_endpoint r y -> cls x = cls y.
Proof.
  intros r. rewrite made_spec. split; intros (F & H); (split; [exact F|]).
  - destruct H as (c & U). intros x y X Y. rewrite (proj1 (uni_spec c r) U x X), (proj1 (uni_spec c r) U y Y). reflexivity.
  - destruct (range_endpoint_dec r) as [(x & X)|E]; [exists (cls x)|exists 0]; apply uni_spec; intros y Y; [exact (H y x Y X)|exfalso; exact (E y Y)].
Qed.
(** C115: the effect and outcome of every call, after any history. *)
Theorem C115_call : forall ops o, Forall made_op ops -> made_op o -> right_call (prun plt eqb ops) o (pstep plt eqb (prun plt eqb ops) o).
Proof. intros ops o M Mo. destruct (prun_fine ops M) as (rs & -> & H). exact (proj1 (call_fine rs o H Mo)). Qed.
(** C115: an add that raises leaves the set as it was. *)
Theorem C115_atomic : forall ops r e, Forall made_op ops -> made r -> snd (pstep plt eqb (prun plt eqb ops) (Add r)) = Raise e ->
  e = TypeError /\ prun plt eqb (ops ++ [Add r]) = prun plt eqb ops /\ clashes (as_ranges (prun plt eqb ops)) r.
Proof.
  intros ops r e M Mr E. assert (C := C115_call ops (Add r) M (Forall_cons _ Mr (Forall_nil _))). rewrite prun_snoc. cbn [right_call] in C. destruct C as [(_ & d' & _ & Q)|(_ & CL & Q)]; rewrite Q in E |- *; cbn in E |- *; [discriminate|]. split; [congruence|]. auto.
Qed.
(** C115: every history is one of totally ordered values (C11-C22): the calls with the refused ranges left out.  The set never mixes types. *)
Theorem C115_history : forall ops, Forall made_op ops -> exists ops', Forall2 kept_call ops ops' /\ history ops' /\ prun plt eqb ops = run ops' /\ one_type (as_ranges (run ops')).
Proof.
  intros ops M. assert (H : exists ops', Forall2 kept_call ops ops' /\ history ops' /\ prun plt eqb ops = run ops').
  { induction ops as [|o ops IH] using rev_ind; [exists []; split; [constructor|split; [constructor|reflexivity]]|]. apply Forall_app in M. destruct M as [M1 M2]. apply Forall_inv in M2. destruct (IH M1) as (ops' & K & Hi & E). assert (C := C115_call ops o M1 M2).
    assert (FM : Forall factory_made (op_ranges o)) by (revert M2; apply Forall_impl; intros r Mr; apply made_spec in Mr; apply Mr).
    assert (X : exists o', kept_call o o' /\ Forall factory_made (op_ranges o') /\ fst (pstep plt eqb (prun plt eqb ops) o) = fst (step (run ops') o')).
    { rewrite E in C |- *. destruct o as [r|l| |r|l]; cbn [right_call] in C.
      - destruct C as [(_ & d' & A & Q)|(_ & _ & Q)]; rewrite Q; [exists (Add r)|exists (AddAll [])]; (split; [cbn; auto|]); (split; [first [exact FM|constructor]|]); [cbn; now rewrite A|reflexivity].
      - destruct C as [(d' & A & Q)|(a & r & b & d' & -> & A & _ & _ & Q)]; rewrite Q.
        + exists (AddAll l). split; [exists l, []; split; [now rewrite app_nil_r|reflexivity]|]. split; [exact FM|]. cbn. now rewrite A.
        + exists (AddAll a). split; [exists a, (r :: b); auto|]. split; [cbn in FM; now apply Forall_app in FM|]. cbn. now rewrite A.
      - rewrite C. exists Clear. split; [reflexivity|]. split; [constructor|]. cbn. destruct (run_state ops' (history_ok ops' Hi)) as (rs & -> & (W & _) & _). now rewrite (clear_all rs W).
      - rewrite C. exists (Remove r). split; [reflexivity|]. split; [constructor|reflexivity].
      - exists (RemoveAll l). split; [reflexivity|]. split; [constructor|]. destruct l; rewrite C; reflexivity. }
    destruct X as (o' & K' & F' & E'). exists (ops' ++ [o']). split; [apply Forall2_app; [exact K|now constructor]|]. split; [apply Forall_app; split; [exact Hi|now constructor]|]. rewrite prun_snoc, run_snoc. exact E'. }
  destruct H as (ops' & K & Hi & E). exists ops'. split; [exact K|]. split; [exact Hi|]. split; [exact E|]. rewrite <- E. destruct (prun_fine ops M) as (rs & -> & _ & H). rewrite as_ranges_kv. now apply one_type_uni.
Qed.
(** C115: questions about values and ranges of the set's type are answered as in the totally ordered case (C12, C15-C20). *)
Theorem C115_questions : forall ops, Forall made_op ops -> let d := prun plt eqb ops in
  (forall x, (forall m z, In m (as_ranges d) -> has_endpoint m z -> cls z = cls x) ->
     pset_contains plt eqb d x = rs_contains d x /\ prange_containing plt eqb d x = range_containing d x /\ prightmost plt eqb d x = rightmost_containing_or_below d x /\ pleftmost plt eqb d x = leftmost_containing_or_above d x) /\
  (forall q, made q -> ~ clashes (as_ranges d) q ->
     pset_encloses plt eqb d q = rs_encloses d q /\ prange_enclosing_range plt eqb d q = range_enclosing_range d q /\ pranges_enclosed_by plt eqb d q = ranges_enclosed_by d q /\
     pset_intersects plt eqb d q = rs_intersects d q /\ pranges_overlapping plt eqb d q = ranges_overlapping d q).
Proof.
  intros ops M d. destruct (prun_fine ops M) as (rs & E & W & c & F). unfold d. clear d. rewrite E, as_ranges_kv. split.
  - intros x H. assert (F' : Forall (uni (cls x)) rs) by (apply Forall_forall; intros m J; apply uni_spec; intros z Z; exact (H m z J Z)). destruct (same_containing (cls x) rs W F' x eq_refl) as (A & B & C & D). auto.
  - intros q Mq NC. apply made_spec in Mq. destruct Mq as (_ & Cq). destruct (clash_cases c rs q F Cq) as [(_ & c1 & F1 & U1)|(CL & _)]; [|contradiction]. destruct (same_ranges c1 rs W F1 q U1) as (A & B & C & D & G). auto.
Qed.
(** C115: questions about a value or a range of another type than the set's raise TypeError, with these exceptions: rightmost_containing_or_below gives the range of a set that is one range without lower bound; and
    encloses, range_enclosing_range and ranges_enclosed_by say no if every member says no when asked alone, and raise if one of them raises. *)
Theorem C115_other_type : forall ops, Forall made_op ops -> let d := prun plt eqb ops in let members := as_ranges d in
  (forall x, (exists m z, In m members /\ has_endpoint m z /\ cls z <> cls x) ->
     pset_contains plt eqb d x = Raise TypeError /\ prange_containing plt eqb d x = Raise TypeError /\ pleftmost plt eqb d x = Raise TypeError /\
     (prightmost plt eqb d x = Raise TypeError \/ exists m, members = [m] /\ lower m = BelowAll /\ prightmost plt eqb d x = Ok (Some m))) /\
  (forall q, made q -> clashes members q ->
     pset_intersects plt eqb d q = Raise TypeError /\ pranges_overlapping plt eqb d q = Raise TypeError /\
     ((forall m, In m members -> pencloses plt m q = Ok false) /\ pset_encloses plt eqb d q = Ok false /\ prange_enclosing_range plt eqb d q = Ok None \/
      (exists m, In m members /\ pencloses plt m q = Raise TypeError) /\ pset_encloses plt eqb d q = Raise TypeError /\ prange_enclosing_range plt eqb d q = Raise TypeError) /\
     ((forall m, In m members -> pencloses plt q m = Ok false) /\ pranges_enclosed_by plt eqb d q = Ok [] \/
      (exists m, In m members /\ pencloses plt q m = Raise TypeError) /\ pranges_enclosed_by plt eqb d q = Raise TypeError)).
Proof.
  intros ops M d members. destruct (prun_fine ops M) as (rs & E & W & c & F). unfold members, d. clear members d. rewrite E, as_ranges_kv. split.
  - intros x (m & z & J & Z & Q). assert (Cz : cls z = c) by (rewrite Forall_forall in F; exact (proj1 (uni_spec c m) (F m J) z Z)). assert (N : c <> cls x) by congruence. assert (HE : exists m x, In m rs /\ has_endpoint m x) by eauto.
    destruct (other_contains c (cls x) rs W F N HE x eq_refl) as (A & B & C & D). auto.
  - intros q Mq CL. apply made_spec in Mq. destruct Mq as (FM & Cq). apply valid_factory in FM. destruct (clash_cases c rs q F Cq) as [(NC & _)|(_ & HE & HQ & c' & Uq & N)]; [contradiction|].
    split; [exact (other_intersects c c' rs W F N HE q Uq HQ FM)|]. split; [exact (other_overlapping c c' rs W F N HE q Uq HQ FM)|]. split; [exact (other_encloses c c' rs W F N HE q Uq HQ FM)|exact (other_enclosed_by c c' rs W F N HE q Uq HQ FM)].
Qed.
(** C115: bisection, as Python does it, in the sorted bounds of any reachable set finds the same place as the scan of the model, and raises in the same cases. *)
Theorem C115_bisection : forall ops k, Forall made_op ops -> let ks := sd_keys (prun plt eqb ops) in
  halve_left plt (length ks) ks k 0 (length ks) = pbisect_left plt ks k /\ halve_right plt (length ks) ks k 0 (length ks) = pbisect_right plt ks k.
Proof. intros ops k M. destruct (prun_fine ops M) as (rs & -> & W & c & F). exact (bisection c rs k W F). Qed.
End MixedSets.
