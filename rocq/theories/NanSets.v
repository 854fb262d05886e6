(** * Property C122: asking range sets and range maps about NaN

    The models of MixedSets.v and MixedMaps.v, where [x < y] and [x == y] are any functions, with values some of which are comparable to nothing. *)
From Coq Require Import Sorted.
From Verif Require Import Prelude Order Range RangeFacts RangeProofs1 RangeProofs SortedDict RangeSet RangeSetOps RangeSetProofs RangeSetProofs2 RangeSetProps RangePartial MixedSets MixedSetsProps RangeMap RangeMapProofs MixedMaps MixedMapsProps.
Local Open Scope nat_scope.

(** ** Everything commutes with a change of the type of values *)
Section Lift.
Context {S T : Type}.
Variable val : S -> T.
Variables (lt0 : S -> S -> res bool) (eq0 : S -> S -> bool) (lt : T -> T -> res bool) (eq : T -> T -> bool).
Hypothesis Hlt : forall a b, lt (val a) (val b) = lt0 a b.
Hypothesis Heq : forall a b, eq (val a) (val b) = eq0 a b.
Definition rmp {A B} (f : A -> B) (r : res A) : res B := match r with Ok x => Ok (f x) | Raise e => Raise e end.
(** a bound, a range, a dictionary, a call with every value [x] replaced by [val x] *)
Definition lc (k : cut S) : cut T := match k with BelowAll => BelowAll | BelowV x => BelowV (val x) | AboveV x => AboveV (val x) | AboveAll => AboveAll end.
Definition lr (r : range S) : range T := MkRange (lc (lower r)) (lc (upper r)).
Definition ld (d : list (cut S * range S)) : list (cut T * range T) := map (fun p => (lc (fst p), lr (snd p))) d.
Definition lop (o : op S) : op T :=
  match o with Add r => Add (lr r) | AddAll l => AddAll (map lr l) | Clear => Clear | Remove r => Remove (lr r) | RemoveAll l => RemoveAll (map lr l) end.
Definition lout (p : list (cut S * range S) * res unit) : list (cut T * range T) * res unit := (ld (fst p), snd p).

Lemma l_cmp a b : pcompare_to lt (lc a) (lc b) = pcompare_to lt0 a b.
Proof. destruct a, b; cbn; unfold by_endpoint; rewrite ?Hlt; reflexivity. Qed.
Lemma l_lt a b : pcut_lt lt (lc a) (lc b) = pcut_lt lt0 a b.
Proof. unfold pcut_lt. now rewrite l_cmp. Qed.
Lemma l_le a b : pcut_le lt (lc a) (lc b) = pcut_le lt0 a b.
Proof. unfold pcut_le. now rewrite l_cmp. Qed.
Lemma l_eq a b : pcut_eq eq (lc a) (lc b) = pcut_eq eq0 a b.
Proof. destruct a, b; cbn; rewrite ?Heq; reflexivity. Qed.
Lemma l_empty r : pis_empty eq (lr r) = pis_empty eq0 r.
Proof. unfold pis_empty. cbn [lr lower upper]. apply l_eq. Qed.
Lemma l_req a b : prange_eq eq (lr a) (lr b) = prange_eq eq0 a b.
Proof. unfold prange_eq. cbn [lr lower upper]. now rewrite !l_eq. Qed.
Lemma l_mk a b : pmk_range lt (lc a) (lc b) = rmp lr (pmk_range lt0 a b).
Proof. unfold pmk_range. rewrite l_le. destruct (pcut_le lt0 a b) as [[|]|e]; cbn [bind]; [| |reflexivity]; destruct a, b; reflexivity. Qed.
Lemma l_keys d : sd_keys (ld d) = map lc (sd_keys d).
Proof. unfold sd_keys, ld. rewrite !map_map. reflexivity. Qed.
Lemma l_bl ks k : pbisect_left lt (map lc ks) (lc k) = pbisect_left lt0 ks k.
Proof. induction ks as [|k' ks IH]; [reflexivity|]. cbn [map pbisect_left]. rewrite l_lt. destruct (pcut_lt lt0 k' k) as [[|]|e]; cbn [bind]; [now rewrite IH| |]; reflexivity. Qed.
Lemma l_br ks k : pbisect_right lt (map lc ks) (lc k) = pbisect_right lt0 ks k.
Proof. induction ks as [|k' ks IH]; [reflexivity|]. cbn [map pbisect_right]. rewrite l_lt. destruct (pcut_lt lt0 k k') as [[|]|e]; cbn [bind]; [|now rewrite IH|]; reflexivity. Qed.
Lemma l_get d k : psd_get eq (ld d) (lc k) = rmp lr (psd_get eq0 d k).
Proof. induction d as [|(k', v) d IH]; [reflexivity|]. cbn [ld map psd_get fst snd]. rewrite l_eq. destruct (pcut_eq eq0 k' k); [reflexivity|exact IH]. Qed.
Lemma l_without d k : without eq (ld d) (lc k) = rmp ld (without eq0 d k).
Proof.
  induction d as [|(k', v) d IH]; [reflexivity|]. change (ld ((k', v) :: d)) with ((lc k', lr v) :: ld d). cbn [without]. rewrite l_eq. destruct (pcut_eq eq0 k' k); [reflexivity|]. rewrite IH. destruct (without eq0 d k); reflexivity.
Qed.
Lemma l_del d k : psd_del lt eq (ld d) (lc k) = lout (psd_del lt0 eq0 d k).
Proof. unfold psd_del. rewrite l_without, l_keys, l_bl. destruct (without eq0 d k) as [d'|e]; cbn [rmp]; [|reflexivity]. destruct (pbisect_left lt0 (sd_keys d) k); reflexivity. Qed.
Lemma l_replace d k v : replace_value eq (ld d) (lc k) (lr v) = option_map ld (replace_value eq0 d k v).
Proof.
  induction d as [|(k', v') d IH]; [reflexivity|]. change (ld ((k', v') :: d)) with ((lc k', lr v') :: ld d). cbn [replace_value]. rewrite l_eq. destruct (pcut_eq eq0 k' k); [reflexivity|]. rewrite IH. destruct (replace_value eq0 d k v); reflexivity.
Qed.
Lemma l_set d k v : psd_set lt eq (ld d) (lc k) (lr v) = lout (psd_set lt0 eq0 d k v).
Proof.
  unfold psd_set. rewrite l_replace, l_keys, l_br. destruct (replace_value eq0 d k v) as [d'|]; cbn [option_map]; [reflexivity|]. destruct (pbisect_right lt0 (sd_keys d) k) as [i|e]; [|reflexivity]. unfold lout, ld. cbn [fst snd]. now rewrite map_app, firstn_map, skipn_map.
Qed.
Lemma l_between ks a b : pbetween lt (map lc ks) (lc a) (lc b) = rmp (map lc) (pbetween lt0 ks a b).
Proof.
  induction ks as [|k ks IH]; [reflexivity|]. cbn [map pbetween]. rewrite l_le. destruct (pcut_le lt0 a k) as [[|]|e]; cbn [bind]; [rewrite l_lt; destruct (pcut_lt lt0 k b) as [[|]|e]; cbn [bind]| |reflexivity]; try reflexivity; rewrite IH; destruct (pbetween lt0 ks a b); reflexivity.
Qed.
Lemma l_item {A B} (f : A -> B) l i : getitem (map f l) i = rmp f (getitem l i).
Proof. unfold getitem. rewrite nth_error_map. destruct (nth_error l i); reflexivity. Qed.
Lemma l_len d : length (ld d) = length d. Proof. apply map_length. Qed.
Lemma l_at d i : pat_index eq (ld d) i = rmp lr (pat_index eq0 d i).
Proof. unfold pat_index. rewrite l_keys, l_item. destruct (getitem (sd_keys d) i) as [k|e]; cbn [bind rmp]; [apply l_get|reflexivity]. Qed.
Lemma l_below d k : pvalue_below lt eq (ld d) (lc k) = rmp (option_map lr) (pvalue_below lt0 eq0 d k).
Proof.
  unfold pvalue_below. rewrite l_keys, l_bl, l_len. destruct (pbisect_left lt0 (sd_keys d) k) as [[|i]|e]; cbn [bind]; [reflexivity| |reflexivity]. cbv zeta. generalize (if length d <=? i then length d - 1 else i). intros j.
  rewrite l_item. destruct (getitem (sd_keys d) j) as [k'|e]; cbn [bind rmp]; [|reflexivity]. rewrite l_get. destruct (psd_get eq0 d k'); reflexivity.
Qed.
Lemma l_aob d k : pvalue_at_or_below lt eq (ld d) (lc k) = rmp (option_map lr) (pvalue_at_or_below lt0 eq0 d k).
Proof.
  destruct d as [|p d]; [reflexivity|]. unfold pvalue_at_or_below. set (dd := p :: d). change (match ld dd with [] => _ | _ :: _ => ?x end) with x. rewrite l_keys, l_bl. destruct (pbisect_left lt0 (sd_keys dd) k) as [i|e]; cbn [bind]; [|reflexivity]. cbv zeta.
  rewrite nth_error_map. destruct (nth_error (sd_keys dd) i) as [k'|]; cbn [option_map]; [rewrite l_eq; destruct (negb (pcut_eq eq0 k k'))|].
  2: rewrite l_get; destruct (psd_get eq0 dd k); reflexivity.
  all: destruct i as [|i]; [reflexivity|]; rewrite l_item; destruct (getitem (sd_keys dd) i) as [k2|e]; cbn [bind rmp]; [|reflexivity]; rewrite l_get; destruct (psd_get eq0 dd k2); reflexivity.
Qed.
Lemma l_dels ks : forall d, del_each lt eq (map lc ks) (ld d) = lout (del_each lt0 eq0 ks d).
Proof. induction ks as [|k ks IH]; intros d; [reflexivity|]. cbn [map del_each]. rewrite l_del. destruct (psd_del lt0 eq0 d k) as (d', [u|e]); cbn [lout fst snd]; [apply IH|reflexivity]. Qed.
Lemma l_clear d a b : pclear_keys lt eq (ld d) (lc a) (lc b) = lout (pclear_keys lt0 eq0 d a b).
Proof. unfold pclear_keys. rewrite l_keys, l_between. destruct (pbetween lt0 (sd_keys d) a b) as [ks|e]; cbn [rmp]; [apply l_dels|reflexivity]. Qed.
Lemma l_replace_range d r : preplace_range lt eq (ld d) (lr r) = lout (preplace_range lt0 eq0 d r).
Proof. unfold preplace_range. rewrite l_empty. destruct (pis_empty eq0 r); [apply l_del|apply l_set]. Qed.
Lemma l_bounds d r : bounds_to_add lt eq (ld d) (lr r) = rmp (option_map (fun p => (lc (fst p), lc (snd p)))) (bounds_to_add lt0 eq0 d r).
Proof.
  unfold bounds_to_add. cbn [lr lower upper]. rewrite l_below. destruct (pvalue_below lt0 eq0 d (lower r)) as [bl|e]; cbn [rmp bind]; [|reflexivity].
  assert (H : forall hit : option (range S),
    (let* contained := match option_map lr hit with Some b => pcut_lt lt (lc (upper r)) (upper b) | None => Ok false end in
     if (contained : bool) then Ok None else
     let lb := match option_map lr hit with Some b => lower b | None => lc (lower r) end in
     let* below_ub := pvalue_at_or_below lt eq (ld d) (lc (upper r)) in
     let* over := match below_ub with Some b => let* x := pcut_lt lt (lc (upper r)) (upper b) in Ok (if (x : bool) then Some b else None) | None => Ok None end in
     Ok (Some (lb, match over with Some b => upper b | None => lc (upper r) end))) =
    rmp (option_map (fun p => (lc (fst p), lc (snd p))))
    (let* contained := match hit with Some b => pcut_lt lt0 (upper r) (upper b) | None => Ok false end in
     if (contained : bool) then Ok None else
     let lb := match hit with Some b => lower b | None => lower r end in
     let* below_ub := pvalue_at_or_below lt0 eq0 d (upper r) in
     let* over := match below_ub with Some b => let* x := pcut_lt lt0 (upper r) (upper b) in Ok (if (x : bool) then Some b else None) | None => Ok None end in
     Ok (Some (lb, match over with Some b => upper b | None => upper r end)))).
  { intros hit.
    assert (J : forall lb, (let* below_ub := pvalue_at_or_below lt eq (ld d) (lc (upper r)) in
     let* over := match below_ub with Some b => let* x := pcut_lt lt (lc (upper r)) (upper b) in Ok (if (x : bool) then Some b else None) | None => Ok None end in
     Ok (Some (lc lb, match over with Some b => upper b | None => lc (upper r) end))) = rmp (option_map (fun p => (lc (fst p), lc (snd p))))
     (let* below_ub := pvalue_at_or_below lt0 eq0 d (upper r) in
     let* over := match below_ub with Some b => let* x := pcut_lt lt0 (upper r) (upper b) in Ok (if (x : bool) then Some b else None) | None => Ok None end in
     Ok (Some (lb, match over with Some b => upper b | None => upper r end)))).
    { intros lb. rewrite l_aob. destruct (pvalue_at_or_below lt0 eq0 d (upper r)) as [[b|]|e]; cbn [rmp option_map bind]; [|reflexivity|reflexivity]. cbn [lr upper]. rewrite l_lt. destruct (pcut_lt lt0 (upper r) (upper b)) as [[|]|e]; reflexivity. }
    destruct hit as [b|]; cbn [option_map]; [|cbn [bind]; apply J]. cbn [lr upper lower]. rewrite l_lt. destruct (pcut_lt lt0 (upper r) (upper b)) as [[|]|e]; cbn [bind]; [reflexivity|apply J|reflexivity]. }
  destruct bl as [b|]; cbn [option_map bind]; [|exact (H None)]. cbn [lr upper]. rewrite l_le. destruct (pcut_le lt0 (lower r) (upper b)) as [[|]|e]; cbn [bind]; [exact (H (Some b))|exact (H None)|reflexivity].
Qed.
Lemma l_add d r : padd lt eq (ld d) (lr r) = lout (padd lt0 eq0 d r).
Proof.
  unfold padd. rewrite l_empty, l_bounds. destruct (pis_empty eq0 r); [reflexivity|]. destruct (bounds_to_add lt0 eq0 d r) as [[(lb, ub)|]|e]; cbn [rmp option_map fst snd]; [|reflexivity|reflexivity].
  rewrite l_clear. destruct (pclear_keys lt0 eq0 d lb ub) as (d', [u|e]); cbn [lout fst snd]; [|reflexivity]. rewrite l_mk. destruct (pmk_range lt0 lb ub) as [r'|e]; cbn [rmp]; [apply l_replace_range|reflexivity].
Qed.
Lemma l_add_all l : forall d, padd_all lt eq (ld d) (map lr l) = lout (padd_all lt0 eq0 d l).
Proof. induction l as [|r l IH]; intros d; [reflexivity|]. cbn [map padd_all]. rewrite l_add. destruct (padd lt0 eq0 d r) as (d', [u|e]); cbn [lout fst snd]; [apply IH|reflexivity]. Qed.
Lemma l_step d o : pstep lt eq (ld d) (lop o) = lout (pstep lt0 eq0 d o).
Proof. destruct o as [r|l| |r|[|r l]]; cbn [lop pstep map]; [apply l_add|apply l_add_all| |reflexivity|reflexivity|reflexivity]. exact (l_clear d BelowAll AboveAll). Qed.
Lemma l_run ops : prun lt eq (map lop ops) = ld (prun lt0 eq0 ops).
Proof.
  unfold prun. assert (H : forall d, fold_left (fun d o => fst (pstep lt eq d o)) (map lop ops) (ld d) = ld (fold_left (fun d o => fst (pstep lt0 eq0 d o)) ops d)).
  { induction ops as [|o ops IH]; intros d; [reflexivity|]. cbn [map fold_left]. rewrite l_step. cbn [lout fst]. apply IH. }
  exact (H []).
Qed.
(** Maps *)
Context {V : Type}.
Definition lm (d : list (range S * V)) : list (range T * V) := map (fun p => (lr (fst p), snd p)) d.
Lemma l_iset d k v : pidict_set eq (lm d) (lr k) v = lm (pidict_set eq0 d k v).
Proof. induction d as [|(k', v') d IH]; [reflexivity|]. change (lm ((k', v') :: d)) with ((lr k', v') :: lm d). cbn [pidict_set]. rewrite l_req. destruct (prange_eq eq0 k' k); [reflexivity|]. now rewrite IH. Qed.
Lemma l_iof pairs : pidict_of eq (lm pairs) = lm (pidict_of eq0 pairs).
Proof.
  unfold pidict_of. assert (H : forall d, fold_left (fun d kv => pidict_set eq d (fst kv) (snd kv)) (lm pairs) (lm d) = lm (fold_left (fun d kv => pidict_set eq0 d (fst kv) (snd kv)) pairs d)).
  { induction pairs as [|(k, v) pairs IH]; intros d; [reflexivity|]. cbn [lm map fold_left fst snd]. rewrite l_iset. apply IH. }
  exact (H []).
Qed.
Lemma l_iget d k : pidict_get eq (lm d) (lr k) = pidict_get eq0 d k.
Proof. induction d as [|(k', v) d IH]; [reflexivity|]. cbn [lm map pidict_get fst snd]. rewrite l_req. destruct (prange_eq eq0 k' k); [reflexivity|exact IH]. Qed.
Lemma l_map pairs : pimmutablerangemap lt eq (lm pairs) = rmp (fun m => MkMap (lm (rng_to_val m)) (ld (range_set m))) (pimmutablerangemap lt0 eq0 pairs).
Proof.
  unfold pimmutablerangemap. rewrite l_iof. assert (E : map fst (lm (pidict_of eq0 pairs)) = map lr (map fst (pidict_of eq0 pairs))) by (unfold lm; rewrite !map_map; reflexivity). rewrite E. change (@nil (cut T * range T)) with (ld []). rewrite l_add_all.
  destruct (padd_all lt0 eq0 [] (map fst (pidict_of eq0 pairs))) as (rs, [u|e]); cbn [lout fst snd]; [|reflexivity]. rewrite l_len. unfold lm at 1. rewrite map_length. destruct (length (pidict_of eq0 pairs) =? length rs); reflexivity.
Qed.
End Lift.

(** ** Specification *)
Section Nan.
Context {S T : Type} {O : TotalOrder S}.
(** The values of type [T] (floats, say) are those of a totally ordered type [S] (floats without NaN) and others; [lt] and [eq] are Python's [<] and [==]. *)
Variable val : S -> T.
Variables (lt : T -> T -> res bool) (eq : T -> T -> bool).
Definition ordered_values : Prop := forall a b, lt (val a) (val b) = Ok (ltb a b) /\ eq (val a) (val b) = eqb a b.
(** [q] is not less than, greater than or equal to any of the values of [S]. *)
Definition nan (q : T) : Prop := forall a, lt q (val a) = Ok false /\ lt (val a) q = Ok false /\ eq q (val a) = false /\ eq (val a) q = false.
(** a set built by calls with ranges over [S] *)
Definition built (d : list (cut T * range T)) : Prop := exists ops : list (op S), history ops /\ d = prun lt eq (map (lop val) ops).

(** ** Proofs *)
Hypothesis OV : ordered_values.
Notation lt0 := (typed_lt (fun _ : S => 0)).
Lemma Hlt0 : forall a b, lt (val a) (val b) = lt0 a b. Proof. intros a b. exact (proj1 (OV a b)). Qed.
Lemma Heq0 : forall a b, eq (val a) (val b) = eqb a b. Proof. intros a b. exact (proj2 (OV a b)). Qed.
Lemma made0 (r : range S) : factory_made r -> made (fun _ => 0) r.
Proof. intros F. apply C115_made. split; [exact F|reflexivity]. Qed.
Lemma built_spec d : built d -> exists rs, d = ld val (map kv rs) /\ WF rs.
Proof.
  intros (ops & H & ->). rewrite (l_run val lt0 eqb lt eq Hlt0 Heq0). assert (M : Forall (made_op (fun _ => 0)) ops) by (revert H; apply Forall_impl; intros o; apply Forall_impl; exact made0).
  destruct (prun_fine (fun _ => 0) ops M) as (rs & -> & W & _). exists rs. split; [reflexivity|exact W].
Qed.
Section Q.
Variable q : T.
Hypothesis N : nan q.
Lemma below_q k : k <> AboveAll -> pcut_lt lt (lc val k) (BelowV q) = Ok (is_below_all k).
Proof. intros A. destruct k as [|a|a|]; unfold pcut_lt; cbn; unfold by_endpoint; [reflexivity| | |now elim A]; destruct (N a) as (-> & -> & _); reflexivity. Qed.
Lemma above_q k : k <> AboveAll -> (forall x, k <> AboveV x) -> pcut_lt lt (lc val k) (AboveV q) = Ok true.
Proof. intros A B. destruct k as [|a|a|]; unfold pcut_lt; cbn; unfold by_endpoint; [reflexivity| |now elim (B a)|now elim A]; destruct (N a) as (-> & -> & _); reflexivity. Qed.
Lemma in_q r : upper r <> BelowAll -> lower r <> AboveAll -> pcontains lt eq (lr val r) q = Ok (is_below_all (lower r)).
Proof.
  intros U L. unfold pcontains. cbn [lr lower upper]. destruct (lower r) as [|a|a|]; cbn [lc pis_less_than bind is_below_all].
  - destruct (upper r) as [|b|b|]; cbn [lc pis_less_than bind]; [now elim U| | |reflexivity]; destruct (N b) as (_ & -> & _ & E); cbn [bind negb]; [rewrite E|]; reflexivity.
  - destruct (N a) as (_ & -> & _ & E). cbn [bind]. rewrite E. reflexivity.
  - destruct (N a) as (_ & -> & _). reflexivity.
  - now elim L.
Qed.
Lemma wf_bounds (rs : list (range S)) r : WF rs -> In r rs -> lower r <> AboveAll /\ upper r <> BelowAll.
Proof. intros W J. destruct (wf_good _ _ W J) as [V _]. apply valid_spec in V. destruct V as (_ & A & B). split; intros E; rewrite E in *; vm_compute in A, B; discriminate. Qed.
Lemma wf_tail (m : range S) l r : WF (m :: l) -> In r l -> lower r <> BelowAll.
Proof. intros [_ SS] J E. inversion SS as [|? ? _ HF]; subst. rewrite Forall_forall in HF. specialize (HF r J). unfold before in HF. rewrite E in HF. destruct (upper m); vm_compute in HF; discriminate. Qed.
Lemma keys_l rs : sd_keys (ld val (map kv rs)) = map (lc val) (map lower rs).
Proof. now rewrite l_keys, keys_kv. Qed.
Lemma values_l rs : sd_values (ld val (map kv rs)) = map (lr val) rs.
Proof. unfold sd_values, ld. rewrite !map_map. reflexivity. Qed.
Lemma bisect_q (m : range S) l : WF (m :: l) -> pbisect_left lt (sd_keys (ld val (map kv (m :: l)))) (BelowV q) = Ok (if is_below_all (lower m) then 1 else 0).
Proof.
  intros W. rewrite keys_l. cbn [map pbisect_left]. rewrite below_q by (apply (wf_bounds (m :: l) m W); now left). cbn [bind]. destruct (is_below_all (lower m)); [|reflexivity]. destruct l as [|m2 l]; [reflexivity|]. cbn [map pbisect_left].
  rewrite below_q by (apply (wf_bounds (m :: m2 :: l) m2 W); right; now left). assert (B := wf_tail m (m2 :: l) m2 W (or_introl eq_refl)). destruct (lower m2); [now elim B| | |]; reflexivity.
Qed.
Lemma get_first m l : WF (m :: l) -> psd_get eq (ld val (map kv (m :: l))) (lc val (lower m)) = Ok (lr val m).
Proof. intros W. rewrite (l_get val eqb eq Heq0). cbn [map psd_get kv fst]. rewrite peq_ok. unfold cut_eq. destruct (lower m) as [|a|a|]; cbn; rewrite ?eqb_refl; reflexivity. Qed.
Lemma aob_q (m : range S) l : WF (m :: l) -> pvalue_at_or_below lt eq (ld val (map kv (m :: l))) (BelowV q) = Ok (if is_below_all (lower m) then Some (lr val m) else None).
Proof.
  intros W. unfold pvalue_at_or_below. assert (B := bisect_q m l W). set (d := ld val (map kv (m :: l))) in *. change (match d with [] => _ | _ :: _ => ?x end) with x. rewrite B. cbn [bind]. cbv zeta.
  assert (D : forall i, match nth_error (sd_keys d) i with None => true | Some k' => negb (pcut_eq eq (BelowV q) k') end = true).
  { intros i. unfold d. rewrite keys_l, nth_error_map. destruct (nth_error (map lower (m :: l)) i) as [k|]; [|reflexivity]. destruct k as [|a|a|]; cbn; try reflexivity. destruct (N a) as (_ & _ & -> & _). reflexivity. }
  rewrite D. destruct (is_below_all (lower m)); [|reflexivity]. assert (G : getitem (sd_keys d) 0 = Ok (lc val (lower m))) by (unfold d; rewrite keys_l; reflexivity). rewrite G. cbn [bind]. unfold d. rewrite (get_first m l W). reflexivity.
Qed.
Lemma set_q rs : WF rs -> let d := ld val (map kv rs) in
  exists o, prange_containing lt eq d q = Ok o /\ prightmost lt eq d q = Ok o /\ pset_contains lt eq d q = Ok (match o with Some _ => true | None => false end) /\
    forall r, o = Some r <-> In r (sd_values d) /\ lower r = BelowAll.
Proof.
  intros W d. destruct rs as [|m l]; [exists None; repeat split; try reflexivity; [discriminate|discriminate|intros ([] & _)]|].
  exists (if is_below_all (lower m) then Some (lr val m) else None). unfold prange_containing, prightmost, pset_contains, d. rewrite (aob_q m l W). cbn [bind]. destruct (wf_bounds _ m W (or_introl eq_refl)) as (A & B).
  assert (I := in_q m B A). split; [destruct (is_below_all (lower m)) eqn:E; [rewrite I; reflexivity|reflexivity]|]. split; [reflexivity|]. split; [destruct (is_below_all (lower m)) eqn:E; [exact I|reflexivity]|].
  intros r. rewrite values_l. split.
  - destruct (lower m) eqn:E; intros X; try discriminate X. injection X as <-. split; [now left|]. cbn [lr lower]. now rewrite E.
  - intros (J & E). apply in_map_iff in J. destruct J as (r0 & <- & J). cbn [lr lower] in E. assert (E0 : lower r0 = BelowAll) by (destruct (lower r0); [reflexivity|discriminate|discriminate|discriminate]). destruct J as [<-|J]; [rewrite E0; reflexivity|exfalso; exact (wf_tail m l r0 W J E0)].
Qed.
Lemma halve_split (l1 l2 : list (cut T)) k : (forall a, In a l1 -> pcut_lt lt a k = Ok true) -> (forall a, In a l2 -> pcut_lt lt a k = Ok false) ->
  forall fuel lo hi, lo <= length l1 -> length l1 <= hi -> hi <= length (l1 ++ l2) -> hi - lo <= fuel -> halve_left lt fuel (l1 ++ l2) k lo hi = Ok (length l1).
Proof.
  clear. intros A B. induction fuel as [|fuel IH]; intros lo hi H1 H2 H3 H4; cbn [halve_left]; [f_equal; lia|].
  destruct (Nat.ltb_spec lo hi) as [L|L]; [|f_equal; lia]. cbv zeta. set (mid := (lo + hi) / 2). assert (M : lo <= mid < hi) by (unfold mid; split; [apply Nat.div_le_lower_bound|apply Nat.div_lt_upper_bound]; lia). clearbody mid.
  unfold getitem. destruct (nth_error (l1 ++ l2) mid) as [a|] eqn:E; [|exfalso; apply nth_error_None in E; lia]. cbn [bind].
  destruct (Nat.lt_ge_cases mid (length l1)) as [Q|Q].
  - rewrite nth_error_app1 in E by exact Q. rewrite (A a (nth_error_In _ _ E)). cbn [bind]. apply IH; lia.
  - rewrite nth_error_app2 in E by exact Q. rewrite (B a (nth_error_In _ _ E)). cbn [bind]. apply IH; lia.
Qed.
Lemma halve_q rs : WF rs -> let ks := sd_keys (ld val (map kv rs)) in halve_left lt (length ks) ks (BelowV q) 0 (length ks) = pbisect_left lt ks (BelowV q).
Proof.
  intros W ks. destruct rs as [|m l]; [reflexivity|]. unfold ks at 4. rewrite (bisect_q m l W). unfold ks. rewrite keys_l. clear ks.
  assert (F : forall a, In a (map (lc val) (map lower l)) -> pcut_lt lt a (BelowV q) = Ok false).
  { intros a J. rewrite map_map in J. apply in_map_iff in J. destruct J as (r & <- & J). rewrite below_q by (apply (wf_bounds (m :: l) r W); now right). assert (B := wf_tail m l r W J). destruct (lower r); [now elim B| | |]; reflexivity. }
  assert (H := below_q (lower m) (proj1 (wf_bounds (m :: l) m W (or_introl eq_refl)))). cbn [map]. destruct (is_below_all (lower m)) eqn:E.
  - apply (halve_split [lc val (lower m)]); [intros a [<-|[]]; rewrite H; reflexivity|exact F| | | |]; cbn [length app]; lia.
  - apply (halve_split [] (lc val (lower m) :: map (lc val) (map lower l))); [intros a []|intros a [<-|J]; [rewrite H; reflexivity|exact (F a J)]| | | |]; cbn [length app]; lia.
Qed.
Lemma bisect_all rs : WF rs -> (forall r x, In r rs -> lower r <> AboveV x) -> let ks := sd_keys (ld val (map kv rs)) in
  pbisect_left lt ks (AboveV q) = Ok (length rs) /\ halve_left lt (length ks) ks (AboveV q) 0 (length ks) = Ok (length rs).
Proof.
  intros W Cl ks. assert (F : forall a, In a ks -> pcut_lt lt a (AboveV q) = Ok true).
  { intros a J. unfold ks in J. rewrite keys_l, map_map in J. apply in_map_iff in J. destruct J as (r & <- & J). apply above_q; [exact (proj1 (wf_bounds rs r W J))|exact (fun x => Cl r x J)]. }
  assert (L : length rs = length ks) by (unfold ks; rewrite keys_l, !map_length; reflexivity). rewrite L. clear L. split.
  - clearbody ks. clear -F. induction ks as [|k ks IH]; [reflexivity|]. cbn [pbisect_left length]. rewrite (F k (or_introl eq_refl)). cbn [bind]. rewrite IH; [reflexivity|]. intros a J. apply F. now right.
  - rewrite <- (app_nil_r ks) at 2. apply halve_split; [exact F|intros a []| | | |]; rewrite ?app_length; cbn; lia.
Qed.
Lemma leftmost_q rs m : WF (rs ++ [m]) -> (forall r x, In r (rs ++ [m]) -> lower r <> AboveV x) -> pleftmost lt eq (ld val (map kv (rs ++ [m]))) q = Ok (match upper m with BelowV _ => None | _ => Some (lr val m) end).
Proof.
  intros W Cl. unfold pleftmost. rewrite (proj1 (bisect_all _ W Cl)). rewrite app_length, Nat.add_comm. cbn [length Nat.add bind]. rewrite (l_at val eqb eq Heq0).
  assert (G : pat_index eqb (map kv (rs ++ [m])) (length rs) = Ok m).
  { unfold pat_index, getitem. rewrite keys_kv, map_app. cbn [map]. replace (length rs) with (length (map lower rs)) by apply map_length. rewrite nth_error_app2, Nat.sub_diag by apply Nat.le_refl. cbn [nth_error bind]. rewrite get_ok. apply sd_get_kv; [exact W|apply in_or_app; right; now left]. }
  rewrite G. cbn [rmp bind]. unfold pcut_le. destruct (wf_bounds (rs ++ [m]) m W (in_or_app rs [m] m (or_intror (or_introl eq_refl)))) as (_ & B). cbn [lr upper].
  assert (Ln : (1 + length rs <? length (ld val (map kv (rs ++ [m])))) = false) by (apply Nat.ltb_ge; rewrite l_len, map_length, app_length; cbn; lia).
  change (Datatypes.S (length rs)) with (1 + length rs). destruct (upper m) as [|b|b|]; [now elim B| | |]; cbn [lc pcompare_to]; unfold by_endpoint; try (destruct (N b) as (-> & -> & _)); cbn [bind]; rewrite ?Ln; reflexivity.
Qed.
End Q.
End Nan.

(** ** Theorems *)
Section Theorems.
Context {S T V : Type} {O : TotalOrder S}.
Variable val : S -> T.
Variables (lt : T -> T -> res bool) (eq : T -> T -> bool).
Notation no_lower_bound r := (lower r = BelowAll) (only parsing).
(** C122: NaN is in a range set exactly if it is in one of its ranges, which are those without lower bound (whatever the upper bound): there is at most one.  range_containing gives it,
    and so does rightmost_containing_or_below. *)
Theorem C122_contains : forall d q, ordered_values val lt eq -> nan val lt eq q -> built val lt eq d ->
  (forall r, In r (sd_values d) -> exists b, pcontains lt eq r q = Ok b /\ (b = true <-> no_lower_bound r)) /\
  exists o, prange_containing lt eq d q = Ok o /\ prightmost lt eq d q = Ok o /\ pset_contains lt eq d q = Ok (match o with Some _ => true | None => false end) /\
    forall r, o = Some r <-> In r (sd_values d) /\ pcontains lt eq r q = Ok true.
Proof.
  intros d q OV N B. destruct (built_spec val lt eq OV d B) as (rs & -> & W).
  assert (P : forall r, In r (sd_values (ld val (map kv rs))) -> exists b, pcontains lt eq r q = Ok b /\ (b = true <-> no_lower_bound r)).
  { intros r J. rewrite values_l in J. apply in_map_iff in J. destruct J as (r0 & <- & J). destruct (wf_bounds rs r0 W J) as (A & U). exists (is_below_all (lower r0)). split; [exact (in_q val lt eq q N r0 U A)|]. cbn [lr lower]. destruct (lower r0); cbn; split; intros X; try reflexivity; discriminate. }
  split; [exact P|]. destruct (set_q val lt eq OV q N rs W) as (o & A & R & C & H). exists o. split; [exact A|]. split; [exact R|]. split; [exact C|]. intros r. rewrite (H r). split; intros (J & E); (split; [exact J|]); destruct (P r J) as (b & Eb & Hb).
  - rewrite Eb. f_equal. now apply Hb.
  - apply Hb. congruence.
Qed.
(** C122: the bisection that these questions rest on, as Python does it, finds the same place as the scan of the model. *)
Theorem C122_bisection : forall d q, ordered_values val lt eq -> nan val lt eq q -> built val lt eq d ->
  let ks := sd_keys d in halve_left lt (length ks) ks (BelowV q) 0 (length ks) = pbisect_left lt ks (BelowV q).
Proof. intros d q OV N B. destruct (built_spec val lt eq OV d B) as (rs & -> & W). exact (halve_q val lt eq q N rs W). Qed.
(** C122: that there are such values changes nothing else: the ranges of a set, and what it says about ordinary values, are as for the totally ordered values alone (C11-C15). *)
Theorem C122_ordinary : forall ops, ordered_values val lt eq -> history ops -> let d := prun lt eq (map (lop val) ops) in
  sd_values d = map (lr val) (as_ranges (run ops)) /\ forall x, pset_contains lt eq d (val x) = rs_contains (run ops) x.
Proof.
  intros ops OV H. cbv zeta. rewrite (l_run val (typed_lt (fun _ : S => 0)) eqb lt eq (Hlt0 val lt eq OV) (Heq0 val lt eq OV)).
  assert (M : Forall (made_op (fun _ : S => 0)) ops) by (revert H; apply Forall_impl; intros o; apply Forall_impl; exact made0).
  assert (E : prun (typed_lt (fun _ : S => 0)) eqb ops = run ops).
  { induction ops as [|o ops IH] using rev_ind; [reflexivity|]. apply Forall_app in H, M. destruct H as [H1 H2], M as [M1 M2]. assert (C := C115_call (fun _ : S => 0) ops o M1 (Forall_inv M2)). rewrite prun_snoc, run_snoc. rewrite (IH H1 M1) in C |- *.
    assert (Nc : forall s r, ~ clashes (fun _ : S => 0) s r) by (intros s r (m & x & y & _ & _ & _ & X); now apply X). destruct o as [r|l| |r|l]; cbn [right_call] in C.
    - destruct C as [(_ & d' & A & Q)|(_ & X & _)]; [rewrite Q; cbn; now rewrite A|now elim (Nc _ _ X)].
    - destruct C as [(d' & A & Q)|(a & r & b & d' & _ & _ & _ & X & _)]; [rewrite Q; cbn; now rewrite A|now elim (Nc _ _ X)].
    - rewrite C. cbn. destruct (run_state ops (history_ok ops H1)) as (rs & -> & (W & _) & _). now rewrite (clear_all rs W).
    - rewrite C. reflexivity.
    - destruct l; rewrite C; reflexivity. }
  assert (Q := proj1 (C115_questions (fun _ : S => 0) ops M)). cbv zeta in Q. rewrite E in *. split; [unfold as_ranges, sd_values, ld; rewrite !map_map; reflexivity|].
  intros x. destruct (Q x (fun _ _ _ _ => eq_refl)) as (<- & _). unfold pset_contains. change (BelowV (val x)) with (lc val (BelowV x)). rewrite (l_aob val (typed_lt (fun _ : S => 0)) eqb lt eq (Hlt0 val lt eq OV) (Heq0 val lt eq OV)).
  destruct (pvalue_at_or_below _ eqb (run ops) (BelowV x)) as [[r|]|e]; cbn [rmp option_map bind]; [|reflexivity|reflexivity].
  assert (L : forall c, pis_less_than lt eq (lc val c) (val x) = pis_less_than (typed_lt (fun _ : S => 0)) eqb c x) by (intros [|a|a|]; cbn; rewrite ?(Hlt0 val lt eq OV), ?(Heq0 val lt eq OV); reflexivity).
  unfold pcontains. cbn [lr lower upper]. rewrite !L. reflexivity.
Qed.
(** Expected: leftmost_containing_or_above gives the range that contains NaN, if there is one.  Refuted: if no range has an open lower bound, it gives the last range, or None if that one has an open upper bound;
    a range that contains NaN is then not given unless it is the only one. *)
Theorem C122_leftmost_refuted : forall d q l m, ordered_values val lt eq -> nan val lt eq q -> built val lt eq d -> sd_values d = l ++ [m] -> (forall r x, In r (sd_values d) -> lower r <> AboveV x) ->
  pleftmost lt eq d q = Ok (match upper m with BelowV _ => None | _ => Some m end) /\
  (let ks := sd_keys d in halve_left lt (length ks) ks (AboveV q) 0 (length ks) = pbisect_left lt ks (AboveV q)) /\
  forall r, In r (sd_values d) -> pcontains lt eq r q = Ok true -> l <> [] -> pleftmost lt eq d q <> Ok (Some r).
Proof.
  intros d q l m OV N B E Cl. destruct (built_spec val lt eq OV d B) as (rs & -> & W). rewrite values_l in *.
  assert (Cl0 : forall r x, In r rs -> lower r <> AboveV x) by (intros r x J X; apply (Cl (lr val r) (val x) (in_map _ _ _ J)); cbn [lr lower]; rewrite X; reflexivity).
  destruct rs as [|m0 rs0 _] using rev_ind; [destruct l; discriminate|]. rewrite map_app in E. cbn [map] in E. apply app_inj_tail in E. destruct E as (El & Em).
  assert (L := leftmost_q val lt eq OV q N rs0 m0 W Cl0). assert (L' : pleftmost lt eq (ld val (map kv (rs0 ++ [m0]))) q = Ok (match upper m with BelowV _ => None | _ => Some m end)) by (rewrite L, <- Em; cbn [lr upper]; destruct (upper m0); reflexivity).
  split; [exact L'|]. split; [destruct (bisect_all val lt eq q N _ W Cl0) as (B1 & B2); cbv zeta; rewrite B1; exact B2|].
  intros r J C Nl X. rewrite L' in X. assert (Er : r = m) by (destruct (upper m); congruence). subst r. clear X. rewrite <- Em in C.
  destruct (wf_bounds _ m0 W (in_or_app rs0 [m0] m0 (or_intror (or_introl eq_refl)))) as (A & U). rewrite (in_q val lt eq q N m0 U A) in C.
  destruct rs0 as [|r0 rs0]; [now elim Nl; rewrite <- El|]. cbn [app] in W. assert (T' := wf_tail r0 (rs0 ++ [m0]) m0 W (in_or_app rs0 [m0] m0 (or_intror (or_introl eq_refl)))). destruct (lower m0); [now elim T'|discriminate C|discriminate C|discriminate C].
Qed.
(** C122: range maps: m[nan] and get_from_rightmost_containing_or_below(nan) give the value of the key without lower bound, or None if there is no such key; nan in m says whether there is one. *)
Theorem C122_map : forall (pairs : list (range S * V)) m q, ordered_values val lt eq -> nan val lt eq q -> Forall factory_made (map fst pairs) -> pimmutablerangemap lt eq (lm val pairs) = Ok m ->
  exists o b, prm_getitem lt eq m q = Ok o /\ prm_rightmost lt eq m q = Ok o /\ prm_contains lt eq m q = Ok b /\
    (b = true <-> exists k, In k (map fst pairs) /\ no_lower_bound k) /\ (b = false -> o = None) /\
    forall k, In k (map fst pairs) -> no_lower_bound k -> o = last_value pairs k.
Proof.
  intros pairs m q OV N F H. rewrite (l_map val (typed_lt (fun _ : S => 0)) eqb lt eq (Hlt0 val lt eq OV) (Heq0 val lt eq OV)) in H. destruct (pimmutablerangemap (typed_lt (fun _ : S => 0)) eqb pairs) as [m0|e] eqn:H0; cbn [rmp] in H; [|discriminate H]. injection H as <-.
  assert (M : Forall (made (fun _ : S => 0)) (map fst pairs)) by (revert F; apply Forall_impl; apply made0).
  destruct (made_fine (fun _ => 0) pairs m0 M H0) as (rs & -> & W & _ & I). cbn [rng_to_val range_set]. destruct (set_q val lt eq OV q N rs W) as (o & A & R & C & Ho). cbv zeta in A, R, C, Ho.
  unfold prm_getitem, prm_rightmost, prm_contains. cbn [range_set]. rewrite A, R, C. cbn [bind].
  assert (G : forall k : range S, pidict_get eq (lm val (idict_of pairs)) (lr val k) = match last_value pairs k with Some v => Ok v | None => Raise KeyError end).
  { intros k. rewrite (l_iget val eqb eq (Heq0 val lt eq OV)), pget_same. apply idict_of_get. }
  assert (X : forall k, In k (map fst pairs) -> no_lower_bound k -> o = Some (lr val k)).
  { intros k J E. apply Ho. rewrite values_l. split; [apply in_map; now apply I|]. cbn [lr lower]. now rewrite E. }
  destruct o as [r|].
  - destruct (proj1 (Ho r) eq_refl) as (J & E). rewrite values_l in J. apply in_map_iff in J. destruct J as (k & <- & J). cbn [lr lower] in E. assert (E0 : no_lower_bound k) by (destruct (lower k); [reflexivity|discriminate|discriminate|discriminate]). apply I in J.
    destruct (last_value_in pairs k J) as (v & Ev). exists (Some v), true. unfold pvalue_of. cbn [rng_to_val]. rewrite G, Ev. cbn [bind]. split; [reflexivity|]. split; [reflexivity|]. split; [reflexivity|]. split; [split; [exists k; split; [exact J|exact E0]|reflexivity]|]. split; [discriminate|].
    intros k' J' E'. assert (X' := X k' J' E'). assert (k' = k); [|congruence].     apply I in J, J'. destruct rs as [|r0 rs]; [destruct J|]. destruct J as [<-|J]; [|exfalso; exact (wf_tail r0 rs k W J E0)]. destruct J' as [<-|J']; [reflexivity|exfalso; exact (wf_tail r0 rs k' W J' E')].
  - exists None, false. cbn [pvalue_of]. split; [reflexivity|]. split; [reflexivity|]. split; [reflexivity|]. split; [split; [discriminate|intros (k & J & E); discriminate (X k J E)]|]. split; [reflexivity|]. intros k J E. discriminate (X k J E).
Qed.
End Theorems.

(** ** A concrete case: integers and a NaN *)
Definition lt122 (a b : option Z) : res bool := match a, b with Some x, Some y => Ok (x <? y)%Z | _, _ => Ok false end.
Definition eq122 (a b : option Z) : bool := match a, b with Some x, Some y => (x =? y)%Z | _, _ => false end.
Definition ops122 : list (op Z) := [Add (MkRange (BelowV 7%Z) (AboveV 8%Z)); AddAll [MkRange BelowAll (BelowV 5%Z); MkRange (BelowV 8%Z) (AboveV 9%Z)]].
Definition pairs122 : list (range Z * nat) := [(MkRange (BelowV 7%Z) (AboveV 8%Z), 3); (MkRange BelowAll (BelowV 5%Z), 1); (MkRange BelowAll (BelowV 5%Z), 2)].
Example C122_hypotheses : ordered_values Some lt122 eq122 /\ nan Some lt122 eq122 None /\ history ops122 /\ built Some lt122 eq122 (prun lt122 eq122 (map (lop Some) ops122)) /\
  Forall factory_made (map fst pairs122) /\ exists m, pimmutablerangemap lt122 eq122 (lm Some pairs122) = Ok m.
Proof.
  split; [intros a b; split; reflexivity|]. split; [intros a; repeat split|]. assert (H : history ops122) by (repeat (apply Forall_cons; [repeat (apply Forall_cons; [apply valid_factory; reflexivity|]); apply Forall_nil|]); apply Forall_nil). split; [exact H|]. split; [exists ops122; split; [exact H|reflexivity]|].
  split; [repeat (apply Forall_cons; [apply valid_factory; reflexivity|]); apply Forall_nil|]. eexists. vm_compute. reflexivity.
Qed.
Example C122_witness : let d := prun lt122 eq122 (map (lop Some) ops122) in
  sd_values d = [MkRange BelowAll (BelowV (Some 5%Z)); MkRange (BelowV (Some 7%Z)) (AboveV (Some 9%Z))] /\
  pset_contains lt122 eq122 d None = Ok true /\ prange_containing lt122 eq122 d None = Ok (Some (MkRange BelowAll (BelowV (Some 5%Z)))) /\
  pleftmost lt122 eq122 d None = Ok (Some (MkRange (BelowV (Some 7%Z)) (AboveV (Some 9%Z)))) /\ pset_contains lt122 eq122 d (Some 6%Z) = Ok false /\
  pset_contains lt122 eq122 (prun lt122 eq122 [Add (MkRange (BelowV (Some 7%Z)) AboveAll)]) None = Ok false /\
  (let* m := pimmutablerangemap lt122 eq122 (lm Some pairs122) in prm_getitem lt122 eq122 m None) = Ok (Some 2).
Proof. vm_compute. repeat split. Qed.
Print Assumptions C122_contains.
Print Assumptions C122_bisection.
Print Assumptions C122_ordinary.
Print Assumptions C122_leftmost_refuted.
Print Assumptions C122_map.
