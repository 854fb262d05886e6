From Coq Require Import Relations.
From Verif Require Import Prelude PyStr Params ParamsSpec ParamsProofs ParamsPairs ParamsGet Graph Interp InterpSpec InterpProofs InterpLoop.
From Verif Require GraphProps.

(** ** Reading the store back *)
Section Go.
Variable st : store.
Definition go_items (f : nat) : list (str * val) -> option data_t :=
  fix go (l : list (str * val)) : option data_t :=
    match l with
    | [] => Some []
    | (k, VLeaf v) :: r => match go r with Some d => Some ((k, v) :: d) | None => None end
    | (k, VDict id') :: r =>
        match expand f st id' with
        | None => None
        | Some x => match go r with Some d => Some ((k, PMap x) :: d) | None => None end
        end
    end.
Lemma expand_S f id : expand (S f) st id = go_items f (children st id).
Proof. reflexivity. Qed.
Lemma go_keys f l : forall d, go_items f l = Some d -> keys d = keys l.
Proof.
  induction l as [|[k [id|v]] l IH]; intros d E; simpl in E.
  - now injection E as <-.
  - destruct (expand f st id); [|discriminate]. destruct (go_items f l) eqn:G; [|discriminate]. injection E as <-. simpl. f_equal. auto.
  - destruct (go_items f l) eqn:G; [|discriminate]. injection E as <-. simpl. f_equal. auto.
Qed.
Lemma go_find f l : forall d, go_items f l = Some d -> forall k,
  match dfind l k with
  | None => dfind d k = None
  | Some (VLeaf v) => dfind d k = Some v
  | Some (VDict id) => exists x, expand f st id = Some x /\ dfind d k = Some (PMap x)
  end.
Proof.
  induction l as [|[k1 [id|v]] l IH]; intros d E k; simpl in E.
  - now injection E as <-.
  - destruct (expand f st id) as [x|] eqn:X; [|discriminate]. destruct (go_items f l) eqn:G; [|discriminate]. injection E as <-. simpl.
    destruct (str_eqb k1 k); [eauto|]. now apply IH.
  - destruct (go_items f l) eqn:G; [|discriminate]. injection E as <-. simpl. destruct (str_eqb k1 k); [eauto|]. now apply IH.
Qed.
Lemma go_none f l : go_items f l = None -> exists k id, In (k, VDict id) l /\ expand f st id = None.
Proof.
  induction l as [|[k1 [id|v]] l IH]; intros E; simpl in E.
  - discriminate.
  - destruct (expand f st id) as [x|] eqn:X; [|exists k1, id; simpl; auto]. destruct (go_items f l) eqn:G; [discriminate|].
    destruct IH as (k & id' & I & H); [reflexivity|]. exists k, id'. simpl; auto.
  - destruct (go_items f l) eqn:G; [discriminate|]. destruct IH as (k & id' & I & H); [reflexivity|]. exists k, id'. simpl; auto.
Qed.
Lemma go_some f l k id : In (k, VDict id) l -> expand f st id = None -> go_items f l = None.
Proof.
  induction l as [|[k1 [id1|v]] l IH]; intros I E; simpl in *; [tauto| |].
  - destruct I as [I|I].
    + injection I as -> ->. now rewrite E.
    + rewrite (IH I E). now destruct (expand f st id1).
  - destruct I as [I|I]; [discriminate|]. now rewrite (IH I E).
Qed.
Lemma expand_mono f : forall id x, expand f st id = Some x -> expand (S f) st id = Some x.
Proof.
  induction f as [|f IH]; intros id x E; [discriminate|]. rewrite expand_S in E |- *. revert x E. generalize (children st id).
  induction l as [|[k1 [id1|v]] l IHl]; intros x E; cbn [go_items] in E |- *.
  - assumption.
  - destruct (expand f st id1) as [y|] eqn:Y; [|discriminate]. rewrite (IH _ _ Y). destruct (go_items f l) as [d|] eqn:G; [|discriminate].
    now rewrite (IHl _ eq_refl).
  - destruct (go_items f l) as [d|] eqn:G; [|discriminate]. now rewrite (IHl _ eq_refl).
Qed.
Lemma expand_le f f' id x : f <= f' -> expand f st id = Some x -> expand f' st id = Some x.
Proof. induction 1; [auto|]. intros. apply expand_mono. auto. Qed.
Lemma expand_unique f f' id x x' : expand f st id = Some x -> expand f' st id = Some x' -> x = x'.
Proof.
  intros E E'. destruct (Nat.le_ge_cases f f') as [L|L].
  - apply (expand_le _ _ _ _ L) in E. congruence.
  - apply (expand_le _ _ _ _ L) in E'. congruence.
Qed.

(** Cycles. *)
Definition succ (id id' : list str) : Prop := exists k, In (id ++ [k], VDict id') st.
Lemma expand_none f id : expand (S f) st id = None <-> exists id', succ id id' /\ expand f st id' = None.
Proof.
  rewrite expand_S. split.
  - intros E. apply go_none in E. destruct E as (k & id' & I & E). exists id'. split; [|assumption]. exists k. now apply children_in.
  - intros (id' & (k & I) & E). apply children_in in I. eapply go_some; eauto.
Qed.
Fixpoint chain (id : list str) (l : list (list str)) : Prop :=
  match l with [] => True | id' :: r => succ id id' /\ chain id' r end.
Lemma none_chain f : forall id, expand f st id = None -> exists l, length l = f /\ chain id l.
Proof.
  induction f as [|f IH]; intros id E; [exists []; simpl; auto|]. apply expand_none in E. destruct E as (id' & S & E).
  destruct (IH _ E) as (l & L & C). exists (id' :: l). simpl. auto.
Qed.
Lemma chain_trans l1 : forall id id' l2, chain id (l1 ++ id' :: l2) -> clos_trans _ succ id id' /\ chain id' l2.
Proof.
  induction l1 as [|x l1 IH]; intros id id' l2 C; simpl in C.
  - destruct C. split; [now constructor|assumption].
  - destruct C as [S C]. destruct (IH _ _ _ C) as [T C2]. split; [|assumption]. eapply t_trans; [constructor; eassumption|assumption].
Qed.
Lemma rt_step_t id id' x : clos_refl_trans _ succ x id -> succ id id' -> clos_trans _ succ x id'.
Proof.
  intros R S. apply clos_rt_rt1n in R. induction R as [|x y z H R IH]; [now constructor|]. eapply t_trans; [constructor; eassumption|auto].
Qed.
Lemma cycle_none : forall f id, clos_trans _ succ id id -> expand f st id = None.
Proof.
  induction f as [|f IH]; intros id C; [reflexivity|]. apply expand_none. apply clos_trans_t1n in C.
  assert (exists id', succ id id' /\ clos_refl_trans _ succ id' id) as (id' & S & R).
  { inversion C as [? S|id' ? S R]; subst; [exists id; split; [assumption|apply rt_refl]|].
    exists id'. split; [assumption|]. apply clos_trans_t1n_iff in R. clear -R. induction R; [now apply rt_step|eapply rt_trans; eauto]. }
  exists id'. split; [assumption|]. apply IH. eapply rt_step_t; eauto.
Qed.
Lemma none_cycle (univ : list (list str)) : (forall id id', succ id id' -> In id' univ) ->
  forall id, expand (S (length univ)) st id = None -> exists c, clos_trans _ succ c c.
Proof.
  intros U id E. apply none_chain in E. destruct E as (l & L & C).
  assert (incl l univ) as I.
  { clear -U C. revert id C. induction l as [|x l IH]; intros id C; [intros y []|]. destruct C as [S C]. intros y [<-|H]; [eauto|]. eapply IH; eauto. }
  assert (~ NoDup l) as ND. { intros N. pose proof (NoDup_incl_length N I). lia. }
  apply (GraphProps.not_NoDup_ path_dec) in ND. destruct ND as (a & l1 & l2 & l3 & ->). apply chain_trans in C. destruct C as [_ C].
  apply chain_trans in C. destruct C as [C _]. eauto.
Qed.
End Go.

Section Final.
Variable is_word : N -> bool.
Variable ft : N -> bool.
Hypothesis pct_word : is_word pct = false.
Variable m : data_t.
Variable ctx : pv.
Let file := PMap m.
Hypothesis PL : plain file.
Hypothesis DL : forall k, nested_key file k -> dotless k.
Hypothesis WC : wf ctx.
Variable st : store.
Hypothesis F : final is_word ft m ctx st.
Notation Den := (Den is_word ft file ctx).

Lemma succ_holds q q' : succ st q q' <-> holds_ns is_word ft file ctx q q'.
Proof using F pct_word WC.
  destruct F as [S D]. split; intros (k & K); exists k.
  - apply (in_sfind _ _ _ (sh_nodup _ _ S)) in K. assert (q ++ [k] <> []) as Q by (now destruct q). destruct (view file (q ++ [k])) as [[|v]|] eqn:V.
    + rewrite (sh_ns _ _ S _ Q V) in K. injection K as <-. now constructor.
    + destruct (D _ _ V) as (w & E & Dw). rewrite E in K. injection K as <-. assumption.
    + rewrite (sh_none _ _ S _ Q V) in K. discriminate.
  - apply sfind_in. assert (q ++ [k] <> []) as Q by (now destruct q). destruct (view file (q ++ [k])) as [[|v]|] eqn:V.
    + rewrite (sh_ns _ _ S _ Q V). f_equal. eapply (Den_fun is_word ft); eauto. now constructor.
    + destruct (D _ _ V) as (w & E & Dw). rewrite E. f_equal. eapply (Den_fun is_word ft); eauto.
    + exfalso. inversion K; congruence.
Qed.
Lemma clos_holds q q' : clos_trans _ (succ st) q q' <-> clos_trans _ (holds_ns is_word ft file ctx) q q'.
Proof using F pct_word WC. split; induction 1; [constructor; now apply succ_holds|eapply t_trans; eauto|constructor; now apply succ_holds|eapply t_trans; eauto]. Qed.
Lemma succ_univ q q' : succ st q q' -> In q' ([] :: dom st).
Proof using F pct_word WC PL.
  intros H. apply succ_holds in H. destruct H as (k & D). assert (V := proj1 (Den_dict_all is_word ft m ctx PL WC) _ _ D). simpl in V.
  destruct q' as [|x q']; [simpl; auto|]. right. destruct F as [S _]. assert (E := sh_ns _ _ S (x :: q') ltac:(discriminate) V). apply sfind_in in E.
  apply in_map_iff. now exists (x :: q', VDict (x :: q')).
Qed.
Lemma expand_at q : forall q0 f d, view file (q0 ++ q) = Some Namespace -> view file q0 = Some Namespace -> expand f st q0 = Some d ->
  exists f' x, expand f' st (q0 ++ q) = Some x /\ forall p, view (PMap d) (q ++ p) = view (PMap x) p.
Proof using F.
  destruct F as [S _]. induction q as [|k q IH]; intros q0 f d V V0 E.
  - rewrite app_nil_r. exists f, d. auto.
  - destruct f as [|f]; [discriminate|]. rewrite expand_S in E. assert (view file (q0 ++ [k]) = Some Namespace) as V1.
    { destruct q as [|k2 q]; [assumption|]. apply (view_app _ _ (k2 :: q)); [rewrite <- app_assoc; simpl; congruence|discriminate]. }
    pose proof (go_find _ _ _ _ E k) as G. rewrite children_find, (sh_ns _ _ S) in G by (assumption || now destruct q0).
    destruct G as (x & X & G). destruct (IH (q0 ++ [k]) f x) as (f' & y & Y & H); [now rewrite <- app_assoc|assumption|assumption|].
    rewrite <- app_assoc in Y. exists f', y. split; [assumption|]. intros p. cbn [app view]. rewrite G. apply H.
Qed.
Lemma expand_interpolated f d : expand f st [] = Some d -> interpolated is_word ft file ctx (PMap d).
Proof using F PL WC.
  intros E. assert (view file [] = Some Namespace) as V0 by reflexivity. destruct (F) as [S D]. split; [|split].
  - intros q V. destruct (expand_at q [] f d V V0 E) as (f' & x & X & H). specialize (H []). rewrite app_nil_r in H. rewrite H. reflexivity.
  - intros q k V VN. destruct (expand_at q [] f d V V0 E) as (f' & x & X & H). rewrite H. destruct f' as [|f']; [discriminate|]. rewrite expand_S in X.
    pose proof (go_find _ _ _ _ X k) as G. rewrite children_find, (sh_none _ _ S) in G by (assumption || now destruct q). simpl. now rewrite G.
  - intros q v V. destruct (D _ _ V) as (w & Ew & Dw). exists w. split; [assumption|]. intros p.
    destruct q as [|k q] using rev_ind; [discriminate|clear IHq]. rewrite <- app_assoc. simpl ([k] ++ p).
    assert (view file q = Some Namespace) as Vq by (apply (view_app _ _ [k]); [congruence|discriminate]).
    destruct (expand_at q [] f d Vq V0 E) as (f' & x & X & H). rewrite H. destruct f' as [|f']; [discriminate|]. rewrite expand_S in X.
    pose proof (go_find _ _ _ _ X k) as G. rewrite children_find in G. simpl ([] ++ q) in G. rewrite Ew in G. destruct w as [q'|v'].
    + destruct G as (y & Y & G). assert (V' := proj1 (Den_dict_all is_word ft m ctx PL WC) _ _ Dw). simpl in V'.
      destruct (expand_at q' [] f d V' V0 E) as (f2 & z & Z & H2). rewrite H2. simpl in Z. rewrite (expand_unique _ _ _ _ _ _ Z Y). cbn [view]. now rewrite G.
    + cbn [view]. now rewrite G.
Qed.
Lemma expand_none_iff : expand (S (S (length st))) st [] = None <-> self_containing is_word ft file ctx.
Proof using F PL WC pct_word.
  split.
  - intros E. destruct (none_cycle st ([] :: dom st) succ_univ []) as (c & C).
    + simpl. unfold dom. rewrite map_length. assumption.
    + exists c. now apply clos_holds.
  - intros (c & C). assert (C2 := C). apply clos_holds in C. destruct (expand (S (S (length st))) st []) as [d|] eqn:E; [|reflexivity]. exfalso.
    assert (view file c = Some Namespace) as V.
    { clear -C2 PL WC. apply clos_trans_t1n in C2. induction C2 as [x y (k & D)|]; [|assumption]. exact (proj1 (Den_dict_all is_word ft m ctx PL WC) _ _ D). }
    destruct (expand_at c [] _ d V eq_refl E) as (f' & x & X & _). simpl in X. rewrite (cycle_none _ f' c C) in X. discriminate.
Qed.
(** The tree can be turned into a Parameters object. *)
Lemma expand_good f : forall q d, view file q = Some Namespace -> expand f st q = Some d -> mixed (PMap d) /\ (forall k, nested_key (PMap d) k -> dotless k).
Proof using F PL DL WC.
  destruct F as [S D]. induction f as [|f IH]; intros q d V E; [discriminate|]. rewrite expand_S in E.
  assert (forall k x, In (k, x) d -> mixed x /\ (forall k', nested_key x k' -> dotless k')) as H.
  { intros k x I. assert (NoDup (keys d)) as N by (rewrite (go_keys _ _ _ _ E); apply children_nodup; apply S).
    pose proof (go_find _ _ _ _ E k) as G. rewrite children_find in G. apply (in_dfind _ _ _ N) in I. assert (q ++ [k] <> []) as Q by (now destruct q).
    destruct (view file (q ++ [k])) as [[|v]|] eqn:V2.
    - rewrite (sh_ns _ _ S _ Q V2) in G. destruct G as (y & Y & G). rewrite I in G. injection G as ->. eapply IH; eauto.
    - destruct (D _ _ V2) as (w & Ew & Dw). rewrite Ew in G. assert (W := proj1 (Den_dict_all is_word ft m ctx PL WC) _ _ Dw). destruct w as [q'|v'].
      + destruct G as (y & Y & G). rewrite I in G. injection G as ->. eapply IH; eauto.
      + rewrite I in G. injection G as ->. split; [now apply wf_mixed|]. intros k' K. destruct v'; inversion K; subst; now simpl in W.
    - rewrite (sh_none _ _ S _ Q V2) in G. congruence. }
  split.
  - apply mixed_map. split; [rewrite (go_keys _ _ _ _ E); apply children_nodup; apply S|]. apply Forall_forall. intros [k x] I. now apply (H k x).
  - intros k K. inversion K as [? ? x I|? k1 x ? I K']; subst; [|now apply (H k1 x)].
    assert (In k (keys d)) as J by (apply in_map_iff; now exists (k, x)). rewrite (go_keys _ _ _ _ E) in J. apply dfind_some_key in J.
    destruct J as (w & J). rewrite children_find in J. assert (q ++ [k] <> []) as Q by (now destruct q).
    assert (view file (q ++ [k]) <> None) as VN by (apply (shape_some _ _ _ S Q); congruence).
    eapply (view_dotless file PL DL); [eassumption|]. apply in_or_app. simpl; auto.
Qed.
Lemma expand_from_mapping f d : expand f st [] = Some d -> exists R, from_mapping (PMap d) [] = Ok R /\ wf_params R /\ params_prefix R = [] /\ forall q, view R q = view (PMap d) q.
Proof using F PL DL WC.
  intros E. destruct (expand_good f [] d eq_refl E) as [M D]. unfold from_mapping. destruct (from_value_total _ D []) as (R & ER). rewrite ER. exists R. split; [reflexivity|].
  destruct (from_value_is_params _ _ _ ER) as [P Q]. split; [split; [eapply from_value_gives_wf; eauto|assumption]|]. split; [assumption|]. eapply from_value_view; eauto.
Qed.
End Final.
