(** The result of interpolation is well-formed, whatever the references look like. *)
From Coq Require Import Relations.
From Verif Require Import Prelude PyStr Params ParamsSpec ParamsProofs ParamsPairs ParamsGet Graph Interp InterpSpec InterpProofs InterpLoop InterpExpand.
From Verif Require GraphProps.

Section Wf.
Variable is_word : N -> bool.
Variable ft : N -> bool.
Variable m : data_t.
Variable ctx : pv.
Let file := PMap m.
Hypothesis PL : plain file.
Hypothesis DL : forall k, nested_key file k -> dotless k.
Hypothesis WC : wf ctx.
Definition goodval (w : val) : Prop := match w with VDict q => view file q = Some Namespace | VLeaf v => wf v end.
Definition good (st : store) : Prop := shape m st /\ forall q w, sfind st q = Some w -> goodval w.
Lemma goodval_root : goodval (VDict []).
Proof. reflexivity. Qed.
Lemma good0 : good (st0 m).
Proof using PL.
  split; [now apply shape0|]. intros q w E. destruct q as [|k q].
  - exfalso. apply sfind_in in E. apply flatten_under in E. destruct E as (k & r & E). discriminate.
  - rewrite (st0_find m PL) in E by discriminate. destruct (view (PMap m) (k :: q)) as [[|v]|] eqn:V; simpl in E; [injection E as <-; exact V| |discriminate].
    injection E as <-. apply (view_plain_leaf _ PL) in V. clear -V. destruct v; simpl in *; tauto.
Qed.
Lemma walkn_good st parts : good st -> forall cur v, goodval cur -> walkn st cur parts = Ok (Some v) -> goodval v.
Proof.
  intros [S G]. induction parts as [|k [|k2 rest] IH]; intros cur v C E.
  - discriminate.
  - simpl in E. destruct cur as [id|[]]; try discriminate; [injection E as E; eauto|]. destruct (private_get _ _ _ _); discriminate.
  - cbn [walkn] in E. destruct cur as [id|x].
    + destruct (sfind st (id ++ [k])) as [w|] eqn:F; [|discriminate]. eapply IH; [|exact E]. eauto.
    + destruct (leaf_in k x) as [[]|]; discriminate.
Qed.
Lemma walkn_present parts : forall pre v, view file pre = Some Namespace -> walkn (st0 m) (VDict pre) parts = Ok (Some v) -> view file (pre ++ parts) <> None.
Proof using PL.
  induction parts as [|k [|k2 rest] IH]; intros pre v V E.
  - discriminate.
  - cbn [walkn] in E. injection E as E. apply (shape_some m _ _ (shape0 m PL)); [now destruct pre|congruence].
  - cbn [walkn] in E. rewrite (st0_find m PL) in E by (now destruct pre). fold file in E. destruct (view file (pre ++ [k])) as [[|x]|] eqn:V2; cbn [of_found] in E.
    + change (walkn (st0 m) (VDict (pre ++ [k])) (k2 :: rest) = Ok (Some v)) in E. apply IH in E; [|assumption]. now rewrite <- app_assoc in E.
    + exfalso. revert E. clear. destruct rest; [destruct x; try discriminate; destruct (private_get _ _ _ _); discriminate|]. destruct (leaf_in k2 x) as [[]|]; discriminate.
    + discriminate.
Qed.
Lemma gather_nodes l : incl l (items m) -> forall acc r, foldM (fun acc kv =>
    match snd kv with
    | PStr s =>
        foldM (fun acc n =>
          let* o := getn (st0 m) n in
          let t := match o with Some v => vtruthy ft (st0 m) v | None => false end in
          Ok (fst acc ++ fst kv :: (if t then [n] else []), snd acc ++ (if t then [(fst kv, n)] else [])))
          (refs (tokens is_word s)) acc
    | _ => Ok acc
    end) l acc = Ok r -> (forall a, In a (fst acc) -> view file (py_split dot a) <> None) -> forall a, In a (fst r) -> view file (py_split dot a) <> None.
Proof using PL DL.
  induction l as [|[k v] l IH]; intros L acc r E H.
  - simpl in E. injection E as <-. assumption.
  - cbn [foldM] in E. apply bind_ok in E. destruct E as (acc' & E1 & E2). eapply IH; [intros x X; apply L; simpl; auto|exact E2|]. clear E2 IH.
    assert (view file (py_split dot k) <> None) as K.
    { assert (In (k, v) (items m)) as I by (apply L; simpl; auto). apply (items_in m PL DL) in I. fold file in I. congruence. }
    clear L. cbn [snd fst] in E1. destruct v; try (injection E1 as <-; assumption). revert acc E1 H. generalize (refs (tokens is_word s)). intros rs.
    induction rs as [|n rs IHr]; intros acc E H; [injection E as <-; assumption|]. cbn [foldM] in E. apply bind_ok in E. destruct E as (acc1 & E1 & E2).
    eapply IHr; [exact E2|]. apply bind_ok in E1. destruct E1 as (o & O & E1). injection E1 as <-. cbn [fst]. intros a I. apply in_app_or in I. destruct I as [I|[<-|I]]; auto.
    destruct o as [w|]; [|now destruct I]. destruct (vtruthy ft (st0 m) w); [|now destruct I]. destruct I as [<-|[]]. eapply (walkn_present _ []); [reflexivity|exact O].
Qed.
Lemma lookup_good st n w : good st -> lookup ft st ctx n = Ok w -> goodval w.
Proof using WC.
  intros G E. unfold lookup in E. apply bind_ok in E. destruct E as (o & O & E).
  assert (forall w', (let* x := private_get ctx n false PNone in Ok (VLeaf x)) = Ok w' -> goodval w') as C.
  { intros w' E'. destruct (ctx_get ctx WC n) as [(x & X & S)|[X _]]; rewrite X in E'; [|discriminate]. injection E' as <-. simpl. clear -S WC.
    unfold Stored in S. revert S. generalize (py_split dot n). intros l S. induction S as [|pre d k y q v I R IH]; [assumption|]. apply IH. apply wf_map in WC. destruct WC as (_ & _ & F).
    rewrite Forall_forall in F. exact (F _ I). }
  destruct o as [v|]; [|auto]. destruct (vtruthy ft st v); [|auto]. injection E as <-. eapply walkn_good; [eassumption|apply goodval_root|exact O].
Qed.
Lemma compute_good st s w : good st -> compute is_word ft st ctx s = Ok w -> goodval w.
Proof using WC.
  intros G E. assert ((exists n, lookup ft st ctx n = Ok w) \/ exists x, w = VLeaf (PStr x)) as [(n & L)|(x & ->)]; [|eapply lookup_good; eauto|exact Logic.I].
  unfold compute in E. destruct (tokens is_word s) as [|[c|n] [|t l]]; eauto; right; apply bind_ok in E; destruct E as (ps & _ & E); injection E as <-; eauto.
Qed.
Lemma step_good st a st' : good st -> view file (py_split dot a) <> None -> step is_word ft ctx st a = Ok st' -> good st'.
Proof using WC.
  intros G V E. assert (G' := G). destruct G' as [S Gv]. unfold step, getn in E.
  rewrite (walkn_safe m st S _ [] (py_split_nonnil _ _) eq_refl (leaf_safe m [] _ V)) in E. cbn [bind app] in E.
  destruct (sfind st (py_split dot a)) as [v|] eqn:F; [|discriminate]. destruct (vtruthy ft st v); [|discriminate].
  assert ((exists s, v = VLeaf (PStr s)) \/ st' = st) as [(s & ->)| ->]; [|apply bind_ok in E; destruct E as (w & W & E)|assumption].
  { destruct v as [|[]]; try (injection E as <-; auto). eauto. }
  rewrite (setn_leaf m st _ _ S V) in E. injection E as <-. fold file in V. destruct (view file (py_split dot a)) as [[|x]|] eqn:V2; [| |congruence].
  - rewrite (sh_ns m st S _ (py_split_nonnil _ _) V2) in F. discriminate.
  - split; [eapply shape_sput; eauto|]. intros q w'. rewrite sfind_sput. destruct (path_eqb (py_split dot a) q); [|apply Gv]. intros K. injection K as <-. eapply compute_good; eauto.
Qed.
Lemma loop_good l : forall st st', good st -> (forall a, In a l -> view file (py_split dot a) <> None) -> foldM (step is_word ft ctx) l st = Ok st' -> good st'.
Proof using WC.
  induction l as [|a l IH]; intros st st' G H E; [injection E as <-; assumption|]. cbn [foldM] in E. apply bind_ok in E. destruct E as (st1 & E1 & E2).
  eapply IH; [|intros b B; apply H; simpl; auto|exact E2]. eapply step_good; [eassumption| |exact E1]. apply H; simpl; auto.
Qed.
Lemma good_expand st f : good st -> forall q d, view file q = Some Namespace -> expand f st q = Some d -> mixed (PMap d) /\ (forall k, nested_key (PMap d) k -> dotless k).
Proof using PL DL WC.
  intros [S D]. induction f as [|f IH]; intros q d V E; [discriminate|]. rewrite expand_S in E.
  assert (forall k x, In (k, x) d -> mixed x /\ (forall k', nested_key x k' -> dotless k')) as H.
  { intros k x I. assert (NoDup (keys d)) as N by (rewrite (go_keys _ _ _ _ E); apply children_nodup; apply S).
    pose proof (go_find _ _ _ _ E k) as G. rewrite children_find in G. apply (in_dfind _ _ _ N) in I. destruct (sfind st (q ++ [k])) as [w|] eqn:Ew; [|congruence].
    assert (W := D _ _ Ew). destruct w as [q'|v'].
    + destruct G as (y & Y & G). rewrite I in G. injection G as ->. eapply IH; eauto.
    + rewrite I in G. injection G as ->. split; [now apply wf_mixed|]. intros k' K. destruct v'; inversion K; subst; now simpl in W. }
  split.
  - apply mixed_map. split; [rewrite (go_keys _ _ _ _ E); apply children_nodup; apply S|]. apply Forall_forall. intros [k x] I. now apply (H k x).
  - intros k K. inversion K as [? ? x I|? k1 x ? I K']; subst; [|now apply (H k1 x)].
    assert (In k (keys d)) as J by (apply in_map_iff; now exists (k, x)). rewrite (go_keys _ _ _ _ E) in J. apply dfind_some_key in J.
    destruct J as (w & J). rewrite children_find in J. assert (q ++ [k] <> []) as Q by (now destruct q).
    assert (view file (q ++ [k]) <> None) as VN by (apply (shape_some _ _ _ S Q); congruence).
    eapply (view_dotless file PL DL); [eassumption|]. apply in_or_app. simpl; auto.
Qed.
Lemma interpolate_wf p R : from_mapping (PMap m) [] = Ok p -> interpolate is_word ft p ctx = Ok R -> wf_params R /\ params_prefix R = [].
Proof using PL DL WC.
  intros FM E. destruct (from_value_is_params _ _ _ FM) as [IP PP]. assert (dictify p = file) as DI by (eapply from_value_dictify; eauto).
  assert (namespaced_items p = items m) as NI by (rewrite (namespaced_items_from _ _ _ PL FM IP); reflexivity).
  unfold interpolate in E. rewrite PP, DI, NI in E. destruct (params_prefix ctx); [|discriminate]. change (flatten [] file) with (st0 m) in E. cbv zeta in E.
  apply bind_ok in E. destruct E as (ne & G & E). apply bind_ok in E. destruct E as (g & Eg & E).
  destruct (GraphProps.C39_topological_sort (list_eq_dec N.eq_dec) g) as (ys & e & T & _ & Iy & _); [now exists (fst ne), (snd ne)|].
  rewrite T in E. destruct e; [discriminate|]. apply bind_ok in E. destruct E as (st & L & E).
  assert (good st) as Gs.
  { eapply loop_good; [apply good0| |exact L]. intros a I. apply in_rev in I. apply Iy in I. apply (GraphProps.C40_graph_contents _ _ _ _ Eg) in I.
    unfold gather in G. eapply (gather_nodes (items m) (incl_refl _)); [exact G|intros x []|exact I]. }
  destruct (expand (S (S (length st))) st []) as [d|] eqn:X; [|discriminate].
  destruct (good_expand st _ Gs [] d eq_refl X) as [M D]. destruct (from_value_is_params _ _ _ E) as [P Q]. split; [|assumption]. split; [|assumption]. eapply from_value_gives_wf; eauto.
Qed.
End Wf.
