(** * C104: Parameters as objects have the values which Params.v computes *)
From Verif Require Import Prelude PyStr Order Range Params ParamsSpec ParamsProofs ParamsUnify Heap HeapProps.

(** ** Specification *)
(** The result of a call, in the heap after it, is the object with this value, or the same exception. *)
Definition agrees (h : list cell) (r : res obj) (t : res pv) : Prop :=
  match r, t with Ok o, Ok v => reads h o v | Raise a, Raise b => a = b | _, _ => False end.
(** How deeply dictionaries and Parameters objects are nested in a value. *)
Fixpoint depth (t : pv) : nat :=
  match t with PMap m | PParams _ m => S (list_max (map (fun kv => depth (snd kv)) m)) | _ => 0 end.

(** ** Lemmas *)
Definition items_read (h : list cell) : list (str * obj) -> list (str * pv) -> Prop := Forall2 (fun a b => fst a = fst b /\ reads h (snd a) (snd b)).
Lemma reads_imp (h h' : list cell) (P : obj -> Prop) :
  (forall l c, P (Ref l) -> nth_error h l = Some c -> nth_error h' l = Some c /\ forall o, In o (objs c) -> P o) -> forall t o, P o -> reads h o t -> reads h' o t.
Proof.
  intros H. induction t using pv_ind_nested; intros o Po R; inversion R; subst; try (constructor; reflexivity); try discriminate;
    match goal with N : nth_error h ?j = Some ?c |- _ => destruct (H j c Po N) as (N' & Q); cbn [objs] in Q; econstructor; [exact N'|] end.
  - match goal with F : Forall2 _ items l |- _ => revert F end. match goal with X : Forall _ l |- _ => revert X end. clear - Q. intros X F. induction F as [|a b r s Hab _ IH]; constructor; inversion X; subst.
    + apply H1; [apply Q; now left|assumption].
    + apply IH; [intros o Ho; apply Q; now right|assumption].
  - match goal with F : Forall2 _ items m |- _ => revert F end. match goal with X : Forall _ m |- _ => revert X end. clear - Q. intros X F. induction F as [|a b r s Hab _ IH]; constructor; inversion X; subst.
    + destruct Hab as (E & Hab). split; [assumption|]. apply H1; [apply Q; now left|assumption].
    + apply IH; [intros o Ho; apply Q; now right|assumption].
  - match goal with F : Forall2 _ items m |- _ => revert F end. match goal with X : Forall _ m |- _ => revert X end. clear - Q. intros X F. induction F as [|a b r s Hab _ IH]; constructor; inversion X; subst.
    + destruct Hab as (E & Hab). split; [assumption|]. apply H1; [apply Q; now left|assumption].
    + apply IH; [intros o Ho; apply Q; now right|assumption].
Qed.
Lemma reads_ext h h' o t : ext h h' -> reads h o t -> reads h' o t.
Proof. intros E. apply (reads_imp h h' (fun _ => True)); [|exact Logic.I]. intros l c _ N. split; [eapply ext_nth; eassumption|auto]. Qed.
Lemma items_ext h h' a b : ext h h' -> items_read h a b -> items_read h' a b.
Proof. intros E F. induction F as [|x y l r (K & H) _ IH]; constructor; [|assumption]. split; [assumption|]. eapply reads_ext; eassumption. Qed.
Lemma reads_exists h o t : reads h o t -> exists_obj h o = true.
Proof. intros R. destruct R as [v H|l i vs N _|l i m N _|l p i m N _]; [exact H| | |]; simpl; apply Nat.ltb_lt; apply nth_error_Some; congruence. Qed.
Lemma reads_fun h : forall t o t', reads h o t -> reads h o t' -> t = t'.
Proof.
  induction t using pv_ind_nested; intros o t' R R'; inversion R; subst; inversion R'; subst; try reflexivity; try discriminate; try congruence;
    match goal with A : nth_error h ?j = Some ?c, B : nth_error h ?j = Some ?c' |- _ => rewrite A in B; inversion B; subst; clear A B end; f_equal.
  - match goal with X : Forall _ ?l, F : Forall2 _ ?i ?l, G : Forall2 _ ?i ?l' |- ?l = ?l' => clear - X F G; revert l' G; induction F as [|a b r s Hab _ IH]; intros l' G; inversion G; subst; [reflexivity|]; inversion X; subst; f_equal; [eauto|]; apply IH; assumption end.
  - match goal with X : Forall _ ?l, F : Forall2 _ ?i ?l, G : Forall2 _ ?i ?l' |- ?l = ?l' => clear - X F G; revert l' G; induction F as [|a b r s (Ka & Hab) _ IH]; intros l' G; inversion G as [|? y ? ? (Ky & Hy)]; subst; [reflexivity|]; inversion X; subst; f_equal; [|apply IH; assumption] end.
    destruct b as [kb b], y as [ky y]. simpl in *. f_equal; [congruence|eauto].
  - match goal with X : Forall _ ?l, F : Forall2 _ ?i ?l, G : Forall2 _ ?i ?l' |- ?l = ?l' => clear - X F G; revert l' G; induction F as [|a b r s (Ka & Hab) _ IH]; intros l' G; inversion G as [|? y ? ? (Ky & Hy)]; subst; [reflexivity|]; inversion X; subst; f_equal; [|apply IH; assumption] end.
    destruct b as [kb b], y as [ky y]. simpl in *. f_equal; [congruence|eauto].
Qed.
Lemma reads_params h o t : reads h o t -> h_is_params h o = is_params t.
Proof. intros R. unfold h_is_params. destruct R as [v H|l i vs N _|l i m N _|l p i m N _]; simpl; [destruct v; discriminate || reflexivity| | |]; now rewrite N. Qed.
Lemma reads_dict h o t : reads h o t -> (is_dict h o <-> exists m, t = PMap m).
Proof.
  intros R. unfold is_dict. destruct R as [v H|l i vs N _|l i m N _|l p i m N _]; simpl; split; intros (x & X); try discriminate; try congruence; try (now eexists; eassumption).
  - destruct v; discriminate.
  - eauto.
Qed.
Lemma items_find h a b k : items_read h a b -> match dfind a k, dfind b k with Some x, Some y => reads h x y | None, None => True | _, _ => False end.
Proof. apply (find_same (fun _ => reads h)). Qed.
Lemma items_keys h a b : items_read h a b -> map fst a = map fst b.
Proof. intros F. induction F as [|x y l r (E & _) _ IH]; [reflexivity|]. simpl. now rewrite E, IH. Qed.
Lemma items_dots h a b : items_read h a b -> existsb (fun kv => has_dot (fst kv)) a = existsb (fun kv => has_dot (fst kv)) b.
Proof. intros F. induction F as [|x y l r (E & _) _ IH]; [reflexivity|]. simpl. now rewrite E, IH. Qed.
Lemma items_put h a b k x y : items_read h a b -> reads h x y -> items_read h (dput a k x) (dput b k y).
Proof.
  intros F R. induction F as [|[ka u] [kb w] l r (E & H) F IH]; [repeat constructor; assumption|]. simpl in *. subst kb. destruct (str_eqb ka k); constructor; try assumption; split; auto.
Qed.

Lemma each_reads (Q : list cell -> Prop) (f : list cell -> str -> obj -> list cell * res obj) (g : str * pv -> res (str * pv)) (B : pv -> Prop) (D : str -> Prop) :
  (forall h h', ext h h' -> Q h -> Q h') ->
  (forall h k v x h' r, D k -> ok_heap h -> Q h -> reads h v x -> f h k v = (h', r) ->
    ext h h' /\ ok_heap h' /\ (B x /\ r = Raise RecursionError \/ match r, g (k, x) with Ok o, Ok kv => fst kv = k /\ reads h' o (snd kv) | Raise a, Raise b => a = b | _, _ => False end)) ->
  forall items m h h' r, Forall (fun kv => D (fst kv)) m -> ok_heap h -> Q h -> items_read h items m -> h_each f h items = (h', r) ->
  ext h h' /\ ok_heap h' /\ (Exists (fun kv => B (snd kv)) m /\ r = Raise RecursionError \/ match r, mapM g m with Ok d, Ok d' => items_read h' d d' | Raise a, Raise b => a = b | _, _ => False end).
Proof.
  intros Qs Hf. induction items as [|[k v] items IH]; intros m h h' r Dm K Hq F E; inversion F as [|? [k' x] ? m' (Ek & Rv) F']; subst; cbn [h_each] in E.
  - injection E as <- <-. split; [apply ext_refl|]. split; [assumption|]. right. constructor.
  - simpl in Ek, Rv. subst k'. inversion Dm as [|? ? D1 D2]; subst. simpl in D1. destruct (f h k v) as [h1 r1] eqn:G. destruct (Hf _ _ _ _ _ _ D1 K Hq Rv G) as (E1 & K1 & S1).
    destruct r1 as [v'|e].
    + destruct (h_each f h1 items) as [h2 r2] eqn:G2. destruct (IH m' h1 h2 r2 D2 K1 (Qs _ _ E1 Hq) (items_ext _ _ _ _ E1 F') G2) as (E2 & K2 & S2).
      assert (Er : h' = h2) by (destruct r2; congruence). subst h'. split; [eapply ext_trans; eassumption|]. split; [assumption|].
      destruct S1 as [(_ & S1)|S1]; [discriminate|]. cbn [mapM]. destruct (g (k, x)) as [[k2 y]|e2]; [|contradiction]. simpl in S1. destruct S1 as (-> & S1). cbn [bind].
      destruct r2 as [r'|e]; injection E as <-.
      * destruct S2 as [(_ & S2)|S2]; [discriminate|]. right. destruct (mapM g m') as [d|]; [|contradiction]. cbn [bind]. constructor; [|assumption]. split; [reflexivity|]. simpl. eapply reads_ext; eassumption.
      * destruct S2 as [(S2 & X)|S2]; [left; split; [now right|assumption]|right]. destruct (mapM g m') as [d|]; [contradiction|]. exact S2.
    + injection E as <- <-. split; [assumption|]. split; [assumption|]. destruct S1 as [(S1 & X)|S1]; [left; split; [now left|congruence]|right]. cbn [mapM]. destruct (g (k, x)) as [[k2 y]|e2]; [contradiction|]. exact S1.
Qed.
Lemma depth_in n m : Exists (fun kv : str * pv => n <= depth (snd kv)) m -> S n <= S (list_max (map (fun kv => depth (snd kv)) m)).
Proof.
  intros X. apply le_n_S. apply Exists_exists in X. destruct X as (kv & I & L). eapply Nat.le_trans; [exact L|]. assert (H := proj1 (list_max_le (map (fun kv => depth (snd kv)) m) _) (Nat.le_refl _)). rewrite Forall_forall in H. apply H. apply in_map_iff. now exists kv.
Qed.
(** How deeply dictionaries are nested, not counting what is in Parameters objects. *)
Fixpoint mdepth (t : pv) : nat := match t with PMap m => S (list_max (map (fun kv => mdepth (snd kv)) m)) | _ => 0 end.
Lemma mdepth_in n m : Exists (fun kv : str * pv => n <= mdepth (snd kv)) m -> S n <= S (list_max (map (fun kv => mdepth (snd kv)) m)).
Proof.
  intros X. apply le_n_S. apply Exists_exists in X. destruct X as (kv & I & L). eapply Nat.le_trans; [exact L|]. assert (H := proj1 (list_max_le (map (fun kv => mdepth (snd kv)) m) _) (Nat.le_refl _)). rewrite Forall_forall in H. apply H. apply in_map_iff. now exists kv.
Qed.
Lemma mdepth_depth t : mdepth t <= depth t.
Proof.
  induction t using pv_ind_nested; simpl; try lia. apply le_n_S. induction H as [|kv m H _ IH]; simpl; lia.
Qed.

Lemma from_mapping_agrees fuel : forall h prefix o t h' r, ok_heap h -> reads h o t -> h_from_mapping fuel h prefix o = (h', r) ->
  fuel <= mdepth t /\ r = Raise RecursionError \/ agrees h' r (from_mapping t prefix).
Proof.
  induction fuel as [|n IH]; intros h prefix o t h' r K R E; cbn [h_from_mapping] in E; [injection E as <- <-; left; split; [lia|reflexivity]|].
  assert (Nd : forall t', ~ is_dict h o -> reads h o t' -> from_mapping t' prefix = Raise TypeError) by (intros t' Nd R'; rewrite (reads_dict h o t' R') in Nd; destruct t'; try reflexivity; exfalso; apply Nd; eauto).
  destruct (deref h o) as [[items|items|pre items]|] eqn:D; try (injection E as <- <-; right; rewrite (Nd t) by (assumption || (intros (x & X); congruence)); reflexivity). clear Nd.
  destruct R as [v H|l i vs N F|l i m N F|l p i m N F]; cbn [deref] in D; try discriminate; try congruence. assert (i = items) as -> by congruence. clear D.
  match type of E with match h_each ?g _ _ with _ => _ end = _ => set (f := g) in * end. destruct (h_each f h items) as [h1 r1] eqn:G.
  destruct (each_reads (fun _ => True) f (from_item prefix) (fun x => n <= mdepth x) (fun _ => True)) with (7 := G) (m := m) as (E1 & K1 & S); try assumption; try exact Logic.I; [auto| |rewrite Forall_forall; auto|].
  { intros g k v x g' r0 _ Kg _ Rv Fv. unfold f in Fv. unfold from_item. cbn [fst snd].
    assert (Keep : ~ is_dict g v -> (g, Ok v) = (g', r0) -> ext g g' /\ ok_heap g' /\ (n <= mdepth x /\ r0 = Raise RecursionError \/ match r0, (let* y := from_value (prefix ++ [k]) x in Ok (k, y)) with Ok o, Ok kv => fst kv = k /\ reads g' o (snd kv) | Raise a, Raise b => a = b | _, _ => False end)).
    { intros Nd X. injection X as <- <-. split; [apply ext_refl|]. split; [assumption|]. right. rewrite (reads_dict _ _ _ Rv) in Nd. assert (from_value (prefix ++ [k]) x = Ok x) as -> by (destruct x; try reflexivity; exfalso; apply Nd; eauto). cbn [bind fst snd]. auto. }
    destruct (deref g v) as [[i|i|p i]|] eqn:Dv; try (apply Keep; [intros (y & Y); congruence|exact Fv]).
    destruct (from_mapping_spec _ _ _ _ _ _ Kg (reads_exists _ _ _ Rv) Fv) as (Eg & Kg' & _). split; [assumption|]. split; [assumption|]. assert (Dx : is_dict g v) by (now exists i). apply (reads_dict _ _ _ Rv) in Dx. destruct Dx as (m' & ->).
    destruct (IH _ _ _ _ _ _ Kg Rv Fv) as [S|S]; [now left|right]. unfold from_mapping in S. destruct r0 as [o'|e], (from_value (prefix ++ [k]) (PMap m')) as [y|e']; try contradiction; cbn [bind fst snd]; [split; [reflexivity|exact S]|exact S]. }
  destruct r1 as [d|e].
  - destruct S as [(_ & S)|S]; [discriminate|]. unfold from_mapping. rewrite from_value_map. destruct (mapM (from_item prefix) m) as [d'|]; [|contradiction]. cbn [bind]. unfold mk_params. rewrite <- (items_dots _ _ _ S).
    destruct (existsb (fun kv => has_dot (fst kv)) d); injection E as <- <-; right; [reflexivity|]. simpl. econstructor; [apply new_cell|]. eapply items_ext; [apply ext_app|exact S].
  - injection E as <- <-. destruct S as [(S & X)|S]; [left; split; [exact (mdepth_in n m S)|congruence]|right]. unfold from_mapping. rewrite from_value_map. destruct (mapM (from_item prefix) m) as [d'|]; [contradiction|]. exact S.
Qed.
Lemma dictify_agrees fuel : forall h o t h' r, ok_heap h -> ~ is_dict h o -> reads h o t -> h_dictify fuel h o = (h', r) ->
  fuel <= depth t /\ r = Raise RecursionError \/ agrees h' r (Ok (dictify t)).
Proof.
  induction fuel as [|n IH]; intros h o t h' r K Nd R E; cbn [h_dictify] in E; [injection E as <- <-; left; split; [lia|reflexivity]|].
  assert (Np : forall t', ~ is_parameters h o -> reads h o t' -> dictify t' = t').
  { intros t' Np R'. assert (P := reads_params h o t' R'). destruct t'; try reflexivity. exfalso. unfold h_is_params in P. destruct (deref h o) as [[| |]|] eqn:D; try discriminate. apply Np. eexists _, _. exact D. }
  destruct (deref h o) as [[items|items|pre items]|] eqn:D; try (injection E as <- <-; right; rewrite (Np t) by (assumption || (intros (x & y & X); congruence)); exact R). clear Np.
  destruct R as [v H|l i vs N F|l i m N F|l p i m N F]; cbn [deref] in D; try discriminate; try congruence. assert (i = items) as -> by congruence. clear D.
  match type of E with match h_each ?g _ _ with _ => _ end = _ => set (f := g) in * end. destruct (h_each f h items) as [h1 r1] eqn:G.
  assert (M : mapM (fun kv => Ok (fst kv, dictify (snd kv))) m = Ok (map (fun kv => (fst kv, dictify (snd kv))) m)) by (clear; induction m as [|kv m IH]; [reflexivity|]; cbn [mapM bind map]; now rewrite IH).
  (* the values, with the assertion that they are no dictionaries *)
  assert (S : ext h h1 /\ ok_heap h1 /\ (Exists (fun kv => n <= depth (snd kv)) m /\ r1 = Raise RecursionError \/ match r1, mapM (fun kv => Ok (fst kv, dictify (snd kv))) m with Ok d, Ok d' => items_read h1 d d' | Raise a, Raise b => a = b | _, _ => False end)).
  { assert (Nv : forall kv, In kv m -> ~ exists x, snd kv = PMap x).
    { intros kv I X. assert (exists o, In (fst kv, o) items /\ reads h o (snd kv)) as (o & Io & Ro).
      { clear - F I. induction F as [|a b l r (Ea & Ra) _ IH]; [destruct I|]. destruct I as [-> |I]; [exists (snd a); split; [left; destruct a; simpl in *; congruence|assumption]|]. destruct (IH I) as (o & Io & Ro). exists o. split; [now right|assumption]. }
      apply (reads_dict h o _ Ro) in X. exact (ok_clean h K l p items _ o N Io X). }
    clear E M. revert h h1 r1 K Nd N F G Nv. generalize items as it. clear items. intros it h h1 r1 K Nd N F G Nv. clear Nd N. revert it h h1 r1 K F G. induction m as [|[k x] m IHm]; intros it h h1 r1 K F G; inversion F as [|[ka a] ? it' ? (Ek & Ra) F']; subst; cbn [h_each] in G.
    - injection G as <- <-. split; [apply ext_refl|]. split; [assumption|]. right. constructor.
    - simpl in Ek, Ra. subst ka. unfold f in G at 1. destruct (h_dictify n h a) as [g r0] eqn:G0.
      assert (Na : ~ is_dict h a) by (rewrite (reads_dict _ _ _ Ra); apply (Nv (k, x)); now left).
      destruct (dictify_spec _ _ _ _ _ K (reads_exists _ _ _ Ra) Na G0) as (Eg & Kg & _). specialize (IH _ _ _ _ _ K Na Ra G0). cbn [mapM bind fst snd]. destruct r0 as [a'|e].
      + destruct (h_each f g it') as [g2 r2] eqn:G2. assert (g2 = h1) as -> by (destruct r2; congruence). destruct (IHm (fun kv Hkv => Nv kv (or_intror Hkv)) it' g h1 r2 Kg (items_ext _ _ _ _ Eg F') G2) as (E2 & K2 & S2).
        split; [eapply ext_trans; eassumption|]. split; [assumption|]. destruct IH as [(_ & IH)|IH]; [discriminate|].
        destruct r2 as [r'|e]; inversion G; subst; clear G.
        * destruct S2 as [(_ & S2)|S2]; [discriminate|]. right. destruct (mapM _ m) as [d|]; [|contradiction]. cbn [bind]. constructor; [|assumption]. split; [reflexivity|]. simpl. eapply reads_ext; eassumption.
        * destruct S2 as [(S2 & X)|S2]; [left; split; [now right|assumption]|right]. destruct (mapM _ m) as [d|]; [contradiction|]. exact S2.
      + inversion G; subst; clear G. split; [assumption|]. split; [assumption|]. destruct IH as [(S1 & X)|S1]; [left; split; [now left|congruence]|contradiction]. }
  destruct S as (E1 & K1 & S). rewrite M in S. destruct r1 as [d|e]; injection E as <- <-.
  - destruct S as [(_ & S)|S]; [discriminate|]. right. simpl. econstructor; [apply new_cell|]. eapply items_ext; [apply ext_app|exact S].
  - destruct S as [(S & X)|S]; [|contradiction]. left. split; [exact (depth_in n m S)|congruence].
Qed.

Lemma contains_same h p db tdb k : items_read h db tdb -> dotless k -> h_contains db k = contains (PParams p tdb) k.
Proof.
  intros F Dk. rewrite contains_key by assumption. unfold h_contains. assert (H := items_find h db tdb k F). destruct (dfind db k) as [x|], (dfind tdb k) as [y|]; try contradiction; [|reflexivity].
  destruct H as [v Hv|l i vs N _|l i m N _|l q i m N _]; try reflexivity. now destruct v.
Qed.
Lemma add_new_same h pa da ta db tdb : items_read h da ta -> Forall (fun kv => dotless (fst kv)) tdb -> items_read h db tdb -> forall r tr, items_read h r tr ->
  items_read h (fold_left (fun ret kv => if h_contains da (fst kv) then ret else dput ret (fst kv) (snd kv)) db r) (add_new (PParams pa ta) tdb tr).
Proof.
  intros Fa Db Fb. unfold add_new. induction Fb as [|[k x] [k' y] db tdb (E & Rx) _ IH]; intros r tr Fr; [exact Fr|]. simpl in E, Rx. subst k'. inversion Db as [|? ? D1 D2]; subst. simpl in D1. cbn [fold_left fst snd].
  apply IH; [assumption|]. rewrite (contains_same h pa da ta k Fa D1). destruct (contains (PParams pa ta) k); [assumption|]. now apply items_put.
Qed.
Lemma names_dotless h l p i m : ok_heap h -> nth_error h l = Some (CParams p i) -> items_read h i m -> Forall (fun kv => dotless (fst kv)) m.
Proof.
  intros K N F. assert (H : forall k o, In (k, o) i -> dotless k) by (intros k o I X; apply has_dot_spec in X; rewrite (ok_names h K l p i k o N I) in X; discriminate). clear - F H. induction F as [|[a x] b l r (E & _) _ IH]; constructor; [|apply IH; intros k o I; apply (H k o); now right].
  simpl in E. subst a. apply (H (fst b) x). now left.
Qed.
Lemma unify_agrees fuel : forall h a b ta tb prefix h' r, ok_heap h -> reads h a ta -> reads h b tb -> h_unify fuel h a b prefix = (h', r) ->
  fuel <= S (depth ta) /\ r = Raise RecursionError \/ agrees h' r (unify ta tb prefix).
Proof.
  induction fuel as [|n IH]; intros h a b ta tb prefix h' r K Ra Rb E; cbn [h_unify] in E; [injection E as <- <-; left; split; [lia|reflexivity]|].
  assert (Pa := reads_params h a ta Ra). assert (Pb := reads_params h b tb Rb). unfold h_is_params in Pa, Pb.
  assert (Bad : is_params ta = false \/ is_params tb = false -> (h, @Raise obj AttributeError) = (h', r) -> S n <= S (depth ta) /\ r = Raise RecursionError \/ agrees h' r (unify ta tb prefix)).
  { intros [X|X] Y; injection Y as <- <-; right; destruct ta; try discriminate; try reflexivity; destruct tb; try discriminate; reflexivity. }
  destruct (deref h a) as [[da|da|pa da]|] eqn:Da; try (apply Bad; [now left|exact E]). destruct (deref h b) as [[db|db|pb db]|] eqn:Db; try (apply Bad; [now right|exact E]). clear Bad.
  destruct ta as [| | | | | | | | |pta ta|]; try discriminate. destruct tb as [| | | | | | | | |ptb tb|]; try discriminate. clear Pa Pb.
  inversion Ra as [| | |la ? ia ? Na Fa]; subst; [discriminate|]. inversion Rb as [| | |lb ? ib ? Nb Fb]; subst; [discriminate|]. cbn [deref] in Da, Db. assert (pta = pa /\ ia = da) as (-> & ->) by (split; congruence). assert (ptb = pb /\ ib = db) as (-> & ->) by (split; congruence). clear Da Db.
  match type of E with match h_each ?g _ _ with _ => _ end = _ => set (f := g) in * end. destruct (h_each f h da) as [h1 r1] eqn:G.
  assert (Dta := names_dotless h la pa da ta K Na Fa). assert (Dtb := names_dotless h lb pb db tb K Nb Fb).
  destruct (each_reads (fun g => items_read g db tb) f (unify_item (PParams pa ta) (PParams pb tb) tb prefix) (fun x => n <= S (depth x)) dotless) with (7 := G) (m := ta) as (E1 & K1 & S); try assumption; [intros; eapply items_ext; eassumption| |].
  { intros g k v x g' r0 Dk Kg Fg Rv Fv. unfold f in Fv. unfold unify_item. cbn [fst snd]. rewrite <- (contains_same g pb db tb k Fg Dk).
    destruct (h_contains db k); [|injection Fv as <- <-; split; [apply ext_refl|]; split; [assumption|]; right; cbn [bind fst snd]; auto].
    assert (H := items_find g db tb k Fg). destruct (dfind db k) as [new|], (dfind tb k) as [tnew|]; try contradiction; [|injection Fv as <- <-; split; [apply ext_refl|]; split; [assumption|]; right; reflexivity].
    rewrite (reads_params _ _ _ Rv), (reads_params _ _ _ H) in Fv. destruct (negb _); [injection Fv as <- <-; split; [apply ext_refl|]; split; [assumption|]; right; reflexivity|].
    destruct (is_params x); [|injection Fv as <- <-; split; [apply ext_refl|]; split; [assumption|]; right; cbn [bind fst snd]; auto].
    destruct (unify_spec _ _ _ _ _ _ _ Kg (reads_exists _ _ _ Rv) (reads_exists _ _ _ H) Fv) as (Eg & Kg' & _). split; [assumption|]. split; [assumption|].
    destruct (IH _ _ _ _ _ _ _ _ Kg Rv H Fv) as [S|S]; [now left|right]. destruct r0 as [o'|e], (unify x tnew (prefix ++ [k])) as [y|e']; try contradiction; cbn [bind fst snd]; [split; [reflexivity|exact S]|exact S]. }
  rewrite unify_eq. destruct r1 as [d|e].
  - destruct S as [(_ & S)|S]; [discriminate|]. destruct (mapM _ ta) as [d'|]; [|contradiction]. cbn [bind]. cbv zeta in E.
    assert (F1 := add_new_same h1 pa da ta db tb (items_ext _ _ _ _ E1 Fa) Dtb (items_ext _ _ _ _ E1 Fb) d d' S).
    match type of E with context [h1 ++ [CDict ?x]] => set (ret := x) in * end. set (tret := add_new (PParams pa ta) tb d') in *.
    (* none of the values is a dictionary *)
    assert (Nd : forall o, In o (map snd ret) -> exists_obj h1 o = true /\ ~ is_dict h1 o).
    { assert (Cl : forall l p i o, nth_error h l = Some (CParams p i) -> In o (map snd i) -> exists_obj h o = true /\ ~ is_dict h o).
      { intros l p i o N I. split; [eapply (ok_objs h K); [exact N|exact I]|]. apply in_map_iff in I. destruct I as ([k y] & <- & I). exact (ok_clean h K l p i k y N I). }
      set (Pre := fun g v => (exists_obj g v = true /\ ~ is_dict g v) /\ forall o, In o (map snd db) -> exists_obj g o = true /\ ~ is_dict g o).
      set (R := fun (g : list cell) (_ : str) (_ v' : obj) => ~ is_dict g v').
      assert (Ns : forall g g' v, ext g g' -> exists_obj g v = true -> ~ is_dict g v -> ~ is_dict g' v) by (intros g g' v Eg Ov Nv (i & Di); apply Nv; rewrite (ext_deref g) in Di by assumption; now exists i).
      destruct (each_spec Pre f R) with (7 := G) as (_ & _ & Q); [now intros g v ((X & _) & _)| | | |assumption| |].
      - intros g g' v Eg ((Ov & Nv) & Ox). split; [split; [eapply ext_obj; eassumption|eapply Ns; eassumption]|]. intros o Ho. destruct (Ox o Ho). split; [eapply ext_obj; eassumption|eapply Ns; eassumption].
      - intros g g' k v v' Kg Eg Ov Ov' Rv. unfold R in *. eapply Ns; eassumption.
      - intros g k v g' r0 Kg ((Ov & Nv) & Ox) Fv.
        assert (Same : forall x, exists_obj g x = true /\ ~ is_dict g x -> (g, Ok x) = (g', r0) -> ext g g' /\ ok_heap g' /\ forall v', r0 = Ok v' -> exists_obj g' v' = true /\ R g' k v v').
        { intros x (Hx & Nx) X. injection X as <- <-. split; [apply ext_refl|]. split; [assumption|]. intros v' X. injection X as <-. split; assumption. }
        assert (Bad : forall e, (g, @Raise obj e) = (g', r0) -> ext g g' /\ ok_heap g' /\ forall v', r0 = Ok v' -> exists_obj g' v' = true /\ R g' k v v') by (intros e X; injection X as <- <-; split; [apply ext_refl|]; split; [assumption|discriminate]).
        unfold f in Fv. destruct (h_contains db k); [|apply (Same v); [now split|exact Fv]]. destruct (dfind db k) as [new|] eqn:Dk; [|exact (Bad _ Fv)].
        assert (On : exists_obj g new = true /\ ~ is_dict g new) by (apply Ox; apply in_map_iff; exists (k, new); split; [reflexivity|]; now apply dfind_in).
        destruct (negb _); [exact (Bad _ Fv)|]. destruct (h_is_params g v); [|apply (Same new); [exact On|exact Fv]].
        destruct (unify_spec _ _ _ _ _ _ _ Kg Ov (proj1 On) Fv) as (Eg & Kg' & X). split; [assumption|]. split; [assumption|]. intros v' Hv. destruct (X v' Hv) as (X1 & (p & i & X2) & _). split; [exact X1|]. intros (j & Y). congruence.
      - intros x Hx. split; [exact (Cl la pa da x Na Hx)|]. intros o Ho. exact (Cl lb pb db o Nb Ho).
      - specialize (Q d eq_refl). intros o Ho. unfold ret in Ho. apply fold_puts_in in Ho. destruct Ho as [Ho|Ho].
        + clear - Q Ho. induction Q as [|x y l r (_ & Q1 & Q2) _ IH]; [destruct Ho|]. destruct Ho as [<- |Ho]; [split; assumption|auto].
        + destruct (Cl lb pb db o Nb Ho) as (A & B). split; [eapply ext_obj; eassumption|eapply Ns; eassumption]. }
    assert (M : mdepth (PMap tret) <= 1).
    { simpl. apply le_n_S. apply list_max_le. clear - F1 Nd. induction F1 as [|x y l r (_ & Rx) _ IH]; constructor; [|apply IH; intros o Ho; apply Nd; now right].
      destruct (Nd (snd x) (or_introl eq_refl)) as (_ & Nx). rewrite (reads_dict _ _ _ Rx) in Nx. destruct (snd y); simpl; try lia. exfalso. apply Nx. eauto. }
    assert (K2 : ok_heap (h1 ++ [CDict ret])) by (apply ok_add; [assumption|intros o Ho; exact (proj1 (Nd o Ho))|discriminate]).
    assert (R2 : reads (h1 ++ [CDict ret]) (Ref (length h1)) (PMap tret)) by (econstructor; [apply new_cell|]; eapply items_ext; [apply ext_app|exact F1]).
    destruct (from_mapping_agrees _ _ _ _ _ _ _ K2 R2 E) as [(L & X)|X]; [left; split; [|assumption]; cbn [depth]; lia|right; exact X].
  - injection E as <- <-. destruct S as [(S & X)|S].
    + left. split; [|congruence]. apply Exists_exists in S. destruct S as (kv & I & L). apply le_n_S. cbn [depth]. eapply Nat.le_trans; [exact L|]. apply depth_in. apply Exists_exists. exists kv. split; [assumption|lia].
    + right. destruct (mapM _ ta) as [d'|]; [contradiction|]. exact S.
Qed.
Lemma unify_with_agrees fuel h a b ta tb prefix h' r : ok_heap h -> reads h a ta -> reads h b tb -> h_unify_with fuel h a b prefix = (h', r) ->
  (fuel <= S (depth ta) \/ fuel <= depth tb) /\ r = Raise RecursionError \/ agrees h' r (unify_with ta tb prefix).
Proof.
  intros K Ra Rb E. unfold h_unify_with in E. unfold unify_with. rewrite (reads_params _ _ _ Rb) in E. destruct (is_params tb).
  - cbn [bind]. destruct (unify_agrees _ _ _ _ _ _ _ _ _ K Ra Rb E) as [(L & X)|X]; [left; auto|now right].
  - destruct (h_from_mapping fuel h [] b) as [h1 r1] eqn:G. destruct (from_mapping_spec _ _ _ _ _ _ K (reads_exists _ _ _ Rb) G) as (E1 & K1 & _).
    destruct (from_mapping_agrees _ _ _ _ _ _ _ K Rb G) as [(L & ->)|X].
    + injection E as <- <-. left. split; [|reflexivity]. right. eapply Nat.le_trans; [exact L|apply mdepth_depth].
    + destruct r1 as [b'|e], (from_mapping tb []) as [tb'|e']; try contradiction; cbn [bind].
      * destruct (unify_agrees _ _ _ _ _ _ _ _ _ K1 (reads_ext _ _ _ _ E1 Ra) X E) as [(L & Y)|Y]; [left; auto|now right].
      * injection E as <- <-. right. exact X.
Qed.
