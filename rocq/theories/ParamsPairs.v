(** * from_key_value_pairs, namespaced_items *)
From Verif Require Import Prelude PyStr Params ParamsSpec ParamsProofs.

Lemma is_prefix_spec p q : is_prefix p q = true <-> prefix_of p q.
Proof.
  revert q; induction p as [|a p IH]; intros q; simpl.
  - split; [intros _; now exists q|auto].
  - destruct q as [|b q]; [split; [discriminate|intros (r & H); discriminate]|]. rewrite andb_true_iff, str_eqb_eq, IH. split.
    + intros [-> (r & ->)]. now exists r.
    + intros (r & H). injection H as -> ->. split; [reflexivity|now exists r].
Qed.
Lemma is_prefix_refl p : is_prefix p p = true.
Proof. apply is_prefix_spec. exists []. now rewrite app_nil_r. Qed.
Lemma is_prefix_both p q : is_prefix p q = true -> is_prefix q p = true -> p = q.
Proof.
  revert q; induction p as [|a p IH]; intros [|b q]; simpl; try congruence. rewrite !andb_true_iff, !str_eqb_eq.
  intros [-> H1] [_ H2]. f_equal. auto.
Qed.

Lemma plain_find m k x : plain (PMap m) -> dfind m k = Some x -> plain x.
Proof. rewrite plain_map. intros (_ & W) H. apply dfind_in in H. rewrite Forall_forall in W. apply (W _ H). Qed.
Lemma plain_put m k x : plain (PMap m) -> plain x -> plain (PMap (dput m k x)).
Proof.
  rewrite !plain_map. intros (N & W) H. split; [now apply dput_nodup|]. clear N. induction m as [|[k' x'] m IH]; simpl.
  - repeat constructor; assumption.
  - inversion W; subst. destruct (str_eqb k' k); constructor; auto.
Qed.
Lemma leaf_plain v : is_leaf v -> plain v.
Proof. destruct v; simpl; tauto. Qed.
Lemma view_put d k x q : view (PMap (dput d k x)) q =
  match q with [] => Some Namespace | k' :: q' => if str_eqb k k' then view x q' else view (PMap d) q end.
Proof. destruct q as [|k' q]; [reflexivity|]. simpl. rewrite dfind_dput. destruct (str_eqb k k'); reflexivity. Qed.

(** One assignment. *)
Lemma view_leaf v q : is_leaf v -> view v q = match q with [] => Some (Leaf v) | _ => None end.
Proof. destruct v, q; simpl; tauto || reflexivity. Qed.

Definition assign (parts : list str) (v : pv) (old : option found) (q : list str) : option found :=
  if is_prefix parts q then (if is_prefix q parts then Some (Leaf v) else None)
  else if is_prefix q parts then Some Namespace else old.
Lemma insert_path_spec parts : forall d v, parts <> [] -> plain (PMap d) -> is_leaf v ->
  match insert_path d parts v with
  | Ok d' => plain (PMap d') /\
             (forall q, view (PMap d') q = assign parts v (view (PMap d) q) q) /\
             (forall p v, proper_prefix p parts -> view (PMap d) p <> Some (Leaf v))
  | Raise e => e = TypeError /\ exists p v, proper_prefix p parts /\ view (PMap d) p = Some (Leaf v)
  end.
Proof.
  induction parts as [|k rest IH]; intros d v NE P L; [congruence|].
  destruct rest as [|k2 rest].
  - simpl insert_path. split; [apply plain_put; auto using leaf_plain|]. split.
    + intros [|k' q]; [reflexivity|]. rewrite view_put. unfold assign. simpl is_prefix. destruct (str_eqb k k') eqn:E.
      * apply str_eqb_eq in E; subst k'. rewrite str_eqb_refl. rewrite view_leaf by assumption. destruct q; reflexivity.
      * destruct (str_eqb k' k) eqn:E2; [apply str_eqb_eq in E2; subst; rewrite str_eqb_refl in E; discriminate|]. reflexivity.
    + intros p w (x & r & H). destruct p as [|a [|b p]]; simpl in H; [discriminate|discriminate|discriminate].
  - set (tl := k2 :: rest) in *. assert (tl <> []) as NT by discriminate.
    assert (insert_path d (k :: tl) v = match dfind d k with
        | None => let* sub := insert_path [] tl v in Ok (dput d k (PMap sub))
        | Some (PMap sub) => let* sub' := insert_path sub tl v in Ok (dput d k (PMap sub'))
        | Some _ => Raise TypeError end) as -> by reflexivity.
    assert (G : forall sub, plain (PMap sub) -> (forall p, view (PMap sub) p = match p with [] => Some Namespace | _ => match dfind d k with Some x => view x p | None => None end end) ->
      match (let* sub := insert_path sub tl v in Ok (dput d k (PMap sub))) with
      | Ok d' => plain (PMap d') /\
             (forall q, view (PMap d') q = assign (k :: tl) v (view (PMap d) q) q) /\
             (forall p v, proper_prefix p (k :: tl) -> p <> [k] -> view (PMap d) p <> Some (Leaf v))
      | Raise e => e = TypeError /\ exists p v, proper_prefix p (k :: tl) /\ view (PMap d) p = Some (Leaf v)
      end).
    { intros sub PS VS. specialize (IH sub v NT PS L). destruct (insert_path sub tl v) as [sub'|e]; simpl bind.
      - destruct IH as (P' & V' & NC). split; [now apply plain_put|]. split.
        + intros [|k' q]; [reflexivity|]. rewrite view_put. unfold assign in *. cbn [is_prefix]. destruct (str_eqb k k') eqn:E.
          * apply str_eqb_eq in E; subst k'. rewrite (V' q). rewrite str_eqb_refl. cbn [andb].
            destruct (is_prefix tl q) eqn:F1; [reflexivity|]. destruct (is_prefix q tl) eqn:F2; [reflexivity|].
            rewrite VS. destruct q; [discriminate F2|]. reflexivity.
          * destruct (str_eqb k' k) eqn:E2; [apply str_eqb_eq in E2; subst; rewrite str_eqb_refl in E; discriminate|]. reflexivity.
        + intros p w (x & r & H) NK. destruct p as [|a p]; [simpl; discriminate|]. simpl in H. injection H as <- H.
          assert (p <> []) as NP by congruence. specialize (NC p w). rewrite VS in NC. destruct p; [congruence|]. apply NC. now exists x, r.
      - destruct IH as (-> & p & w & (x & r & H) & K). split; [reflexivity|]. exists (k :: p), w. split; [exists x, r; simpl; now rewrite H|].
        rewrite VS in K. destruct p; [discriminate|]. exact K. }
    destruct (dfind d k) as [x|] eqn:Ex.
    + assert (Px : plain x) by (eapply plain_find; eauto).
      assert (TE : is_leaf x -> TypeError = TypeError /\ exists p v, proper_prefix p (k :: tl) /\ view (PMap d) p = Some (Leaf v)).
      { intros Lx. split; [reflexivity|]. exists [k], x. split; [exists k2, rest; reflexivity|]. simpl. rewrite Ex. clear -Lx. destruct x; reflexivity || contradiction Lx. }
      destruct x; try (apply TE; exact I).
      * specialize (G m Px). destruct (let* sub := insert_path m tl v in Ok (dput d k (PMap sub))).
        -- destruct G as (G1 & G2 & G3); [intros [|]; reflexivity|]. split; [exact G1|]. split; [exact G2|]. intros p w PP.
           destruct (list_eq_dec (list_eq_dec N.eq_dec) p [k]) as [->|NK]; [|now apply G3]. simpl. rewrite Ex. discriminate.
        -- apply G. intros [|]; reflexivity.
      * now simpl in Px.
    + specialize (G [] (proj2 (plain_map []) (conj (NoDup_nil _) (Forall_nil _)))). destruct (let* sub := insert_path [] tl v in Ok (dput d k (PMap sub))).
      * destruct G as (G1 & G2 & G3); [intros [|]; reflexivity|]. split; [exact G1|]. split; [exact G2|]. intros p w PP.
        destruct (list_eq_dec (list_eq_dec N.eq_dec) p [k]) as [->|NK]; [|now apply G3]. simpl. rewrite Ex. discriminate.
      * apply G. intros [|]; reflexivity.
Qed.

(** A sequence of assignments. *)
Definition step (sep : N) (d : data_t) (kv : str * pv) : res data_t :=
  match fst kv with [] => Raise RuntimeError | _ => insert_path d (py_split sep (fst kv)) (snd kv) end.
Definition entries (sep : N) (kvs : list (str * pv)) : list (list str * pv) :=
  map (fun kv => (py_split sep (fst kv), snd kv)) kvs.

Lemma entries_snoc sep kvs kv : entries sep (kvs ++ [kv]) = entries sep kvs ++ [(py_split sep (fst kv), snd kv)].
Proof. unfold entries. rewrite map_app. reflexivity. Qed.
Lemma decided_leaf_in es p v : decided es p = Some (Leaf v) -> In (p, v) es.
Proof.
  induction es as [|[q w] es IH]; simpl; [destruct p; discriminate|]. destruct (is_prefix q p) eqn:E1, (is_prefix p q) eqn:E2; try discriminate; auto.
  intros H; injection H as ->. left. f_equal. now apply is_prefix_both.
Qed.

Lemma foldM_snoc {A S} (f : S -> A -> res S) l x s : foldM f (l ++ [x]) s = let* t := foldM f l s in f t x.
Proof. revert s. induction l as [|a l IH]; intros s; simpl; [destruct (f s x); reflexivity|]. destruct (f s a); simpl; auto. Qed.

Definition fold_pairs sep kvs := foldM (step sep) kvs [].
Lemma fold_pairs_spec sep kvs : Forall (fun kv => is_leaf (snd kv)) kvs ->
  match fold_pairs sep kvs with
  | Ok d => plain (PMap d) /\ Forall (fun kv => fst kv <> []) kvs /\ no_extension (entries sep kvs) /\
            forall q, view (PMap d) q = decided (rev (entries sep kvs)) q
  | Raise RuntimeError => Exists (fun kv => fst kv = []) kvs
  | Raise TypeError => ~ no_extension (entries sep kvs)
  | Raise _ => False
  end.
Proof.
  unfold fold_pairs. induction kvs as [|[k v] kvs IH] using rev_ind; intros L.
  - split; [split; [constructor|exact I]|]. split; [constructor|]. split; [intros l1 p v l2 q w l3 H; destruct l1; discriminate|].
    intros [|]; reflexivity.
  - rewrite foldM_snoc. apply Forall_app in L. destruct L as [L Lv]. inversion Lv as [|? ? Lv' _]; subst. simpl in Lv'.
    specialize (IH L). destruct (foldM (step sep) kvs []) as [d|e]; simpl bind.
    + destruct IH as (P & NEk & NX & V). unfold step. cbn [fst snd]. destruct k as [|c k0].
      { apply Exists_app. right. now constructor. }
      assert (Kne : c :: k0 <> []) by discriminate. set (k := c :: k0) in *. clearbody k. assert (NE : py_split sep k <> []) by apply py_split_nonnil.
      pose proof (insert_path_spec (py_split sep k) d v NE P Lv') as K.
      destruct (insert_path d (py_split sep k) v) as [d'|e].
      * destruct K as (P' & V' & NL). split; [assumption|]. split; [apply Forall_app; split; [assumption|constructor; [exact Kne|constructor]]|]. split.
        -- rewrite entries_snoc. cbn [fst snd]. intros l1 p w l2 q u l3 H. destruct l3 as [|e3 l3] using rev_ind.
           ++ assert (l1 ++ (p, w) :: l2 ++ [(q, u)] = (l1 ++ (p, w) :: l2) ++ [(q, u)]) as A by (rewrite <- app_assoc; reflexivity).
              rewrite A in H. apply app_inj_tail in H. destruct H as [H1 H2]. injection H2 as <- <-. intros PP.
              (* the latest entry below which q lies *)
              assert (exists p' w', proper_prefix p' (py_split sep k) /\ decided (rev (entries sep kvs)) p' = Some (Leaf w')) as (p' & w' & PP' & D).
              { rewrite H1. clear -PP NX H1 k. rewrite H1 in NX. clear H1. set (q := py_split sep k) in *. clearbody q.
                (* find the last entry whose path is a proper prefix of q *)
                assert (forall l, (exists p w, In (p, w) l /\ proper_prefix p q) -> no_extension l -> exists p' w', proper_prefix p' q /\ decided (rev l) p' = Some (Leaf w')) as G.
                { clear. induction l as [|[p w] l IH] using rev_ind; intros (p0 & w0 & I & PP) NX; [destruct I|].
                  rewrite rev_app_distr. simpl rev.
                  destruct (is_prefix p q) eqn:E1.
                  - destruct (is_prefix q p) eqn:E2.
                    + (* p = q: the earlier entry is extended by it, or was it itself *)
                      pose proof (is_prefix_both _ _ E1 E2) as <-. apply in_app_iff in I. destruct I as [I|[I|[]]].
                      * exfalso. apply in_split in I. destruct I as (m1 & m2 & ->). apply (NX m1 p0 w0 m2 p w []); [rewrite <- !app_assoc; reflexivity|assumption].
                      * injection I as -> ->. destruct PP as (x & r & H). exfalso. apply (f_equal (@length str)) in H. rewrite app_length in H. simpl in H. lia.
                    + apply is_prefix_spec in E1. destruct E1 as (r & ->). destruct r as [|x r]; [rewrite app_nil_r, is_prefix_refl in E2; discriminate|].
                      exists p, w. split; [now exists x, r|]. simpl. now rewrite is_prefix_refl.
                  - apply in_app_iff in I. destruct I as [I|[I|[]]].
                    + destruct IH as (p' & w' & PP' & D); [eauto| |].
                      * intros a1 a2 a3 a4 a5 a6 a7 ->. apply (NX a1 a2 a3 a4 a5 a6 (a7 ++ [(p, w)])). rewrite <- !app_assoc. simpl. rewrite <- !app_assoc. reflexivity.
                      * exists p', w'. split; [assumption|]. simpl. destruct (is_prefix p p') eqn:F1.
                        { exfalso. apply is_prefix_spec in F1. destruct F1 as (r & ->). destruct PP' as (x & r' & ->).
                          assert (is_prefix p ((p ++ r) ++ x :: r') = true); [|congruence]. apply is_prefix_spec. rewrite <- app_assoc. eexists; reflexivity. }
                        destruct (is_prefix p' p) eqn:F2; [|assumption]. exfalso.
                        apply decided_leaf_in in D. apply in_rev in D. apply in_split in D. destruct D as (m1 & m2 & ->).
                        apply is_prefix_spec in F2. destruct F2 as (r & ->). destruct r as [|x r]; [rewrite app_nil_r, is_prefix_refl in F1; discriminate|].
                        apply (NX m1 p' w' m2 (p' ++ x :: r) w []); [rewrite <- !app_assoc; reflexivity|]. now exists x, r.
                    + injection I as -> ->. destruct PP as (x & r & ->). exfalso. assert (is_prefix p0 (p0 ++ x :: r) = true); [|congruence]. apply is_prefix_spec. eexists; reflexivity. }
                apply G; [|assumption]. exists p, w. split; [apply in_app_iff; right; now left|assumption]. }
              rewrite <- V in D. exact (NL _ _ PP' D).
           ++ clear IHl3. assert (l1 ++ (p, w) :: l2 ++ (q, u) :: l3 ++ [e3] = (l1 ++ (p, w) :: l2 ++ (q, u) :: l3) ++ [e3]) as A
                by (rewrite <- !app_assoc; simpl; rewrite <- !app_assoc; reflexivity).
              rewrite A in H. apply app_inj_tail in H. destruct H as [H1 _]. exact (NX _ _ _ _ _ _ _ H1).
        -- intros q. rewrite entries_snoc, rev_app_distr. cbn [rev app decided]. rewrite V'. unfold assign. rewrite V. reflexivity.
      * destruct K as (-> & p & w & PP & K). rewrite V in K. apply decided_leaf_in in K. apply in_rev in K. rewrite entries_snoc. intros X.
        apply in_split in K. destruct K as (l1 & l2 & K). rewrite K in X. apply (X l1 p w l2 (py_split sep k) v []); [rewrite <- app_assoc; reflexivity|assumption].
    + destruct e; try contradiction.
      * rewrite entries_snoc. intros X. apply IH. intros a1 a2 a3 a4 a5 a6 a7 EQ. rewrite EQ in X. apply (X a1 a2 a3 a4 a5 a6 (a7 ++ [(py_split sep k, v)])). rewrite <- !app_assoc. simpl. rewrite <- !app_assoc. reflexivity.
      * apply Exists_app. now left.
Qed.

Lemma nested_key_view t k : plain t -> nested_key t k -> exists q, view t (q ++ [k]) <> None.
Proof.
  intros P K. induction K as [m k x I|m k x k' I K IH].
  - exists []. simpl. apply plain_map in P. rewrite (in_dfind _ _ _ (proj1 P) I). destruct x; discriminate.
  - apply plain_map in P. destruct P as [N P]. rewrite Forall_forall in P. destruct (IH (P _ I)) as (q & Hq). exists (k :: q).
    simpl. rewrite (in_dfind _ _ _ N I). exact Hq.
Qed.
Lemma view_nested_key t : forall q k, plain t -> view t (q ++ [k]) <> None -> nested_key t k.
Proof.
  intros q. revert t. induction q as [|a q IH]; intros t k P H.
  - simpl in H. destruct t; try congruence; [|now simpl in P]. destruct (dfind m k) eqn:E; [|congruence]. apply dfind_in in E. eapply nk_here; eauto.
  - simpl in H. destruct t; try congruence; [|now simpl in P]. destruct (dfind m a) as [x|] eqn:E; [|congruence].
    eapply nk_there; [apply dfind_in; eassumption|]. apply (IH x); [eapply plain_find; eauto|assumption].
Qed.

Lemma fkvp_eq kvs sep : from_key_value_pairs kvs sep = let* d := fold_pairs sep kvs in from_mapping (PMap d) [].
Proof. reflexivity. Qed.

Theorem from_pairs_correct kvs sep : Forall (fun kv => is_leaf (snd kv)) kvs ->
  match from_key_value_pairs kvs sep with
  | Ok p => wf_params p /\ params_prefix p = [] /\
            Forall (fun kv => fst kv <> []) kvs /\ no_extension (entries sep kvs) /\
            (forall q k, decided (rev (entries sep kvs)) (q ++ [k]) <> None -> dotless k) /\
            forall q, view p q = decided (rev (entries sep kvs)) q
  | Raise RuntimeError => Exists (fun kv => fst kv = []) kvs
  | Raise TypeError => ~ no_extension (entries sep kvs)
  | Raise ValueError => exists q k, decided (rev (entries sep kvs)) (q ++ [k]) <> None /\ In dot k
  | Raise _ => False
  end.
Proof.
  intros L. rewrite fkvp_eq. pose proof (fold_pairs_spec sep kvs L) as F. destruct (fold_pairs sep kvs) as [d|e]; cbn [bind].
  - destruct F as (P & NE & NX & V). unfold from_mapping. destruct (from_value [] (PMap d)) as [p|e] eqn:E.
    + split; [split|].
      * eapply from_value_gives_wf; [|eassumption]. now apply plain_mixed.
      * apply (from_value_is_params _ _ _ E).
      * split; [apply (from_value_is_params _ _ _ E)|]. split; [assumption|]. split; [assumption|]. split.
        -- intros q k H. rewrite <- V in H. apply view_nested_key in H; [|assumption]. eapply from_value_nodots; eauto.
        -- intros q. rewrite (from_value_view _ _ _ E). apply V.
    + destruct (from_value_raise _ _ _ E) as (-> & k & K1 & K2). destruct (nested_key_view _ _ P K1) as (q & Hq). exists q, k. now rewrite <- V.
  - destruct e; contradiction || assumption.
Qed.

(** With "." as the separator no key component contains a dot. *)
Lemma decided_component es q k : decided es (q ++ [k]) <> None -> exists p v, In (p, v) es /\ In k p.
Proof.
  induction es as [|[p v] es IH]; simpl; [destruct (q ++ [k]) eqn:E; [destruct q; discriminate|congruence]|].
  destruct (is_prefix (q ++ [k]) p) eqn:E2.
  - intros _. exists p, v. split; [auto|]. apply is_prefix_spec in E2. destruct E2 as (r & ->). rewrite !in_app_iff. simpl. auto.
  - destruct (is_prefix p (q ++ [k])); [congruence|]. intros H. destruct (IH H) as (p' & v' & I & J). eauto.
Qed.

(** ** namespaced_items *)
Lemma dotted_snoc pre k : py_join [dot] pre ++ (match pre with [] => [] | _ => [dot] end) ++ k = dotted (pre ++ [k]).
Proof.
  unfold dotted. destruct pre as [|a pre]; [reflexivity|]. revert a. induction pre as [|b pre IH]; intros a; [reflexivity|].
  change (py_join [dot] (a :: b :: pre)) with (a ++ [dot] ++ py_join [dot] (b :: pre)).
  change (py_join [dot] ((a :: b :: pre) ++ [k])) with (a ++ [dot] ++ py_join [dot] ((b :: pre) ++ [k])). rewrite <- IH. now rewrite <- !app_assoc.
Qed.
Lemma leaves_leaf v : is_leaf v -> leaves v = [([], v)].
Proof. destruct v; simpl; tauto || reflexivity. Qed.
Lemma namespaced_items_from v : forall pre p, plain v -> from_value pre v = Ok p -> is_params p = true ->
  namespaced_items p = map (fun e => (dotted (pre ++ fst e), snd e)) (leaves v).
Proof.
  induction v using pv_ind_nested; intros pre' p P E Q; try (simpl in E; injection E as <-; discriminate); [|now simpl in P].
  rewrite from_value_map in E. apply bind_ok in E. destruct E as (d & E & F).
  destruct (mk_params_spec _ _ _ F) as [[_ X]|[_ X]]; [|discriminate]. injection X as ->. clear F Q.
  apply plain_map in P. destruct P as [_ P]. cbn [namespaced_items leaves]. rewrite mapM_ok in E.
  induction E as [|[k x] [k' x'] m d E1 _ IH]; [reflexivity|]. inversion H as [|? ? H1 H2]; subst. inversion P as [|? ? P1 P2]; subst.
  cbn [flat_map fst snd]. rewrite map_app, <- IH by assumption. f_equal. unfold from_item in E1. cbn [fst snd] in *.
  destruct (from_value (pre' ++ [k]) x) as [y|] eqn:Ey; simpl in E1; [|discriminate]. injection E1 as <- <-.
  rewrite map_map. cbn [fst snd]. destruct (is_params y) eqn:Q.
  - specialize (H1 _ _ P1 Ey Q). destruct y; try discriminate. rewrite H1. apply map_ext. intros e. rewrite <- app_assoc. reflexivity.
  - assert (is_leaf x /\ y = x) as [Lx ->].
    { destruct x; try (simpl in Ey; injection Ey as <-; split; [exact I|reflexivity]); [|now simpl in P1].
      apply from_value_is_params in Ey. rewrite Q in Ey. destruct Ey; discriminate. }
    rewrite leaves_leaf by assumption. cbn [map fst snd]. rewrite <- dotted_snoc. destruct x; try reflexivity; discriminate Q || contradiction Lx.
Qed.

(** Assigning all leaves of a tree, in order, rebuilds it without its empty namespaces. *)
Definition ins (d : data_t) (e : list str * pv) : res data_t := insert_path d (fst e) (snd e).
Lemma insert_under d k sub rest v : ~ In k (keys d) -> rest <> [] ->
  insert_path (d ++ [(k, PMap sub)]) (k :: rest) v = let* s := insert_path sub rest v in Ok (d ++ [(k, PMap s)]).
Proof.
  intros N R. destruct rest as [|r rest]; [congruence|]. cbn [insert_path]. rewrite dfind_last by assumption.
  change (insert_path sub (r :: rest) v) with (insert_path sub (r :: rest) v).
  match goal with |- bind ?a _ = bind ?b _ => change b with a; destruct a; [|reflexivity] end. simpl. now rewrite dput_last.
Qed.
Lemma fold_under d k es : ~ In k (keys d) -> Forall (fun e => fst e <> []) es -> forall sub,
  foldM ins (map (fun e => (k :: fst e, snd e)) es) (d ++ [(k, PMap sub)]) = let* s := foldM ins es sub in Ok (d ++ [(k, PMap s)]).
Proof.
  intros N F. induction F as [|[p v] es H _ IH]; intros sub; [reflexivity|]. cbn [map foldM fst snd]. unfold ins at 1 3. cbn [fst snd].
  rewrite insert_under by assumption. destruct (insert_path sub p v) as [s|e]; simpl; [|reflexivity]. apply IH.
Qed.
Lemma leaves_nonempty m : Forall (fun e => fst e <> []) (leaves (PMap m)).
Proof.
  apply Forall_forall. intros e H. simpl in H. apply in_flat_map in H. destruct H as (kv & _ & H). apply in_map_iff in H. destruct H as (e' & <- & _). discriminate.
Qed.
Lemma fold_fresh d k es : ~ In k (keys d) -> Forall (fun e => fst e <> []) es ->
  foldM ins (map (fun e => (k :: fst e, snd e)) es) d =
  match es with [] => Ok d | _ => let* s := foldM ins es [] in Ok (d ++ [(k, PMap s)]) end.
Proof.
  intros N F. destruct es as [|[p v] es]; [reflexivity|]. inversion F as [|? ? H1 H2]; subst. cbn [map foldM fst snd]. unfold ins at 1 3. cbn [fst snd] in *.
  destruct p as [|a p]; [congruence|]. cbn [insert_path]. assert (dfind d k = None) as -> by (now apply dfind_none).
  match goal with |- bind (bind ?a _) _ = bind (bind ?b _) _ => change b with a; destruct a as [s|e]; [|reflexivity] end. simpl.
  rewrite dput_fresh by assumption. now apply fold_under.
Qed.
Lemma prune_nil_leaves v : plain v -> is_empty_map (prune v) = match leaves v with [] => true | _ => false end.
Proof.
  induction v using pv_ind_nested; intros P; try reflexivity; [|now simpl in P].
  apply plain_map in P. destruct P as [_ P]. cbn [prune leaves is_empty_map]. induction m as [|[k x] m IH]; [reflexivity|].
  inversion H as [|? ? H1 H2]; subst. inversion P as [|? ? P1 P2]; subst. cbn [map filter flat_map fst snd] in *. rewrite (H1 P1).
  destruct (leaves x); simpl; [|reflexivity]. now apply IH.
Qed.
Lemma fold_leaves v : forall m, v = PMap m -> plain v -> forall d, (forall k, In k (keys d) -> ~ In k (keys m)) ->
  exists m', prune v = PMap m' /\ foldM ins (leaves v) d = Ok (d ++ m').
Proof.
  induction v using pv_ind_nested; intros m0 E P; try discriminate. injection E as <-.
  apply plain_map in P. destruct P as [N P]. cbn [prune leaves].
  intros d D. eexists. split; [reflexivity|]. revert d D. induction m as [|[k x] m IH]; intros d D; [now rewrite app_nil_r|].
  inversion H as [|? ? H1 H2]; subst. inversion P as [|? ? P1 P2]; subst. inversion N as [|? ? N1 N2]; subst. cbn [map filter flat_map fst snd] in *.
  assert (FA : forall l1 l2 s, foldM ins (l1 ++ l2) s = let* t := foldM ins l1 s in foldM ins l2 t).
  { induction l1 as [|a l1 IHl]; intros l2 s; simpl; [reflexivity|]. destruct (ins s a); simpl; auto. }
  rewrite FA. assert (Nk : ~ In k (keys d)). { intros K. apply (D k K). simpl. auto. }
  rewrite (prune_nil_leaves x P1).
  assert (REST : forall y, (let* t := Ok (d ++ [(k, y)]) in foldM ins (flat_map (fun kv => map (fun e => (fst kv :: fst e, snd e)) (leaves (snd kv))) m) t) =
     Ok (d ++ (k, y) :: filter (fun kv => negb (is_empty_map (snd kv))) (map (fun kv => (fst kv, prune (snd kv))) m))).
  { intros y. cbn [bind]. rewrite IH; auto.
    - now rewrite <- app_assoc.
    - intros k' K. unfold keys in K. rewrite map_app, in_app_iff in K. destruct K as [K|[<-|[]]]; [|assumption]. intros J. apply (D k' K). simpl. auto. }
  destruct x as [| | | | | | | |mx| |]; try (cbn [leaves map foldM fst snd]; unfold ins at 1; cbn [fst snd insert_path prune negb filter]; rewrite dput_fresh by assumption; exact (REST _)); [|now simpl in P1].
  rewrite fold_fresh by (assumption || apply leaves_nonempty).
  destruct (leaves (PMap mx)) as [|e es] eqn:EL.
  - cbn [negb bind]. apply IH; auto. intros k' K J. apply (D k' K). simpl. auto.
  - cbn [negb]. destruct (H1 mx eq_refl P1 [] (fun _ F => match F with end)) as (m' & E1 & E2). rewrite E2, E1. cbn [bind app]. exact (REST _).
Qed.
