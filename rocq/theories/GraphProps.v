(** * Properties C39, C40: topological sort *)
From Coq Require Import Relations.
From Verif Require Import Prelude Graph.

Section P.
Context {V : Type}.
Variable V_dec : forall a b : V, {a = b} + {a <> b}.
Notation veqb := (veqb V_dec).
Notation mem := (mem V_dec).

Lemma NoDup_app_intro_ {B} (l1 l2 : list B) : NoDup l1 -> NoDup l2 -> (forall x, In x l1 -> In x l2 -> False) -> NoDup (l1 ++ l2).
Proof.
  induction l1 as [|a l1 IH]; intros N1 N2 D; simpl; [assumption|]. inversion N1 as [|? ? Hn N']; subst. constructor.
  - rewrite in_app_iff. intros [H|H]; [contradiction|]. apply (D a); simpl; auto.
  - apply IH; auto. intros x H1 H2. apply (D x); simpl; auto.
Qed.
Lemma not_NoDup_ (l : list V) : ~ NoDup l -> exists a l1 l2 l3, l = l1 ++ a :: l2 ++ a :: l3.
Proof.
  induction l as [|a l IH]; intros H; [exfalso; apply H; constructor|].
  destruct (in_dec V_dec a l) as [I|N].
  - apply in_split in I. destruct I as (l2 & l3 & ->). exists a, [], l2, l3. reflexivity.
  - destruct IH as (b & l1 & l2 & l3 & ->); [intros K; apply H; now constructor|]. exists b, (a :: l1), l2, l3. reflexivity.
Qed.
Lemma veqb_eq a b : veqb a b = true <-> a = b.
Proof. unfold Graph.veqb. destruct (V_dec a b); split; congruence. Qed.
Lemma veqb_refl a : veqb a a = true.
Proof. now apply veqb_eq. Qed.
Lemma veqb_neq a b : veqb a b = false <-> a <> b.
Proof. unfold Graph.veqb. destruct (V_dec a b); split; congruence. Qed.
Lemma mem_in v l : mem v l = true <-> In v l.
Proof.
  unfold Graph.mem. rewrite existsb_exists. split.
  - intros (x & H & E). apply veqb_eq in E. now subst.
  - intros H. exists v. split; [assumption|apply veqb_refl].
Qed.
Lemma mem_nin v l : mem v l = false <-> ~ In v l.
Proof. rewrite <- mem_in. destruct (mem v l); split; congruence. Qed.

Lemma iset_spec xs : forall seen, NoDup (iset_aux V_dec seen xs) /\
  (forall x, In x (iset_aux V_dec seen xs) <-> In x xs /\ ~ In x seen).
Proof.
  induction xs as [|a xs IH]; intros seen; simpl.
  - split; [constructor|]. tauto.
  - destruct (mem a seen) eqn:E.
    + apply mem_in in E. destruct (IH seen) as [N S]. split; [assumption|]. intros x. rewrite S. split; [tauto|].
      intros [[<-|H] K]; [contradiction|tauto].
    + apply mem_nin in E. destruct (IH (a :: seen)) as [N S]. split.
      * constructor; [|assumption]. rewrite S. simpl. tauto.
      * intros x. simpl. rewrite S. simpl. split; [intros [<-|H]; tauto|]. intros [[<-|H] K]; [auto|].
        destruct (V_dec a x); [auto|tauto].
Qed.
Lemma pair_mem_in p l : pair_mem V_dec p l = true <-> In p l.
Proof.
  unfold pair_mem. rewrite existsb_exists. split.
  - intros (x & H & E). apply andb_true_iff in E. destruct E as [E1 E2]. apply veqb_eq in E1, E2.
    destruct p, x; simpl in *; now subst.
  - intros H. exists p. split; [assumption|]. now rewrite !veqb_refl.
Qed.
Lemma pair_dec (p q : V * V) : {p = q} + {p <> q}.
Proof. decide equality. Qed.
Lemma isetmd_spec xs : forall seen, NoDup (isetmd_aux V_dec seen xs) /\
  (forall x, In x (isetmd_aux V_dec seen xs) <-> In x xs /\ ~ In x seen).
Proof.
  induction xs as [|a xs IH]; intros seen; simpl.
  - split; [constructor|]. tauto.
  - destruct (pair_mem V_dec a seen) eqn:E.
    + apply pair_mem_in in E. destruct (IH seen) as [N S]. split; [assumption|]. intros x. rewrite S. split; [tauto|].
      intros [[<-|H] K]; [contradiction|tauto].
    + assert (E' : ~ In a seen) by (rewrite <- pair_mem_in; congruence). destruct (IH (a :: seen)) as [N S]. split.
      * constructor; [|assumption]. rewrite S. simpl. tauto.
      * intros x. simpl. rewrite S. simpl. split; [intros [<-|H]; tauto|]. intros [[<-|H] K]; [auto|].
        destruct (pair_dec a x); [auto|tauto].
Qed.

(** A graph object: one the constructor accepted. *)
Definition is_graph (g : digraph V) : Prop := exists ns es, mk_digraph V_dec ns es = Ok g.
Lemma graph_facts g : is_graph g -> NoDup (nodes g) /\ NoDup (edges g) /\
  (forall u v, In (u, v) (edges g) -> In u (nodes g) /\ In v (nodes g)).
Proof.
  intros (ns & es & H). unfold mk_digraph in H. destruct (forallb _ _) eqn:F; [|discriminate]. inversion H; subst. simpl in *.
  split; [apply iset_spec|]. split; [apply isetmd_spec|]. intros u v Hin. rewrite forallb_forall in F. specialize (F _ Hin).
  apply andb_true_iff in F. simpl in F. now rewrite !mem_in in F.
Qed.

(** ** the loop invariant *)
Section Loop.
Variable g : digraph V.
Hypothesis NDn : NoDup (nodes g).
Hypothesis NDe : NoDup (edges g).
Hypothesis WF : forall u v, In (u, v) (edges g) -> In u (nodes g) /\ In v (nodes g).

Definition keys (d : list (V * nat)) := map fst d.
(** edges into v from nodes not yet yielded *)
Definition cnt (done : list V) (v : V) : nat :=
  length (filter (fun e => veqb (snd e) v && negb (mem (fst e) done)) (edges g)).
Lemma cnt_zero done v : cnt done v = 0 <-> forall u, In (u, v) (edges g) -> In u done.
Proof using.
  unfold cnt. rewrite length_zero_iff_nil. split.
  - intros H u Hu. destruct (mem u done) eqn:M; [now apply mem_in|].
    assert (I : In (u, v) (filter (fun e => veqb (snd e) v && negb (mem (fst e) done)) (edges g))).
    { apply filter_In. split; [assumption|]. simpl. now rewrite veqb_refl, M. }
    rewrite H in I. destruct I.
  - intros H. destruct (filter _ _) as [|[u w] l] eqn:E; [reflexivity|].
    assert (I : In (u, w) ((u, w) :: l)) by (simpl; auto). rewrite <- E in I. apply filter_In in I. destruct I as [I P].
    simpl in P. apply andb_true_iff in P. destruct P as [P1 P2]. apply veqb_eq in P1. subst w.
    apply H in I. apply mem_in in I. rewrite I in P2. discriminate.
Qed.
Definition occ (cs : list V) (v : V) : nat := if mem v cs then 1 else 0.
Lemma occ_in cs v : In v cs -> occ cs v = 1.
Proof using. unfold occ. intros H. apply mem_in in H. now rewrite H. Qed.
Lemma occ_nin cs v : ~ In v cs -> occ cs v = 0.
Proof using. unfold occ. intros H. apply mem_nin in H. now rewrite H. Qed.
Lemma succ_in node v : In v (successors V_dec g node) <-> In (node, v) (edges g).
Proof using.
  unfold successors. rewrite in_map_iff. split.
  - intros ([a b] & <- & H). apply filter_In in H. destruct H as [H E]. apply veqb_eq in E. simpl in E. now subst.
  - intros H. exists (node, v). split; [reflexivity|]. apply filter_In. split; [assumption|apply veqb_refl].
Qed.
Lemma succ_nodup node : NoDup (successors V_dec g node).
Proof using NDe.
  unfold successors. revert NDe. generalize (edges g). clear. induction l as [|[a b] l IH]; intros N; simpl; [constructor|].
  inversion N as [|? ? Hn N']; subst. destruct (Graph.veqb V_dec a node) eqn:E; [|auto]. simpl. constructor; [|auto].
  apply veqb_eq in E. subst a. intros H. apply in_map_iff in H. destruct H as ([x y] & <- & H). apply filter_In in H.
  destruct H as [H E]. apply veqb_eq in E. simpl in E. subst x. contradiction.
Qed.
(** yielding one more node removes its edges from the counts *)
Lemma cnt_step done node v : ~ In node done ->
  cnt done v = cnt (done ++ [node]) v + occ (successors V_dec g node) v.
Proof using NDe.
  intros Hn. unfold cnt.
  assert (E : occ (successors V_dec g node) v = length (filter (fun e => veqb (snd e) v && veqb (fst e) node) (edges g))).
  { unfold occ. destruct (mem v (successors V_dec g node)) eqn:M.
    - apply mem_in, succ_in in M. revert M NDe. generalize (edges g). clear. induction l as [|[a b] l IH]; intros M N; simpl; [destruct M|].
      inversion N as [|? ? Hn N']; subst. destruct (Graph.veqb V_dec b v) eqn:Eb, (Graph.veqb V_dec a node) eqn:Ea; simpl.
      + apply veqb_eq in Ea, Eb. subst. f_equal.
        assert (filter (fun e => veqb (snd e) v && veqb (fst e) node) l = []) as ->; [|reflexivity].
        destruct (filter _ l) as [|[x y] m] eqn:F; [reflexivity|]. exfalso.
        assert (I : In (x, y) ((x, y) :: m)) by (simpl; auto). rewrite <- F in I. apply filter_In in I. destruct I as [I P].
        simpl in P. apply andb_true_iff in P. destruct P as [P1 P2]. apply veqb_eq in P1, P2. subst. contradiction.
      + apply IH; auto. destruct M as [M|M]; [|assumption]. inversion M; subst. now rewrite veqb_refl in Ea.
      + apply IH; auto. destruct M as [M|M]; [|assumption]. inversion M; subst. now rewrite veqb_refl in Eb.
      + apply IH; auto. destruct M as [M|M]; [|assumption]. inversion M; subst. now rewrite veqb_refl in Eb.
    - apply mem_nin in M. rewrite succ_in in M. symmetry. apply length_zero_iff_nil. destruct (filter _ _) as [|[x y] m] eqn:F; [reflexivity|]. exfalso.
      assert (I : In (x, y) ((x, y) :: m)) by (simpl; auto). rewrite <- F in I. apply filter_In in I. destruct I as [I P].
      simpl in P. apply andb_true_iff in P. destruct P as [P1 P2]. apply veqb_eq in P1, P2. subst. contradiction. }
  rewrite E. clear E. clear NDe WF. induction (edges g) as [|[a b] l IH]; simpl; [reflexivity|].
  assert (M : mem a (done ++ [node]) = mem a done || veqb a node).
  { unfold Graph.mem. rewrite existsb_app. simpl. now rewrite orb_false_r. }
  rewrite M. destruct (Graph.veqb V_dec b v) eqn:Eb; simpl; [|exact IH].
  destruct (Graph.veqb V_dec a node) eqn:Ea; simpl.
  - apply veqb_eq in Ea. subst a. apply mem_nin in Hn. rewrite Hn. simpl. rewrite IH. lia.
  - rewrite orb_false_r. destruct (mem a done); simpl; rewrite IH; lia.
Qed.

Lemma dget_in d v k : NoDup (keys d) -> (dget V_dec d v = Some k <-> In (v, k) d).
Proof using.
  intros N. unfold dget. induction d as [|[a b] d IH]; simpl; [split; [discriminate|intros []]|].
  unfold keys in N. simpl in N. inversion N as [|? ? Hn N']; subst. specialize (IH N').
  destruct (Graph.veqb V_dec a v) eqn:E.
  - apply veqb_eq in E. subst a. split; [intros H; inversion H; subst; auto|].
    intros [H|H]; [inversion H; reflexivity|]. exfalso. apply Hn. apply in_map_iff. exists (v, k). auto.
  - rewrite IH. split; [auto|]. intros [H|H]; [|assumption]. inversion H; subst. now rewrite veqb_refl in E.
Qed.
Lemma keys_dset d v k : keys (dset V_dec d v k) = keys d.
Proof using. unfold keys, dset. rewrite map_map. apply map_ext. intros [a b]. simpl. destruct (Graph.veqb V_dec a v); reflexivity. Qed.
Lemma dset_in d v k x j : In (x, j) (dset V_dec d v k) -> (x = v /\ j = k) \/ (x <> v /\ In (x, j) d).
Proof using.
  unfold dset. rewrite in_map_iff. intros ([a b] & H & I). simpl in H. destruct (Graph.veqb V_dec a v) eqn:E; inversion H; subst.
  - apply veqb_eq in E. auto.
  - apply veqb_neq in E. auto.
Qed.
Lemma keys_ddel d v : forall x, In x (keys (ddel V_dec d v)) <-> In x (keys d) /\ x <> v.
Proof using.
  intros x. unfold keys, ddel. rewrite !in_map_iff. split.
  - intros ([a b] & <- & H). apply filter_In in H. destruct H as [H E]. simpl in *. apply negb_true_iff, veqb_neq in E.
    split; [exists (a, b); auto|assumption].
  - intros [([a b] & <- & H) E]. exists (a, b). split; [reflexivity|]. apply filter_In. split; [assumption|]. simpl in *.
    now apply negb_true_iff, veqb_neq.
Qed.
Lemma ddel_nodup d v : NoDup (keys d) -> NoDup (keys (ddel V_dec d v)).
Proof using.
  unfold keys, ddel. induction d as [|[a b] d IH]; simpl; intros N; [constructor|]. inversion N as [|? ? Hn N']; subst.
  destruct (negb _); simpl; [|auto]. constructor; [|auto]. intros H. apply Hn. apply in_map_iff in H.
  destruct H as (p & <- & H). apply filter_In in H. apply in_map. tauto.
Qed.
Lemma visit_spec (t : V -> nat) cs : NoDup cs -> forall d zero,
  NoDup (keys d) -> NoDup zero -> (forall v, In v zero -> ~ In v (keys d)) ->
  (forall v k, In (v, k) d -> k = t v + occ cs v /\ 0 < k) -> (forall c, In c cs -> In c (keys d)) ->
  exists d' zero', visit V_dec cs d zero = Ok (d', zero') /\
    NoDup (keys d') /\ NoDup zero' /\
    (forall v k, In (v, k) d' -> k = t v /\ 0 < k) /\
    (forall v, In v (keys d') <-> In v (keys d) /\ 0 < t v) /\
    (forall v, In v zero' <-> In v zero \/ (In v (keys d) /\ t v = 0)).
Proof using WF.
  induction cs as [|c cs IH]; intros NC d zero ND NZ DJ HK HC; simpl.
  - exists d, zero. split; [reflexivity|]. split; [assumption|]. split; [assumption|]. split.
    { intros v k H. destruct (HK v k H). unfold occ in *. simpl in *. split; lia. }
    assert (PT : forall v, In v (keys d) -> 0 < t v).
    { intros v Hv. unfold keys in Hv. apply in_map_iff in Hv. destruct Hv as ([a k] & <- & H). destruct (HK a k H).
      unfold occ in *. simpl in *. lia. }
    split; intros v.
    + split; [intros H; split; auto|tauto].
    + split; [auto|]. intros [H|[H E]]; [assumption|]. specialize (PT v H). lia.
  - inversion NC as [|? ? Hc NC']; subst.
    assert (Kc : In c (keys d)) by (apply HC; simpl; auto).
    unfold keys in Kc. apply in_map_iff in Kc. destruct Kc as ([c' k] & Ec & Ik). simpl in Ec. subst c'.
    rewrite (proj2 (dget_in d c k ND) Ik). destruct (HK c k Ik) as [Hk _]. rewrite (occ_in (c :: cs) c) in Hk by (simpl; auto).
    assert (OC : forall v, v <> c -> occ (c :: cs) v = occ cs v).
    { intros v Hv. unfold occ. simpl. apply veqb_neq in Hv. now rewrite Hv. }
    destruct (Nat.eqb_spec (k - 1) 0) as [E|E].
    + destruct (IH NC' (ddel V_dec (dset V_dec d c (k - 1)) c) (c :: zero)) as (d' & z' & HV & R1 & R2 & R3 & R4 & R5).
      * apply ddel_nodup. now rewrite keys_dset.
      * constructor; [|assumption]. intros H. apply (DJ c H). unfold keys. apply in_map_iff. exists (c, k). auto.
      * intros v [<-|H]; rewrite keys_ddel, keys_dset; [tauto|]. intros [K _]. apply (DJ v H K).
      * intros v j H. unfold ddel in H. apply filter_In in H. destruct H as [H N]. simpl in N. apply negb_true_iff, veqb_neq in N.
        apply dset_in in H. destruct H as [[-> _]|[_ H]]; [congruence|]. destruct (HK v j H). rewrite OC in * by assumption. split; lia.
      * intros v Hv. rewrite keys_ddel, keys_dset. split; [apply HC; simpl; auto|]. intros ->. contradiction.
      * exists d', z'. split; [exact HV|]. split; [assumption|]. split; [assumption|]. split; [assumption|].
        split; intros v.
        -- rewrite R4, keys_ddel, keys_dset. split; [tauto|]. intros [H P]. split; [split; [assumption|]|assumption].
           intros ->. lia.
        -- rewrite R5, keys_ddel, keys_dset. simpl. split.
           ++ intros [[<-|H]|[[H _] P]]; [right; split; [|lia]|auto|auto]. unfold keys. apply in_map_iff. exists (c, k). auto.
           ++ intros [H|[H P]]; [auto|]. destruct (V_dec c v); [auto|]. right. repeat split; auto.
    + destruct (IH NC' (dset V_dec d c (k - 1)) zero) as (d' & z' & HV & R1 & R2 & R3 & R4 & R5).
      * now rewrite keys_dset.
      * assumption.
      * intros v H. rewrite keys_dset. auto.
      * intros v j H. apply dset_in in H. destruct H as [[-> ->]|[N H]].
        -- rewrite (occ_nin cs c) by assumption. split; lia.
        -- destruct (HK v j H). rewrite OC in * by assumption. split; lia.
      * intros v Hv. rewrite keys_dset. apply HC; simpl; auto.
      * exists d', z'. rewrite keys_dset in *. auto 10.
Qed.

Record inv (done : list V) (d : list (V * nat)) (zero : list V) : Prop := {
  i_nodup : NoDup (done ++ zero);
  i_keys : NoDup (keys d);
  i_cnt : forall v k, In (v, k) d -> k = cnt done v /\ 0 < k;
  i_cover : forall v, In v (nodes g) <-> In v (done ++ zero) \/ In v (keys d);
  i_disj : forall v, In v (done ++ zero) -> ~ In v (keys d);
  i_zero : forall v, In v zero -> cnt done v = 0;
  i_order : forall a v b, done = a ++ v :: b -> cnt a v = 0
}.
Lemma inv_init : inv [] (filter (fun p => (0 <? snd p)%nat) (in_degrees V_dec g))
  (rev (map fst (filter (fun p => (snd p =? 0)%nat) (in_degrees V_dec g)))).
Proof using NDn WF.
  assert (C : forall v, in_degree V_dec g v = cnt [] v).
  { intros v. unfold in_degree, cnt. f_equal. apply filter_ext. intros e. simpl. now rewrite andb_true_r. }
  assert (K : forall p v, In v (map fst (filter p (in_degrees V_dec g))) <-> In v (nodes g) /\ p (v, in_degree V_dec g v) = true).
  { intros p v. rewrite in_map_iff. unfold in_degrees. split.
    - intros ([a b] & <- & H). apply filter_In in H. destruct H as [H P]. apply in_map_iff in H. destruct H as (x & E & H).
      inversion E; subst. auto.
    - intros [H P]. exists (v, in_degree V_dec g v). split; [reflexivity|]. apply filter_In. split; [|assumption].
      apply in_map_iff. eauto. }
  assert (N : forall p, NoDup (map fst (filter p (in_degrees V_dec g)))).
  { intros p. unfold in_degrees. revert NDn. generalize (nodes g). clear. induction l as [|a l IH]; intros N; simpl; [constructor|].
    inversion N as [|? ? Hn N']; subst. destruct (p _); simpl; [|auto]. constructor; [|auto]. intros H. apply Hn.
    apply in_map_iff in H. destruct H as ([x y] & <- & H). apply filter_In in H. destruct H as [H _].
    apply in_map_iff in H. destruct H as (z & E & H). now inversion E; subst. }
  split; simpl.
  - apply NoDup_rev, N.
  - apply N.
  - intros v k H. apply filter_In in H. destruct H as [H P]. unfold in_degrees in H. apply in_map_iff in H.
    destruct H as (x & E & H). inversion E; subst. simpl in P. rewrite <- C. split; [reflexivity|]. apply Nat.ltb_lt in P. lia.
  - intros v. unfold keys. rewrite <- in_rev, !K. simpl. split.
    + intros H. destruct (in_degree V_dec g v); [left|right]; auto.
    + tauto.
  - intros v. unfold keys. rewrite <- in_rev, !K. simpl. intros [_ H] [_ H2]. apply Nat.eqb_eq in H. rewrite H in H2. discriminate.
  - intros v. rewrite <- in_rev, K. simpl. intros [_ H]. rewrite <- C. now apply Nat.eqb_eq in H.
  - intros a v b H. destruct a; discriminate.
Qed.
Lemma inv_step done d node rest : inv done d (node :: rest) ->
  exists d' zero', visit V_dec (successors V_dec g node) d rest = Ok (d', zero') /\ inv (done ++ [node]) d' zero'.
Proof using NDe WF.
  intros [I1 I2 I3 I4 I5 I6 I7].
  assert (Hn : ~ In node done). { intros H. apply NoDup_remove_2 in I1. apply I1. apply in_app_iff. auto. }
  assert (NR : NoDup (done ++ rest)) by (eapply NoDup_remove_1; exact I1).
  assert (Hr : ~ In node rest). { intros H. apply NoDup_remove_2 in I1. apply I1. apply in_app_iff. auto. }
  assert (C0 : cnt done node = 0) by (apply I6; simpl; auto).
  assert (CS := fun v => cnt_step done node v Hn).
  destruct (visit_spec (cnt (done ++ [node])) (successors V_dec g node) (succ_nodup node) d rest) as (d' & z' & HV & R1 & R2 & R3 & R4 & R5).
  - assumption.
  - clear - NR. induction done; simpl in *; [assumption|]. inversion NR; auto.
  - intros v H. apply I5. apply in_app_iff. simpl. auto.
  - intros v k H. destruct (I3 v k H) as [-> P]. split; [apply CS|assumption].
  - intros c Hc. apply succ_in in Hc. destruct (WF _ _ Hc) as [_ Wc]. apply I4 in Wc. destruct Wc as [Wc|Wc]; [|assumption].
    exfalso. assert (cnt done c = 0).
    { apply in_app_iff in Wc. destruct Wc as [Wc|Wc]; [|now apply I6].
      apply in_split in Wc. destruct Wc as (a & b & ->). assert (Z := I7 a c b eq_refl). rewrite cnt_zero in *.
      intros u Hu. apply in_app_iff. left. now apply Z. }
    rewrite cnt_zero in H. apply Hn. now apply H.
  - exists d', z'. split; [exact HV|]. split.
    + assert (DZ : forall v, In v z' -> ~ In v (done ++ [node])).
      { intros v Hv H. rewrite R5 in Hv. rewrite in_app_iff in H. simpl in H. destruct Hv as [Hv|[Hv _]].
        - destruct H as [H|[<-|[]]]; [|contradiction].
          clear - NR H Hv. induction done as [|a done IH]; simpl in *; [contradiction|]. inversion NR; subst.
          destruct H as [<-|H]; [|auto]. apply H2. apply in_app_iff. auto.
        - apply (I5 v); [|assumption]. rewrite in_app_iff. simpl. tauto. }
      assert (N1 : NoDup (done ++ [node])).
      { apply NoDup_app_intro_.
        - clear - NR. induction done; [constructor|]. simpl in NR. inversion NR; subst. constructor; [|auto]. intros H. apply H1. apply in_app_iff; auto.
        - repeat constructor. intros [].
        - intros x Hx [<-|[]]. contradiction. }
      apply NoDup_app_intro_; auto. intros x H1 H2. exact (DZ x H2 H1).
    + assumption.
    + assumption.
    + intros v. rewrite R4, I4. rewrite !in_app_iff, R5. simpl. split.
      * intros [[H|[H|H]]|H]; try tauto. destruct (cnt (done ++ [node]) v) eqn:E; [|right; split; [assumption|lia]]. tauto.
      * tauto.
    + intros v H. rewrite R4. intros [K P]. rewrite !in_app_iff, R5 in H. simpl in H.
      destruct H as [[H|[<-|[]]]|[H|[_ H]]]; [| | |lia]; (eapply I5; [|exact K]); rewrite in_app_iff; simpl; tauto.
    + intros v H. rewrite R5 in H. destruct H as [H|[_ H]]; [|assumption].
      assert (Z : cnt done v = 0) by (apply I6; simpl; auto). rewrite (CS v) in Z. lia.
    + intros a v b H. destruct b as [|x b].
      * apply app_inj_tail in H. destruct H as [<- <-]. assumption.
      * assert (exists b', done = a ++ v :: b').
        { destruct (exists_last (l := x :: b)) as (b' & y & E); [discriminate|]. rewrite E in H.
          rewrite app_comm_cons, app_assoc in H. apply app_inj_tail in H. destruct H as [-> _]. eauto. }
        destruct H0 as (b' & E). eapply I7; eauto.
Qed.

(** ** cycles *)
Definition edge (u v : V) : Prop := In (u, v) (edges g).
Definition path := clos_trans V edge.              (* one or more edges *)
Definition reaches := clos_refl_trans V edge.      (* zero or more edges *)

Lemma loop_done fuel : forall done d zero, inv done d zero -> length (nodes g) - length done < fuel ->
  exists ys e, topo_loop V_dec fuel g d zero = Some (ys, e) /\
   exists d', inv (done ++ ys) d' [] /\ e = match d' with [] => None | _ => Some ParameterInterpolationError end.
Proof using NDn NDe WF.
  induction fuel as [|f IH]; intros done d zero I L; [lia|]. simpl. destruct zero as [|node rest].
  - eexists [], _. split; [reflexivity|]. exists d. rewrite app_nil_r. auto.
  - destruct (inv_step _ _ _ _ I) as (d' & z' & HV & I'). rewrite HV.
    destruct (IH _ _ _ I') as (ys & e & HT & d2 & I2 & HE).
    { rewrite app_length. simpl. assert (length done < length (nodes g)); [|lia].
      destruct I as [N _ _ C _ _ _]. assert (length (done ++ node :: rest) <= length (nodes g)).
      { apply NoDup_incl_length; [assumption|]. intros x Hx. apply C. auto. }
      rewrite app_length in H. simpl in H. lia. }
    rewrite HT. exists (node :: ys), e. split; [reflexivity|]. exists d2. rewrite <- app_assoc in I2. auto.
Qed.
Lemma order_path done d : inv done d [] -> forall u v, path u v -> forall a b, done = a ++ v :: b -> In u a.
Proof using.
  intros I u v P. induction P as [u v E|u w v P1 IH1 P2 IH2]; intros a b H.
  - destruct I as [_ _ _ _ _ _ O]. assert (C := O _ _ _ H). rewrite cnt_zero in C. now apply C.
  - specialize (IH2 _ _ H). apply in_split in IH2. destruct IH2 as (a1 & a2 & ->).
    rewrite <- app_assoc in H. simpl in H. specialize (IH1 _ _ H). apply in_app_iff. auto.
Qed.
(** a node that is never freed has a cycle behind it *)
Lemma stuck_cycle done d v : inv done d [] -> In v (keys d) -> exists c, path c c /\ reaches c v.
Proof using WF.
  intros I Hv. destruct I as [N K CN CV DJ _ _]. rewrite app_nil_r in *.
  assert (PR : forall x, In x (keys d) -> exists u, In u (keys d) /\ edge u x).
  { intros x Hx. unfold keys in Hx. apply in_map_iff in Hx. destruct Hx as ([y k] & <- & Hx). destruct (CN _ _ Hx) as [-> P].
    unfold cnt in P. destruct (filter _ _) as [|[a b] l] eqn:F in P; [simpl in P; lia|].
    assert (Ia : In (a, b) ((a, b) :: l)) by (simpl; auto). rewrite <- F in Ia. apply filter_In in Ia. destruct Ia as [Ia Q].
    simpl in Q. apply andb_true_iff in Q. destruct Q as [Q1 Q2]. apply veqb_eq in Q1. subst b. apply negb_true_iff, mem_nin in Q2.
    exists a. split; [|exact Ia]. destruct (WF _ _ Ia) as [Wa _]. apply CV in Wa. tauto. }
  (* a backward walk of any length *)
  assert (WK : forall n, exists l, length l = n /\ incl l (keys d) /\
     (forall l1 x y l2, l ++ [v] = l1 ++ x :: y :: l2 -> edge x y)).
  { induction n as [|n (l & L & Il & C)]; [exists []; repeat split; [intros ? []|]|].
    - intros l1 x y l2 H. destruct l1 as [|? [|? ?]]; simpl in H; inversion H.
    - assert (exists h t, l ++ [v] = h :: t /\ In h (keys d)) as (h & t & E & Hh).
      { destruct l as [|h t]; simpl; [exists v, []; auto|]. exists h, (t ++ [v]). split; [reflexivity|]. apply Il; simpl; auto. }
      destruct (PR h Hh) as (u & Hu & Eu). exists (u :: l). repeat split; [simpl; lia|intros x [<-|Hx]; auto|].
      intros l1 x y l2 H. destruct l1 as [|z l1]; simpl in H.
      + rewrite E in H. inversion H; subst. exact Eu.
      + inversion H; subst. eapply C; eassumption. }
  destruct (WK (S (length (keys d)))) as (l & L & Il & C).
  assert (ND : ~ NoDup l). { intros Nl. assert (B := NoDup_incl_length Nl Il). lia. }
  apply not_NoDup_ in ND.
  destruct ND as (c & l1 & l2 & l3 & E). exists c.
  assert (CH : forall m a x, (forall l1 x0 y0 l2, a :: m ++ [x] = l1 ++ x0 :: y0 :: l2 -> edge x0 y0) -> path a x).
  { induction m as [|b m IH]; intros a x H.
    - apply t_step. apply (H [] a x []). reflexivity.
    - apply t_trans with b; [apply t_step; apply (H [] a b (m ++ [x])); reflexivity|].
      apply IH. intros p x0 y0 q Hq. apply (H (a :: p) x0 y0 q). simpl. now rewrite Hq. }
  split.
  - apply (CH l2). intros p x0 y0 q Hq. apply (C (l1 ++ p) x0 y0 (q ++ l3 ++ [v])).
    rewrite E. rewrite <- !app_assoc. f_equal. change (p ++ x0 :: y0 :: q ++ l3 ++ [v]) with (p ++ (x0 :: y0 :: q) ++ l3 ++ [v]).
    rewrite (app_assoc p), <- Hq. simpl. rewrite <- !app_assoc. reflexivity.
  - assert (P : path c v).
    { apply (CH (l2 ++ c :: l3)). intros p x0 y0 q Hq. apply (C (l1 ++ p) x0 y0 q). rewrite E. rewrite <- !app_assoc. f_equal.
      rewrite <- Hq. simpl. rewrite <- !app_assoc. reflexivity. }
    clear -P. induction P; [now apply rt_step|eapply rt_trans; eauto].
Qed.
End Loop.

(** ** C39 *)
(** [x] occurs strictly before [y] *)
Definition before (l : list V) (x y : V) : Prop := exists a b, l = a ++ y :: b /\ In x a.
(** A cycle: a node with a non-empty path to itself. *)
Definition cyclic (g : digraph V) : Prop := exists v, path g v v.

Theorem C39_topological_sort : forall g, is_graph g ->
  exists ys e, topological_sort V_dec (S (length (nodes g))) g = Some (ys, e) /\
    (* nodes are yielded at most once, after all their predecessors *)
    NoDup ys /\ incl ys (nodes g) /\
    (forall u v, In (u, v) (edges g) -> In v ys -> before ys u v) /\
    (* exactly the nodes that no cycle leads to *)
    (forall v, In v (nodes g) -> (In v ys <-> ~ exists c, path g c c /\ reaches g c v)) /\
    (* an acyclic graph is enumerated completely; a cyclic one raises in the end *)
    ((e = None /\ Permutation ys (nodes g) /\ ~ cyclic g) \/ (e = Some ParameterInterpolationError /\ cyclic g)).
Proof.
  intros g G. destruct (graph_facts g G) as (Nn & Ne & WF).
  unfold topological_sort. destruct (loop_done g Nn Ne WF (S (length (nodes g))) [] _ _ (inv_init g Nn WF)) as (ys & e & H & d & I & E).
  { simpl. lia. }
  simpl in I. exists ys, e. split; [exact H|]. assert (I' := I). destruct I as [N K CN CV DJ _ O]. rewrite app_nil_r in *.
  assert (NC : forall v c, path g c c -> reaches g c v -> ~ In v ys).
  { intros v c P R Hv. assert (In c ys).
    { clear - I' R Hv. apply clos_rt_rt1n in R. induction R as [|x y z E R IH]; [assumption|].
      specialize (IH Hv). apply in_split in IH. destruct IH as (a & b & ->).
      assert (In x a) by (eapply (order_path g _ d I' x y); [now apply t_step|reflexivity]). apply in_app_iff. auto. }
    apply in_split in H0. destruct H0 as (a & b & ->). assert (In c a) by (eapply (order_path g _ d I' c c); [exact P|reflexivity]).
    apply NoDup_remove_2 in N. apply N. apply in_app_iff. auto. }
  split; [assumption|]. split; [intros x Hx; apply CV; auto|]. split.
  { intros u v Huv Hv. apply in_split in Hv. destruct Hv as (a & b & ->). exists a, b. split; [reflexivity|].
    eapply (order_path g _ d I' u v); [apply t_step; exact Huv|reflexivity]. }
  split.
  { intros v Hv. split; [intros Hy (c & P & R); exact (NC v c P R Hy)|]. intros Hn.
    apply CV in Hv. destruct Hv as [Hv|Hv]; [assumption|]. exfalso. apply Hn. eapply stuck_cycle; eauto. }
  destruct d as [|[v k] d].
  - left. split; [assumption|]. split.
    + apply NoDup_Permutation; auto. intros x. rewrite CV. simpl. tauto.
    + intros (v & P). assert (Hv : In v (nodes g)).
      { assert (exists w, edge g v w) as (w & Hw) by (apply clos_trans_t1n in P; inversion P; eauto). now apply WF in Hw. }
      apply CV in Hv. destruct Hv as [Hv|[]]. apply (NC v v); auto. apply rt_refl.
  - right. split; [assumption|]. destruct (stuck_cycle g WF ys _ v I') as (c & P & _); [simpl; auto|]. exists c. exact P.
Qed.

(** ** C40 *)
Theorem C40_validation : forall ns es,
  (forall u v, In (u, v) es -> In u ns /\ In v ns) <-> exists g, mk_digraph V_dec ns es = Ok g.
Proof.
  intros ns es. destruct (iset_spec ns []) as [_ S1]. destruct (isetmd_spec es []) as [_ S2].
  unfold mk_digraph. destruct (forallb _ _) eqn:F.
  - split; [eauto|]. intros _ u v H. rewrite forallb_forall in F. specialize (F (u, v)). simpl in F.
    rewrite andb_true_iff, !mem_in in F. unfold immutableset in F. rewrite !S1 in F.
    assert (In (u, v) (immutablesetmultidict V_dec es)) by (apply S2; auto). specialize (F H0). tauto.
  - split; [|intros (g & H); discriminate]. intros H. exfalso. apply Bool.not_true_iff_false in F. apply F.
    apply forallb_forall. intros [u v] Hin. simpl in *. apply S2 in Hin. destruct Hin as [Hin _]. apply H in Hin.
    apply andb_true_iff. rewrite !mem_in. unfold immutableset. rewrite !S1. tauto.
Qed.
Theorem C40_rejected : forall ns es, (exists u v, In (u, v) es /\ (~ In u ns \/ ~ In v ns)) ->
  mk_digraph V_dec ns es = Raise RuntimeError.
Proof.
  intros ns es (u & v & H & N). destruct (mk_digraph V_dec ns es) as [g|e] eqn:E.
  - exfalso. destruct (proj2 (C40_validation ns es) (ex_intro _ g E) u v H). tauto.
  - unfold mk_digraph in E. destruct (forallb _ _); [discriminate|]. now inversion E.
Qed.
(** The graph has exactly the given nodes and edges; the in-degree is the number of distinct
    predecessors. *)
Theorem C40_graph_contents : forall ns es g, mk_digraph V_dec ns es = Ok g ->
  (forall v, In v (nodes g) <-> In v ns) /\ (forall u v, In (u, v) (edges g) <-> In (u, v) es) /\
  (forall v, In (v, in_degree V_dec g v) (in_degrees V_dec g) <-> In v ns) /\
  (forall v preds, NoDup preds -> (forall u, In u preds <-> In (u, v) es) -> in_degree V_dec g v = length preds).
Proof.
  intros ns es g H. assert (G : is_graph g) by (exists ns, es; exact H). destruct (graph_facts g G) as (Nn & Ne & _).
  unfold mk_digraph in H. destruct (forallb _ _); [|discriminate]. inversion H; subst. clear H G. simpl in *.
  destruct (iset_spec ns []) as [_ S1]. destruct (isetmd_spec es []) as [_ S2].
  split; [|split; [|split]].
  - intros v. unfold immutableset. rewrite S1. simpl. tauto.
  - intros u v. unfold immutablesetmultidict. rewrite S2. simpl. tauto.
  - intros v. unfold in_degrees. rewrite in_map_iff. simpl. unfold immutableset. split.
    + intros (x & E & H). inversion E; subst. apply S1 in H. tauto.
    + intros H. exists v. split; [reflexivity|]. apply S1. auto.
  - intros v preds NP HP. unfold in_degree. simpl. rewrite <- (map_length fst).
    apply Permutation_length, NoDup_Permutation; auto.
    + clear - Ne. induction (immutablesetmultidict V_dec es) as [|[a b] l IH]; simpl; [constructor|]. inversion Ne as [|? ? Hn N']; subst.
      destruct (Graph.veqb V_dec b v) eqn:E; [|auto]. simpl. constructor; [|auto]. apply veqb_eq in E. subst b. intros H.
      apply in_map_iff in H. destruct H as ([x y] & <- & H). apply filter_In in H. destruct H as [H E]. apply veqb_eq in E. simpl in E. now subst.
    + intros u. rewrite HP, in_map_iff. unfold immutablesetmultidict. split.
      * intros ([a b] & <- & H). apply filter_In in H. destruct H as [H E]. apply veqb_eq in E. simpl in E. subst b. apply S2 in H. tauto.
      * intros H. exists (u, v). split; [reflexivity|]. apply filter_In. split; [apply S2; auto|apply veqb_refl].
Qed.
End P.

Example C39_witness :
  (exists g, mk_digraph Nat.eq_dec [3;1;2;4] [(1,2);(2,4);(3,4);(1,2)] = Ok g /\
     topological_sort Nat.eq_dec 5 g = Some ([1;2;3;4], None)) /\
  (exists g, mk_digraph Nat.eq_dec [1;2;3;4] [(1,2);(2,3);(3,2);(3,4)] = Ok g /\
     topological_sort Nat.eq_dec 5 g = Some ([1], Some ParameterInterpolationError)).
Proof. split; eexists; split; reflexivity. Qed.
Example C40_witness : mk_digraph Nat.eq_dec [1;2] [(1,3)] = Raise RuntimeError.
Proof. reflexivity. Qed.

Print Assumptions C39_topological_sort.
Print Assumptions C40_graph_contents.
