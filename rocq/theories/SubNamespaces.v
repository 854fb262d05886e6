(** * C101: Parameters.sub_namespaces (parameters.py:1164-1172; the model is in Params.v) *)
From Verif Require Import Prelude PyStr Order Range Params ParamsSpec ParamsProofs ParamsGet ParamsProps ParamsEq.

(** Some of the items, in the order of all of them. *)
Inductive some_of {A : Type} : list A -> list A -> Prop :=
| so_nil : some_of [] []
| so_keep x l m : some_of l m -> some_of (x :: l) (x :: m)
| so_skip x l m : some_of l m -> some_of l (x :: m).
(** No two of them are equal. *)
Definition no_two_equal (eq : pv -> pv -> bool) (l : list pv) : Prop := ForallOrdPairs (fun a b => eq a b = false) l.
(** The namespaces directly below one, in order. *)
Definition children (ns : pv) : list pv := match ns with PParams _ d => filter is_params (map snd d) | _ => [] end.
(** No parameter in the namespace (or in one inside it) has a list for its value. *)
Definition no_list_inside (ns : pv) : Prop := forall name l, ~ Stored ns name (PList l).

Lemma hashable_reaches v : wf v -> (hashable v = true <-> forall q l, ~ reaches v q (PList l)).
Proof.
  induction v using pv_ind_nested; intros W; try (split; [intros _ q l' R; inversion R|reflexivity]).
  - split; [discriminate|]. intros N. exfalso. exact (N [] l (reach_here _)).
  - destruct W.
  - simpl. rewrite forallb_forall. rewrite Forall_forall in H. assert (Wx : forall kv, In kv m -> wf (snd kv)).
    { intros [k x] I. assert (W' := W). destruct W' as (N & _). apply (wf_find pre m k x W). now apply in_dfind. }
    split.
    + intros A q l R. inversion R as [|? ? k x q' ? I R']; subst. exact (proj1 (H _ I (Wx _ I)) (A _ I) _ _ R').
    + intros N kv I. apply (H _ I (Wx _ I)). intros q l R. destruct kv as [k x]. exact (N (k :: q) l (reach_down _ _ _ _ _ _ I R)).
Qed.
Lemma hashable_spec ns : wf_params ns -> (hashable ns = true <-> no_list_inside ns).
Proof.
  intros (W & T). rewrite (hashable_reaches ns W). unfold no_list_inside, Stored. split; [auto|]. intros N q l R. destruct q as [|k q]; [inversion R; subst; discriminate|].
  apply (N (dotted (k :: q)) l). unfold dotted. rewrite py_join_split; [assumption|discriminate|]. exact (reaches_dotless _ _ _ W R).
Qed.
Lemma child_stored pre d v : wf (PParams pre d) -> (In v (children (PParams pre d)) <-> exists k, In k (map fst d) /\ Stored (PParams pre d) k v /\ is_params v = true).
Proof.
  intros W. simpl. rewrite filter_In, in_map_iff. assert (D : forall k v, In (k, v) d -> py_split dot k = [k]).
  { intros k x I. apply py_split_no. destruct W as (_ & D & _). rewrite Forall_forall in D. apply D. apply in_map_iff. exists (k, x). auto. }
  split.
  - intros (([k x] & E & I) & T). simpl in E. subst x. exists k. split; [apply in_map_iff; exists (k, v); auto|]. split; [|assumption]. unfold Stored. rewrite (D k v I). econstructor; [eassumption|constructor].
  - intros (k & Ik & S & T). split; [|assumption]. apply in_map_iff in Ik. destruct Ik as ([k' x] & E & I). simpl in E. subst k'. unfold Stored in S. rewrite (D k x I) in S. inversion S as [|? ? ? y ? ? I' R]; subst. inversion R; subst. exists (k, v). auto.
Qed.
Lemma child_wf ns v : wf_params ns -> In v (children ns) -> wf_params v.
Proof.
  intros (W & T) I. destruct ns; try discriminate. simpl in I. apply filter_In in I. destruct I as (I & Tv). split; [|assumption]. apply in_map_iff in I. destruct I as ([k x] & E & I). simpl in E. subst x.
  apply (wf_find prefix data k v W). apply in_dfind; [apply W|assumption].
Qed.
Lemma first_app eq l : forall kept, exists r, first_of_equal eq kept l = kept ++ r /\ some_of r l /\ (no_two_equal eq kept -> no_two_equal eq (kept ++ r)) /\
  (forall c, In c l -> In c (kept ++ r) \/ exists c', In c' (kept ++ r) /\ eq c' c = true) /\ (no_two_equal eq (kept ++ l) -> r = l).
Proof.
  induction l as [|x l IH]; intros kept; cbn [first_of_equal].
  - exists []. rewrite app_nil_r. split; [reflexivity|]. split; [constructor|]. split; [auto|]. split; [intros c []|auto].
  - destruct (existsb (fun y => eq y x) kept) eqn:X.
    + destruct (IH kept) as (r & E & So & N & C & Al). exists r. split; [exact E|]. split; [now constructor|]. split; [exact N|]. apply existsb_exists in X. destruct X as (y & Iy & Ey). split.
      * intros c [<-|I]; [right; exists y; split; [apply in_app_iff; auto|assumption]|auto].
      * intros D. exfalso. apply in_split in Iy. destruct Iy as (k1 & k2 & ->). unfold no_two_equal in D. clear -D Ey. rewrite <- app_assoc in D. induction k1 as [|z k1 IH]; cbn [app] in D; inversion D as [|? ? F D']; subst; [|auto].
        rewrite Forall_forall in F. assert (In x (k2 ++ x :: l)) as I by (apply in_app_iff; right; now left). rewrite (F _ I) in Ey. discriminate.
    + destruct (IH (kept ++ [x])) as (r & E & So & N & C & Al). exists (x :: r). rewrite <- app_assoc in *. cbn [app] in *. split; [exact E|]. split; [now constructor|]. split; [|split].
      * intros D. apply N. clear -D X. unfold no_two_equal in *. induction D as [|y k F D IH]; cbn [app]; [repeat constructor|]. cbn [existsb] in X. apply orb_false_iff in X. destruct X as (X1 & X2). constructor; [apply Forall_app; auto|auto].
      * intros c [<-|I]; [left; apply in_app_iff; right; now left|exact (C c I)].
      * intros D. f_equal. apply Al. exact D.
Qed.
Lemma first_all eq l : no_two_equal eq l -> first_of_equal eq [] l = l.
Proof. intros D. destruct (first_app eq l []) as (r & E & _ & _ & _ & Al). cbn [app] in *. rewrite E. exact (Al D). Qed.
Lemma first_front eq a b : no_two_equal eq a -> exists r, first_of_equal eq [] (a ++ b) = a ++ r /\ some_of r b.
Proof.
  intros D. assert (S1 : forall l kept, first_of_equal eq kept (l ++ b) = first_of_equal eq (first_of_equal eq kept l) b) by (induction l as [|x l IH]; intros kept; [reflexivity|]; cbn [app first_of_equal]; apply IH).
  rewrite S1, (first_all eq a D). destruct (first_app eq b a) as (r & E & So & _). eauto.
Qed.
Lemma some_in {A} (l m : list A) : some_of l m -> incl l m.
Proof. induction 1; intros y; simpl; [tauto|intros [<-|I]; auto|auto]. Qed.
Lemma sub_namespaces_eq oeq ns : wf_params ns -> sub_namespaces oeq ns = if forallb hashable (children ns) then Ok (first_of_equal (peq oeq) [] (children ns)) else Raise TypeError.
Proof.
  intros (W & T). destruct ns; try discriminate. rename prefix into pre, data into d. unfold sub_namespaces, children.
  assert (St : forall k v, In (k, v) d -> Stored (PParams pre d) k v).
  { intros k v I. unfold Stored. assert (dotless k) as D by (simpl in W; destruct W as (_ & W & _); rewrite Forall_forall in W; apply W; apply in_map_iff; exists (k, v); auto). rewrite py_split_no by exact D. econstructor; [eassumption|constructor]. }
  assert (Hn : forall k v, In (k, v) d -> has_namespace (PParams pre d) k = is_params v).
  { intros k v I. unfold has_namespace. destruct (private_get_spec (PParams pre d) k true PNone W) as (G & _). rewrite (G v); [reflexivity|]. constructor. auto. }
  assert (Na : forall k v, In (k, v) d -> is_params v = true -> namespace (PParams pre d) k = Ok v).
  { intros k v I Tv. unfold namespace. destruct (get_spec (PParams pre d) k is_params PNone W) as (G & _). apply G; [constructor; auto|assumption]. }
  assert (G : forall l, incl l d -> mapM (fun k => namespace (PParams pre d) k) (filter (has_namespace (PParams pre d)) (map fst l)) = Ok (filter is_params (map snd l))); [|rewrite (G d (fun x H => H)); reflexivity].
  induction l as [|[k v] l IH]; intros I; [reflexivity|]. cbn [map filter fst snd]. assert (Ik : In (k, v) d) by (apply I; now left). rewrite (Hn k v Ik). assert (IH' := IH (fun x Hx => I x (or_intror Hx))).
  destruct (is_params v) eqn:Tv; [|exact IH']. cbn [mapM]. rewrite (Na k v Ik Tv). cbn [bind]. rewrite IH'. reflexivity.
Qed.
Lemma sub_namespaces_spec oeq ns : wf_params ns -> (forall c, In c (children ns) -> no_list_inside c) -> sub_namespaces oeq ns = Ok (first_of_equal (peq oeq) [] (children ns)).
Proof.
  intros W N. rewrite (sub_namespaces_eq oeq ns W). assert (forallb hashable (children ns) = true) as ->; [|reflexivity]. apply forallb_forall. intros c I. apply (hashable_spec c (child_wf ns c W I)). auto.
Qed.

(** C101: the namespaces directly inside, in the order of the parameters, each of which is what namespace(k) gives for a top-level name k, without those that are equal to an earlier one (all
    of them, if no two are equal); unless one of them contains, at some depth, a parameter whose value is a list: then it is a TypeError. *)
Theorem C101_sub_namespaces : forall oeq pre d, wf_params (PParams pre d) -> let p := PParams pre d in
  (forall c, In c (children p) <-> exists k, In k (map fst d) /\ namespace p k = Ok c) /\
  ((forall c, In c (children p) -> no_list_inside c) -> exists l, sub_namespaces oeq p = Ok l) /\
  (forall l, sub_namespaces oeq p = Ok l -> some_of l (children p) /\ no_two_equal (peq oeq) l /\ (forall c, In c (children p) -> In c l \/ exists c', In c' l /\ peq oeq c' c = true) /\
     (no_two_equal (peq oeq) (children p) -> l = children p)) /\
  (forall e, sub_namespaces oeq p = Raise e -> e = TypeError).
Proof.
  intros oeq pre d W p. split.
  { intros c. subst p. rewrite (child_stored pre d c (proj1 W)). destruct W as (W & T). split; intros (k & Ik & H); exists k; (split; [assumption|]).
    + destruct H as (S & Tc). unfold namespace. destruct (get_spec (PParams pre d) k is_params PNone W) as (G & _). apply G; [now constructor|assumption].
    + unfold namespace, get, private_get in H. destruct (walk (PParams pre d) (py_split dot k)) as [v|] eqn:E; [|discriminate]. cbn [bind] in H. destruct (is_params v) eqn:Tv; [|discriminate]. injection H as ->.
      split; [|assumption]. now apply walk_reaches. }
  split; [intros N; rewrite (sub_namespaces_spec oeq p W N); eauto|]. subst p. rewrite (sub_namespaces_eq _ _ W). destruct (forallb hashable (children (PParams pre d))); split; try discriminate.
  - intros l E. assert (l = first_of_equal (peq oeq) [] (children (PParams pre d))) by congruence. subst l. destruct (first_app (peq oeq) (children (PParams pre d)) []) as (r & Er & So & N & C & Al). cbn [app] in *. rewrite Er. split; [exact So|]. split; [apply N; constructor|]. split; [exact C|exact Al].
  - intros e E. now injection E as <-.
Qed.
Print Assumptions C101_sub_namespaces.

(** C101 refuted: sub_namespaces always gives the namespaces nested immediately under this one.  When any of them has a parameter whose value is a list, at whatever
    depth, it raises a TypeError (lists cannot be hashed), although every namespace() is there. *)
Theorem C101_list_refuted : forall oeq pre d k ns name l, wf_params (PParams pre d) -> In (k, ns) d -> is_params ns = true -> Stored ns name (PList l) ->
  sub_namespaces oeq (PParams pre d) = Raise TypeError /\ namespace (PParams pre d) k = Ok ns.
Proof.
  intros oeq pre d k ns name l W I T S. assert (Ic : In ns (children (PParams pre d))) by (simpl; apply filter_In; split; [apply in_map_iff; exists (k, ns); auto|assumption]). split.
  - rewrite (sub_namespaces_eq _ _ W). destruct (forallb hashable (children (PParams pre d))) eqn:E; [|reflexivity]. exfalso. rewrite forallb_forall in E. specialize (E _ Ic).
    apply (hashable_spec ns (child_wf _ _ W Ic)) in E. exact (E _ _ S).
  - unfold namespace. destruct (get_spec (PParams pre d) k is_params PNone (proj1 W)) as (G & _). apply G; [|assumption]. constructor. unfold Stored. rewrite py_split_no; [econstructor; [eassumption|constructor]|].
    destruct W as ((_ & D & _) & _). rewrite Forall_forall in D. apply (D k). apply in_map_iff. exists (k, ns). auto.
Qed.
Print Assumptions C101_list_refuted.

(** C101: in a configuration made from a plain mapping no two of the namespaces directly below a namespace are equal (their prefixes differ), so that sub_namespaces, if it returns, gives all of them. *)
Theorem C101_distinct : forall m prefix p q pre d, plain (PMap m) -> from_mapping (PMap m) prefix = Ok p -> reaches p q (PParams pre d) ->
  NoDup (map fst d) -> NoDup (map params_prefix (children (PParams pre d))) /\
  forall oeq l, sub_namespaces oeq (PParams pre d) = Ok l -> l = children (PParams pre d).
Proof.
  intros m prefix p q pre d P E R N. assert (Wp : wf p) by (apply (from_value_gives_wf (PMap m) (plain_mixed _ P) prefix); exact E).
  assert (K : forall k pre' d', In (k, PParams pre' d') d -> pre' = (prefix ++ q) ++ [k]).
  { intros k pre' d' I. rewrite <- app_assoc. apply (C41_prefixes m prefix p P E (q ++ [k]) pre' d'). clear -R I. remember (PParams pre d) as t. induction R as [|pa da k' x q t I' R IH]; subst; simpl; econstructor; try eassumption; [constructor|auto]. }
  assert (G : NoDup (map params_prefix (children (PParams pre d)))).
  { clear -K N. simpl. induction d as [|[k v] d IH]; [constructor|]. inversion N as [|? ? N1 N2]; subst. assert (IH' := IH N2 (fun k0 p0 d0 I => K k0 p0 d0 (or_intror I))). cbn [map snd filter]. destruct v as [| | | | | | | | |pre' d'|]; simpl; try exact IH'.
    constructor; [|exact IH']. intros I. apply in_map_iff in I. destruct I as (c & Ec & I). apply filter_In in I. destruct I as (I & Tc). apply in_map_iff in I. destruct I as ([k2 v2] & E2 & I). simpl in E2. subst v2. destruct c as [| | | | | | | | |pre2 d2|]; try discriminate. simpl in Ec.
    rewrite (K k pre' d' (or_introl eq_refl)), (K k2 pre2 d2 (or_intror I)) in Ec. apply app_inj_tail in Ec. destruct Ec as (_ & ->). apply N1. apply in_map_iff. exists (k, PParams pre2 d2). auto. }
  split; [exact G|]. intros oeq l El. assert (W : wf_params (PParams pre d)) by (split; [apply (walk_wf p q); [exact Wp|now apply walk_reaches]|reflexivity]). apply (C101_sub_namespaces oeq pre d W) in El. apply El.
  assert (Tc : Forall (fun c => is_params c = true) (children (PParams pre d))) by (apply Forall_forall; intros c I; apply filter_In in I; apply I).
  clear -G Tc. unfold no_two_equal. induction (children (PParams pre d)) as [|c l IH]; [constructor|]. cbn [map] in G. inversion G; subst. inversion Tc as [|? ? T1 T2]; subst. constructor; [|now apply IH].
  apply Forall_forall. intros c' I. destruct (peq oeq c c') eqn:Q; [|reflexivity]. exfalso. rewrite Forall_forall in T2. assert (T' := T2 _ I). destruct c; try discriminate T1. destruct c'; try discriminate T'.
  apply peq_params in Q. destruct Q as (-> & _). apply H1. apply in_map_iff. eexists. split; [|exact I]. reflexivity.
Qed.
Print Assumptions C101_distinct.

(** C101 refuted: sub_namespaces gives as many namespaces as there are.  A mapping may hold Parameters objects; when it holds the same one twice, under two names, sub_namespaces gives it once. *)
Theorem C101_shared_refuted : forall oeq prefix pre d a b, (forall x, foreign x = true -> oeq x x = true) -> wf_params (PParams pre d) -> dicts_ok (PParams pre d) -> no_list_inside (PParams pre d) ->
  dotless a -> dotless b -> a <> b -> exists p, from_mapping (PMap [(a, PParams pre d); (b, PParams pre d)]) prefix = Ok p /\
  namespace p a = Ok (PParams pre d) /\ namespace p b = Ok (PParams pre d) /\ sub_namespaces oeq p = Ok [PParams pre d].
Proof.
  intros oeq prefix pre d a b R W Dk N Da Db Ne. set (q := PParams pre d) in *. exists (PParams prefix [(a, q); (b, q)]).
  assert (Ha : has_dot a = false) by (destruct (has_dot a) eqn:E; [apply has_dot_spec in E; contradiction|reflexivity]). assert (Hb : has_dot b = false) by (destruct (has_dot b) eqn:E; [apply has_dot_spec in E; contradiction|reflexivity]).
  assert (Nab : str_eqb a b = false) by (destruct (str_eqb a b) eqn:E; [apply str_eqb_eq in E; contradiction|reflexivity]).
  assert (Wp : wf_params (PParams prefix [(a, q); (b, q)])).
  { split; [|reflexivity]. apply wf_map. split; [|split]. - unfold keys. cbn [map fst]. constructor; [intros [E|[]]; congruence|]. repeat constructor. intros []. - repeat (apply Forall_cons; [assumption|]). apply Forall_nil. - repeat (apply Forall_cons; [exact (proj1 W)|]). apply Forall_nil. }
  split; [|split; [|split]].
  - cbn [from_mapping from_value bind]. unfold mk_params. cbn [existsb fst bind]. unfold q. cbn [from_value bind]. cbn [existsb fst]. now rewrite Ha, Hb.
  - unfold namespace, get, private_get. rewrite (split_dotless a Da). cbn [walk dfind]. now rewrite str_eqb_refl.
  - unfold namespace, get, private_get. rewrite (split_dotless b Db). cbn [walk dfind]. rewrite Nab. now rewrite str_eqb_refl.
  - rewrite (sub_namespaces_spec oeq _ Wp).
    + change (Ok (first_of_equal (peq oeq) [] [q; q]) = Ok [q]). cbn [first_of_equal existsb app]. rewrite (peq_refl oeq q R Dk). reflexivity.
    + intros c I. cbn [children map snd filter is_params q] in I. destruct I as [<-|[<-|[]]]; exact N.
Qed.
Print Assumptions C101_shared_refuted.
Example C101_shared_witness : let q := PParams [] [(!!"x", PInt 1)] in wf_params q /\ dicts_ok q /\ no_list_inside q /\ dotless !!"a" /\ dotless !!"b" /\ !!"a" <> !!"b".
Proof.
  split; [split; [|reflexivity]; simpl; repeat split; repeat constructor; simpl; unfold dotless; simpl; intuition discriminate|]. split; [apply dk_params_lit; [reflexivity|]; simpl; repeat constructor; simpl; intuition discriminate|].
  split; [|split; [unfold dotless; simpl; intuition discriminate|split; [unfold dotless; simpl; intuition discriminate|discriminate]]].
  intros name l S. unfold Stored in S. inversion S as [|? ? k x q t I R]; subst. destruct I as [E|[]]. inversion E; subst. inversion R.
Qed.

(** The hypotheses are met: two namespaces, and the same with a list two levels down. *)
Definition ns101 (v : pv) : pv := PMap [(!!"n", PInt 1); (!!"a", PMap [(!!"x", PStr !!"1")]); (!!"b", PMap [(!!"c", PMap [(!!"y", v)])])].
Definition of101 (v : pv) : pv := PParams [] [(!!"n", PInt 1); (!!"a", PParams [!!"a"] [(!!"x", PStr !!"1")]); (!!"b", PParams [!!"b"] [(!!"c", PParams [!!"b"; !!"c"] [(!!"y", v)])])].
Example C101_witness : from_mapping (ns101 (PInt 2)) [] = Ok (of101 (PInt 2)) /\ plain (ns101 (PInt 2)) /\ wf_params (of101 (PList [PInt 1])) /\
  sub_namespaces codes (of101 (PInt 2)) = Ok [PParams [!!"a"] [(!!"x", PStr !!"1")]; PParams [!!"b"] [(!!"c", PParams [!!"b"; !!"c"] [(!!"y", PInt 2)])]] /\
  Stored (PParams [!!"b"] [(!!"c", PParams [!!"b"; !!"c"] [(!!"y", PList [PInt 1])])]) !!"c.y" (PList [PInt 1]) /\
  sub_namespaces codes (of101 (PList [PInt 1])) = Raise TypeError.
Proof.
  split; [reflexivity|]. split; [simpl; repeat split; repeat constructor; simpl; intuition discriminate|]. split; [split; [|reflexivity]; simpl; repeat split; repeat constructor; simpl; unfold dotless; simpl; intuition discriminate|]. split; [reflexivity|]. split; [|reflexivity].
  unfold Stored. vm_compute py_split. econstructor; [left; reflexivity|]. econstructor; [left; reflexivity|constructor].
Qed.
