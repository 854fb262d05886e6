(** * Property C118: references that lead through a parameter instead of a namespace *)
From Coq Require Import Relations.
From Verif Require Import Prelude PyStr Params ParamsSpec ParamsProofs ParamsPairs ParamsGet Graph Interp InterpSpec InterpProofs InterpLoop InterpExpand InterpProps.

Lemma leaf_in_spec k v : is_leaf v ->
  (leaf_in k v = Raise TypeError /\ (forall s, v <> PStr s) /\ (forall l, v <> PList l)) \/
  (exists b, leaf_in k v = Ok b /\
     (b = true <-> match v with PStr s => occurs k s | PList l => In (PStr k) l | _ => True end) /\
     ((exists s, v = PStr s) \/ exists l, v = PList l)).
Proof.
  intros L. destruct v; cbn [is_leaf] in L; try (exfalso; exact L); try (left; split; [reflexivity|split; discriminate]).
  - right. eexists. split; [reflexivity|]. split; [apply substring_spec|]. left. eexists; reflexivity.
  - right. eexists. split; [reflexivity|]. split; [apply list_in_spec|]. right. eexists; reflexivity.
Qed.

Section B.
Variable is_word : N -> bool.
Variable ft : N -> bool.
Hypothesis pct_word : is_word pct = false.
Variable m : data_t.
Let file := PMap m.
Hypothesis PL : plain file.
Hypothesis DL : forall k, nested_key file k -> dotless k.

(** [broken], for a path below [pre] *)
Definition bad (pre parts : list str) (e : exn) : Prop :=
  exists p k r v, parts = p ++ k :: r /\ view file (pre ++ p) = Some (Leaf v) /\
    (r = [] /\ e = AttributeError \/
     r <> [] /\ (match v with PStr s => occurs k s | PList l => In (PStr k) l | _ => True end) /\ e = TypeError).
Lemma bad_broken n e : bad [] (py_split dot n) e <-> broken file n e.
Proof using.
  split.
  - intros (p & k & r & v & E & V & [(-> & ->)|(R & C & ->)]); [exact (broken_end _ _ _ _ _ E V)|exact (broken_inside _ _ _ _ _ _ E R V C)].
  - intros B. inversion B as [n0 p k v E V|n0 p k r v E R V C]; subst.
    + exists p, k, [], v. split; [exact E|]. split; [exact V|]. left. split; reflexivity.
    + exists p, k, r, v. split; [exact E|]. split; [exact V|]. right. split; [exact R|]. split; [exact C|reflexivity].
Qed.
Lemma walkn_cases : forall parts pre, parts <> [] -> view file pre = Some Namespace ->
  (exists e, walkn (st0 m) (VDict pre) parts = Raise e /\ bad pre parts e) \/
  (exists o, walkn (st0 m) (VDict pre) parts = Ok o /\ forall e, ~ bad pre parts e).
Proof using PL.
  induction parts as [|k parts IH]; intros pre N V; [congruence|]. destruct parts as [|k2 rest].
  - right. eexists. split; [reflexivity|]. intros e (p & k' & r & v & E & Vv & _). destruct p as [|x p]; [|destruct p; discriminate].
    rewrite app_nil_r in Vv. congruence.
  - cbn [walkn]. assert (pre ++ [k] <> []) as Q by (now destruct pre). rewrite (st0_find m PL) by exact Q. fold file.
    assert (SH : forall e, bad (pre ++ [k]) (k2 :: rest) e <-> bad pre (k :: k2 :: rest) e).
    { intros e. split.
      - intros (p & k' & r & v & E & Vv & C). exists (k :: p), k', r, v. split; [cbn [app]; now rewrite E|]. rewrite <- app_assoc in Vv. split; [exact Vv|exact C].
      - intros (p & k' & r & v & E & Vv & C). destruct p as [|x p]; [rewrite app_nil_r in Vv; congruence|]. cbn [app] in E. injection E as <- E.
        exists p, k', r, v. split; [exact E|]. rewrite <- app_assoc. split; [exact Vv|exact C]. }
    destruct (view file (pre ++ [k])) as [[|v]|] eqn:V2; cbn [of_found].
    + change (walkn (st0 m) (VDict (pre ++ [k])) (k2 :: rest)) with (walkn (st0 m) (VDict (pre ++ [k])) (k2 :: rest)).
      destruct (IH (pre ++ [k]) ltac:(discriminate) V2) as [(e & E & B)|(o & E & NB)].
      * left. exists e. split; [exact E|]. now apply SH.
      * right. exists o. split; [exact E|]. intros e B. apply (NB e). now apply SH.
    + assert (Lv := view_plain_leaf _ PL _ _ V2).
      assert (ONLY : forall e, bad pre (k :: k2 :: rest) e ->
         rest = [] /\ e = AttributeError \/ rest <> [] /\ (match v with PStr s => occurs k2 s | PList l => In (PStr k2) l | _ => True end) /\ e = TypeError).
      { intros e B. apply SH in B. destruct B as (p & k' & r & v' & E & Vv & C). destruct p as [|x p].
        - rewrite app_nil_r in Vv. rewrite V2 in Vv. injection Vv as <-. cbn [app] in E. injection E as <- <-. exact C.
        - exfalso. assert (view file (pre ++ [k]) = Some Namespace) as K; [|congruence]. apply (view_app _ _ (x :: p)); [|discriminate]. congruence. }
      assert (HERE : forall e, rest = [] /\ e = AttributeError \/ rest <> [] /\ (match v with PStr s => occurs k2 s | PList l => In (PStr k2) l | _ => True end) /\ e = TypeError ->
         bad pre (k :: k2 :: rest) e).
      { intros e C. exists [k], k2, rest, v. split; [reflexivity|]. split; [exact V2|exact C]. }
      destruct rest as [|k3 rest].
      * left. exists AttributeError. split; [|apply HERE; left; split; reflexivity]. cbn [walkn]. destruct v; try reflexivity. exfalso; exact Lv.
      * cbn [walkn]. destruct (leaf_in_spec k2 v Lv) as [(-> & NS & NL)|(b & -> & B & K)]; cbn [bind].
        -- left. exists TypeError. split; [reflexivity|]. apply HERE. right. split; [discriminate|]. split; [|reflexivity].
           destruct v; try exact Logic.I; [now destruct (NS s)|now destruct (NL l)].
        -- destruct b.
           ++ left. exists TypeError. split; [reflexivity|]. apply HERE. right. split; [discriminate|]. split; [now apply B|reflexivity].
           ++ right. eexists. split; [reflexivity|]. intros e H. destruct (ONLY e H) as [[R _]|(_ & C & _)]; [discriminate R|]. apply B in C. discriminate C.
    + right. eexists. split; [reflexivity|]. intros e H. apply SH in H. destruct H as (p & k' & r & v' & E & Vv & C).
      destruct p as [|x p]; [rewrite app_nil_r in Vv; congruence|]. assert (view file (pre ++ [k]) = Some Namespace) as K; [|congruence].
      apply (view_app _ _ (x :: p)); [|discriminate]. congruence.
Qed.
Lemma getn_cases n : (exists e, getn (st0 m) n = Raise e /\ broken file n e) \/ (exists o, getn (st0 m) n = Ok o /\ forall e, ~ broken file n e).
Proof using PL.
  unfold getn. destruct (walkn_cases (py_split dot n) [] (py_split_nonnil _ _) eq_refl) as [(e & E & B)|(o & E & NB)].
  - left. exists e. split; [exact E|]. now apply bad_broken.
  - right. exists o. split; [exact E|]. intros e B. apply (NB e). now apply bad_broken.
Qed.
Lemma broken_unique n e e' : broken file n e -> broken file n e' -> e = e'.
Proof using PL.
  intros B B'. destruct (getn_cases n) as [(e0 & E & _)|(o & _ & NB)]; [|destruct (NB _ B)].
  assert (H : forall x, broken file n x -> x = e0); [|rewrite (H _ B), (H _ B'); reflexivity].
  intros x X. apply bad_broken in X. clear B B'.
  destruct (walkn_cases (py_split dot n) [] (py_split_nonnil _ _) eq_refl) as [(e1 & E1 & (p & k & r & v & P & V & C))|(o & _ & NB)]; [|destruct (NB _ X)].
  unfold getn in E. rewrite E in E1. injection E1 as <-. destruct X as (p' & k' & r' & v' & P' & V' & C').
  assert (S : p = p').
  { rewrite P in P'. clear -V V' P'. cbn [app] in V, V'. revert P' V V'. generalize file as f. revert p'. induction p as [|x p IH]; intros p' f E V V'; destruct p' as [|y p'].
    - reflexivity.
    - exfalso. destruct f; cbn in V, V'; congruence.
    - exfalso. destruct f; cbn in V, V'; congruence.
    - injection E as <- E. f_equal. destruct f; cbn [view] in V, V'; try discriminate; (destruct (dfind _ x) as [f'|]; [|discriminate]; exact (IH _ f' E V V')). }
  subst p'. rewrite P in P'. apply app_inv_head in P'. injection P' as <- <-. rewrite V in V'. injection V' as <-.
  destruct C as [(-> & ->)|(R & _ & ->)], C' as [(R' & ->)|(R' & _ & ->)]; congruence.
Qed.
Lemma refs_fold (k : str) rs : forall acc,
  (exists r1 n r2 e, rs = r1 ++ n :: r2 /\ broken file n e /\ (forall n' e', In n' r1 -> ~ broken file n' e') /\
     foldM (fun acc n => let* o := getn (st0 m) n in
          let t := match o with Some v => vtruthy ft (st0 m) v | None => false end in
          Ok (fst acc ++ k :: (if t then [n] else []), snd acc ++ (if t then [(k, n)] else []))) rs acc = Raise e) \/
  ((forall n' e', In n' rs -> ~ broken file n' e') /\
   exists acc', foldM (fun acc n => let* o := getn (st0 m) n in
          let t := match o with Some v => vtruthy ft (st0 m) v | None => false end in
          Ok (fst acc ++ k :: (if t then [n] else []), snd acc ++ (if t then [(k, n)] else []))) rs acc = Ok acc').
Proof using PL.
  induction rs as [|n rs IH]; intros acc.
  - right. split; [intros n' e' []|]. eexists. reflexivity.
  - cbn [foldM]. destruct (getn_cases n) as [(e & E & B)|(o & E & NB)]; rewrite E; cbn [bind].
    + left. exists [], n, rs, e. split; [reflexivity|]. split; [exact B|]. split; [intros n' e' []|reflexivity].
    + match goal with |- context [foldM _ rs ?a] => destruct (IH a) as [(r1 & n1 & r2 & e & -> & B & F & G)|(F & acc' & G)] end.
      * left. exists (n :: r1), n1, r2, e. split; [reflexivity|]. split; [exact B|]. split; [|exact G]. intros n' e' [<-|I]; [apply NB|now apply F].
      * right. split; [|exists acc'; exact G]. intros n' e' [<-|I]; [apply NB|now apply F].
Qed.
Lemma gather_cases l : forall acc,
  (exists i1 a s i2 r1 n r2 e, l = i1 ++ (a, PStr s) :: i2 /\ refs (tokens is_word s) = r1 ++ n :: r2 /\ broken file n e /\
     (forall b s' n' e', In (b, PStr s') i1 -> In n' (refs (tokens is_word s')) -> ~ broken file n' e') /\
     (forall n' e', In n' r1 -> ~ broken file n' e') /\
     foldM (fun acc kv =>
    match snd kv with
    | PStr s =>
        foldM (fun acc n =>
          let* o := getn (st0 m) n in
          let t := match o with Some v => vtruthy ft (st0 m) v | None => false end in
          Ok (fst acc ++ fst kv :: (if t then [n] else []), snd acc ++ (if t then [(fst kv, n)] else [])))
          (refs (tokens is_word s)) acc
    | _ => Ok acc
    end) l acc = Raise e) \/
  (forall b s' n' e', In (b, PStr s') l -> In n' (refs (tokens is_word s')) -> ~ broken file n' e').
Proof using PL.
  induction l as [|[k v] l IH]; intros acc; [right; intros b s' n' e' []|]. cbn [foldM fst snd].
  assert (NEXT : forall acc', (forall s n' e', v = PStr s -> In n' (refs (tokens is_word s)) -> ~ broken file n' e') ->
    (match v with PStr s => foldM (fun acc n => let* o := getn (st0 m) n in
          let t := match o with Some v => vtruthy ft (st0 m) v | None => false end in
          Ok (fst acc ++ k :: (if t then [n] else []), snd acc ++ (if t then [(k, n)] else []))) (refs (tokens is_word s)) acc | _ => Ok acc end) = Ok acc' ->
    (exists i1 a s i2 r1 n r2 e, (k, v) :: l = i1 ++ (a, PStr s) :: i2 /\ refs (tokens is_word s) = r1 ++ n :: r2 /\ broken file n e /\
     (forall b s' n' e', In (b, PStr s') i1 -> In n' (refs (tokens is_word s')) -> ~ broken file n' e') /\
     (forall n' e', In n' r1 -> ~ broken file n' e') /\
     (let* acc1 := (match v with PStr s => foldM (fun acc n => let* o := getn (st0 m) n in
          let t := match o with Some v => vtruthy ft (st0 m) v | None => false end in
          Ok (fst acc ++ k :: (if t then [n] else []), snd acc ++ (if t then [(k, n)] else []))) (refs (tokens is_word s)) acc | _ => Ok acc end) in
      foldM (fun acc kv =>
    match snd kv with
    | PStr s =>
        foldM (fun acc n =>
          let* o := getn (st0 m) n in
          let t := match o with Some v => vtruthy ft (st0 m) v | None => false end in
          Ok (fst acc ++ fst kv :: (if t then [n] else []), snd acc ++ (if t then [(fst kv, n)] else [])))
          (refs (tokens is_word s)) acc
    | _ => Ok acc
    end) l acc1) = Raise e) \/
    (forall b s' n' e', In (b, PStr s') ((k, v) :: l) -> In n' (refs (tokens is_word s')) -> ~ broken file n' e')).
  { intros acc' NB E. rewrite E. cbn [bind]. destruct (IH acc') as [(i1 & a & s & i2 & r1 & n & r2 & e & -> & R & B & F1 & F2 & G)|F].
    - left. exists ((k, v) :: i1), a, s, i2, r1, n, r2, e. split; [reflexivity|]. split; [exact R|]. split; [exact B|]. split; [|split; [exact F2|exact G]].
      intros b s' n' e' [X|X] I; [injection X as <- ->; exact (NB _ _ e' eq_refl I)|exact (F1 _ _ _ e' X I)].
    - right. intros b s' n' e' [X|X] I; [injection X as <- ->; exact (NB _ _ e' eq_refl I)|exact (F _ _ _ e' X I)]. }
  destruct v; try (apply (NEXT acc); [discriminate|reflexivity]).
  destruct (refs_fold k (refs (tokens is_word s)) acc) as [(r1 & n & r2 & e & R & B & F & G)|(F & acc' & G)].
  - left. exists [], k, s, l, r1, n, r2, e. split; [reflexivity|]. split; [exact R|]. split; [exact B|]. split; [intros b s' n' e' []|]. split; [exact F|].
    refine (eq_trans (f_equal (fun z => bind z _) G) _). reflexivity.
  - apply (NEXT acc'); [|exact G]. intros s0 n' e' X I. injection X as <-. exact (F _ e' I).
Qed.
End B.

Section T.
Variable is_word : N -> bool.
Variable ft : N -> bool.
Hypothesis pct_word : is_word pct = false.

(** C118: every reference of a file does one of four things: it goes through namespaces only; it breaks the
    load; it is passed over; or it meets a string parameter which itself contains references (see
    C118_order_refuted). *)
Theorem C118_cases : forall m n, plain (PMap m) ->
  (forall p k r v, py_split dot n = p ++ k :: r -> view (PMap m) p <> Some (Leaf v)) \/
  (exists e, broken (PMap m) n e) \/
  (exists p k r v, py_split dot n = p ++ k :: r /\ view (PMap m) p = Some (Leaf v) /\
     (passed_over is_word v k r \/
      r <> [] /\ exists s n', v = PStr s /\ ~ occurs k s /\ refers_to is_word s n')).
Proof using pct_word.
  intros m n PL.
  assert (D : forall parts pre, (exists p k r v, parts = p ++ k :: r /\ view (PMap m) (pre ++ p) = Some (Leaf v)) \/
     forall p k r v, parts = p ++ k :: r -> view (PMap m) (pre ++ p) <> Some (Leaf v)).
  { induction parts as [|k parts IH]; intros pre; [right; intros p k r v E; destruct p; discriminate|].
    destruct (view (PMap m) pre) as [[|v]|] eqn:V.
    - destruct (IH (pre ++ [k])) as [(p & k' & r & v & -> & Vv)|NB].
      + left. exists (k :: p), k', r, v. split; [reflexivity|]. now rewrite <- app_assoc in Vv.
      + right. intros p k' r v E Vv. destruct p as [|x p]; [rewrite app_nil_r in Vv; congruence|]. injection E as <- E. apply (NB p k' r v E). now rewrite <- app_assoc.
    - left. exists [], k, parts, v. split; [reflexivity|]. now rewrite app_nil_r.
    - right. intros p k' r v E Vv. destruct p as [|x p]; [rewrite app_nil_r in Vv; congruence|].
      assert (view (PMap m) pre = Some Namespace); [|congruence]. apply (view_app _ _ (x :: p)); [congruence|discriminate]. }
  destruct (D (py_split dot n) []) as [(p & k & r & v & E & V)|NB]; [right|left; exact NB]. cbn [app] in V.
  destruct r as [|k2 r]; [left; exists AttributeError; exact (broken_end _ _ _ _ _ E V)|].
  assert (Lv := view_plain_leaf _ PL _ _ V).
  destruct (leaf_in_spec k v Lv) as [(_ & NS & NL)|(b & _ & B & K)].
  - left. exists TypeError. apply (broken_inside _ _ _ _ _ _ E ltac:(discriminate) V). destruct v; try exact Logic.I; [now destruct (NS s)|now destruct (NL l)].
  - destruct b; [left; exists TypeError; apply (broken_inside _ _ _ _ _ _ E ltac:(discriminate) V); now apply B|].
    right. exists p, k, (k2 :: r), v. split; [exact E|]. split; [exact V|]. destruct K as [(s & ->)|(l & ->)].
    + destruct (refs (tokens is_word s)) as [|n' rs] eqn:R.
      * left. split; [discriminate|]. left. exists s. split; [reflexivity|]. split; [intros O; apply B in O; discriminate O|].
        intros n' H. apply refers_to_iff in H; [|exact pct_word]. rewrite R in H. exact H.
      * right. split; [discriminate|]. exists s, n'. split; [reflexivity|]. split; [intros O; apply B in O; discriminate O|].
        apply refers_to_iff; [exact pct_word|]. rewrite R. now left.
    + left. split; [discriminate|]. right. exists l. split; [reflexivity|]. intros O. apply B in O. discriminate O.
Qed.
(** C118: the first broken reference - in the order of the file - ends the load with its exception,
    whatever the context offers and whatever else is wrong with the file. *)
Theorem C118_first_broken : forall m ctx p i1 a s i2 t1 n t2 e,
  plain (PMap m) -> from_mapping (PMap m) [] = Ok p -> params_prefix ctx = [] ->
  namespaced_items p = i1 ++ (a, PStr s) :: i2 -> tokenized is_word s (t1 ++ TRef n :: t2) -> broken (PMap m) n e ->
  (forall b s' n' e', In (b, PStr s') i1 -> refers_to is_word s' n' -> ~ broken (PMap m) n' e') ->
  (forall n' e', In (TRef n') t1 -> ~ broken (PMap m) n' e') ->
  interpolate is_word ft p ctx = Raise e.
Proof using pct_word.
  intros m ctx p i1 a s i2 t1 n t2 e PL FM PC NIT TK BR F1 F2.
  destruct (from_value_is_params _ _ _ FM) as [IP PP].
  assert (dictify p = PMap m) as DI by (eapply from_value_dictify; eauto).
  unfold interpolate. rewrite PP, PC, DI. change (flatten [] (PMap m)) with (st0 m). cbv zeta.
  assert (TS : tokens is_word s = t1 ++ TRef n :: t2) by (now apply tokenized_iff).
  destruct (gather_cases is_word ft m PL (namespaced_items p) ([], [])) as [(j1 & b & s' & j2 & r1 & n' & r2 & e' & E & R & B & G1 & G2 & G)|NB].
  - assert (X : e' = e).
    { (* the two first broken references are the same *)
      assert (C : n' = n).
      { rewrite NIT in E. clear -E R B G1 G2 F1 F2 TS pct_word BR.
        assert (Rn : In n (refs (tokens is_word s))) by (apply refs_in; rewrite TS; apply in_or_app; right; now left).
        assert (Rn' : In n' (refs (tokens is_word s'))) by (rewrite R; apply in_or_app; right; now left).
        revert j1 E G1. induction i1 as [|x i1 IH]; intros j1 E G1; destruct j1 as [|y j1]; cbn [app] in E.
        - injection E as _ Es _. subst s'. rewrite TS in R. clear -R B BR G2 F2. assert (Rf : refs (t1 ++ TRef n :: t2) = refs t1 ++ n :: refs t2) by (unfold refs; rewrite flat_map_app; reflexivity).
          rewrite Rf in R. clear Rf. assert (F2' : forall n' e', In n' (refs t1) -> ~ broken (PMap m) n' e') by (intros x y I; apply F2; now apply refs_in).
          clear F2. revert r1 R G2. generalize dependent (refs t1). induction l as [|x l IH]; intros F r1 R G2; destruct r1 as [|y r1]; cbn [app] in R; injection R as R1 R2.
          + now symmetry.
          + subst y. destruct (G2 n e); [now left|exact BR].
          + subst x. destruct (F n' e'); [now left|exact B].
          + apply (IH (fun n' e' I => F n' e' (or_intror I)) r1 R2 (fun n' e' I => G2 n' e' (or_intror I))).
        - injection E as Ey _. subst y. destruct (G1 a s n e (or_introl eq_refl) Rn). exact BR.
        - injection E as Ex _. subst x. destruct (F1 b s' n' e' (or_introl eq_refl)); [|exact B]. now apply refers_to_iff.
        - injection E as _ E2. exact (IH (fun b s' n' e' I => F1 b s' n' e' (or_intror I)) j1 E2 (fun b s' n' e' I => G1 b s' n' e' (or_intror I))). }
      subst n'. exact (broken_unique m PL n _ _ B BR). }
    subst e'. refine (eq_trans (f_equal (fun z => bind z _) G) _). reflexivity.
  - exfalso. apply (NB a s n e); [rewrite NIT; apply in_or_app; right; now left| |exact BR]. rewrite TS. apply refs_in. apply in_or_app. right. now left.
Qed.
(** C118: so a file with a broken reference is never loaded; it fails with the AttributeError or
    TypeError of one of its broken references. *)
Theorem C118_broken : forall m ctx p q s n e0,
  plain (PMap m) -> from_mapping (PMap m) [] = Ok p -> params_prefix ctx = [] ->
  view (PMap m) q = Some (Leaf (PStr s)) -> refers_to is_word s n -> broken (PMap m) n e0 ->
  exists q' s' n' e, view (PMap m) q' = Some (Leaf (PStr s')) /\ refers_to is_word s' n' /\ broken (PMap m) n' e /\
    interpolate is_word ft p ctx = Raise e.
Proof using pct_word.
  intros m ctx p q s n e0 PL FM PC V R BR.
  destruct (from_value_is_params _ _ _ FM) as [IP PP]. assert (DL := from_value_nodots _ _ _ FM).
  assert (dictify p = PMap m) as DI by (eapply from_value_dictify; eauto).
  assert (namespaced_items p = items m) as NI by (rewrite (namespaced_items_from _ _ _ PL FM IP); reflexivity).
  unfold interpolate. rewrite PP, PC, DI, NI. change (flatten [] (PMap m)) with (st0 m). cbv zeta.
  destruct (gather_cases is_word ft m PL (items m) ([], [])) as [(j1 & b & s' & j2 & r1 & n' & r2 & e' & E & Rf & B & G1 & G2 & G)|NB].
  - exists (py_split dot b), s', n', e'. split; [|split; [|split; [exact B|refine (eq_trans (f_equal (fun z => bind z _) G) _); reflexivity]]].
    + apply (items_in m PL DL). rewrite E. apply in_or_app. right. now left.
    + apply refers_to_iff; [exact pct_word|]. rewrite Rf. apply in_or_app. right. now left.
  - exfalso. apply (NB (dotted q) s n e0); [|now apply refers_to_iff|exact BR].
    apply (items_in m PL DL). rewrite (split_dotted m PL DL); [exact V| |congruence]. intros ->. discriminate V.
Qed.
(** C118: the exception of a reference is determined by the file. *)
Theorem C118_unique : forall m n e e', plain (PMap m) -> broken (PMap m) n e -> broken (PMap m) n e' -> e = e'.
Proof using. intros m n e e' PL. exact (broken_unique m PL n e e'). Qed.
(** C118: a reference that is passed over means what the context says. *)
Theorem C118_passed_over : forall m ctx p R q n pre k r v x, loadable is_word m ctx p -> interpolate is_word ft p ctx = Ok R ->
  ref_name is_word n -> view (PMap m) q = Some (Leaf (PStr (pct :: n ++ [pct]))) ->
  py_split dot n = pre ++ k :: r -> view (PMap m) pre = Some (Leaf v) -> Stored ctx n x ->
  forall t, view R (q ++ t) = view x t.
Proof using pct_word.
  intros m ctx p R q n pre k r v x L E Rn V P Vp St. refine (C50_context_value_used is_word ft pct_word m ctx p R q n x L E Rn V _ St).
  destruct (view (PMap m) (py_split dot n)) eqn:Vn; [|reflexivity]. exfalso.
  assert (view (PMap m) pre = Some Namespace); [|congruence]. apply (view_app _ _ (k :: r)); [rewrite <- P; congruence|discriminate].
Qed.
End T.

(** ** Concrete cases *)
Definition passing_file : data_t :=
  [(!!"a", PStr !!"text"); (!!"c", PStr !!"%a.b.d%"); (!!"l", PList [PStr !!"b"]); (!!"e", PStr !!"%l.m.n%")].
Definition passing_ctx : data_t :=
  [(!!"a", PMap [(!!"b", PMap [(!!"d", PInt 1)])]); (!!"l", PMap [(!!"m", PMap [(!!"n", PInt 2)])])].
Definition pass_check (is_word : N -> bool) (m : data_t) : bool :=
  forallb (fun e => match snd e with
    | PStr s => forallb (fun n => forallb (fun i =>
        match view (PMap m) (firstn i (py_split dot n)), skipn i (py_split dot n) with
        | Some (Leaf v), k :: (_ :: _) =>
            match v with
            | PStr t => negb (substring k t) && match refs (tokens is_word t) with [] => true | _ => false end
            | PList l => negb (existsb (fun x => match x with PStr t => str_eqb t k | _ => false end) l)
            | _ => false
            end
        | Some (Leaf _), _ => false
        | _, _ => true
        end) (seq 1 (length (py_split dot n) - 1))) (refs (tokens is_word s))
    | _ => true end) (leaves (PMap m)).
Lemma pass_check_ok is_word (Hp : is_word pct = false) m : plain (PMap m) -> pass_check is_word m = true -> refs_passable is_word (PMap m).
Proof.
  intros PL H q s n p k r v V R E K. apply (leaves_view _ PL) in V. apply refers_to_iff in R; [|assumption].
  destruct p as [|x p]; [discriminate|]. unfold pass_check in H. rewrite forallb_forall in H. specialize (H _ V). cbn [snd] in H.
  rewrite forallb_forall in H. specialize (H _ R). rewrite forallb_forall in H. specialize (H (length (x :: p))).
  assert (I : In (length (x :: p)) (seq 1 (length (py_split dot n) - 1))) by (rewrite E; apply in_seq; rewrite app_length; simpl; lia).
  specialize (H I). clear I. rewrite E in H. rewrite firstn_app, Nat.sub_diag, firstn_all in H. cbn [firstn] in H. rewrite app_nil_r in H. rewrite K in H.
  rewrite skipn_app, Nat.sub_diag, skipn_all in H. cbn [app skipn] in H. destruct r as [|k2 r]; [discriminate H|]. split; [discriminate|].
  destruct v; try discriminate H.
  - left. exists s0. split; [reflexivity|]. apply andb_true_iff in H. destruct H as [H1 H2]. apply negb_true_iff in H1. split.
    + intros O. apply substring_spec in O. congruence.
    + intros n' O. apply refers_to_iff in O; [|assumption]. destruct (refs (tokens is_word s0)); [exact O|discriminate H2].
  - right. exists l. split; [reflexivity|]. apply negb_true_iff in H. intros O. apply list_in_spec in O. congruence.
Qed.
(** The hypotheses of C48-C50 and C118_passed_over are met by a file whose references lead through a
    string and a list; both take their values from the context. *)
Example C118_passing : exists ctx p, from_mapping (PMap passing_ctx) [] = Ok ctx /\ loadable word_ascii passing_file ctx p /\
  Stored ctx !!"a.b.d" (PInt 1) /\
  run passing_file passing_ctx = Ok (PMap [(!!"a", PStr !!"text"); (!!"c", PInt 1); (!!"l", PList [PStr !!"b"]); (!!"e", PInt 2)]).
Proof.
  eexists; eexists. split; [reflexivity|]. assert (plain (PMap passing_file)) as PL by (unfold passing_file; plain_tac).
  split; [|split; [|vm_compute; reflexivity]].
  - split; [assumption|]. split; [reflexivity|]. split; [split; [plain_tac|reflexivity]|]. split; [reflexivity|].
    apply pass_check_ok; [reflexivity|assumption|]. vm_compute. reflexivity.
  - apply stored_walk; [plain_tac|reflexivity].
Qed.
(** The hypotheses of C118_first_broken and C118_broken are met, for each kind of failure. *)
Definition broken_file : data_t :=
  [(!!"a", PStr !!"text"); (!!"n", PInt 3); (!!"l", PList [PStr !!"b"]);
   (!!"ok", PStr !!"%a.zz.y%"); (!!"first", PStr !!"%a.ex.y% and %n.b%"); (!!"second", PStr !!"%n.b%")].
Example C118_broken_kinds :
  broken (PMap broken_file) !!"n.b" AttributeError /\ broken (PMap broken_file) !!"n.b.c" TypeError /\
  broken (PMap broken_file) !!"a.ex.y" TypeError /\ broken (PMap broken_file) !!"l.b.c" TypeError /\
  run broken_file [] = Raise TypeError.
Proof.
  split; [|split; [|split; [|split]]].
  - apply (broken_end _ _ [!!"n"] !!"b" (PInt 3)); reflexivity.
  - apply (broken_inside _ _ [!!"n"] !!"b" [!!"c"] (PInt 3)); [reflexivity|discriminate|reflexivity|exact Logic.I].
  - apply (broken_inside _ _ [!!"a"] !!"ex" [!!"y"] (PStr !!"text")); [reflexivity|discriminate|reflexivity|]. now exists !!"t", !!"t".
  - apply (broken_inside _ _ [!!"l"] !!"b" [!!"c"] (PList [PStr !!"b"])); [reflexivity|discriminate|reflexivity|]. now left.
  - vm_compute. reflexivity.
Qed.
Example C118_first_hypotheses : exists p, from_mapping (PMap broken_file) [] = Ok p /\ plain (PMap broken_file) /\
  exists i1 i2 t2, namespaced_items p = i1 ++ (!!"first", PStr !!"%a.ex.y% and %n.b%") :: i2 /\
    tokenized word_ascii !!"%a.ex.y% and %n.b%" ([] ++ TRef !!"a.ex.y" :: t2) /\
    (forall b s' n' e', In (b, PStr s') i1 -> refers_to word_ascii s' n' -> ~ broken (PMap broken_file) n' e').
Proof.
  eexists. split; [reflexivity|]. assert (plain (PMap broken_file)) as PL by (unfold broken_file; plain_tac). split; [exact PL|].
  exists [(!!"a", PStr !!"text"); (!!"n", PInt 3); (!!"l", PList [PStr !!"b"]); (!!"ok", PStr !!"%a.zz.y%")], [(!!"second", PStr !!"%n.b%")].
  eexists. split; [vm_compute; reflexivity|]. split; [apply tokenized_iff; [reflexivity|vm_compute; reflexivity]|].
  intros b s' n' e' I R B. apply refers_to_iff in R; [|reflexivity].
  destruct (getn_cases broken_file PL n') as [(e & E & _)|(o & _ & NB)]; [|exact (NB _ B)].
  assert (D : In n' [!!"a.zz.y"]).
  { repeat (destruct I as [I|I]; [try discriminate I; injection I as _ <-; vm_compute in R |- *; tauto|]). destruct I. }
  destruct D as [<-|[]]. vm_compute in E. discriminate E.
Qed.
(** Refuted: "the order of the parameters in a file does not matter".  A reference that leads through a
    string which itself contains references is looked up before or after that string is interpolated,
    depending on the order of the file: here [a] is "%x%" when [c] is computed, or already "b". *)
Theorem C118_order_refuted : ~ forall m m' c, Permutation m m' -> (exists r, run m c = Ok r) -> exists r, run m' c = Ok r.
Proof.
  intros H.
  destruct (H [(!!"x", PStr !!"b"); (!!"c", PStr !!"%a.b.d%"); (!!"a", PStr !!"%x%")]
              [(!!"x", PStr !!"b"); (!!"a", PStr !!"%x%"); (!!"c", PStr !!"%a.b.d%")]
              [(!!"a", PMap [(!!"b", PMap [(!!"d", PInt 1)])])]) as (r & R).
  - apply perm_skip. apply perm_swap.
  - eexists. vm_compute. reflexivity.
  - vm_compute in R. discriminate R.
Qed.
Print Assumptions C118_cases.
Print Assumptions C118_first_broken.
Print Assumptions C118_broken.
Print Assumptions C118_unique.
Print Assumptions C118_passed_over.
Print Assumptions C118_order_refuted.
