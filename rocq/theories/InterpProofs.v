From Coq Require Import Relations.
From Verif Require Import Prelude PyStr Params ParamsSpec ParamsProofs ParamsPairs ParamsGet Graph Interp InterpSpec.

(** ** The scanner *)
Section Tok.
Variable is_word : N -> bool.
Hypothesis pct_word : is_word pct = false.
Notation ref_char := (ref_char is_word).
Notation ref_name := (ref_name is_word).
Notation tokenized := (tokenized is_word).
Lemma is_ref_spec c : is_ref is_word c = true <-> ref_char c.
Proof.
  unfold is_ref, InterpSpec.ref_char. rewrite !orb_true_iff, !N.eqb_eq. tauto.
Qed.
Lemma pct_no_ref : ~ ref_char pct.
Proof using pct_word. intros [H|[H|H]]; [congruence|discriminate|discriminate]. Qed.
Lemma refs_no_pct n : Forall ref_char n -> ~ In pct n.
Proof using pct_word. intros H I. rewrite Forall_forall in H. apply pct_no_ref; auto. Qed.
Lemma tok_chars acc r ts : ~ In pct acc -> tokenized r ts -> tokenized (acc ++ r) (map TChar acc ++ ts).
Proof.
  induction acc as [|c acc IH]; simpl; intros N H; [assumption|]. constructor; [|apply IH; tauto].
  intros n r' _ E. injection E as -> _. tauto.
Qed.
Lemma no_match acc : forall n c r r', ~ In pct acc -> ~ ref_char c -> c <> pct -> Forall ref_char n -> acc ++ c :: r <> n ++ pct :: r'.
Proof.
  induction acc as [|a acc IH]; intros n c r r' N C P F E; destruct n as [|x n]; simpl in E; injection E as E1 E2.
  - congruence.
  - inversion F; subst. auto.
  - simpl in N. subst; tauto.
  - inversion F; subst. simpl in N. eapply IH; eauto.
Qed.
Lemma scan_spec s : tokenized s (scan is_word None s) /\
  forall acc, Forall ref_char acc -> tokenized (pct :: acc ++ s) (scan is_word (Some acc) s).
Proof using pct_word.
  induction s as [|c r [IH1 IH2]]; simpl.
  - split; [constructor|]. intros acc F. rewrite app_nil_r. assert (NP := refs_no_pct _ F). constructor.
    + intros n r' _ E. injection E as E. apply NP. rewrite E. apply in_or_app. simpl; auto.
    + generalize (tok_chars acc [] [] NP (tk_nil _)). rewrite !app_nil_r. auto.
  - split.
    + destruct (N.eqb_spec c pct) as [->|NE].
      * apply (IH2 []). constructor.
      * constructor; [|assumption]. intros n r' _ E. injection E as E _. congruence.
    + intros acc F. assert (NP := refs_no_pct _ F). destruct (N.eqb_spec c pct) as [->|NE].
      * destruct acc as [|a acc].
        -- simpl. constructor; [|apply (IH2 []); constructor]. intros n r' [N1 N2] E. destruct n as [|x n]; [congruence|].
           injection E as E _. subst. inversion N2; subst. now apply pct_no_ref.
        -- apply tk_ref; [split; [discriminate|assumption]|assumption].
      * destruct (is_ref is_word c) eqn:R.
        -- apply is_ref_spec in R. specialize (IH2 (acc ++ [c])). rewrite <- app_assoc in IH2. apply IH2.
           apply Forall_app. split; [assumption|]. constructor; [assumption|constructor].
        -- assert (~ ref_char c) as NR by (intros K; apply is_ref_spec in K; congruence).
           constructor.
           ++ intros n r' [_ Fn] E. injection E as E. revert E. now apply no_match.
           ++ apply tok_chars; [assumption|]. constructor; [|assumption]. intros n r' _ E. injection E as E _. congruence.
Qed.
Lemma tokens_tokenized s : tokenized s (tokens is_word s).
Proof using pct_word. apply scan_spec. Qed.
Lemma ref_split n n' r r' : ref_name n -> ref_name n' -> n ++ pct :: r = n' ++ pct :: r' -> n = n' /\ r = r'.
Proof using pct_word.
  intros [_ F] [_ F']. apply refs_no_pct in F, F'. revert n' F'. induction n as [|a n IH]; intros n' F' E; destruct n' as [|b n']; simpl in *.
  - injection E as ->. auto.
  - injection E as <- _. tauto.
  - injection E as -> _. tauto.
  - injection E as <- E. destruct (IH ltac:(tauto) n' ltac:(tauto) E) as [-> ->]. auto.
Qed.
Lemma tokenized_fun s ts : tokenized s ts -> forall ts', tokenized s ts' -> ts = ts'.
Proof using pct_word.
  induction 1 as [|n rest ts N H IH|c rest ts N H IH]; intros ts' K.
  - now inversion K.
  - inversion K as [|n' rest' ts1 N1 K1 E1|c' rest' ts1 N1 K1 E1]; subst.
    + destruct (ref_split n' n rest' rest) as [-> ->]; auto. f_equal. auto.
    + exfalso. eapply N1; eauto.
  - inversion K as [|n' rest' ts1 N1 K1 E1|c' rest' ts1 N1 K1 E1]; subst.
    + exfalso. eapply N; eauto.
    + f_equal. auto.
Qed.
Lemma tokenized_iff s ts : tokenized s ts <-> tokens is_word s = ts.
Proof using pct_word.
  split; [|intros <-; apply tokens_tokenized]. intros H. eapply tokenized_fun; eauto using tokens_tokenized.
Qed.
Lemma refs_in ts n : In n (refs ts) <-> In (TRef n) ts.
Proof.
  unfold refs. rewrite in_flat_map. split.
  - intros ([c|x] & H & K); simpl in K; [tauto|]. destruct K as [->|[]]. assumption.
  - intros H. exists (TRef n). simpl. auto.
Qed.
Lemma refers_to_iff s n : refers_to is_word s n <-> In n (refs (tokens is_word s)).
Proof using pct_word.
  rewrite refs_in. split.
  - intros (ts & T & I). apply tokenized_iff in T. now subst.
  - intros I. exists (tokens is_word s). split; [apply tokens_tokenized|assumption].
Qed.
Lemma tokens_chars s : refs (tokens is_word s) = [] -> tokens is_word s = map TChar s.
Proof using pct_word.
  assert (T := tokens_tokenized s). remember (tokens is_word s) as ts eqn:E. clear E. induction T as [|n rest ts N H IH|c rest ts N H IH]; intros R; simpl in *.
  - reflexivity.
  - discriminate.
  - now rewrite IH.
Qed.
End Tok.

(** ** The store *)
Definition path_dec : forall a b : list str, {a = b} + {a <> b} := list_eq_dec (list_eq_dec N.eq_dec).
Lemma path_eqb_eq a b : path_eqb a b = true <-> a = b.
Proof. unfold path_eqb. match goal with |- context [if ?d then _ else _] => destruct d end; split; congruence. Qed.
Lemma path_eqb_refl a : path_eqb a a = true.
Proof. now apply path_eqb_eq. Qed.
Lemma path_eqb_neq a b : path_eqb a b = false <-> a <> b.
Proof. unfold path_eqb. match goal with |- context [if ?d then _ else _] => destruct d end; split; congruence. Qed.
Definition dom (st : store) : list (list str) := map fst st.
Lemma sfind_none st q : sfind st q = None <-> ~ In q (dom st).
Proof.
  induction st as [|[q' v] st IH]; simpl; [tauto|]. destruct (path_eqb q' q) eqn:E.
  - apply path_eqb_eq in E. split; [discriminate|tauto].
  - apply path_eqb_neq in E. rewrite IH. tauto.
Qed.
Lemma sfind_app a b q : sfind (a ++ b) q = match sfind a q with Some v => Some v | None => sfind b q end.
Proof. induction a as [|[q' v] a IH]; simpl; [reflexivity|]. destruct (path_eqb q' q); auto. Qed.
Lemma sfind_in st q v : sfind st q = Some v -> In (q, v) st.
Proof.
  induction st as [|[q' v'] st IH]; simpl; [discriminate|]. destruct (path_eqb q' q) eqn:E; [|auto].
  apply path_eqb_eq in E. intros H; injection H as <-. subst. auto.
Qed.
Lemma in_sfind st q v : NoDup (dom st) -> In (q, v) st -> sfind st q = Some v.
Proof.
  induction st as [|[q' v'] st IH]; simpl; intros N H; [tauto|]. inversion N as [|? ? Hn N']; subst. destruct H as [H|H].
  - injection H as -> ->. now rewrite path_eqb_refl.
  - destruct (path_eqb q' q) eqn:E; [|auto]. apply path_eqb_eq in E. subst. exfalso. apply Hn. apply in_map_iff. now exists (q, v).
Qed.
Lemma sfind_sput st q v q' : sfind (sput st q v) q' = if path_eqb q q' then Some v else sfind st q'.
Proof.
  induction st as [|[q1 v1] st IH]; simpl; [reflexivity|]. destruct (path_eqb q1 q) eqn:E.
  - apply path_eqb_eq in E. subst. simpl. destruct (path_eqb q q'); reflexivity.
  - simpl. rewrite IH. destruct (path_eqb q1 q') eqn:E2; [|reflexivity]. apply path_eqb_eq in E2. subst.
    destruct (path_eqb q q') eqn:E3; [|reflexivity]. apply path_eqb_eq in E3. subst. rewrite path_eqb_refl in E. discriminate.
Qed.
Lemma sput_dom st q v : In q (dom st) -> dom (sput st q v) = dom st.
Proof.
  induction st as [|[q1 v1] st IH]; simpl; [tauto|]. destruct (path_eqb q1 q) eqn:E; [reflexivity|]. apply path_eqb_neq in E.
  intros [H|H]; [congruence|]. simpl. f_equal. auto.
Qed.
Lemma strip_path_spec id q r : strip_path id q = Some r <-> q = id ++ r.
Proof.
  revert q. induction id as [|a id IH]; intros q; simpl.
  - split; [intros H; injection H as ->; reflexivity|intros ->; reflexivity].
  - destruct q as [|b q]; [split; discriminate|]. destruct (str_eqb a b) eqn:E.
    + apply str_eqb_eq in E. subst. rewrite IH. split; [intros ->; reflexivity|intros H; injection H as ->; reflexivity].
    + apply str_eqb_neq in E. split; [discriminate|]. intros H. injection H as -> _. congruence.
Qed.
Lemma children_find st id k : dfind (children st id) k = sfind st (id ++ [k]).
Proof.
  unfold children. induction st as [|[q v] st IH]; simpl; [reflexivity|]. destruct (strip_path id q) as [[|k' [|? ?]]|] eqn:E.
  - apply strip_path_spec in E. subst. simpl. rewrite IH. destruct (path_eqb (id ++ []) (id ++ [k])) eqn:P; [|reflexivity].
    apply path_eqb_eq in P. apply app_inv_head in P. discriminate.
  - apply strip_path_spec in E. subst. simpl. destruct (str_eqb k' k) eqn:S.
    + apply str_eqb_eq in S. subst. now rewrite path_eqb_refl.
    + apply str_eqb_neq in S. destruct (path_eqb (id ++ [k']) (id ++ [k])) eqn:P; [|assumption].
      apply path_eqb_eq in P. apply app_inv_head in P. congruence.
  - apply strip_path_spec in E. subst. simpl. rewrite IH. destruct (path_eqb (id ++ k' :: s :: l) (id ++ [k])) eqn:P; [|reflexivity].
    apply path_eqb_eq in P. apply app_inv_head in P. discriminate.
  - simpl. rewrite IH. destruct (path_eqb q (id ++ [k])) eqn:P; [|reflexivity].
    apply path_eqb_eq in P. apply (strip_path_spec id q [k]) in P. congruence.
Qed.
Lemma children_in st id k v : In (k, v) (children st id) <-> In (id ++ [k], v) st.
Proof.
  unfold children. rewrite in_flat_map. split.
  - intros ([q w] & H & K). simpl in K. destruct (strip_path id q) as [[|k' [|? ?]]|] eqn:E; simpl in K; try tauto.
    destruct K as [K|[]]. injection K as -> ->. apply strip_path_spec in E. now subst.
  - intros H. exists (id ++ [k], v). split; [assumption|]. simpl. rewrite (proj2 (strip_path_spec id (id ++ [k]) [k]) eq_refl). simpl; auto.
Qed.
Lemma children_nodup st id : NoDup (dom st) -> NoDup (keys (children st id)).
Proof.
  unfold children. induction st as [|[q v] st IH]; simpl; intros N; [constructor|]. inversion N as [|? ? Hn N']; subst.
  destruct (strip_path id q) as [[|k' [|? ?]]|] eqn:E; simpl; auto. constructor; [|auto]. intros H.
  apply strip_path_spec in E. subst. apply Hn. apply in_map_iff in H. destruct H as ([k v'] & H & K). simpl in H. subst k.
  fold (children st id) in K. apply children_in in K. apply in_map_iff. now exists (id ++ [k'], v').
Qed.
Lemma vtruthy_dict ft st id : vtruthy ft st (VDict id) = true <-> exists k, sfind st (id ++ [k]) <> None.
Proof.
  simpl. split.
  - destruct (children st id) as [|[k v] l] eqn:E; [discriminate|]. intros _. exists k. rewrite <- children_find, E. simpl. now rewrite str_eqb_refl.
  - intros (k & H). rewrite <- children_find in H. destruct (children st id); [now destruct H|reflexivity].
Qed.

Lemma flatten_map pre m : flatten pre (PMap m) =
  flat_map (fun kv => (pre ++ [fst kv], cell (snd kv) (pre ++ [fst kv])) :: flatten (pre ++ [fst kv]) (snd kv)) m.
Proof. reflexivity. Qed.
Lemma flatten_under t : forall pre0 q v, In (q, v) (flatten pre0 t) -> exists k r, q = pre0 ++ k :: r.
Proof.
  induction t using pv_ind_nested; intros pre0 q v0 J; try (simpl in J; tauto). rewrite flatten_map in J. apply in_flat_map in J.
  destruct J as ([k x] & J & [E|K]).
  - injection E as <- _. exists k, []. reflexivity.
  - simpl in K. rewrite Forall_forall in H. destruct (H _ J _ _ _ K) as (k' & r & ->). exists k, (k' :: r). now rewrite <- app_assoc.
Qed.
Definition of_found (q : list str) (o : option found) : option val :=
  match o with None => None | Some Namespace => Some (VDict q) | Some (Leaf v) => Some (VLeaf v) end.
Lemma sfind_flatten t : plain t -> forall pre0 k r, sfind (flatten pre0 t) (pre0 ++ k :: r) = of_found (pre0 ++ k :: r) (view t (k :: r)).
Proof.
  induction t using pv_ind_nested; intros PL pre0 k r; try reflexivity; [|now simpl in PL].
  apply plain_map in PL. destruct PL as [N PL]. rewrite flatten_map. cbn [view].
  induction m as [|[k1 x1] m IH]; [reflexivity|]. inversion H as [|? ? H1 H2]; subst. inversion PL as [|? ? P1 P2]; subst.
  inversion N as [|? ? N1 N2]; subst. specialize (IH H2 N2 P2). cbn [flat_map fst snd dfind]. cbn [fst snd] in *.
  change ((pre0 ++ [k1], cell x1 (pre0 ++ [k1])) :: flatten (pre0 ++ [k1]) x1) with ([(pre0 ++ [k1], cell x1 (pre0 ++ [k1]))] ++ flatten (pre0 ++ [k1]) x1).
  rewrite <- app_assoc, !sfind_app. cbn [sfind]. destruct (str_eqb k1 k) eqn:E.
  - apply str_eqb_eq in E. subst k1. destruct r as [|k2 r].
    + rewrite path_eqb_refl. destruct x1; try reflexivity. now simpl in P1.
    + destruct (path_eqb (pre0 ++ [k]) (pre0 ++ k :: k2 :: r)) eqn:P; [apply path_eqb_eq in P; apply app_inv_head in P; discriminate|].
      specialize (H1 P1 (pre0 ++ [k]) k2 r). rewrite <- app_assoc in H1. cbn [app] in H1. rewrite H1.
      destruct (of_found (pre0 ++ k :: k2 :: r) (view x1 (k2 :: r))) eqn:Q; [reflexivity|]. rewrite IH.
      apply dfind_none in N1. rewrite N1. reflexivity.
  - apply str_eqb_neq in E. destruct (path_eqb (pre0 ++ [k1]) (pre0 ++ k :: r)) eqn:P; [apply path_eqb_eq in P; apply app_inv_head in P; congruence|].
    assert (sfind (flatten (pre0 ++ [k1]) x1) (pre0 ++ k :: r) = None) as ->; [|assumption].
    apply sfind_none. intros I. apply in_map_iff in I. destruct I as ([q v] & Q & I). simpl in Q. subst q. apply flatten_under in I.
    destruct I as (k' & r' & I). rewrite <- app_assoc in I. apply app_inv_head in I. simpl in I. congruence.
Qed.
Lemma flatten_nodup t : plain t -> forall pre0, NoDup (dom (flatten pre0 t)).
Proof.
  induction t using pv_ind_nested; intros PL pre0; try exact (NoDup_nil _).
  apply plain_map in PL. destruct PL as [N PL]. rewrite flatten_map.
  induction m as [|[k1 x1] m IH]; [constructor|]. inversion H as [|? ? H1 H2]; subst. inversion PL as [|? ? P1 P2]; subst.
  inversion N as [|? ? N1 N2]; subst. specialize (IH H2 N2 P2). cbn [flat_map fst snd]. cbn [fst snd] in *. unfold dom in *. rewrite map_app.
  apply NoDup_app_intro_; [|assumption|].
  - simpl. constructor; [|auto]. intros I. apply in_map_iff in I. destruct I as ([q v] & Q & I). simpl in Q. subst q. apply flatten_under in I.
    destruct I as (k' & r' & I). rewrite <- (app_nil_r (pre0 ++ [k1])) in I at 1. apply app_inv_head in I. discriminate.
  - intros q I1 I2. assert (exists r, q = pre0 ++ k1 :: r) as (r & ->).
    { destruct I1 as [<-|I1]; [now exists []|]. apply in_map_iff in I1. destruct I1 as ([q' v] & Q & I1). simpl in Q. subst q'.
      apply flatten_under in I1. destruct I1 as (k' & r' & ->). exists (k' :: r'). now rewrite <- app_assoc. }
    apply in_map_iff in I2. destruct I2 as ([q' v] & Q & I2). simpl in Q. subst q'. apply in_flat_map in I2.
    destruct I2 as ([k2 x2] & I3 & I2). assert (exists r', pre0 ++ k1 :: r = pre0 ++ k2 :: r') as (r' & E).
    { destruct I2 as [I2|I2]; [injection I2 as I2 _; rewrite <- I2; now exists []|]. apply flatten_under in I2. destruct I2 as (k' & r' & ->).
      exists (k' :: r'). now rewrite <- app_assoc. }
    apply app_inv_head in E. injection E as -> _. apply N1. apply in_map_iff. now exists (k2, x2).
Qed.
Lemma view_app t q : forall r, view t (q ++ r) <> None -> r <> [] -> view t q = Some Namespace.
Proof.
  revert t. induction q as [|k q IH]; intros t r H R.
  - destruct r as [|k r]; [congruence|]. destruct t; simpl in *; congruence.
  - destruct t; simpl in *; try congruence; (destruct (dfind _ k); [eauto|congruence]).
Qed.
Lemma view_plain_leaf t : plain t -> forall q v, view t q = Some (Leaf v) -> is_leaf v.
Proof.
  induction t using pv_ind_nested; intros PL q v E; try (destruct q; simpl in E; [injection E as <-; exact I|discriminate]); [|now simpl in PL].
  destruct q as [|k q]; [discriminate|]. simpl in E. destruct (dfind m k) eqn:D; [|discriminate]. apply dfind_in in D.
  apply plain_map in PL. destruct PL as [_ PL]. rewrite Forall_forall in H, PL. eapply (H _ D); [apply (PL _ D)|eassumption].
Qed.
Lemma leaves_view t : plain t -> forall q v, In (q, v) (leaves t) <-> view t q = Some (Leaf v).
Proof.
  induction t using pv_ind_nested; intros PL q v; try (simpl; split; [intros [E|[]]; injection E as <- <-; reflexivity|destruct q; simpl; [intros E; injection E as <-; auto|discriminate]]); [|now simpl in PL].
  apply plain_map in PL. destruct PL as [N PL]. cbn [leaves]. rewrite in_flat_map. rewrite Forall_forall in H, PL. split.
  - intros ([k x] & I & J). apply in_map_iff in J. destruct J as ([q' v'] & E & J). simpl in *. injection E as <- <-. simpl.
    rewrite (in_dfind _ _ _ N I). apply (H _ I (PL _ I)). assumption.
  - destruct q as [|k q]; [discriminate|]. simpl. destruct (dfind m k) as [x|] eqn:D; [|discriminate]. apply dfind_in in D. intros E.
    exists (k, x). split; [assumption|]. apply in_map_iff. exists (q, v). split; [reflexivity|]. now apply (H _ D (PL _ D)).
Qed.
