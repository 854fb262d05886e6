From Coq Require Import Relations.
From Verif Require Import Prelude PyStr Params ParamsSpec ParamsProofs ParamsPairs ParamsGet Graph Interp InterpSpec InterpProofs.

Lemma view_dotless t : plain t -> (forall k, nested_key t k -> dotless k) -> forall q, view t q <> None -> forall k, In k q -> dotless k.
Proof.
  induction t using pv_ind_nested; intros PL D q V k K; try (destruct q; simpl in V; [now simpl in K|congruence]); [|now simpl in PL].
  destruct q as [|k1 q]; [now simpl in K|]. simpl in V. destruct (dfind m k1) as [x|] eqn:E; [|congruence]. apply dfind_in in E.
  destruct K as [<-|K]; [apply D; eapply nk_here; eauto|]. apply plain_map in PL. destruct PL as [_ PL]. rewrite Forall_forall in H, PL.
  eapply (H _ E); [apply (PL _ E)| |eassumption|assumption]. intros k' K'. apply D. eapply nk_there; eauto.
Qed.

(** ** "in" between strings, and for parameter values *)
Lemma starts_with_spec p : forall s, starts_with p s = true <-> exists b, s = p ++ b.
Proof.
  induction p as [|a p IH]; intros s; cbn [starts_with].
  - split; [intros _; now exists s|reflexivity].
  - destruct s as [|c s]; [split; [discriminate|intros (b & E); discriminate]|].
    rewrite andb_true_iff, N.eqb_eq, IH. split.
    + intros [-> (b & ->)]. now exists b.
    + intros (b & E). injection E as -> ->. split; [reflexivity|now exists b].
Qed.
Lemma substring_spec p s : substring p s = true <-> occurs p s.
Proof.
  induction s as [|c s IH]; cbn [substring]; rewrite orb_true_iff, starts_with_spec.
  - split; [intros [(b & E)|]; [now exists [], b|discriminate]|]. intros (a & b & E). left. destruct a; [now exists b|discriminate].
  - rewrite IH. split.
    + intros [(b & E)|(a & b & ->)]; [now exists [], b|now exists (c :: a), b].
    + intros (a & b & E). destruct a as [|x a]; [left; now exists b|]. right. injection E as -> ->. now exists a, b.
Qed.
Lemma list_in_spec k l : existsb (fun x => match x with PStr s => str_eqb s k | _ => false end) l = true <-> In (PStr k) l.
Proof.
  rewrite existsb_exists. split.
  - intros (x & X & E). destruct x; try discriminate. apply str_eqb_eq in E. now subst.
  - intros H. exists (PStr k). split; [assumption|apply str_eqb_refl].
Qed.
Lemma passed_leaf_in is_word v k r : passed_over is_word v k r -> leaf_in k v = Ok false.
Proof.
  intros [_ [(s & -> & O & _)|(l & -> & O)]]; cbn [leaf_in]; f_equal; apply not_true_iff_false; intros H; apply O.
  - now apply substring_spec.
  - now apply list_in_spec.
Qed.

Section Main.
Variable is_word : N -> bool.
Variable ft : N -> bool.
Hypothesis pct_word : is_word pct = false.
Variable m : data_t.
Variable ctx : pv.
Let file := PMap m.
Hypothesis PL : plain file.
Hypothesis DL : forall k, nested_key file k -> dotless k.
Hypothesis WC : wf ctx.
Hypothesis NTL : refs_passable is_word file.
Notation tokenized := (tokenized is_word).
Notation tokens := (tokens is_word).
Notation Den := (Den is_word ft file ctx).
Notation Lookup := (Lookup is_word ft file ctx).
Notation Text := (Text is_word ft file ctx).
Notation true_value := (true_value ft file).
Notation present := (present ft file).
Notation refers := (refers is_word ft file).

(** *** The specification is deterministic *)
Scheme Den_mut := Induction for InterpSpec.Den Sort Prop
with Lookup_mut := Induction for InterpSpec.Lookup Sort Prop
with Text_mut := Induction for InterpSpec.Text Sort Prop.
Combined Scheme Den_all from Den_mut, Lookup_mut, Text_mut.
Lemma Den_fun_all :
  (forall q w, Den q w -> forall w', Den q w' -> w = w') /\
  (forall n w, Lookup n w -> forall w', Lookup n w' -> w = w') /\
  (forall ts x, Text ts x -> forall x', Text ts x' -> x = x').
Proof using pct_word WC.
  apply Den_all; intros.
  - inversion H; subst; congruence.
  - inversion H; subst; try congruence; exfalso; eapply n; rewrite e in *; match goal with E : Some _ = Some _ |- _ => injection E as -> end; reflexivity.
  - inversion H0 as [? V|? v V NS|? s' n' ? V T L|? s' ts' x V T NW X]; subst; try congruence.
    + rewrite e in V. injection V as <-. assert (E := tokenized_fun _ pct_word _ _ t _ T). injection E as ->. auto.
    + rewrite e in V. injection V as <-. assert (E := tokenized_fun _ pct_word _ _ t _ T). subst. now destruct (NW n).
  - inversion H0 as [? V|? v V NS|? s' n' ? V T L|? s' ts' x' V T NW X]; subst; try congruence.
    + rewrite e in V. injection V as <-. assert (E := tokenized_fun _ pct_word _ _ t _ T). subst. now destruct (n n').
    + rewrite e in V. injection V as <-. assert (E := tokenized_fun _ pct_word _ _ t _ T). subst. do 2 f_equal. auto.
  - inversion H0; subst; auto.
    + assert (w = w0) by auto. subst. contradiction.
    + exfalso. inversion d; congruence.
  - inversion H0; subst.
    + assert (w = w') by auto. subst. contradiction.
    + f_equal. eapply stored_unique; eauto.
    + exfalso. inversion d; congruence.
  - inversion H; subst.
    + exfalso. match goal with K : InterpSpec.Den _ _ _ _ _ _ |- _ => inversion K; congruence end.
    + exfalso. match goal with K : InterpSpec.Den _ _ _ _ _ _ |- _ => inversion K; congruence end.
    + f_equal. eapply stored_unique; eauto.
  - now inversion H.
  - inversion H0; subst. f_equal. auto.
  - inversion H1; subst. f_equal; auto. match goal with K : InterpSpec.Lookup _ _ _ _ n _ |- _ => apply H in K; now injection K end.
Qed.
Lemma Den_fun q w w' : Den q w -> Den q w' -> w = w'.
Proof using pct_word WC. intros H; revert w'. now apply Den_fun_all. Qed.
Lemma Den_present q w : Den q w -> view file q <> None.
Proof. destruct 1; congruence. Qed.
Lemma Den_dict_all :
  (forall q w, Den q w -> match w with VDict q' => view file q' = Some Namespace | VLeaf v => wf v end) /\
  (forall n w, Lookup n w -> match w with VDict q' => view file q' = Some Namespace | VLeaf v => wf v end) /\
  (forall ts x, Text ts x -> True).
Proof using WC PL.
  apply Den_all; intros; auto.
  - apply (view_plain_leaf _ PL) in e. destruct v; simpl in *; tauto.
  - apply (walk_reaches _ _ _ WC) in s. revert s. generalize (py_split dot n). clear -WC. intros l. revert ctx WC v.
    induction l as [|k l IH]; intros ctx W v H; simpl in H; [injection H as <-; assumption|].
    destruct ctx; try discriminate. destruct (dfind data k) eqn:E; [|discriminate]. eapply IH; [|eassumption]. eapply wf_find; eauto.
  - apply (walk_reaches _ _ _ WC) in s. revert s. generalize (py_split dot n). clear -WC. intros l. revert ctx WC v.
    induction l as [|k l IH]; intros ctx W v H; simpl in H; [injection H as <-; assumption|].
    destruct ctx; try discriminate. destruct (dfind data k) eqn:E; [|discriminate]. eapply IH; [|eassumption]. eapply wf_find; eauto.
Qed.

(** *** Shape of the store *)
Definition st0 := flatten [] file.
Lemma st0_find q : q <> [] -> sfind st0 q = of_found q (view file q).
Proof using PL. destruct q as [|k r]; [congruence|]. intros _. apply (sfind_flatten file PL []). Qed.
Record shape (st : store) : Prop := {
  sh_nodup : NoDup (dom st);
  sh_none : forall q, q <> [] -> view file q = None -> sfind st q = None;
  sh_ns : forall q, q <> [] -> view file q = Some Namespace -> sfind st q = Some (VDict q);
  sh_leaf : forall q v, view file q = Some (Leaf v) -> exists w, sfind st q = Some w
}.
Lemma leaf_nonnil q v : view file q = Some (Leaf v) -> q <> [].
Proof. intros H ->. discriminate. Qed.
Lemma shape0 : shape st0.
Proof using PL.
  split.
  - now apply flatten_nodup.
  - intros q Q V. rewrite st0_find, V by assumption. reflexivity.
  - intros q Q V. rewrite st0_find, V by assumption. reflexivity.
  - intros q v V. rewrite st0_find, V by (now apply leaf_nonnil in V). eexists; reflexivity.
Qed.
Lemma shape_some st q : shape st -> q <> [] -> (sfind st q <> None <-> view file q <> None).
Proof.
  intros S Q. destruct (view file q) as [[|v]|] eqn:V.
  - rewrite (sh_ns _ S) by assumption. split; congruence.
  - destruct (sh_leaf _ S _ _ V) as (w & ->). split; congruence.
  - rewrite (sh_none _ S) by assumption. tauto.
Qed.
Lemma vtruthy_true st w : shape st -> (vtruthy ft st w = true <-> true_value w).
Proof.
  intros S. destruct w as [id|v]; [|reflexivity]. rewrite vtruthy_dict. simpl. split; intros (k & K); exists k; revert K; rewrite shape_some; auto; now destruct id.
Qed.
Definition safe (pre parts : list str) : Prop := forall p k r v, parts = p ++ k :: r -> view file (pre ++ p) <> Some (Leaf v).
Lemma walkn_safe st : shape st -> forall parts pre, parts <> [] -> view file pre = Some Namespace -> safe pre parts ->
  walkn st (VDict pre) parts = Ok (sfind st (pre ++ parts)).
Proof.
  intros S. induction parts as [|k parts IH]; intros pre N V F; [congruence|]. destruct parts as [|k2 rest]; [reflexivity|].
  cbn [walkn]. assert (pre ++ [k] <> []) as Q by (now destruct pre). destruct (view file (pre ++ [k])) as [[|v]|] eqn:V2.
  - rewrite (sh_ns _ S) by assumption. change (walkn st (VDict (pre ++ [k])) (k2 :: rest) = Ok (sfind st (pre ++ k :: k2 :: rest))).
    rewrite IH; [now rewrite <- app_assoc|discriminate|assumption|]. intros p k' r v E. rewrite <- app_assoc. apply (F (k :: p) k' r v). simpl. now rewrite E.
  - exfalso. apply (F [k] k2 rest v eq_refl). assumption.
  - rewrite (sh_none _ S) by assumption. rewrite (sh_none _ S); [reflexivity|now destruct pre|].
    destruct (view file (pre ++ k :: k2 :: rest)) eqn:V3; [|reflexivity]. exfalso.
    assert (view file (pre ++ [k]) = Some Namespace); [|congruence]. apply (view_app _ _ (k2 :: rest)); [|discriminate]. rewrite <- app_assoc. simpl. congruence.
Qed.
Lemma leaf_safe pre parts : view file (pre ++ parts) <> None -> safe pre parts.
Proof.
  intros V p k r v -> H. rewrite app_assoc in V. apply view_app in V; [congruence|discriminate].
Qed.
(** values that interpolation leaves alone *)
Definition fixed (v : pv) : Prop := forall s n, v = PStr s -> ~ refers_to is_word s n.
Definition keeps_fixed (st : store) : Prop := forall q v, view file q = Some (Leaf v) -> fixed v -> sfind st q = Some (VLeaf v).
Definition passes (pre parts : list str) : Prop := forall p k r v, parts = p ++ k :: r -> view file (pre ++ p) = Some (Leaf v) -> passed_over is_word v k r.
Lemma passed_fixed v k r : passed_over is_word v k r -> fixed v.
Proof. intros [_ [(s & -> & _ & F)|(l & -> & _)]] s0 n E; [injection E as <-; apply F|discriminate]. Qed.
Lemma walkn_passes st : shape st -> keeps_fixed st -> forall parts pre, parts <> [] -> view file pre = Some Namespace -> passes pre parts ->
  walkn st (VDict pre) parts = Ok (sfind st (pre ++ parts)).
Proof.
  intros S KF. induction parts as [|k parts IH]; intros pre N V F; [congruence|]. destruct parts as [|k2 rest]; [reflexivity|].
  cbn [walkn]. assert (pre ++ [k] <> []) as Q by (now destruct pre). destruct (view file (pre ++ [k])) as [[|v]|] eqn:V2.
  - rewrite (sh_ns _ S) by assumption. change (walkn st (VDict (pre ++ [k])) (k2 :: rest) = Ok (sfind st (pre ++ k :: k2 :: rest))).
    rewrite IH; [now rewrite <- app_assoc|discriminate|assumption|]. intros p k' r v E. rewrite <- app_assoc. apply (F (k :: p) k' r v). simpl. now rewrite E.
  - assert (PO := F [k] k2 rest v eq_refl V2). rewrite (KF _ _ V2 (passed_fixed _ _ _ PO)).
    rewrite (sh_none _ S); [|now destruct pre|].
    + pose proof (passed_leaf_in _ _ _ _ PO) as L. destruct PO as [R _]. destruct rest as [|k3 rest]; [congruence|].
      cbn [walkn]. rewrite L. reflexivity.
    + destruct (view file (pre ++ k :: k2 :: rest)) eqn:V3; [|reflexivity]. exfalso.
      assert (view file (pre ++ [k]) = Some Namespace); [|congruence]. apply (view_app _ _ (k2 :: rest)); [|discriminate]. rewrite <- app_assoc. simpl. congruence.
  - rewrite (sh_none _ S) by assumption. rewrite (sh_none _ S); [reflexivity|now destruct pre|].
    destruct (view file (pre ++ k :: k2 :: rest)) eqn:V3; [|reflexivity]. exfalso.
    assert (view file (pre ++ [k]) = Some Namespace); [|congruence]. apply (view_app _ _ (k2 :: rest)); [|discriminate]. rewrite <- app_assoc. simpl. congruence.
Qed.
Lemma keeps0 : keeps_fixed st0.
Proof using PL. intros q v V _. rewrite st0_find, V by (now apply leaf_nonnil in V). reflexivity. Qed.
Lemma setw_safe st w : shape st -> forall parts pre, parts <> [] -> view file pre = Some Namespace -> view file (pre ++ parts) <> None ->
  setw st (VDict pre) parts w = Ok (sput st (pre ++ parts) w).
Proof.
  intros S. induction parts as [|k parts IH]; intros pre N V F; [congruence|]. destruct parts as [|k2 rest]; [reflexivity|].
  cbn [setw]. assert (view file (pre ++ [k]) = Some Namespace) as V2.
  { apply (view_app _ _ (k2 :: rest)); [|discriminate]. now rewrite <- app_assoc. }
  rewrite (sh_ns _ S) by (assumption || now destruct pre). change (setw st (VDict (pre ++ [k])) (k2 :: rest) w = Ok (sput st (pre ++ k :: k2 :: rest) w)).
  rewrite IH; [now rewrite <- app_assoc|discriminate|assumption|]. now rewrite <- app_assoc.
Qed.
Definition named (a : str) : Prop := (exists q s, view file q = Some (Leaf (PStr s)) /\ refers_to is_word s a) \/ view file (py_split dot a) <> None.
Lemma getn_named st a : shape st -> keeps_fixed st -> named a -> getn st a = Ok (sfind st (py_split dot a)).
Proof using NTL.
  intros S KF H. unfold getn. destruct H as [(q & s & V & R)|V].
  - rewrite (walkn_passes _ S KF); [reflexivity|apply py_split_nonnil|reflexivity|]. intros p k r v E. simpl. eapply NTL; eauto.
  - rewrite (walkn_safe _ S); [reflexivity|apply py_split_nonnil|reflexivity|]. now apply leaf_safe.
Qed.
Lemma setn_leaf st a w : shape st -> view file (py_split dot a) <> None -> setn st a w = Ok (sput st (py_split dot a) w).
Proof. intros S H. unfold setn. rewrite (setw_safe _ _ S); auto. apply py_split_nonnil. Qed.
Lemma split_dotted q : q <> [] -> view file q <> None -> py_split dot (dotted q) = q.
Proof using PL DL. intros Q V. apply py_join_split; [assumption|]. intros k K. eapply (view_dotless file); eauto. Qed.
Lemma dotted_split a : dotted (py_split dot a) = a.
Proof. apply py_split_join. Qed.

(** *** Gathering the references *)
Definition items : list (str * pv) := map (fun e => (dotted (fst e), snd e)) (leaves file).
Lemma items_in a v : In (a, v) items <-> view file (py_split dot a) = Some (Leaf v).
Proof using PL DL.
  unfold items. rewrite in_map_iff. split.
  - intros ([q x] & E & H). simpl in E. injection E as <- <-. apply leaves_view in H; [|assumption]. rewrite split_dotted; auto; [now apply leaf_nonnil in H|congruence].
  - intros H. exists (py_split dot a, v). split; [cbn [fst snd]; now rewrite dotted_split|]. now apply leaves_view.
Qed.
Definition node (a : str) : Prop := 
  (exists s, view file (py_split dot a) = Some (Leaf (PStr s)) /\ exists n, refers_to is_word s n) \/
  (exists b, refers b a).
Lemma present_true (b : str) : present b <-> match sfind st0 (py_split dot b) with Some v => vtruthy ft st0 v | None => false end = true.
Proof using PL.
  rewrite st0_find by apply py_split_nonnil. unfold InterpSpec.present. destruct (view file (py_split dot b)) as [[|v]|]; simpl.
  - rewrite <- (vtruthy_true st0 (VDict (py_split dot b)) shape0). reflexivity.
  - reflexivity.
  - split; [tauto|discriminate].
Qed.
Definition ref_true (b : str) : bool := match sfind st0 (py_split dot b) with Some v => vtruthy ft st0 v | None => false end.
Definition nds (kv : str * pv) : list str :=
  match snd kv with PStr s => flat_map (fun n => fst kv :: if ref_true n then [n] else []) (refs (tokens s)) | _ => [] end.
Definition eds (kv : str * pv) : list (str * str) :=
  match snd kv with PStr s => flat_map (fun n => if ref_true n then [(fst kv, n)] else []) (refs (tokens s)) | _ => [] end.
Lemma gather_ok l : incl l items -> forall acc, foldM (fun acc kv =>
    match snd kv with
    | PStr s =>
        foldM (fun acc n =>
          let* o := getn st0 n in
          let t := match o with Some v => vtruthy ft st0 v | None => false end in
          Ok (fst acc ++ fst kv :: (if t then [n] else []), snd acc ++ (if t then [(fst kv, n)] else [])))
          (refs (tokens s)) acc
    | _ => Ok acc
    end) l acc = Ok (fst acc ++ flat_map nds l, snd acc ++ flat_map eds l).
Proof using PL NTL pct_word DL.
  induction l as [|[k v] l IH]; intros L acc.
  - simpl. rewrite !app_nil_r. now destruct acc.
  - assert (incl l items) as L' by (intros x X; apply L; simpl; auto). assert (In (k, v) items) as K by (apply L; simpl; auto). cbn [foldM].
    assert (forall rs, (exists s, v = PStr s /\ incl rs (refs (tokens s))) -> forall acc, foldM (fun acc n =>
          let* o := getn st0 n in
          let t := match o with Some v => vtruthy ft st0 v | None => false end in
          Ok (fst acc ++ k :: (if t then [n] else []), snd acc ++ (if t then [(k, n)] else []))) rs acc =
       Ok (fst acc ++ flat_map (fun n => k :: if ref_true n then [n] else []) rs, snd acc ++ flat_map (fun n => if ref_true n then [(k, n)] else []) rs)) as R.
    { intros rs (s & -> & I). induction rs as [|n rs IHr]; intros acc'.
      - simpl. rewrite !app_nil_r. now destruct acc'.
      - cbn [foldM]. rewrite (getn_named _ _ shape0 keeps0).
        + cbn [bind]. rewrite IHr by (intros x X; apply I; simpl; auto). cbn [fst snd flat_map]. fold (ref_true n). now rewrite <- !app_assoc.
        + left. apply items_in in K. exists (py_split dot k), s. split; [assumption|]. apply refers_to_iff; [assumption|]. apply I. simpl; auto. }
    destruct v; cbn [snd fst flat_map nds eds bind]; try (rewrite IH by assumption; reflexivity).
    rewrite (R (refs (tokens s))) by (exists s; split; [reflexivity|apply incl_refl]). cbn [bind]. rewrite IH by assumption. cbn [fst snd]. now rewrite <- !app_assoc.
Qed.
Lemma gather_spec : exists ns es, gather is_word ft st0 items = Ok (ns, es) /\
  (forall a, In a ns <-> node a) /\ (forall a b, In (a, b) es <-> refers a b).
Proof using PL NTL pct_word DL.
  exists (flat_map nds items), (flat_map eds items). split; [|split].
  - unfold gather. rewrite gather_ok by apply incl_refl. reflexivity.
  - intros a. rewrite in_flat_map. split.
    + intros ([k v] & I & N). apply items_in in I. unfold nds in N. simpl in N. destruct v; try now destruct N. apply in_flat_map in N.
      destruct N as (n & N1 & [->|N2]).
      * left. exists s. split; [assumption|]. exists n. now apply refers_to_iff.
      * destruct (ref_true n) eqn:T; [|now destruct N2]. destruct N2 as [->|[]]. right. exists k, s. split; [assumption|]. split; [now apply refers_to_iff|now apply present_true].
    + intros [(s & V & n & R)|(b & s & V & R & P)].
      * exists (a, PStr s). split; [now apply items_in|]. unfold nds. simpl. apply in_flat_map. exists n. split; [now apply refers_to_iff|simpl; auto].
      * exists (b, PStr s). split; [now apply items_in|]. unfold nds. simpl. apply in_flat_map. exists a. split; [now apply refers_to_iff|]. right.
        apply present_true in P. unfold ref_true. rewrite P. simpl; auto.
  - intros a b. rewrite in_flat_map. split.
    + intros ([k v] & I & N). apply items_in in I. unfold eds in N. simpl in N. destruct v; try now destruct N. apply in_flat_map in N.
      destruct N as (n & N1 & N2). destruct (ref_true n) eqn:T; [|now destruct N2]. destruct N2 as [E|[]]. injection E as -> ->.
      exists s. split; [assumption|]. split; [now apply refers_to_iff|now apply present_true].
    + intros (s & V & R & P). exists (a, PStr s). split; [now apply items_in|]. unfold eds. simpl. apply in_flat_map. exists b. split; [now apply refers_to_iff|].
      apply present_true in P. unfold ref_true. rewrite P. simpl; auto.
Qed.

(** *** The loop *)
Definition inv (done : list str) (st : store) : Prop := shape st /\ forall q v, view file q = Some (Leaf v) ->
  (In (dotted q) done -> exists w, sfind st q = Some w /\ Den q w) /\
  (~ In (dotted q) done -> sfind st q = Some (VLeaf v)).
Lemma inv0 : inv [] st0.
Proof using PL. split; [apply shape0|]. intros q v V. split; [intros []|]. intros _. rewrite st0_find, V by (now apply leaf_nonnil in V). reflexivity. Qed.
Lemma Text_chars s : Text (map TChar s) s.
Proof. induction s; simpl; now constructor. Qed.
Lemma no_refs s : (forall n, ~ refers_to is_word s n) -> tokenized s (map TChar s).
Proof using pct_word.
  intros H. pose proof (tokens_tokenized _ pct_word s) as T. destruct (refs (tokens s)) as [|n r] eqn:E.
  - apply (tokens_chars _ pct_word) in E. now rewrite E in T.
  - destruct (H n). exists (tokens s). split; [assumption|]. apply refs_in. rewrite E. now left.
Qed.
Lemma Den_fixed q v : view file q = Some (Leaf v) -> fixed v -> Den q (VLeaf v).
Proof using pct_word.
  intros V F. assert ((exists s, v = PStr s) \/ forall s, v <> PStr s) as [(s & ->)|NS]; [destruct v; try (right; congruence); left; eauto| |].
  - eapply den_text; [eassumption|apply no_refs; intros n; now apply F| |apply Text_chars]. intros n E. destruct s; discriminate.
  - now apply den_const.
Qed.
Lemma inv_keeps done st : inv done st -> keeps_fixed st.
Proof using pct_word WC.
  intros [S Inv] q v V F. destruct (Inv _ _ V) as [I1 I2].
  destruct (in_dec (list_eq_dec N.eq_dec) (dotted q) done) as [I|NI]; [|auto].
  destruct (I1 I) as (w & E & D). rewrite E. f_equal. exact (Den_fun _ _ _ D (Den_fixed _ _ V F)).
Qed.
Lemma ctx_get n : (exists x, private_get ctx n false PNone = Ok x /\ Stored ctx n x) \/ (private_get ctx n false PNone = Raise ParameterError /\ Absent ctx n).
Proof using WC.
  destruct (private_get_spec ctx n false PNone WC) as [G1 G2]. destruct (stored_or_absent ctx n WC) as [(v & H)|A].
  - left. exists v. split; [apply G1; now constructor|assumption].
  - right. split; [|assumption]. apply G2. now apply no_candidate.
Qed.
Lemma lookup_spec done st n : inv done st -> named n -> (present n -> In n done) ->
  (exists w, lookup ft st ctx n = Ok w /\ Lookup n w) \/ (lookup ft st ctx n = Raise ParameterError /\ forall w, ~ Lookup n w).
Proof using WC NTL pct_word.
  intros Iv Nm Pn. pose proof (inv_keeps _ _ Iv) as KF. destruct Iv as [S Inv]. unfold lookup. rewrite (getn_named _ _ S KF Nm). cbn [bind].
  assert (forall w0, sfind st (py_split dot n) = Some w0 -> Den (py_split dot n) w0 ->
    (exists w, match sfind st (py_split dot n) with Some v => if vtruthy ft st v then Ok v else let* x := private_get ctx n false PNone in Ok (VLeaf x) | None => let* x := private_get ctx n false PNone in Ok (VLeaf x) end = Ok w /\ Lookup n w) \/
    (match sfind st (py_split dot n) with Some v => if vtruthy ft st v then Ok v else let* x := private_get ctx n false PNone in Ok (VLeaf x) | None => let* x := private_get ctx n false PNone in Ok (VLeaf x) end = Raise ParameterError /\ forall w, ~ Lookup n w)) as G.
  { intros w0 -> D. destruct (vtruthy ft st w0) eqn:T.
    - left. exists w0. split; [reflexivity|]. apply lk_file; [assumption|]. now apply (vtruthy_true st).
    - assert (~ true_value w0) as NT by (intros K; apply (vtruthy_true st) in K; congruence).
      destruct (ctx_get n) as [(x & -> & X)|[-> X]]; cbn [bind].
      + left. exists (VLeaf x). split; [reflexivity|]. eapply lk_falsy; eauto.
      + right. split; [reflexivity|]. intros w L. inversion L as [? ? D' T'|? ? v D' T' St|? v V' St]; subst.
        * assert (w0 = w) by (eapply Den_fun; eauto). subst. contradiction.
        * eapply X; eauto.
        * eapply X; eauto. }
  destruct (view file (py_split dot n)) as [[|v]|] eqn:V.
  - eapply G; [apply (sh_ns _ S); auto; apply py_split_nonnil|now constructor].
  - destruct (Inv _ _ V) as [I1 I2]. rewrite dotted_split in *. destruct (in_dec (list_eq_dec N.eq_dec) n done) as [I|NI].
    + destruct (I1 I) as (w & E & D). eauto.
    + specialize (I2 NI). assert (~ present n) as NP by tauto. unfold InterpSpec.present in NP. rewrite V in NP.
      eapply G; [eassumption|]. destruct (match v with PStr [] => true | _ => false end) eqn:Es.
      { destruct v as [| | | |[|? ?]| | | | | |]; try discriminate. eapply den_text; [eassumption|constructor|discriminate|constructor]. }
      apply den_const; [assumption|]. intros s ->. destruct s; [discriminate Es|now destruct NP].
  - rewrite (sh_none _ S) by (auto using py_split_nonnil). destruct (ctx_get n) as [(x & -> & X)|[-> X]]; cbn [bind].
    + left. exists (VLeaf x). split; [reflexivity|]. now apply lk_context.
    + right. split; [reflexivity|]. intros w L. inversion L as [? ? D' T'|? ? v D' T' St|? v V' St]; subst.
      * apply Den_present in D'. congruence.
      * eapply X; eauto.
      * eapply X; eauto.
Qed.

Definition subst_token (st : store) (t : token) : res str :=
  match t with
  | TChar c => Ok [c]
  | TRef n => let* v := lookup ft st ctx n in match v with VLeaf (PStr x) => Ok x | _ => Raise ParameterError end
  end.
Lemma Lookup_fun n w w' : Lookup n w -> Lookup n w' -> w = w'.
Proof using pct_word WC. intros H; revert w'. now apply Den_fun_all. Qed.
Lemma text_spec done st ts : inv done st -> (forall n, In (TRef n) ts -> named n /\ (present n -> In n done)) ->
  (exists ps, mapM (subst_token st) ts = Ok ps /\ Text ts (concat ps)) \/
  (mapM (subst_token st) ts = Raise ParameterError /\ forall x, ~ Text ts x).
Proof using WC NTL pct_word.
  intros Iv. induction ts as [|t ts IH]; intros H.
  - left. exists []. split; [reflexivity|constructor].
  - destruct IH as [(ps & E & X)|[E X]]; [intros n K; apply H; simpl; auto| |].
    + destruct t as [c|n]; cbn [mapM subst_token].
      * left. exists ([c] :: ps). cbn [bind]. rewrite E. cbn [bind]. split; [reflexivity|]. simpl. now constructor.
      * destruct (H n) as [Nm Pn]; [simpl; auto|]. destruct (lookup_spec done st n Iv Nm Pn) as [(w & -> & L)|[-> L]]; cbn [bind].
        -- assert ((exists y, w = VLeaf (PStr y)) \/ (forall y, w <> VLeaf (PStr y))) as [(y & ->)|NW].
           { destruct w as [|[]]; try (right; congruence). left; eauto. }
           ++ cbn [bind]. rewrite E. cbn [bind]. left. exists (y :: ps). split; [reflexivity|]. simpl. now constructor.
           ++ right. split.
              ** destruct w as [|[]]; try reflexivity. exfalso. eapply NW. reflexivity.
              ** intros x T. inversion T; subst. match goal with K : InterpSpec.Lookup _ _ _ _ n _ |- _ => apply (Lookup_fun _ _ _ L) in K; eapply NW; eauto end.
        -- right. split; [reflexivity|]. intros x T. inversion T; subst. eapply L; eauto.
    + right. split.
      * destruct t as [c|n]; cbn [mapM subst_token]; [cbn [bind]; now rewrite E|].
        destruct (H n) as [Nm Pn]; [simpl; auto|]. destruct (lookup_spec done st n Iv Nm Pn) as [(w & -> & L)|[-> L]]; cbn [bind]; [|reflexivity].
        destruct w as [|[]]; try reflexivity. cbn [bind]. now rewrite E.
      * intros x T. inversion T; subst; eapply X; eauto.
Qed.
Lemma compute_spec done st q s : inv done st -> view file q = Some (Leaf (PStr s)) ->
  (forall n, refers_to is_word s n -> present n -> In n done) ->
  (exists w, compute is_word ft st ctx s = Ok w /\ Den q w) \/ (compute is_word ft st ctx s = Raise ParameterError /\ forall w, ~ Den q w).
Proof using WC NTL pct_word.
  intros Iv V R. assert (T := tokens_tokenized _ pct_word s).
  assert (forall n, In (TRef n) (tokens s) -> named n /\ (present n -> In n done)) as H.
  { intros n I. assert (refers_to is_word s n) as K by (exists (tokens s); auto). split; [left; eauto|eauto]. }
  assert ((exists n, tokens s = [TRef n]) \/ forall n, tokens s <> [TRef n]) as [(n & E)|NW].
  { destruct (tokens s) as [|[c|n] [|t l]]; try (right; congruence). left; eauto. }
  - unfold compute. rewrite E in *. destruct (H n) as [Nm Pn]; [simpl; auto|].
    destruct (lookup_spec done st n Iv Nm Pn) as [(w & -> & L)|[-> L]]; [left|right; split; [reflexivity|]].
    + exists w. split; [reflexivity|]. eapply den_whole; eauto.
    + intros w D. inversion D as [? V'|? v V' NS|? s' n' ? V' T' L'|? s' ts' x V' T' NW X]; subst; rewrite V in V'; try discriminate.
      * injection V' as <-. eapply NS; reflexivity.
      * injection V' as <-. assert (E' := tokenized_fun _ pct_word _ _ T _ T'). injection E' as <-. eapply L; eauto.
      * injection V' as <-. assert (E' := tokenized_fun _ pct_word _ _ T _ T'). subst. eapply NW; eauto.
  - assert (compute is_word ft st ctx s = let* ps := mapM (subst_token st) (tokens s) in Ok (VLeaf (PStr (concat ps)))) as ->.
    { unfold compute. destruct (tokens s) as [|[c|n] [|t l]]; try reflexivity. now destruct (NW n). }
    destruct (text_spec done st (tokens s) Iv H) as [(ps & -> & X)|[-> X]]; cbn [bind]; [left|right; split; [reflexivity|]].
    + eexists. split; [reflexivity|]. eapply den_text; eauto.
    + intros w D. inversion D as [? V'|? v V' NS|? s' n' ? V' T' L'|? s' ts' x V' T' NW' X']; subst; rewrite V in V'; try discriminate.
      * injection V' as <-. eapply NS; reflexivity.
      * injection V' as <-. assert (E' := tokenized_fun _ pct_word _ _ T _ T'). destruct (NW n'). assumption.
      * injection V' as <-. assert (E' := tokenized_fun _ pct_word _ _ T _ T'). subst. eapply X; eauto.
Qed.
Lemma dotted_inj q q' : q <> [] -> q' <> [] -> view file q <> None -> view file q' <> None -> dotted q = dotted q' -> q = q'.
Proof using PL DL. intros Q Q' V V' E. rewrite <- (split_dotted q), <- (split_dotted q') by assumption. now rewrite E. Qed.
Lemma shape_sput st q w v : shape st -> view file q = Some (Leaf v) -> shape (sput st q w).
Proof.
  intros S V. assert (Q := leaf_nonnil _ _ V). assert (In q (dom st)) as I.
  { destruct (sh_leaf _ S _ _ V) as (x & X). apply sfind_in in X. apply in_map_iff. now exists (q, x). }
  split.
  - rewrite sput_dom by assumption. apply S.
  - intros q' Q' V'. rewrite sfind_sput. destruct (path_eqb q q') eqn:E; [apply path_eqb_eq in E; congruence|]. now apply S.
  - intros q' Q' V'. rewrite sfind_sput. destruct (path_eqb q q') eqn:E; [apply path_eqb_eq in E; congruence|]. now apply S.
  - intros q' v' V'. rewrite sfind_sput. destruct (path_eqb q q'); [eauto|]. eapply sh_leaf; eauto.
Qed.
Lemma step_spec done st a : inv done st -> node a -> ~ In a done -> (forall b, refers a b -> In b done) ->
  (exists st', step is_word ft ctx st a = Ok st' /\ inv (a :: done) st') \/
  (step is_word ft ctx st a = Raise ParameterError /\ exists q v, view file q = Some (Leaf v) /\ forall w, ~ Den q w).
Proof using WC NTL pct_word PL DL.
  intros Iv Na ND R. pose proof (inv_keeps _ _ Iv) as KF. destruct Iv as [S Inv]. assert (named a /\ present a) as [Nm Pa].
  { destruct Na as [(s & V & n & (ts & T & I))|(b & s & V & Rf & P)].
    - split; [right; congruence|]. unfold InterpSpec.present. rewrite V. simpl. destruct s; [inversion T; subst; now destruct I|reflexivity].
    - split; [left; eauto|assumption]. }
  unfold step. rewrite (getn_named _ _ S KF Nm). cbn [bind]. unfold InterpSpec.present in Pa.
  assert (forall v, view file (py_split dot a) = Some (Leaf v) -> (forall s, v <> PStr s) -> inv (a :: done) st) as Skip.
  { intros v V NS. split; [assumption|]. intros q x Vx. destruct (Inv _ _ Vx) as [I1 I2]. split; [|intros K; apply I2; simpl in K; tauto].
    intros [E|I]; [|auto]. assert (q = py_split dot a) as ->.
    { apply dotted_inj; [now apply leaf_nonnil in Vx|apply py_split_nonnil|congruence|congruence|]. now rewrite dotted_split. }
    rewrite Vx in V. injection V as ->. exists (VLeaf v). split; [apply I2; now rewrite dotted_split|]. now apply den_const. }
  destruct (view file (py_split dot a)) as [[|v]|] eqn:V; [| |now destruct Pa].
  - rewrite (sh_ns _ S) by (auto using py_split_nonnil). assert (vtruthy ft st (VDict (py_split dot a)) = true) as -> by (now apply vtruthy_true).
    left. exists st. split; [reflexivity|]. split; [assumption|]. intros q x Vx. destruct (Inv _ _ Vx) as [I1 I2]. split; [|intros K; apply I2; simpl in K; tauto].
    intros [E|I]; [|auto]. exfalso. assert (q = py_split dot a); [|congruence].
    apply dotted_inj; [now apply leaf_nonnil in Vx|apply py_split_nonnil|congruence|congruence|]. now rewrite dotted_split.
  - destruct (Inv _ _ V) as [_ I2]. rewrite dotted_split in I2. rewrite (I2 ND). cbn [vtruthy]. rewrite Pa.
    assert ((exists s, v = PStr s) \/ forall s, v <> PStr s) as [(s & ->)|NS]; [destruct v; try (right; congruence); left; eauto| |].
    + destruct (compute_spec done st _ s (conj S Inv) V) as [(w & -> & D)|[-> D]].
      * intros n Rn Pn. apply R. exists s. auto.
      * cbn [bind]. rewrite (setn_leaf _ _ _ S) by congruence. left. eexists. split; [reflexivity|]. split; [eapply shape_sput; eauto|].
        intros q x Vx. rewrite sfind_sput. destruct (path_eqb (py_split dot a) q) eqn:E.
        -- apply path_eqb_eq in E. subst q. rewrite dotted_split. split; [eauto|]. simpl. tauto.
        -- apply path_eqb_neq in E. destruct (Inv _ _ Vx) as [J1 J2]. split; [|intros K; apply J2; simpl in K; tauto].
           intros [E'|I]; [|auto]. exfalso. apply E. symmetry. apply dotted_inj; [now apply leaf_nonnil in Vx|apply py_split_nonnil|congruence|congruence|]. now rewrite dotted_split.
      * right. split; [reflexivity|]. eauto.
    + left. exists st. split; [|now eapply Skip]. destruct v; try reflexivity. now destruct (NS s).
Qed.
Lemma loop_spec l : forall done st, inv done st -> (forall a, In a l -> node a) -> NoDup l -> (forall a, In a l -> ~ In a done) ->
  (forall l1 a l2 b, l = l1 ++ a :: l2 -> refers a b -> In b done \/ In b l1) ->
  (exists st' d', foldM (step is_word ft ctx) l st = Ok st' /\ inv d' st' /\ forall a, In a d' <-> In a done \/ In a l) \/
  (foldM (step is_word ft ctx) l st = Raise ParameterError /\ exists q v, view file q = Some (Leaf v) /\ forall w, ~ Den q w).
Proof using WC NTL pct_word PL DL.
  induction l as [|a l IH]; intros done st Iv Nd N D O.
  - left. exists st, done. split; [reflexivity|]. split; [assumption|]. simpl. tauto.
  - cbn [foldM]. inversion N as [|? ? N1 N2]; subst. destruct (step_spec done st a Iv) as [(st' & -> & Iv')|[-> F]].
    + apply Nd; simpl; auto.
    + apply D; simpl; auto.
    + intros b Rb. destruct (O [] a l b eq_refl Rb) as [H|[]]. assumption.
    + cbn [bind]. destruct (IH (a :: done) st' Iv') as [(st'' & d' & E & I & X)|F].
      * intros x X. apply Nd; simpl; auto.
      * assumption.
      * intros x X [<-|K]; [contradiction|]. eapply D; simpl; eauto.
      * intros l1 x l2 b -> Rb. destruct (O (a :: l1) x l2 b eq_refl Rb) as [H|[<-|H]]; simpl; auto.
      * left. exists st'', d'. split; [assumption|]. split; [assumption|]. intros x. rewrite X. simpl. tauto.
      * right. assumption.
    + right. cbn [bind]. auto.
Qed.
Definition final (st : store) : Prop := shape st /\ forall q v, view file q = Some (Leaf v) -> exists w, sfind st q = Some w /\ Den q w.
Lemma inv_final done st : inv done st -> (forall a, node a -> In a done) -> final st.
Proof using pct_word PL DL.
  intros [S Inv] H. split; [assumption|]. intros q v V. destruct (Inv _ _ V) as [I1 I2].
  destruct (in_dec (list_eq_dec N.eq_dec) (dotted q) done) as [I|NI]; [auto|]. exists (VLeaf v). split; [auto|].
  assert ((exists s, v = PStr s) \/ forall s, v <> PStr s) as [(s & ->)|NS]; [destruct v; try (right; congruence); left; eauto| |].
  - assert (refs (tokens s) = []) as E.
    { destruct (refs (tokens s)) as [|n r] eqn:E; [reflexivity|]. exfalso. apply NI. apply H. left. exists s.
      rewrite split_dotted; [|now apply leaf_nonnil in V|congruence]. split; [assumption|]. exists n. apply refers_to_iff; [assumption|]. rewrite E. simpl; auto. }
    apply (tokens_chars _ pct_word) in E. eapply den_text; [eassumption|apply (tokens_tokenized _ pct_word)| |].
    + intros n K. rewrite E in K. destruct s; discriminate.
    + rewrite E. apply Text_chars.
  - now apply den_const.
Qed.
End Main.
