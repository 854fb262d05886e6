(** * The operating system's walk and [leads] *)
From Verif Require Import Prelude PyStr TextLib Fs FsProofs PathLists PathListsProps OsPath OsPathSpec.

Lemma has_nul_spec s : has_nul s = false <-> ~ In 0%N s.
Proof.
  unfold has_nul. split.
  - intros E I. enough (existsb (N.eqb 0) s = true) by congruence. apply existsb_exists. exists 0%N. auto.
  - intros H. destruct (existsb (N.eqb 0) s) eqn:E; [|reflexivity]. apply existsb_exists in E. destruct E as (x & I & E). apply N.eqb_eq in E. now subst.
Qed.
Notation keep := (fun c => negb (str_eqb c [] || str_eqb c !!".")).
Lemma keep_true c : keep c = true <-> c <> [] /\ c <> !!".".
Proof. rewrite negb_true_iff, orb_false_iff, !str_eqb_neq. reflexivity. Qed.
Lemma keep_false c : keep c = false <-> c = [] \/ c = !!".".
Proof. rewrite negb_false_iff, orb_true_iff, !str_eqb_eq. reflexivity. Qed.
Ltac absurd_str H := exfalso; destruct H as [H|H]; first [congruence|vm_compute in H; discriminate H].
Lemma os_walk_spec fs cs : forall q q', os_walk fs q (filter keep cs) = Ok q' <-> opens fs q cs q'.
Proof.
  induction cs as [|c cs IH]; intros q q'; cbn [filter].
  - cbn. split; [intros E; injection E as <-; constructor|inversion 1; reflexivity].
  - destruct (keep c) eqn:K.
    + apply keep_true in K. destruct K as [K1 K2]. cbn [os_walk]. destruct (str_eqb c !!"..") eqn:U.
      * apply str_eqb_eq in U. subst c. split.
        -- intros E. apply op_up; [destruct (look fs q) as [[]|]; congruence|]. apply IH. destruct (look fs q) as [[]|]; first [exact E|discriminate].
        -- intros H. inversion H as [|? ? ? ? S|? ? ? L|? ? ? ? ? ? D]; subst; [absurd_str S|rewrite L; now apply IH|exfalso; now apply D].
      * apply str_eqb_neq in U. split.
        -- intros E. apply op_into; auto; [destruct (look fs q) as [[]|]; congruence|]. apply IH. destruct (look fs q) as [[]|]; first [exact E|discriminate].
        -- intros H. inversion H as [|? ? ? ? S|? ? ? L|? ? ? ? ? ? D L]; subst; [absurd_str S|exfalso; now apply U|rewrite L; now apply IH].
    + apply keep_false in K. rewrite IH. split; [now apply op_stay|]. inversion 1; subst; auto; absurd_str K.
Qed.
Lemma os_app fs a b : forall q, os_walk fs q (a ++ b) = let* q' := os_walk fs q a in os_walk fs q' b.
Proof.
  induction a as [|c a IH]; intros q; [reflexivity|]. cbn [app os_walk]. destruct (look fs q) as [[]|]; try reflexivity. destruct (str_eqb c !!".."); apply IH.
Qed.
Lemma opens_stay fs fs' q cs q' : (forall r, look fs r = Some KDir -> look fs' r = Some KDir) -> opens fs q cs q' -> opens fs' q cs q'.
Proof. intros D H. induction H; [constructor|apply op_stay|apply op_up|apply op_into]; auto. Qed.
Lemma leads_stay fs fs' cwd s q : (forall r, look fs r = Some KDir -> look fs' r = Some KDir) -> leads fs cwd s q -> leads fs' cwd s q.
Proof. intros D (N & [(A & H)|(A & H)]); (split; [assumption|]); [left|right]; (split; [assumption|]); eapply opens_stay; eassumption. Qed.
Lemma filter_all {A} (f : A -> bool) l : (forall x, In x l -> f x = true) -> filter f l = l.
Proof. induction l as [|x l IH]; intros H; [reflexivity|]. cbn. rewrite (H x (or_introl eq_refl)), IH; [reflexivity|]. intros; apply H; now right. Qed.
Lemma filter_split_join l : (forall c, In c l -> c <> [] /\ c <> !!"." /\ ~ In slash c) -> filter keep (py_split slash (py_join [slash] l)) = l.
Proof.
  intros H. destruct l as [|c l]; [reflexivity|]. rewrite py_join_split; [|discriminate|intros x I; now apply H].
  apply filter_all. intros x I. apply keep_true. destruct (H x I) as (? & ? & ?). auto.
Qed.
Lemma split_slash_cons s : py_split slash (slash :: s) = [] :: py_split slash s.
Proof. exact (py_split_app slash [] s (fun f => f)). Qed.
Lemma nul_join l : (forall c, In c l -> ~ In 0%N c) -> ~ In 0%N (py_join [slash] l).
Proof.
  induction l as [|a l IH]; intros H; [intros []|]. destruct l as [|b l]; [cbn; now apply H; left|].
  assert (~ In 0%N (py_join [slash] (b :: l))) as J by (apply IH; intros; apply H; now right). intros I. cbn [py_join] in I. apply in_app_or in I. destruct I as [I|I]; [exact (H a (or_introl eq_refl) I)|].
  cbn [app In] in I. destruct I as [I|I]; [discriminate I|]. exact (J I).
Qed.
Lemma opens_all fs q : wf_fs fs -> look fs q <> None -> Forall proper q -> os_walk fs [] (rev q) = Ok q.
Proof.
  intros W. induction q as [|c q IH]; intros L P; [reflexivity|]. inversion P as [|? ? P1 P2]; subst. cbn [rev]. assert (look fs q = Some KDir) as D by (destruct (look fs (c :: q)) eqn:E; [exact (W _ _ _ E)|congruence]).
  rewrite os_app, IH by (auto; congruence). cbn [bind os_walk]. rewrite D. destruct P1 as (_ & _ & P1 & _). apply str_eqb_neq in P1. now rewrite P1.
Qed.
Lemma nul_path_str q : Forall proper q -> ~ In 0%N (path_str q).
Proof. intros P [I|I]; [discriminate|]. revert I. apply nul_join. intros c I. apply in_rev in I. rewrite Forall_forall in P. now apply P. Qed.
Lemma key_nul s : ~ In 0%N s -> existsb has_nul (p_parts (parse_path s)) = false.
Proof.
  intros Z. rewrite <- not_true_iff_false. intros E. apply existsb_exists in E. destruct E as (c & I & H). unfold parse_path in I. cbn [p_parts] in I. apply filter_In in I. destruct I as (I & _).
  unfold has_nul in H. apply existsb_exists in H. destruct H as (x & J & E). apply N.eqb_eq in E. subst x. apply Z. now apply (in_split_in slash s c).
Qed.
Lemma nul_key s : In 0%N s -> existsb has_nul (p_parts (parse_path s)) = true.
Proof.
  intros Z. apply existsb_exists. assert (Y : exists c, In c (py_split slash s) /\ In 0%N c).
  { rewrite <- (py_split_join slash s) in Z. induction (py_split slash s) as [|c [|c2 l] IH]; [destruct Z|exists c; simpl in *; auto|]. change (py_join [slash] (c :: c2 :: l)) with (c ++ slash :: py_join [slash] (c2 :: l)) in Z. apply in_app_or in Z. destruct Z as [Z|[Z|Z]]; [exists c; simpl; auto|discriminate|]. destruct (IH Z) as (x & I & J). exists x. split; [now right|assumption]. }
  destruct Y as (c & I & J). exists c. split; [|destruct (has_nul c) eqn:H; [reflexivity|]; apply has_nul_spec in H; contradiction]. unfold parse_path. cbn [p_parts]. apply filter_In. split; [assumption|]. apply negb_true_iff, orb_false_iff. split; apply str_eqb_neq; intros ->; [destruct J|]. destruct J as [J|[]]; discriminate.
Qed.
Lemma root_abs s : (root_of s =? 0)%N = false <-> exists r, s = slash :: r.
Proof.
  destruct s as [|a s]; [split; [discriminate|intros (r & E); discriminate]|]. unfold root_of. destruct (N.eqb_spec a slash) as [->|N].
  - split; [intros _; now exists s|intros _]. destruct s as [|b s]; [reflexivity|]. destruct (b =? slash)%N; [|reflexivity]. destruct s as [|x s]; [reflexivity|]. now destruct (x =? slash)%N.
  - split; [discriminate|intros (r & E); congruence].
Qed.
(** An unresolved Path object is followed to where its text leads. *)
Lemma find_leads fs cwd s q : os_find cwd fs (parse_path s) = Ok q <-> leads fs cwd s q.
Proof.
  unfold os_find, leads. destruct (in_dec N.eq_dec 0%N s) as [Z|Z].
  - rewrite (nul_key s Z). split; [discriminate|intros (N & _); contradiction].
  - rewrite (key_nul s Z). unfold parse_path. cbn [p_root p_parts]. rewrite os_walk_spec. destruct (root_of s =? 0)%N eqn:R.
    + assert (A : forall r, s <> slash :: r) by (intros r ->; assert (root_of (slash :: r) =? 0 = false)%N by (apply root_abs; eauto); congruence).
      split; [intros H; split; [assumption|right; auto]|]. intros (_ & [((r & E) & _)|(_ & H)]); [now destruct (A r)|assumption].
    + apply root_abs in R. split; [intros H; split; [assumption|left; auto]|]. intros (_ & [(_ & H)|(A & _)]); [assumption|]. destruct R as (r & E). now destruct (A r).
Qed.
(** Where a path leads is what it resolves to. *)
Lemma opens_walk fs q cs q' : opens fs q cs q' -> walk_comps q cs = q'.
Proof.
  intros H. induction H as [q|q c cs q' [->| ->] H IH|q cs q' D H IH|q c cs q' N1 N2 N3 D H IH]; try assumption; [reflexivity|]. apply str_eqb_neq in N1, N2, N3. cbn [walk_comps]. now rewrite N1, N2, N3.
Qed.
Lemma leads_resolve fs cwd s q : leads fs cwd s q -> resolve cwd s = Ok q.
Proof.
  intros (Z & H). apply has_nul_spec in Z. unfold has_nul in Z. unfold resolve. rewrite Z. f_equal. destruct H as [((r & ->) & H)|(A & H)]; [exact (opens_walk _ _ _ _ H)|].
  rewrite <- (opens_walk _ _ _ _ H). destruct s as [|x s]; [reflexivity|]. destruct (N.eqb_spec x slash) as [->|]; [now destruct (A s)|reflexivity].
Qed.
Lemma path_str_leads fs cwd q : wf_fs fs -> Forall proper q -> look fs q <> None -> leads fs cwd (path_str q) q.
Proof.
  intros W P L. split; [now apply nul_path_str|]. left. split; [unfold path_str; eauto|]. apply os_walk_spec. rewrite <- (opens_all fs q W L P). f_equal.
  unfold path_str. rewrite split_slash_cons. cbn [filter]. apply filter_split_join. intros c I. apply in_rev in I. rewrite Forall_forall in P. destruct (P c I) as (? & ? & _ & ? & _). auto.
Qed.
