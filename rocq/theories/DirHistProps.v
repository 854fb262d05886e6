(** * C114: histories of calls on directory sinks *)
From Coq Require Import Sorted Permutation.
From Verif Require Import Prelude PyStr SortLib TextLib Utf8 AnnotatedTextProps Params ParamsSpec ParamsProofs Fs FsProofs FsProps PathLists PathListsProps Io IoProps KeyValue KeyValueProps KvParams Mains MainsProofs Load OsPath OsPathProofs LoadFs LoadFsSpec LoadFsProps DirFs DirFsProps DirCrash DirCrashProps DirHist.

Section DirHistProps.
Notation fsys := (list (list str * fnode)) (only parsing).
Notation file_of d cs := (rev cs ++ d).
Variable cwd : list str.
Variable d : list str.
Variable kind : nat -> bool.

(** ** Specification *)
(** the puts of a history, whichever the sinks *)
Definition all_puts (h : list dcall) : list (str * value) := flat_map (fun c => match c with DPut _ k v => [(k, v)] | _ => [] end) h.
(** A usable history: an empty directory, and keys naming files side by side which the index can list.  The values may be anything. *)
Definition usable (fs : fsys) (h : list dcall) : Prop :=
  wf_fs fs /\ Forall proper d /\ d <> [] /\ look fs d = Some KDir /\ (forall x, look fs (x :: d) = None) /\
  (forall i k v, In (DPut i k v) h -> field_ok k /\ exists cs, plain_key k cs /\ field_ok (path_str (file_of d cs))) /\ side_by_side (all_puts h).
(** Nothing but entering has happened. *)
Definition untouched (h : list dcall) : Prop := forall c, In c h -> exists i, c = DEnter i.
(** What a call gives, after the calls [before]. *)
Definition right_outcome (before : list dcall) (c : dcall) (o : res unit) : Prop :=
  match c with
  | DEnter _ => (untouched before -> o = Ok tt) /\ (~ untouched before -> o = Raise IOError)
  | DPut i k v => (forall b, accepts (kind i) v b -> o = Ok tt) /\ (forall e, rejects (kind i) v e -> o = Raise e)
  | DExit _ => o = Ok tt
  end.
(** What was put into the file [cs] last: nothing ever, the bytes of a value, or nothing because the value could not be written. *)
Definition last_put (h : list dcall) (cs : list str) (x : option bytes) : Prop :=
  (x = None /\ forall i k v, In (DPut i k v) h -> ~ plain_key k cs) \/
  exists a i k v b', h = a ++ DPut i k v :: b' /\ plain_key k cs /\ (forall i' k' v', In (DPut i' k' v') b' -> ~ plain_key k' cs) /\
    ((exists b, accepts (kind i) v b /\ x = Some b) \/ (exists e, rejects (kind i) v e /\ x = Some [])).
(** Sink [i] has put [k] successfully. *)
Definition has_put (i : nat) (h : list dcall) (k : str) : Prop := exists v b, In (DPut i k v) h /\ accepts (kind i) v b.
(** The last sink to be left was [i], after the calls [a]. *)
Definition last_exit (h : list dcall) (i : nat) (a : list dcall) : Prop := exists b, h = a ++ DExit i :: b /\ forall j, ~ In (DExit j) b.

(** ** Proofs *)
Definition table_of (i : nat) (a : list dcall) (m : list (str * ppath)) : Prop :=
  NoDup (keys m) /\ (forall k cs, has_put i a k -> plain_key k cs -> dfind m k = Some (abs_path (file_of d cs))) /\ (forall k, ~ has_put i a k -> dfind m k = None).
Lemma has_put_app i a c k : has_put i (a ++ [c]) k <-> has_put i a k \/ exists v b, c = DPut i k v /\ accepts (kind i) v b.
Proof.
  unfold has_put. split.
  - intros (v & b & J & A). apply in_app_or in J. destruct J as [J|[J|[]]]; [left|right]; eauto 6.
  - intros [(v & b & J & A)|(v & b & -> & A)]; exists v, b; (split; [apply in_or_app|exact A]); [left; exact J|right; now left].
Qed.
Lemma last_put_other h c cs x : (forall i k v, c = DPut i k v -> ~ plain_key k cs) -> last_put h cs x -> last_put (h ++ [c]) cs x.
Proof.
  intros N [(-> & H)|(a & i & k & v & b' & -> & K & R & X)].
  - left. split; [reflexivity|]. intros i k v J. apply in_app_or in J. destruct J as [J|[J|[]]]; eauto.
  - right. exists a, i, k, v, (b' ++ [c]). split; [now rewrite <- app_assoc|]. split; [exact K|]. split; [|exact X].
    intros i' k' v' J. apply in_app_or in J. destruct J as [J|[J|[]]]; eauto.
Qed.
Lemma untouched_dec h : untouched h \/ ~ untouched h.
Proof.
  induction h as [|c h IH]; [left; intros c []|]. destruct IH as [IH|IH]; [|right; intro U; apply IH; intros x J; apply U; now right].
  destruct c as [i|i k v|i]; [left; intros c [<-|J]; eauto| |]; right; intro U; destruct (U _ (or_introl eq_refl)) as (j & E); discriminate.
Qed.
Lemma has_put_dec i h k : has_put i h k \/ ~ has_put i h k.
Proof.
  induction h as [|c h IH]; [right; intros (v & b & [] & _)|]. destruct IH as [(v & b & J & A)|N]; [left; exists v, b; split; [now right|exact A]|].
  assert (Skip : (forall v b, c = DPut i k v -> ~ accepts (kind i) v b) -> ~ has_put i (c :: h) k). { intros Q (v & b & [J|J] & A); [exact (Q v b J A)|]. apply N. exists v, b. split; assumption. }
  destruct c as [j|j k' v|j]; [right; apply Skip; discriminate| |right; apply Skip; discriminate].
  destruct (Nat.eq_dec j i) as [->|Nj]; [|right; apply Skip; congruence]. destruct (list_eq_dec N.eq_dec k' k) as [->|Nk]; [|right; apply Skip; congruence].
  destruct (accepts_or_rejects (kind i) v) as [(b & A)|(e & A)]; [left; exists v, b; split; [now left|exact A]|]. right. apply Skip. intros v' b Q A'. inversion Q; subst v'. apply content_accepts in A'. apply content_rejects in A. congruence.
Qed.

Section Run.
Variable fs0 : fsys.
Variable h0 : list dcall.
Hypothesis U : usable fs0 h0.
Notation T := (targets (all_puts h0)).
Record inv (h : list dcall) (fs : fsys) (t : tables) : Prop := {
  iv_tree : tree d T fs;
  iv_files : forall cs, T cs -> cs <> [index_name] -> exists x, last_put h cs x /\ look fs (file_of d cs) = option_map KFile x;
  iv_tables : forall i, table_of i h (t i);
  iv_none : (forall i, ~ In (DExit i) h) -> look fs (index_name :: d) = None;
  iv_index : forall i a, last_exit h i a -> exists ib m, look fs (index_name :: d) = Some (KFile ib) /\ write_lines (index_lines m) = (ib, None) /\ table_of i a m;
  iv_outside : forall a, ~ (below d a /\ a <> d) -> look fs a = look fs0 a;
  iv_empty : untouched h -> forall x, look fs (x :: d) = None }.
Let flat := targets_flat _ (proj2 (proj2 (proj2 (proj2 (proj2 (proj2 U)))))).
Let named := targets_named (all_puts h0).
Let Pd : Forall proper d := proj1 (proj2 U).

Lemma put_target i k v : In (DPut i k v) h0 -> forall cs, plain_key k cs -> T cs /\ cs <> [index_name].
Proof using U.
  intros J cs K. assert (I : In (k, v) (all_puts h0)) by (apply in_flat_map; exists (DPut i k v); split; [exact J|now left]).
  split; [right; eauto|]. intros ->. pose proof U as UU; destruct UU as (_ & _ & _ & _ & _ & _ & (_ & NI)). apply (NI k v _ I K). reflexivity.
Qed.
Lemma inv_start : inv [] fs0 (fun _ => []).
Proof using U.
  pose proof U as UU; destruct UU as (W & P & Nd & D & Em & H & Sb). assert (Old := nothing_below d fs0 W Em). split.
  - split; [assumption|assumption| |]; [intros a B Na (k & K & _)|intros a B Na K]; rewrite (Old a B Na) in K; discriminate.
  - intros cs Tc Ni. exists None. split; [left; split; [reflexivity|intros i k v []]|]. destruct (file_not_dir d T (targets_flat _ Sb) named cs Tc) as (B & Na). exact (Old _ B Na).
  - intros i. split; [constructor|]. split; [intros k cs (v & b & [] & _)|reflexivity].
  - intros _. apply Em.
  - intros i a (b & E & _). destruct a; discriminate.
  - reflexivity.
  - intros _. exact Em.
Qed.
(** entering changes nothing *)
Lemma same_tree fs fs' : tree d T fs -> wf_fs fs' -> (forall a, look fs' a = look fs a) -> tree d T fs'.
Proof.
  intros TR W' S. split; [assumption|rewrite S; apply TR| |].
  - intros a B Na (k & K & NK). rewrite S in K. rewrite S. apply (tr_file _ _ _ TR a B Na). exists k. split; assumption.
  - intros a B Na K. rewrite S in K. now apply (tr_sub _ _ _ TR a B Na).
Qed.
Lemma last_exit_app h c i a : (forall j, c <> DExit j) -> last_exit (h ++ [c]) i a -> last_exit h i a.
Proof.
  intros N (b & E & X). destruct b as [|y b] using rev_ind.
  - apply app_inj_tail in E. destruct E as (_ & E). exfalso. exact (N _ E).
  - clear IHb. rewrite app_comm_cons, app_assoc in E. apply app_inj_tail in E. destruct E as (-> & ->). exists b. split; [reflexivity|]. intros j J. apply (X j). apply in_or_app. now left.
Qed.
Lemma table_other i h c m : (forall k v, c <> DPut i k v) -> table_of i h m -> table_of i (h ++ [c]) m.
Proof.
  intros N (A & B & C). split; [exact A|]. split.
  - intros k cs P K. apply has_put_app in P. destruct P as [P|(v & b & -> & _)]; [eauto|exfalso; exact (N _ _ eq_refl)].
  - intros k P. apply C. intro Q. apply P. apply has_put_app. now left.
Qed.
Lemma has_something h fs t : inv h fs t -> incl h h0 -> ~ untouched h -> exists x k, look fs (x :: d) = Some k.
Proof using U.
  intros V I NU. assert (E : exists c, In c h /\ forall i, c <> DEnter i).
  { clear V I. induction h as [|c h IH]; [exfalso; apply NU; intros c []|].
    destruct c as [i|i k v|i].
    - destruct IH as (c & J & Q); [|exists c; split; [now right|exact Q]]. intro Un. apply NU. intros c [<-|J]; eauto.
    - exists (DPut i k v). split; [now left|discriminate].
    - exists (DExit i). split; [now left|discriminate]. }
  destruct E as (c & J & Q). destruct c as [i|i k v|i]; [exfalso; exact (Q i eq_refl)| |].
  - pose proof U as UU; destruct UU as (_ & _ & _ & _ & _ & H & _). destruct (H i k v (I _ J)) as (_ & cs & K & _). destruct (put_target i k v (I _ J) cs K) as (Tc & Ni).
    destruct (iv_files _ _ _ V cs Tc Ni) as (x & L & E). assert (X : exists b, x = Some b).
    { destruct L as [(-> & N)|(a & i' & k' & v' & b' & _ & _ & _ & [(b & _ & ->)|(e & _ & ->)])]; [exfalso; exact (N _ _ _ J K)|eauto|eauto]. }
    destruct X as (b & ->). cbn in E. destruct (named cs Tc) as (NE & _). destruct (exists_last NE) as (cs1 & y & Ecs). 
    destruct cs as [|c cs']; [congruence|]. cbn [rev] in E. rewrite <- app_assoc in E. cbn [app] in E.
    destruct (rev cs') as [|z r] eqn:R; [exists c, (KFile b); exact E|]. exists c, KDir.
    apply (wf_above fs (c :: d) _ _ (tr_wf _ _ _ (iv_tree _ _ _ V)) E); [now exists (z :: r)|]. intros X. apply (f_equal (@length _)) in X. cbn in X. rewrite app_length in X. cbn in X. lia.
  - assert (exists i a, last_exit h i a) as (j & a & X).
    { clear -J. induction h as [|c h IH] using rev_ind; [destruct J|]. apply in_app_or in J. destruct c as [j|j k v|j].
      - destruct J as [J|[J|[]]]; [|discriminate]. destruct (IH J) as (x & a & b & -> & X). exists x, a, (b ++ [DEnter j]). split; [now rewrite <- app_assoc|]. intros y Y. apply in_app_or in Y. destruct Y as [Y|[Y|[]]]; [exact (X y Y)|discriminate].
      - destruct J as [J|[J|[]]]; [|discriminate]. destruct (IH J) as (x & a & b & -> & X). exists x, a, (b ++ [DPut j k v]). split; [now rewrite <- app_assoc|]. intros y Y. apply in_app_or in Y. destruct Y as [Y|[Y|[]]]; [exact (X y Y)|discriminate].
      - exists j, h, []. split; [reflexivity|]. intros y []. }
    destruct (iv_index _ _ _ V j a X) as (ib & m & L & _). eauto.
Qed.

Lemma inv_step h fs t c : inv h fs t -> incl (h ++ [c]) h0 -> exists fs' t' o, dcall_step cwd d kind fs t c = (fs', t', o) /\ right_outcome h c o /\ inv (h ++ [c]) fs' t'.
Proof using U.
  intros V I. assert (Ih : incl h h0) by (intros x J; apply I, in_or_app; now left). assert (Ic : In c h0) by (apply I, in_or_app; right; now left).
  assert (TR := iv_tree _ _ _ V). assert (W := tr_wf _ _ _ TR). assert (D := tr_dir _ _ _ TR). destruct c as [i|i k v|i]; cbn [dcall_step].
  - (* enter *)
    destruct (C97_enter d fs W) as (E1 & E2 & _). destruct (untouched_dec h) as [Un|Nu].
    + pose proof U as UU; destruct UU as (_ & _ & Nd & _). assert (exists c0 r0, d = c0 :: r0) as (c0 & r0 & Ed) by (clear - Nd; destruct d as [|c0 r0]; [congruence|eauto]). destruct (E1 c0 r0 Ed D (iv_empty _ _ _ V Un)) as (fs' & -> & W' & S').
      exists fs', (set_table t i []), (Ok tt). split; [reflexivity|]. split; [split; [reflexivity|intros N; contradiction]|].
      split.
      * exact (same_tree fs fs' TR W' S').
      * intros cs Tc Ni. destruct (iv_files _ _ _ V cs Tc Ni) as (x & L & E). exists x. split; [apply last_put_other; [discriminate|exact L]|]. now rewrite S'.
      * intros j. unfold set_table. destruct (j =? i)%nat; [|apply table_other; [discriminate|apply V]]. split; [constructor|]. split; [|reflexivity].
        intros k cs (v & b & J & _) _. apply in_app_or in J. destruct J as [J|[J|[]]]; [|discriminate]. destruct (Un _ J) as (x & X). discriminate.
      * intros N. rewrite S'. apply (iv_none _ _ _ V). intros j J. apply (N j). apply in_or_app. now left.
      * intros j a X. apply last_exit_app in X; [|discriminate]. destruct (iv_index _ _ _ V j a X) as (ib & m & L & Q). exists ib, m. now rewrite S'.
      * intros a N. rewrite S'. now apply V.
      * intros _ x. rewrite S'. now apply V.
    + rewrite (E2 D (has_something h fs t V Ih Nu)). exists fs, t, (Raise IOError). split; [reflexivity|]. split; [split; [intros; contradiction|reflexivity]|].
      split.
      * exact TR.
      * intros cs Tc Ni. destruct (iv_files _ _ _ V cs Tc Ni) as (x & L & E). exists x. split; [apply last_put_other; [discriminate|exact L]|exact E].
      * intros j. apply table_other; [discriminate|apply V].
      * intros N. apply (iv_none _ _ _ V). intros j J. apply (N j). apply in_or_app. now left.
      * intros j a X. apply last_exit_app in X; [|discriminate]. exact (iv_index _ _ _ V j a X).
      * apply V.
      * intros Un. exfalso. apply Nu. intros x J. apply Un, in_or_app. now left.
  - (* put *)
    assert (H := proj1 (proj2 (proj2 (proj2 (proj2 (proj2 U)))))). destruct (H i k v Ic) as (_ & cs & K & _). destruct (put_target i k v Ic cs K) as (Tc & Ni).
    destruct (C97_put cwd (kind i) d fs (t i) k v cs W D Pd K) as (fs' & m' & o & E & G & _). destruct (G (tree_writable d T flat named fs cs TR Tc)) as (G1 & G2). clear G. rewrite E. exists fs', (set_table t i m'), o. split; [reflexivity|].
    assert (ND' : NoDup (keys m')). { unfold fs_put in E. destruct (sink_write cwd fs (out_file d k) (content (kind i) v)) as [f [x|x]]; inversion E; subst; [apply dput_nodup|]; apply (iv_tables _ _ _ V i). }
    assert (R : exists b, filed fs fs' (file_of d cs) b /\ last_put (h ++ [DPut i k v]) cs (Some b) /\ right_outcome h (DPut i k v) o /\ table_of i (h ++ [DPut i k v]) m').
    { destruct (iv_tables _ _ _ V i) as (_ & M1 & M2). destruct (accepts_or_rejects (kind i) v) as [(b & A)|(e & A)].
      - exists b. destruct (G1 b A) as (-> & F & U1 & U2). split; [exact F|]. split; [right; exists h, i, k, v, []; split; [reflexivity|]; split; [exact K|]; split; [intros ? ? ? []|left; eauto]|]. split.
        { split; [reflexivity|]. intros e Rj. exfalso. apply content_accepts in A. apply content_rejects in Rj. congruence. }
        split; [exact ND'|]. split.
        + intros k' cs' P K'. destruct (list_eq_dec N.eq_dec k' k) as [->|Nk]; [rewrite (plain_fun _ _ _ K' K); exact U1|]. rewrite (U2 k' Nk). apply has_put_app in P. destruct P as [P|(v' & b' & Q & _)]; [now apply M1|congruence].
        + intros k' P. rewrite U2; [apply M2; intro Q; apply P, has_put_app; now left|]. intros ->. apply P, has_put_app. right. eauto.
      - exists []. destruct (G2 e A) as (-> & F & ->). split; [exact F|]. split; [right; exists h, i, k, v, []; split; [reflexivity|]; split; [exact K|]; split; [intros ? ? ? []|right; eauto]|].
        assert (NA : forall b, ~ accepts (kind i) v b) by (intros b Q; apply content_accepts in Q; apply content_rejects in A; congruence). split.
        { split; [intros b Q; exfalso; exact (NA b Q)|]. intros e' A'. apply content_rejects in A, A'. congruence. }
        split; [exact ND'|]. split.
        + intros k' cs' P K'. apply has_put_app in P. destruct P as [P|(v' & b' & Q & A')]; [now apply M1|]. inversion Q; subst v'. exfalso. exact (NA _ A').
        + intros k' P. apply M2. intro Q. apply P, has_put_app. now left. }
    destruct R as (b & F & L & O & Tb). destruct (tree_filed d T flat named Pd fs fs' cs b TR Tc F) as (TR' & O'). split; [exact O|].
    assert (Ki : look fs' (index_name :: d) = look fs (index_name :: d)) by (apply (O' [index_name]); [now left|congruence]).
    split.
    + exact TR'.
    + intros cs' Tc' Ni'. destruct (list_eq_dec (list_eq_dec N.eq_dec) cs' cs) as [->|Nc]; [exists (Some b); split; [exact L|apply F]|].
      destruct (iv_files _ _ _ V cs' Tc' Ni') as (x & Lx & Ex). exists x. split; [|rewrite O' by assumption; exact Ex]. apply last_put_other; [|exact Lx]. intros i' k' v' Q K'. inversion Q; subst. apply Nc. eapply plain_fun; eassumption.
    + intros j. unfold set_table. destruct (Nat.eqb_spec j i) as [->|Nj]; [exact Tb|]. apply table_other; [congruence|apply V].
    + intros N. rewrite Ki. apply (iv_none _ _ _ V). intros j J. apply (N j). apply in_or_app. now left.
    + intros j a X. apply last_exit_app in X; [|discriminate]. destruct (iv_index _ _ _ V j a X) as (ib & m & Li & Q). exists ib, m. now rewrite Ki.
    + intros a N. destruct F as (_ & F2 & F3). destruct (at_or_below a (file_of d cs)) eqn:X.
      * apply at_or_below_spec in X. destruct (file_not_dir d T flat named cs Tc) as (Bd & Na). assert (Ne : a <> file_of d cs) by (intros ->; apply N; auto). rewrite (F2 a X Ne). rewrite <- (iv_outside _ _ _ V a N). symmetry.
        destruct (below_linear a d _ X Bd) as [Q|Q]; [eapply dir_all_above; [exact W|exact D|exact Q]|]. destruct (list_eq_dec (list_eq_dec N.eq_dec) a d) as [->|Nq]; [exact D|]. exfalso. apply N. auto.
      * rewrite F3 by (intros Y; apply at_or_below_spec in Y; congruence). now apply V.
    + intros Un. exfalso. destruct (Un (DPut i k v)) as (j & J); [apply in_or_app; right; now left|discriminate].
  - (* exit *)
    assert (Ti : T [index_name]) by now left. assert (WRi := tree_writable d T flat named fs [index_name] TR Ti). cbn [rev app] in WRi. destruct (iv_tables _ _ _ V i) as (ND & M1 & M2).
    assert (H := proj1 (proj2 (proj2 (proj2 (proj2 (proj2 U)))))).
    assert (EL : Forall encodable (index_lines (t i))).
    { apply Forall_forall. intros l J. unfold index_lines in J. apply in_map_iff in J. destruct J as ([k p] & <- & J). apply (Permutation_in _ (sorted_perm str_ltb fst (t i))) in J.
      assert (P : exists v, In (DPut i k v) h). { destruct (existsb (fun c => match c with DPut j k' _ => (j =? i)%nat && str_eqb k' k | _ => false end) h) eqn:Q.
        - apply existsb_exists in Q. destruct Q as (c & Jc & Q). destruct c as [j|j k' v|j]; try discriminate. apply andb_true_iff in Q. destruct Q as (Q1 & Q2). apply Nat.eqb_eq in Q1. apply str_eqb_eq in Q2. subst. eauto.
        - exfalso. assert (Z : dfind (t i) k = None); [|rewrite (in_dfind _ _ _ ND J) in Z; discriminate]. apply M2. intros (v & b & Jv & _). rewrite <- not_true_iff_false in Q. apply Q. apply existsb_exists. exists (DPut i k v). split; [exact Jv|]. now rewrite Nat.eqb_refl, str_eqb_refl. }
      destruct P as (v & P). destruct (H i k v (Ih _ P)) as ((_ & _ & _ & _ & Ee1) & cs & K & (_ & _ & _ & _ & Ee2)).
      assert (Ep : p = abs_path (file_of d cs)).
      { assert (Z := in_dfind _ _ _ ND J). destruct (has_put_dec i h k) as [Hp|Np]; [rewrite (M1 k cs Hp K) in Z; congruence|rewrite (M2 k Np) in Z; discriminate]. }
      subst p. cbn [fst snd]. rewrite ppath_abs. unfold encodable in *. apply Forall_app. split; [assumption|]. constructor; [vm_compute; intuition discriminate|]. apply Forall_app. split; [assumption|]. repeat constructor; vm_compute; intuition discriminate. }
    destruct (write_lines_ok _ EL) as (ib & Eib & _).
    destruct (write_spec cwd fs index_name d (write_lines (index_lines (t i))) W (Forall_cons _ index_proper Pd)) as (fs' & o & Ex & G & _). destruct (G WRi) as (Fi & Eo). rewrite Eib in Fi, Eo. cbn [fst snd] in Fi, Eo. subst o. clear G.
    unfold fs_exit. rewrite (out_plain d index_name [index_name] index_plain). cbn [rev app]. rewrite Ex. exists fs', t, (Ok tt). split; [reflexivity|]. split; [reflexivity|].
    destruct (tree_filed d T flat named Pd fs fs' [index_name] ib TR Ti Fi) as (TR' & O').
    split.
    + exact TR'.
    + intros cs Tc Ni. destruct (iv_files _ _ _ V cs Tc Ni) as (x & L & E). exists x. split; [apply last_put_other; [discriminate|exact L]|]. now rewrite O'.
    + intros j. apply table_other; [discriminate|apply V].
    + intros N. exfalso. apply (N i). apply in_or_app. right. now left.
    + intros j a (b & E & X). destruct b as [|y b] using rev_ind.
      * apply app_inj_tail in E. destruct E as (<- & E). inversion E; subst j. exists ib, (t i). split; [apply Fi|]. split; [exact Eib|apply V].
      * clear IHb. rewrite app_comm_cons, app_assoc in E. apply app_inj_tail in E. destruct E as (_ & <-). exfalso. apply (X i). apply in_or_app. right. now left.
    + intros a N. destruct Fi as (_ & F2 & F3). destruct (at_or_below a (index_name :: d)) eqn:X.
      * apply at_or_below_spec in X. assert (Bd : below d (index_name :: d)) by (now exists [index_name]). assert (Ne : a <> index_name :: d). { intros ->. apply N. split; [exact Bd|]. intros Q. apply (f_equal (@length _)) in Q. cbn in Q. lia. } rewrite (F2 a X Ne). rewrite <- (iv_outside _ _ _ V a N). symmetry.
        destruct (below_linear a d _ X Bd) as [Q|Q]; [eapply dir_all_above; [exact W|exact D|exact Q]|]. destruct (list_eq_dec (list_eq_dec N.eq_dec) a d) as [->|Nq]; [exact D|]. exfalso. apply N. auto.
      * rewrite F3 by (intros Y; apply at_or_below_spec in Y; congruence). now apply V.
    + intros Un. exfalso. destruct (Un (DExit i)) as (j & J); [apply in_or_app; right; now left|discriminate].
Qed.
Lemma inv_run r : forall h fs t, inv h fs t -> h0 = h ++ r -> exists fs' t' os, dcalls cwd d kind fs t r = (fs', t', os) /\ length os = length r /\
  (forall before c after o, r = before ++ c :: after -> nth_error os (length before) = Some o -> right_outcome (h ++ before) c o) /\ inv h0 fs' t'.
Proof using U.
  induction r as [|c r IH]; intros h fs t V E.
  - exists fs, t, []. split; [reflexivity|]. split; [reflexivity|]. split; [intros before c after o Q; destruct before; discriminate|]. rewrite app_nil_r in E. subst h. exact V.
  - assert (E2 : h0 = (h ++ [c]) ++ r) by (rewrite <- app_assoc; exact E). assert (Ic : incl (h ++ [c]) h0) by (intros x J; rewrite E2; apply in_or_app; now left).
    destruct (inv_step h fs t c V Ic) as (fs1 & t1 & o & S1 & O & V1). destruct (IH (h ++ [c]) fs1 t1 V1 E2) as (fs' & t' & os & S2 & L & Os & V2).
    exists fs', t', (o :: os). split; [cbn [dcalls]; rewrite S1, S2; reflexivity|]. split; [cbn; now rewrite L|]. split; [|exact V2].
    intros before c' after o' Q N. destruct before as [|b0 before]; cbn in Q; inversion Q; subst.
    + cbn in N. inversion N; subst. rewrite app_nil_r. exact O.
    + cbn in N. replace (h ++ b0 :: before) with ((h ++ [b0]) ++ before) by (rewrite <- app_assoc; reflexivity). eapply Os; [reflexivity|exact N].
Qed.
End Run.

(** C114: what each call gives: entering works until something has been put or a sink has been left, by whichever sink; a put works if the value can be written; leaving always works. *)
Theorem C114_calls : forall fs h, usable fs h -> exists fs' t' os, dcalls cwd d kind fs (fun _ => []) h = (fs', t', os) /\ length os = length h /\
  forall before c after o, h = before ++ c :: after -> nth_error os (length before) = Some o -> right_outcome before c o.
Proof. intros fs h U. destruct (inv_run fs h U h [] fs (fun _ => []) (inv_start fs h U) eq_refl) as (fs' & t' & os & E & L & O & _). exists fs', t', os. split; [exact E|]. split; [exact L|]. exact O. Qed.

(** C114: the directory afterwards: each key's file has what was put last, whichever the sink; there is an index if a sink has been left; there is nothing else, and nothing outside has changed. *)
Theorem C114_files : forall fs h fs' t' os, usable fs h -> dcalls cwd d kind fs (fun _ => []) h = (fs', t', os) ->
  wf_fs fs' /\ (forall a, ~ (below d a /\ a <> d) -> look fs' a = look fs a) /\
  (forall i k v cs, In (DPut i k v) h -> plain_key k cs -> exists b, last_put h cs (Some b) /\ look fs' (file_of d cs) = Some (KFile b)) /\
  (look fs' (index_name :: d) = None <-> forall i, ~ In (DExit i) h) /\
  (forall a b, below d a -> a <> d -> look fs' a = Some (KFile b) -> a = index_name :: d \/ exists i k v cs, In (DPut i k v) h /\ plain_key k cs /\ a = file_of d cs).
Proof.
  intros fs h fs' t' os U E. destruct (inv_run fs h U h [] fs (fun _ => []) (inv_start fs h U) eq_refl) as (fs1 & t1 & os1 & E1 & _ & _ & V). rewrite E in E1. inversion E1; subst fs1 t1 os1; clear E1.
  split; [apply (iv_tree _ _ _ _ _ V)|]. split; [apply V|]. split.
  - intros i k v cs J K. destruct (put_target fs h U i k v J cs K) as (Tc & Ni). destruct (iv_files _ _ _ _ _ V cs Tc Ni) as (x & L & Lk).
    destruct x as [b|]; [exists b; split; [exact L|exact Lk]|]. exfalso. destruct L as [(_ & N)|(a & i' & k' & v' & b' & _ & _ & _ & [(b & _ & Q)|(e & _ & Q)])]; [exact (N _ _ _ J K)|discriminate|discriminate].
  - split.
    + split; [|apply V]. intros L i J. assert (exists i a, last_exit h i a) as (j & a & X).
      { clear -J. induction h as [|c h IH] using rev_ind; [destruct J|]. apply in_app_or in J. destruct c as [j|j k v|j].
        - destruct J as [J|[J|[]]]; [|discriminate]. destruct (IH J) as (x & a & b & -> & X). exists x, a, (b ++ [DEnter j]). split; [now rewrite <- app_assoc|]. intros y Y. apply in_app_or in Y. destruct Y as [Y|[Y|[]]]; [exact (X y Y)|discriminate].
        - destruct J as [J|[J|[]]]; [|discriminate]. destruct (IH J) as (x & a & b & -> & X). exists x, a, (b ++ [DPut j k v]). split; [now rewrite <- app_assoc|]. intros y Y. apply in_app_or in Y. destruct Y as [Y|[Y|[]]]; [exact (X y Y)|discriminate].
        - exists j, h, []. split; [reflexivity|]. intros y []. }
      destruct (iv_index _ _ _ _ _ V j a X) as (ib & m & L' & _). congruence.
    + intros a b B Na L. destruct (tr_file _ _ _ (iv_tree _ _ _ _ _ V) a B Na) as ((cs & [->|(k & v & J & K)] & ->) & _); [exists (KFile b); split; [exact L|discriminate]|left; reflexivity|].
      right. unfold all_puts in J. apply in_flat_map in J. destruct J as (c & Jc & J). destruct c as [j|j k' v'|j]; [destruct J| |destruct J]. destruct J as [J|[]]. inversion J; subst. eauto 8.
Qed.

(** C114: a source over the index lists exactly what the sink that was left last had put successfully by then; the values are the last ones put, by whichever sink and whenever. *)
Theorem C114_read : forall (X : Type) fs h fs' t' os i a bytes_ p, usable fs h -> Forall proper cwd -> dcalls cwd d kind fs (fun _ => []) h = (fs', t', os) -> last_exit h i a ->
  wf_params p -> names_path cwd p !!"path" (index_name :: d) -> exists files, map_source_from_params X cwd fs' bytes_ p = Ok (OMapSource bytes_ files) /\
    let bs := byte_map_source cwd fs' files in let cs := char_map_source cwd fs' files in
    (exists ks, src_keys bs = Ok (Some ks) /\ src_keys cs = Ok (Some ks) /\ NoDup ks /\ forall k, In k ks <-> has_put i a k) /\
    (forall k l, has_put i a k -> plain_key k l -> exists b, last_put h l (Some b) /\ src_item bs k = Ok b /\
       (forall s u, encode s = Ok b -> newlines_read s u -> src_item cs k = Ok u)) /\
    (forall k, ~ has_put i a k -> src_item bs k = Raise KeyError /\ src_item cs k = Raise KeyError).
Proof.
  intros X fs h fs' t' os i a bytes_ p U Pc E LE Wp Np. assert (FF := C114_files fs h fs' t' os U E). destruct FF as (W' & _ & FF & _).
  destruct (inv_run fs h U h [] fs (fun _ => []) (inv_start fs h U) eq_refl) as (fs1 & t1 & os1 & E1 & _ & _ & V). rewrite E in E1. inversion E1; subst fs1 t1 os1; clear E1.
  destruct (iv_index _ _ _ _ _ V i a LE) as (ib & m & Li & Eib & ND & M1 & M2). destruct LE as (rest & Eh & _).
  assert (Ia : forall k, has_put i a k -> exists v, In (DPut i k v) h). { intros k (v & b & J & _). exists v. rewrite Eh. apply in_or_app. now left. }
  pose proof U as UU. destruct UU as (_ & Pd & Nd & _ & _ & H & _).
  assert (Hm : forall k r, In (k, r) m -> has_put i a k /\ exists cs, plain_key k cs /\ r = abs_path (file_of d cs) /\ field_ok k /\ field_ok (path_str (file_of d cs))).
  { intros k r J. apply (in_dfind m k r ND) in J. destruct (has_put_dec i a k) as [P|P]; [|rewrite (M2 k P) in J; discriminate]. split; [exact P|]. destruct (Ia k P) as (v & Jv). destruct (H i k v Jv) as (Fk & cs & K & Fp). exists cs. rewrite (M1 k cs P K) in J. split; [exact K|]. split; [congruence|]. split; assumption. }
  assert (Hix : forall k r, In (k, r) m -> exists q, r = abs_path q /\ q <> [] /\ Forall proper q /\ field_ok k /\ field_ok (path_str q)).
  { intros k r J. destruct (Hm k r J) as (_ & cs & K & -> & Fk & Fp). exists (file_of d cs). split; [reflexivity|]. split; [intros Q; apply app_eq_nil in Q; destruct Q as (_ & Q); congruence|]. split; [apply Forall_app; split; [apply Forall_rev; eapply plain_proper; eassumption|assumption]|auto]. }
  exists (sorted_by str_ltb fst m). split; [exact (index_source cwd X bytes_ fs' (index_name :: d) m ib p ND Pc Hix Eib Li Wp Np)|].
  set (files := sorted_by str_ltb (fst : str * ppath -> str) m). assert (Pf : Permutation files m) by apply sorted_perm.
  assert (NDf : NoDup (keys files)) by (apply (Permutation_NoDup (l := keys m)); [apply Permutation_map; now symmetry|assumption]).
  assert (Df : forall k, dfind files k = dfind m k).
  { intros k. destruct (dfind m k) as [q|] eqn:Q; [apply in_dfind; [assumption|]; apply (Permutation_in _ (Permutation_sym Pf)); now apply dfind_in|]. apply dfind_none. apply dfind_none in Q. intros J. apply Q. apply (Permutation_in _ (Permutation_map fst Pf)). exact J. }
  cbv zeta. split; [|split].
  - exists (keys files). split; [reflexivity|]. split; [reflexivity|]. split; [exact NDf|]. intros k. split.
    + intros J. apply dfind_some_key in J. destruct J as (q & J). rewrite Df in J. apply dfind_in in J. now destruct (Hm k q J).
    + intros P. destruct (Ia k P) as (v & Jv). destruct (H i k v Jv) as (_ & cs & K & _). apply dfind_some_key. exists (abs_path (file_of d cs)). rewrite Df. now apply M1.
  - intros k l P K. destruct (Ia k P) as (v & Jv). destruct (FF i k v l Jv K) as (b & Lp & Lk). exists b. split; [exact Lp|].
    assert (Q1 : dfind files k = Some (abs_path (file_of d l))) by (rewrite Df; now apply M1).
    assert (Q2 : read_at cwd fs' (abs_path (file_of d l)) = Ok b).
    { destruct (file_cons d l (proj1 (proj2 (proj2 (proj2 K)))) (plain_proper k l K) Pd) as (c & q & Eq & Pq & _). unfold read_at. rewrite Eq in Lk |- *. rewrite find_plain by assumption.
      rewrite (search_dir fs' q W') by (eapply W'; eassumption). cbn [bind]. now rewrite Lk. }
    cbn [src_item byte_map_source char_map_source]. rewrite Q1, Q2. split; [reflexivity|]. intros s u Es Nu. cbn [bind]. rewrite (proj2 (C68_round_trip s b) Es). cbn [bind]. f_equal. exact (newlines_read_fun _ _ (universal_spec s) _ Nu).
  - intros k N. assert (Q : dfind files k = None) by (rewrite Df; now apply M2). cbn [src_item byte_map_source char_map_source]. rewrite Q. split; reflexivity.
Qed.
End DirHistProps.
