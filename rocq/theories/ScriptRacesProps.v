(** * Property C135: several scripts at the same time *)
From Coq Require Import Sorted.
From Verif Require Import Prelude PyStr SortLib TextLib Utf8 Order Range Params ParamsSpec ParamsProofs ParamsGet ParamsGetProps ParamsEq SubNamespaces ParamsEval ParamsEvalProps Fs FsProofs FsProps PathLists PathListsProps Decimals Io IoProps KeyValue KeyValueProps KvParams KvParamsProps OsPath OsPathSpec OsPathProofs Scripts ScriptsProps Mains MainsProofs MainsProps ScriptCrash ScriptCrashProps Races RacesProps ScriptRaces.


Notation fsys := (list (list str * fnode)) (only parsing).
(** ** Specification *)
(** the outputs, and the directories they are in *)
Definition all_outs (js : list job) : list (list str) := flat_map job_outs js.
Definition out_dirs (js : list job) : list (list str) := flat_map (fun j => map (@tl str) (job_outs j)) js.
(** A script has its result: alone it would be through without an error, and its outputs are what they would be then. *)
Definition delivered (fs fs' : fsys) (j : job) : Prop :=
  exists f, job_main j fs = (f, None) /\ forall o, In o (job_outs j) -> exists b, look f o = Some (KFile b) /\ look fs' o = Some (KFile b).
(** Nothing is changed but the outputs; the directories on the way to them are there. *)
Definition touches (fs fs' : fsys) (outs : list (list str)) : Prop :=
  forall r, ~ In r outs -> ((exists o, In o outs /\ below r (tl o)) -> look fs' r = Some KDir) /\ ((forall o, In o outs -> ~ below r (tl o)) -> look fs' r = look fs r).
(** A script that works does the same from every state others may be in the middle of: it gets through, it changes nothing but its outputs and the directories on the
    way to them, and the outputs have the same bytes. *)
Definition steady (fs : fsys) (dirs outs : list (list str)) (j : job) : Prop :=
  (forall o, In o (job_outs j) -> o <> [] /\ unblocked fs (tl o) /\ free fs o) /\
  exists bytes_at : list str -> bytes, forall st, left_by fs st dirs outs ->
    exists f, job_main j st = (f, None) /\ wf_fs f /\ (forall o, In o (job_outs j) -> look f o = Some (KFile (bytes_at o))) /\ touches st f (job_outs j).
(** Different outputs, and none is at or above a directory another one is in. *)
Definition apart_jobs (js : list job) : Prop := NoDup (all_outs js) /\ side_by_side (out_dirs js) (all_outs js).
(** the number of steps a script needs *)
Definition needs (j : job) : nat := Datatypes.S (list_sum (map (fun o => 3 * length (tl o) + 4) (job_outs j))).

(** ** Scripts and their system calls *)
Definition job_calls (fs : fsys) (j : job) : list call := map (fun o => FileCall o (content (fst (job_main j fs)) o)) (job_outs j).
Definition calls (fs : fsys) (js : list job) : list (list call) := map (job_calls fs) js.
Lemma in_outs js j o : In j js -> In o (job_outs j) -> In o (all_outs js) /\ In (tl o) (out_dirs js).
Proof. intros Hj Ho. split; apply in_flat_map; exists j; (split; [assumption|]); [assumption|]. now apply in_map. Qed.
Lemma in_dirs js d : In d (out_dirs js) -> exists j o, In j js /\ In o (job_outs j) /\ d = tl o.
Proof. intros H. apply in_flat_map in H. destruct H as (j & Hj & H). apply in_map_iff in H. destruct H as (o & <- & Ho). eauto. Qed.
Lemma nodup_flat {A B} (g : A -> list B) l : NoDup (flat_map g l) -> forall i k x y o, nth_error l i = Some x -> nth_error l k = Some y -> In o (g x) -> In o (g y) -> i = k.
Proof.
  induction l as [|a l IH]; intros ND [|i] [|k] x y o Ni Nk Hx Hy; try discriminate; [reflexivity| | |f_equal; eapply IH; try eassumption]; cbn [flat_map nth_error] in *.
  - exfalso. injection Ni as ->. apply in_split in Hx. destruct Hx as (l1 & l2 & E). rewrite E, <- app_assoc in ND. cbn [app] in ND. apply NoDup_remove_2 in ND. apply ND. apply in_or_app. right. apply in_or_app. right. apply in_flat_map. exists y. split; [eapply nth_error_In; exact Nk|exact Hy].
  - exfalso. injection Nk as ->. apply in_split in Hy. destruct Hy as (l1 & l2 & E). rewrite E, <- app_assoc in ND. cbn [app] in ND. apply NoDup_remove_2 in ND. apply ND. apply in_or_app. right. apply in_or_app. right. apply in_flat_map. exists x. split; [eapply nth_error_In; exact Ni|exact Hx].
  - clear -ND. induction (g a) as [|b m IHm]; [exact ND|]. cbn [app] in ND. inversion ND. auto.
Qed.
Lemma content_file fs o b : look fs o = Some (KFile b) -> content fs o = b.
Proof. unfold content. now intros ->. Qed.
Lemma step_scripts_out fs ps : forall i, nth_error ps i = None -> step_scripts fs ps i = (fs, ps).
Proof. induction ps as [|p ps IH]; intros [|i] H; try reflexivity; [discriminate|]. simpl in *. now rewrite IH. Qed.
Lemma step_scripts_in fs : forall ps i p fs' p', nth_error ps i = Some p -> step_script fs p = (fs', p') ->
  exists ps', step_scripts fs ps i = (fs', ps') /\ nth_error ps' i = Some p' /\ (forall j, j <> i -> nth_error ps' j = nth_error ps j).
Proof.
  induction ps as [|x ps IH]; intros [|i] p fs' p' H E; try discriminate.
  - injection H as ->. simpl. rewrite E. eexists. split; [reflexivity|]. split; [reflexivity|]. intros [|j] N; [congruence|reflexivity].
  - simpl in H. destruct (IH i p fs' p' H E) as (ps' & S & A & B). simpl. rewrite S. eexists. split; [reflexivity|]. split; [assumption|]. intros [|j] N; [reflexivity|]. apply B. congruence.
Qed.

Section Generic.
Variable fs : fsys.
Variable js : list job.
Hypothesis W : wf_fs fs.
Hypothesis A : apart_jobs js.
Hypothesis St : forall j, In j js -> steady fs (out_dirs js) (all_outs js) j.

Lemma in_calls p c : In p (calls fs js) -> In c p -> exists j o, In j js /\ In o (job_outs j) /\ c = FileCall o (content (fst (job_main j fs)) o).
Proof using Type. intros Hp Hc. apply in_map_iff in Hp. destruct Hp as (j & <- & Hj). apply in_map_iff in Hc. destruct Hc as (o & <- & Ho). eauto. Qed.
Lemma calls_peaceful : peaceful fs (calls fs js).
Proof using A St.
  split.
  - intros p c Hp Hc. destruct (in_calls p c Hp Hc) as (j & o & Hj & Ho & ->). apply (proj1 (St j Hj) o Ho).
  - intros p c Hp Hc _. destruct (in_calls p c Hp Hc) as (j & o & Hj & Ho & ->). destruct (proj1 (St j Hj) o Ho) as (N & _ & F). split; assumption.
  - intros p c p' c' Hp Hc Hp' Hc' _. destruct (in_calls p c Hp Hc) as (j & o & Hj & Ho & ->). destruct (in_calls p' c' Hp' Hc') as (j' & o' & Hj' & Ho' & ->). cbn [target folder]. apply (proj2 A); [apply (in_outs js j o Hj Ho)|apply (in_outs js j' o' Hj' Ho')].
  - intros p q Hp Hc. destruct (in_calls p _ Hp Hc) as (j & o & _ & _ & E). discriminate E.
  - intros p l q r c Hp -> _. exfalso. destruct (in_calls _ (EmptyCall q) Hp) as (j & o & _ & _ & E); [apply in_or_app; right; now left|discriminate E].
  - intros i i' p p' q c _ Hi _ Hq _. exfalso. destruct (in_calls p (EmptyCall q)) as (j & o & _ & _ & E); [eapply nth_error_In; exact Hi|assumption|discriminate E].
Qed.
(** what can be seen at any moment *)
Lemma moment_left s f qs : Races.run fs (launch (calls fs js)) s = (f, qs) -> left_by fs f (out_dirs js) (all_outs js).
Proof using W.
  intros E. split; [exact (proj1 (run_kept _ _ _ _ _ W E))|]. intros r. destruct (C103_frame _ _ _ _ _ r W E) as [H|[(N & D & p & c & Hp & Hc & B)|(F & X & p & c & Hp & Hc & _ & T)]]; [now left|right; left|right; right].
  - destruct (in_calls p c Hp Hc) as (j & o & Hj & Ho & ->). exists (tl o). split; [apply (in_outs js j o Hj Ho)|]. auto.
  - destruct (in_calls p c Hp Hc) as (j & o & Hj & Ho & ->). cbn [target] in T. subst r. split; [apply (in_outs js j o Hj Ho)|]. auto.
Qed.
Lemma steady_start j st : In j js -> left_by fs st (out_dirs js) (all_outs js) -> start j st = Running (flat_map compile (job_calls fs j)).
Proof using St W.
  intros Hj L. destruct (St j Hj) as (_ & bt & H). destruct (H st L) as (f & Ef & _ & Lf & _). destruct (H fs (left_refl fs _ _ W)) as (f0 & Ef0 & _ & Lf0 & _).
  unfold start, job_calls. rewrite Ef, Ef0. cbn [fst]. f_equal. f_equal. apply map_ext_in. intros o Ho. f_equal. now rewrite (content_file _ _ _ (Lf o Ho)), (content_file _ _ _ (Lf0 o Ho)).
Qed.
(** Each state of the scripts is one of the calls. *)
Lemma scripts_calls s : forall f ps, run_scripts fs (map Waiting js) s = (f, ps) -> exists s' qs, Races.run fs (launch (calls fs js)) s' = (f, qs) /\
  forall i, match nth_error ps i with
            | None => nth_error js i = None
            | Some (Waiting j) => nth_error js i = Some j /\ nth_error qs i = Some (Running (flat_map compile (job_calls fs j))) /\ count_occ Nat.eq_dec s i = 0 /\ count_occ Nat.eq_dec s' i = 0
            | Some (Going q) => (exists j, nth_error js i = Some j) /\ nth_error qs i = Some q /\ count_occ Nat.eq_dec s i = Datatypes.S (count_occ Nat.eq_dec s' i)
            end.
Proof using A St W.
  induction s as [|i s IH] using rev_ind.
  - intros f ps E. injection E as <- <-. exists [], (launch (calls fs js)). split; [reflexivity|]. intros i. rewrite nth_error_map. destruct (nth_error js i) as [j|] eqn:N; cbn [option_map]; [|reflexivity].
    split; [reflexivity|]. split; [|split; reflexivity]. rewrite launch_nth. unfold calls. rewrite nth_error_map, N. reflexivity.
  - intros f ps E.
    assert (Ap : forall s1 s2 f0 l, run_scripts f0 l (s1 ++ s2) = let (f1, l1) := run_scripts f0 l s1 in run_scripts f1 l1 s2).
    { clear. induction s1 as [|i s1 IH]; intros s2 f0 l; [reflexivity|]. simpl. destruct (step_scripts f0 l i). apply IH. }
    rewrite Ap in E. destruct (run_scripts fs (map Waiting js) s) as [f1 ps1] eqn:E1. cbn [run_scripts] in E. destruct (IH f1 ps1 eq_refl) as (s' & qs & R & H).
    assert (Cn : forall k, count_occ Nat.eq_dec (s ++ [i]) k = count_occ Nat.eq_dec s k + if Nat.eq_dec i k then 1 else 0) by (intros k; rewrite count_occ_app; simpl; destruct (Nat.eq_dec i k); reflexivity).
    assert (Hi := H i). destruct (nth_error ps1 i) as [[j|q]|] eqn:Ni.
    + destruct Hi as (Nj & Nq & C0 & C0'). assert (Hj : In j js) by (eapply nth_error_In; exact Nj). assert (L := moment_left _ _ _ R).
      destruct (step_scripts_in f1 ps1 i (Waiting j) f1 (Going (start j f1)) Ni eq_refl) as (ps2 & S2 & N2 & Oth). rewrite S2 in E. injection E as <- <-.
      exists s', qs. split; [exact R|]. intros k. rewrite Cn. destruct (Nat.eq_dec i k) as [<-|Nk].
      * rewrite N2, (steady_start j f1 Hj L). split; [eauto|]. split; [exact Nq|]. now rewrite C0, C0'.
      * rewrite (Oth k (fun e => Nk (eq_sym e))). rewrite Nat.add_0_r. apply H.
    + destruct Hi as ((j & Nj) & Nq & C0). destruct (step_proc f1 q) as [f2 q2] eqn:Sq. assert (Sg : step_script f1 (Going q) = (f2, Going q2)) by (cbn [step_script]; now rewrite Sq).
      destruct (step_scripts_in f1 ps1 i (Going q) f2 (Going q2) Ni Sg) as (ps2 & S2 & N2 & Oth). rewrite S2 in E. injection E as <- <-.
      destruct (step_in f1 qs i q f2 q2 Nq Sq) as (qs2 & T2 & M2 & Oth' & _). exists (s' ++ [i]), qs2. split; [rewrite run_app, R; cbn [Races.run]; now rewrite T2|]. intros k.
      assert (Cn' : count_occ Nat.eq_dec (s' ++ [i]) k = count_occ Nat.eq_dec s' k + if Nat.eq_dec i k then 1 else 0) by (rewrite count_occ_app; simpl; destruct (Nat.eq_dec i k); reflexivity).
      rewrite Cn, Cn'. destruct (Nat.eq_dec i k) as [<-|Nk].
      * rewrite N2. split; [eauto|]. split; [exact M2|]. rewrite C0. reflexivity.
      * rewrite (Oth k (fun e => Nk (eq_sym e))), (Oth' k (fun e => Nk (eq_sym e))), !Nat.add_0_r. apply H.
    + rewrite (step_scripts_out f1 ps1 i Ni) in E. injection E as <- <-. exists s', qs. split; [exact R|]. intros k. rewrite Cn. destruct (Nat.eq_dec i k) as [<-|Nk]; [rewrite Ni; exact Hi|rewrite Nat.add_0_r; apply H].
Qed.
Lemma scripts_done s f ps i j : run_scripts fs (map Waiting js) s = (f, ps) -> nth_error js i = Some j -> nth_error ps i = Some (Going (Running [])) -> delivered fs f j.
Proof using A St W.
  intros E Nj Np. destruct (scripts_calls s f ps E) as (s' & qs & R & H). assert (Hi := H i). rewrite Np in Hi. destruct Hi as (_ & Nq & _). assert (Hj : In j js) by (eapply nth_error_In; exact Nj).
  destruct (St j Hj) as (_ & bt & Hst). destruct (Hst fs (left_refl fs _ _ W)) as (f0 & E0 & _ & L0 & _). exists f0. split; [exact E0|]. intros o Ho. exists (bt o). split; [exact (L0 o Ho)|].
  assert (Eb : content (fst (job_main j fs)) o = bt o) by (rewrite E0; apply content_file, L0, Ho).
  assert (Only : forall k j', nth_error js k = Some j' -> In o (job_outs j') -> k = i) by (intros k j' Nk Ho'; eapply (nodup_flat job_outs js (proj1 A)); eassumption).
  rewrite <- Eb. apply (C103_content _ _ _ _ _ o (content (fst (job_main j fs)) o) W R).
  - intros p b' Hp Hc. apply In_nth_error in Hp. destruct Hp as (k & Hp). unfold calls in Hp. rewrite nth_error_map in Hp. destruct (nth_error js k) as [j'|] eqn:Nk; [|discriminate]. injection Hp as <-. apply in_map_iff in Hc. destruct Hc as (o' & Hc & Ho'). injection Hc as -> <-.
    assert (k = i) as -> by (eapply Only; eassumption). congruence.
  - exists (job_calls fs j). split; [apply in_map_iff; exists j; auto|]. apply in_map_iff. exists o. auto.
  - intros k p Hp Hc. unfold calls in Hp. rewrite nth_error_map in Hp. destruct (nth_error js k) as [j'|] eqn:Nk; [|discriminate]. injection Hp as <-. apply in_map_iff in Hc. destruct Hc as (o' & Hc & Ho'). injection Hc as -> _.
    assert (k = i) as -> by (eapply Only; eassumption). exact Nq.
Qed.
Lemma scripts_generic s f ps : run_scripts fs (map Waiting js) s = (f, ps) ->
  left_by fs f (out_dirs js) (all_outs js) /\ (forall i e, nth_error ps i <> Some (Going (Failed e))) /\
  (forall i j, nth_error js i = Some j -> needs j <= count_occ Nat.eq_dec s i -> nth_error ps i = Some (Going (Running []))) /\
  (forall i j, nth_error js i = Some j -> nth_error ps i = Some (Going (Running [])) -> delivered fs f j).
Proof using A St W.
  intros E. destruct (scripts_calls s f ps E) as (s' & qs & R & H). split; [eapply moment_left; exact R|]. split; [|split].
  - intros i e N. assert (Hi := H i). rewrite N in Hi. destruct Hi as (_ & Nq & _). exact (C103_no_failure _ _ _ _ _ W calls_peaceful R i e Nq).
  - intros i j Nj C. assert (Hi := H i). destruct (nth_error ps i) as [[j'|q]|]; [|f_equal; f_equal|congruence].
    + destruct Hi as (_ & _ & C0 & _). rewrite C0 in C. inversion C.
    + destruct Hi as (_ & Nq & C0). assert (Np : nth_error (calls fs js) i = Some (job_calls fs j)) by (unfold calls; rewrite nth_error_map, Nj; reflexivity).
      destruct (C103_completes _ _ _ _ _ i _ W calls_peaceful R Np) as (F & _); [|congruence]. unfold job_calls. rewrite map_map. cbn [steps]. unfold needs in C. clear -C C0. lia.
  - intros i j Nj Np. eapply scripts_done; eassumption.
Qed.
(** one after the other *)
Lemma touches_left st f outs : wf_fs f -> (forall o, In o outs -> unblocked st (tl o) /\ free st o /\ exists b, look f o = Some (KFile b)) -> touches st f outs -> left_by st f (map (@tl str) outs) outs.
Proof using Type.
  clear. intros W H T. split; [assumption|]. intros r. destruct (in_dec (list_eq_dec (list_eq_dec N.eq_dec)) r outs) as [I|I].
  - right. right. destruct (H r I) as (_ & F & b). auto.
  - destruct (T r I) as (T1 & T2). destruct (existsb (fun o => at_or_below r (tl o)) outs) eqn:X.
    + apply existsb_exists in X. destruct X as (o & Io & B). apply at_or_below_spec in B. assert (D : look f r = Some KDir) by (apply T1; eauto). destruct (look st r) as [k|] eqn:L; [|right; left; exists (tl o); split; [now apply in_map|auto]].
      left. destruct (H o Io) as (U & _). destruct k; try congruence; exfalso; apply (U r B); eexists; (split; [exact L|discriminate]).
    + left. apply T2. intros o Io B. apply at_or_below_spec in B. assert (Y : existsb (fun o => at_or_below r (tl o)) outs = true) by (apply existsb_exists; eauto). congruence.
Qed.
Lemma nodup_app {B} (l r : list B) : NoDup (l ++ r) -> NoDup r /\ forall x, In x l -> ~ In x r.
Proof using Type.
  clear. induction l as [|a l IH]; intros H; [split; [exact H|intros ? []]|]. inversion H as [|? ? N1 N2]; subst. destruct (IH N2) as (H1 & H2). split; [exact H1|]. intros x [<-|I]; [intros J; apply N1, in_or_app; now right|now apply H2].
Qed.
Lemma sequence l : forall st, incl l js -> left_by fs st (out_dirs js) (all_outs js) -> NoDup (all_outs l) ->
  exists f, one_by_one st l = (f, None) /\ left_by fs f (out_dirs js) (all_outs js) /\ (forall j, In j l -> delivered fs f j /\ forall o r, In o (job_outs j) -> below r (tl o) -> look f r = Some KDir) /\
    (forall r, ~ In r (all_outs l) -> (forall d, In d (out_dirs l) -> ~ below r d) -> look f r = look st r) /\ (forall r, look st r = Some KDir -> look f r = Some KDir).
Proof using A St W.
  induction l as [|j l IH]; intros st I L ND; [exists st; split; [reflexivity|]; split; [assumption|]; split; [intros ? []|]; split; auto|].
  assert (Hj : In j js) by (apply I; now left). destruct (St j Hj) as (Out & bt & Hst). destruct (Hst fs (left_refl fs _ _ W)) as (f0 & E0 & _ & L0 & _). destruct (Hst st L) as (f1 & E1 & W1 & L1 & T).
  assert (Side := proj2 A).
  assert (Lf : left_by fs f1 (out_dirs js) (all_outs js)).
  { apply (left_trans fs st f1); [assumption|assumption|]. apply (left_more st f1 (map (@tl str) (job_outs j)) (out_dirs js) (job_outs j) (all_outs js)).
    - apply touches_left; [exact W1| |exact T]. intros o Ho. destruct (Out o Ho) as (_ & U & F). destruct (in_outs js j o Hj Ho) as (Io & Id). split; [|split; [|eauto]].
      + apply (left_unblocked fs st (out_dirs js) (all_outs js)); [assumption|assumption|]. intros o' Io'. apply Side; assumption.
      + apply (left_free fs st (out_dirs js) (all_outs js)); [assumption|assumption|]. intros d' Id'. apply Side; assumption.
    - intros d Hd. apply in_map_iff in Hd. destruct Hd as (o & <- & Ho). apply (in_outs js j o Hj Ho).
    - intros o Ho. apply (in_outs js j o Hj Ho). }
  cbn [all_outs flat_map] in ND. apply nodup_app in ND. destruct ND as (N2 & N1). destruct (IH f1) as (f & E & Lff & Del & Oth & Dirs); [intros x Ix; apply I; now right|exact Lf|exact N2|].
  exists f. split; [cbn [one_by_one]; now rewrite E1|]. split; [exact Lff|].
  assert (Incl : incl (out_dirs l) (out_dirs js)) by (intros d Hd; destruct (in_dirs l d Hd) as (j' & o & Hj' & Ho & ->); apply (in_outs js j' o (I _ (or_intror Hj')) Ho)).
  split; [|split].
  - intros j' [<-|Ij']; [|exact (Del j' Ij')]. split.
    + exists f0. split; [exact E0|]. intros o Ho. exists (bt o). split; [exact (L0 o Ho)|]. rewrite <- (L1 o Ho). apply Oth; [exact (N1 o Ho)|]. intros d Hd. apply Side; [apply (in_outs js j o Hj Ho)|now apply Incl].
    + intros o r Ho B. apply Dirs. apply (proj1 (T r (fun Hr => Side r (tl o) (proj1 (in_outs js j r Hj Hr)) (proj2 (in_outs js j o Hj Ho)) B))). eauto.
  - intros r No Nd. cbn [all_outs out_dirs flat_map] in No, Nd. rewrite Oth; [|intros H; apply No, in_or_app; now right|intros d Hd; apply Nd, in_or_app; now right].
    apply (proj2 (T r (fun H => No (in_or_app _ _ _ (or_introl H))))). intros o Ho. apply Nd. apply in_or_app. left. now apply in_map.
  - intros r D. apply Dirs. destruct (in_dec (list_eq_dec (list_eq_dec N.eq_dec)) r (job_outs j)) as [Ho|Nr].
    + exfalso. destruct (Out r Ho) as (_ & _ & Fr). destruct (in_outs js j r Hj Ho) as (Ij & _). destruct (proj2 L r) as [E2|[(d' & Id & B & _)|(_ & _ & x & E2)]]; [rewrite E2 in D; destruct Fr as [F|(x & F)]; congruence|exact (Side _ _ Ij Id B)|congruence].
    + destruct (T r Nr) as (T1 & T2). destruct (existsb (fun o => at_or_below r (tl o)) (job_outs j)) eqn:X.
      * apply T1. apply existsb_exists in X. destruct X as (o & Io & B). apply at_or_below_spec in B. eauto.
      * rewrite T2; [exact D|]. intros o Io B. apply at_or_below_spec in B. assert (Y : existsb (fun o => at_or_below r (tl o)) (job_outs j) = true) by (apply existsb_exists; eauto). congruence.
Qed.
(** in any order, or at the same time: the same files *)
Lemma perm_outs l : Permutation l js -> Permutation (all_outs l) (all_outs js).
Proof using Type. clear. intros P. unfold all_outs. now apply Permutation_flat_map. Qed.
Lemma same_in_the_end s f ps l : run_scripts fs (map Waiting js) s = (f, ps) -> (forall i j, nth_error js i = Some j -> nth_error ps i = Some (Going (Running []))) -> Permutation l js ->
  exists f', one_by_one fs l = (f', None) /\ forall r, look f' r = look f r.
Proof using A St W.
  intros E Fin P. destruct (sequence l fs) as (f' & E' & L' & Del & Oth & _); [intros x; apply (Permutation_in _ P)|now apply left_refl|apply (Permutation_NoDup (Permutation_sym (perm_outs l P))), A|].
  exists f'. split; [exact E'|]. destruct (scripts_generic s f ps E) as (L & _ & _ & Dl).
  assert (Get : forall j, In j js -> delivered fs f j) by (intros j Hj; destruct (In_nth_error _ _ Hj) as (i & Nj); exact (Dl i j Nj (Fin i j Nj))).
  assert (Both : forall j o, In j js -> In o (job_outs j) -> look f' o = look f o).
  { intros j o Hj Ho. destruct (Get j Hj) as (f1 & M1 & K1). destruct (Del j (Permutation_in _ (Permutation_sym P) Hj)) as ((f2 & M2 & K2) & _). destruct (K1 o Ho) as (b1 & A1 & B1). destruct (K2 o Ho) as (b2 & A2 & B2). congruence. }
  assert (Dirs : forall j o r, In j js -> In o (job_outs j) -> below r (tl o) -> look f r = Some KDir).
  { intros j o r Hj Ho B. destruct (Get j Hj) as (f1 & _ & K1). destruct (K1 o Ho) as (b1 & _ & K). destruct (proj1 (St j Hj) o Ho) as (N & _). destruct o as [|c d]; [congruence|]. cbn [tl] in B.
    apply (dir_all_above f d (proj1 L)); [|exact B]. exact (proj1 L _ _ _ K). }
  intros r. destruct (in_dec (list_eq_dec (list_eq_dec N.eq_dec)) r (all_outs js)) as [I|Nr]; [apply in_flat_map in I; destruct I as (j & Hj & Ho); eapply Both; eassumption|].
  destruct (existsb (at_or_below r) (out_dirs js)) eqn:X.
  - apply existsb_exists in X. destruct X as (d & Hd & B). apply at_or_below_spec in B. destruct (in_dirs js d Hd) as (j & o & Hj & Ho & ->). rewrite (Dirs j o r Hj Ho B). exact (proj2 (Del j (Permutation_in _ (Permutation_sym P) Hj)) o r Ho B).
  - assert (NB : forall d, In d (out_dirs js) -> ~ below r d). { intros d Hd B. apply at_or_below_spec in B. assert (Y : existsb (at_or_below r) (out_dirs js) = true) by (apply existsb_exists; eauto). congruence. }
    rewrite Oth; [|intros I; apply Nr; exact (Permutation_in _ (perm_outs l P) I)|intros d Hd; apply NB; destruct (in_dirs l d Hd) as (j & o & Hj & Ho & ->); exact (proj2 (in_outs js j o (Permutation_in _ P Hj) Ho))].
    destruct (proj2 L r) as [<-|[(d & Id & B & _)|(I & _)]]; [reflexivity|destruct (NB d Id B)|contradiction].
Qed.
End Generic.

(** the bytes of a zip output depend on what is put only *)
Lemma write_zip_bytes ZC torn set_order a b a1 b1 c d (pa pb : fsys -> stream value) ks val dd : wf_fs a -> wf_fs b -> made a a1 d -> made b b1 d -> free a (c :: d) -> free b (c :: d) ->
  write_stream set_order Absent (pa (put_disk ZC torn a1 (c :: d) Partial)) = (dd, None) -> contains dd ks val -> pb (put_disk ZC torn b1 (c :: d) Partial) = pa (put_disk ZC torn a1 (c :: d) Partial) ->
  exists x, look (fst (write_zip ZC torn set_order a1 (c :: d) pa)) (c :: d) = Some (KFile x) /\ look (fst (write_zip ZC torn set_order b1 (c :: d) pb)) (c :: d) = Some (KFile x).
Proof.
  intros Wa Wb Ma Mb Fa Fb E C Same.
  assert (Can : forall f f1, wf_fs f -> made f f1 d -> free f (c :: d) -> can_write f1 (c :: d) = Ok tt).
  { intros f f1 W M Fr. apply (can_write_ok f1 c d); [eapply made_wf; eassumption|apply (proj1 M), below_refl|]. unfold free. assert (look f1 (c :: d) = look f (c :: d)) as -> by apply (proj2 M), not_below_tail. exact Fr. }
  unfold write_zip. rewrite (Can a a1 Wa Ma Fa), (Can b b1 Wb Mb Fb), Same. rewrite (write_stream_same set_order (disk_at ZC a1 (c :: d)) Absent), (write_stream_same set_order (disk_at ZC b1 (c :: d)) Absent), E.
  destruct (contains_zip _ _ _ C) as (ar & ->). cbn [fst put_disk]. eexists. rewrite !look_set_same by discriminate. split; reflexivity.
Qed.

Section P.
Variable X : Type.
Notation obj := (kv_obj X).
Variable import_module : str -> res obj.
Variable other_eval : str -> list (str * obj) -> res obj.
Variable builtin : str -> option obj.
Variable locals_of : pv -> str -> list (str * obj).
Variable x_is_class : X -> bool.
Variable x_from_parameters : X -> option (pv -> res obj).
Variable x_construct : X -> res obj.
Variable x_callable : X -> bool.
Variable x_call : X -> pv -> res obj.
Variables x_is_linear x_is_source x_is_sink : X -> bool.
Variable cwd : list str.
Variable other_globals : list (str * obj).
Variable ZC : zip_codec.
Variable torn : bytes.
Variable set_order : list str -> list str.
Variables seeded_shuffle random_shuffle : Z -> list str -> list str.
Variable other_source : obj -> list (list str * fnode) -> res (source bytes).
Variable other_sink : obj -> list (list str * fnode) -> (list (list str * fnode) -> stream value) -> list (list str * fnode) * option exn.
Variable oeq : pv -> pv -> bool.
Notation the_linear_source := (the_linear_source X import_module other_eval builtin locals_of x_is_class x_from_parameters x_construct x_callable x_call x_is_linear cwd other_globals).
Notation the_source := (the_source X import_module other_eval builtin locals_of x_is_class x_from_parameters x_construct x_callable x_call x_is_source cwd other_globals).
Notation the_sink := (the_sink X import_module other_eval builtin locals_of x_is_class x_from_parameters x_construct x_callable x_call x_is_sink cwd other_globals).
Notation split_main := (split_main X import_module other_eval builtin locals_of x_is_class x_from_parameters x_construct x_callable x_call x_is_linear cwd other_globals ZC torn set_order seeded_shuffle other_source oeq).
Notation join_main := (join_main X import_module other_eval builtin locals_of x_is_class x_from_parameters x_construct x_callable x_call x_is_sink cwd other_globals ZC torn set_order other_sink).
Notation downsample_main := (downsample_main X import_module other_eval builtin locals_of x_is_class x_from_parameters x_construct x_callable x_call x_is_source cwd other_globals ZC torn set_order random_shuffle other_source).
Notation holds := (holds ZC).
Notation put_disk := (put_disk ZC torn).
Hypothesis set_order_perm : forall l, Permutation (set_order l) l.
Hypothesis seeded_perm : forall z l, Permutation (seeded_shuffle z l) l.
Hypothesis random_perm : forall z l, Permutation (random_shuffle z l) l.
Hypothesis cwd_proper : Forall proper cwd.

(** ** The scripts that work *)
(** The run of a script does what C86 (C85, C84, C88) says, and no output is one of its inputs. *)
Inductive working (fs : list (list str * fnode)) (outs : list (list str)) : job -> Prop :=
| works_downsample p ns qin ks val nv n sv c d : sample_wanted cwd ZC p fs ns qin ks val nv n sv c d -> ~ In qin outs -> working fs outs (Job (downsample_main p) [c :: d])
| works_join p ns c d xs : join_wanted cwd ZC p fs ns c d xs -> (forall o, In o outs -> ~ In o (map (fun x => fst (fst x)) xs) /\ ~ names_path cwd p !!"input_store_list_file" o) ->
    working fs outs (Job (join_main p) [c :: d])
| works_split p ns qin ks val nv n seed dir : slices_wanted cwd ZC p fs ns qin ks val nv n seed dir -> (forall o, In o (slice_files n dir) -> free fs o /\ o <> qin) -> ~ In qin outs -> working fs outs (Job (split_main p) (slice_files n dir))
| works_explicit p ns qin ks val sns xs b : splits_wanted cwd ZC p fs ns qin ks val sns xs b -> (b = true -> forall k, In k ks -> exists s, In s xs /\ In k (sp_keys s)) -> ~ In qin outs -> (forall s, In s xs -> ~ In (sp_file s) outs) ->
    working fs outs (Job (split_main p) (map sp_out xs)).

Lemma sample_kept p fs st ns qin ks val nv n sv c d dirs outs : sample_wanted cwd ZC p fs ns qin ks val nv n sv c d -> left_by fs st dirs outs -> side_by_side dirs outs -> In d dirs -> In (c :: d) outs -> ~ In qin outs ->
  sample_wanted cwd ZC p st ns qin ks val nv n sv c d.
Proof using Type.
  intros (W & T & Hin & C & PK & Sn & In_ & N0 & Hs & Ho & U & Fr & Nq) L Side Dd Do N. split; [assumption|]. split; [assumption|]. split; [assumption|].
  split; [exact (left_holds ZC fs st dirs outs qin ks val L C N)|]. repeat (split; [assumption|]).
  split; [apply (left_unblocked fs st dirs outs); [assumption|assumption|intros o I; exact (Side o d I Dd)]|]. split; [|assumption].
  apply (left_free fs st dirs outs); [assumption|assumption|]. intros d' I. exact (Side _ d' Do I).
Qed.
Lemma join_kept p fs st ns c d xs dirs outs : join_wanted cwd ZC p fs ns c d xs -> left_by fs st dirs outs -> side_by_side dirs outs -> In d dirs -> In (c :: d) outs ->
  (forall o, In o outs -> ~ In o (map (fun x => fst (fst x)) xs) /\ ~ names_path cwd p !!"input_store_list_file" o) ->
  join_wanted cwd ZC p st ns c d xs /\ forall ms, lists_paths cwd p fs ms -> lists_paths cwd p st ms.
Proof using Type.
  intros (W & (ms & LP & FL) & Ok_ & ND & T & H & U & Fr & N & Nl) L Side Dd Do No.
  assert (Lk : forall ms, lists_paths cwd p fs ms -> lists_paths cwd p st ms).
  { intros ms' [q b t ls Hq Lq D Pc K|ss Hs F]; [|eapply li_list; eassumption]. eapply li_file; try eassumption. apply (left_file fs st dirs outs); [assumption|assumption|]. intros I. apply (proj2 (No q I)). exact Hq. }
  split; [|exact Lk]. split; [assumption|]. split; [exists ms; split; [now apply Lk|eapply leads_kept; eassumption]|].
  split; [intros q ks v I; destruct (Ok_ q ks v I) as (Hq & PK); split; [|assumption]; apply (left_holds ZC fs st dirs outs); [assumption|assumption|intros Io; apply (proj1 (No q Io)); apply in_map_iff; exists (q, ks, v); split; [reflexivity|assumption]]|].
  repeat (split; [assumption|]). split; [apply (left_unblocked fs st dirs outs); [assumption|assumption|intros o I; exact (Side o d I Dd)]|]. split; [|split; assumption].
  apply (left_free fs st dirs outs); [assumption|assumption|]. intros d' I. exact (Side _ d' Do I).
Qed.
Lemma slices_kept p fs st ns qin ks val nv n seed dir dirs outs : slices_wanted cwd ZC p fs ns qin ks val nv n seed dir -> (forall o, In o (slice_files n dir) -> free fs o /\ o <> qin) -> left_by fs st dirs outs -> side_by_side dirs outs ->
  In dir dirs -> incl (slice_files n dir) outs -> ~ In qin outs -> slices_wanted cwd ZC p st ns qin ks val nv n seed dir /\ forall o, In o (slice_files n dir) -> free st o /\ o <> qin.
Proof using Type.
  intros (W & T & Hin & C & PK & Sn & In_ & N0 & Me & Hs & Hd & U & Enc) FO L Side Dd Do N. split.
  - split; [assumption|]. split; [assumption|]. split; [assumption|]. split; [exact (left_holds ZC fs st dirs outs qin ks val L C N)|].
    repeat (split; [assumption|]). split; [|assumption]. apply (left_unblocked fs st dirs outs); [assumption|assumption|]. intros o I. exact (Side o dir I Dd).
  - intros o I. split; [|apply (FO o I)]. apply (left_free fs st dirs outs); [assumption|apply (FO o I)|]. intros d' I'. exact (Side o d' (Do o I) I').
Qed.
(** ** Explicit splits *)
Lemma split_kept fs st dirs outs s : split_ok cwd fs s -> left_by fs st dirs outs -> side_by_side dirs outs -> In (tl (sp_out s)) dirs -> In (sp_out s) outs -> ~ In (sp_file s) outs -> split_ok cwd st s.
Proof using Type.
  intros (W & Hk & (b & t & t' & ls & Lk & Kf) & ND & PK & Ho & No & U & Fr) L Side Id Io Nf. split; [assumption|]. split; [assumption|]. split.
  - exists b, t, t', ls. split; [|assumption]. exact (left_file _ _ _ _ _ _ L Lk Nf).
  - repeat (split; [assumption|]). split.
    + apply (left_unblocked fs st dirs outs); [assumption|assumption|]. intros o I. exact (Side o _ I Id).
    + apply (left_free fs st dirs outs); [assumption|assumption|]. intros d I. exact (Side _ d Io I).
Qed.
Lemma splits_kept p fs st ns qin ks val sns xs b dirs outs : splits_wanted cwd ZC p fs ns qin ks val sns xs b -> left_by fs st dirs outs -> side_by_side dirs outs -> (forall s, In s xs -> In (tl (sp_out s)) dirs) -> incl (map sp_out xs) outs ->
  ~ In qin outs -> (forall s, In s xs -> ~ In (sp_file s) outs) -> splits_wanted cwd ZC p st ns qin ks val sns xs b.
Proof using Type.
  intros (W & T & Hin & C & Mn & Se & Te & Ch & Ex & Ok_ & A & Kn) L Side Dd Do Nq Nf. split; [assumption|]. split; [assumption|]. split; [assumption|]. split; [exact (left_holds ZC fs st dirs outs qin ks val L C Nq)|].
  repeat (split; [assumption|]). split; [|split; assumption]. intros s I. destruct (Ok_ s I) as (O1 & N1). split; [|assumption]. apply (split_kept fs st dirs outs); auto. apply Do. now apply in_map.
Qed.
Lemma explicit_namespaces p fs ns qin ks val sns xs b z : splits_wanted cwd ZC p fs ns qin ks val sns xs b -> source_enter (disk_at ZC fs qin) = Ok z ->
  exists later, (forall f w, ~ In qin w -> later f w = zip_source same_name bytes_value z) /\ (forall k, In k ks -> src_get (zip_source same_name bytes_value z) k = Ok (Some (val k))) /\
    fst (split_main p fs) = fst (fst (split_namespaces cwd ZC torn set_order later fs (map sp_ns xs) [] [])).
Proof using cwd_proper x_is_source.
  intros (W & T & Hin & C & Mn & Se & Te & Ch & Ex & Ok_ & A & Kn) Ez0.
  assert (NL : forall c, In c (children sns) -> no_list_inside c). { rewrite Ch. intros c I. apply in_map_iff in I. destruct I as (s & <- & I). apply (Ok_ s I). }
  destruct (input_same X import_module other_eval builtin locals_of x_is_class x_from_parameters x_construct x_callable x_call x_is_linear x_is_source cwd other_globals ZC other_source cwd_proper fs p ns qin ks val W T Hin C) as (z' & Ez & El & _ & Op). assert (z' = z) as -> by congruence.
  exists (read_later X cwd ZC other_source (OZipSource true qin) (zip_source same_name bytes_value z)). split; [intros f w N; exact (read_later_same X cwd ZC other_source qin z f w N)|]. split.
  { destruct C as (z' & Ez' & _ & V & _). rewrite Ez in Ez'. injection Ez' as <-. intros k I. apply (V k I). }
  assert (NN : sns <> PNone) by (intros ->; discriminate). assert (Pe : present_ p !!"explicit_split") by (exists sns; auto).
  assert (Cn : Params.contains p !!"num_slices" = false). { destruct (Params.contains p !!"num_slices") eqn:E; [|reflexivity]. apply (present_contains _ _ (proj1 W)) in E. destruct E as (v & S1 & N1). destruct Mn as [Ab|S2]; [destruct (Ab v S1)|]. destruct (N1 (stored_unique _ _ _ _ (proj1 W) S1 S2)). }
  unfold Mains.split_main. rewrite (proj2 (exactly_one p !!"num_slices" !!"explicit_split" (proj1 W))) by (right; auto). rewrite El. cbn [bind]. rewrite (Op fs eq_refl). cbn [bind]. rewrite Cn, (proj2 (present_contains _ _ (proj1 W)) Pe). unfold split_explicit.
  assert (namespace p !!"explicit_split" = Ok sns) as ->. { unfold namespace. destruct (get_spec p !!"explicit_split" is_params PNone (proj1 W)) as (G & _). apply G; [now constructor|assumption]. }
  cbn [bind]. rewrite (sub_namespaces_spec oeq sns (conj (stored_wf _ _ _ (proj1 W) Se) Te) NL), Ch, (first_all _ _ (splits_unequal cwd oeq fs xs (fun s I => proj1 (Ok_ s I)) (proj1 A))).
  destruct (split_namespaces _ _ _ _ _ _ _ _ _) as [[f k] [e|]]; reflexivity.
Qed.
(** The bytes of every output come from the input and the keys_file alone. *)
Lemma splits_bytes la lb qin src ks0 val : (forall f w, ~ In qin w -> la f w = src) -> (forall f w, ~ In qin w -> lb f w = src) -> (forall k, In k ks0 -> src_get src k = Ok (Some (val k))) ->
  forall xs a b wa wb ca cb, wf_fs a -> wf_fs b -> (forall s, In s xs -> split_ok cwd a s /\ sp_out s <> qin) -> (forall s, In s xs -> split_ok cwd b s) -> (forall s, In s xs -> look b (sp_file s) = look a (sp_file s)) ->
  apart xs -> (forall s k, In s xs -> In k (sp_keys s) -> In k ks0) -> ~ In qin wa -> ~ In qin wb ->
  forall s, In s xs -> exists x, look (fst (fst (split_namespaces cwd ZC torn set_order la a (map sp_ns xs) wa ca))) (sp_out s) = Some (KFile x) /\
    look (fst (fst (split_namespaces cwd ZC torn set_order lb b (map sp_ns xs) wb cb))) (sp_out s) = Some (KFile x).
Proof using cwd_proper set_order_perm.
  intros La Lb Gt. induction xs as [|s xs IH]; intros a b wa wb ca cb Fa Fb Oa Ob Kf A Kn Nwa Nwb s0 I0; [destruct I0|].
  destruct (Oa s (or_introl eq_refl)) as (Oas & Nq). assert (Obs := Ob s (or_introl eq_refl)).
  assert (One : forall l f w, (forall f w, ~ In qin w -> l f w = src) -> ~ In qin w -> wf_fs f -> split_ok cwd f s -> exists f2 l0 t f1, wf_fs f2 /\ holds f2 (sp_out s) (sp_keys s) val /\ only_writes f f2 (tl (sp_out s)) [sp_out s] /\
    read_text f (sp_file s) = Ok t /\ creatable_file cwd (sp_ns s) !!"output_file" f = (f1, Ok (sp_out s)) /\ made f f1 (tl (sp_out s)) /\ Permutation l0 (sp_keys s) /\ l0 = dedup (filter (fun l => negb (is_nil l)) (py_split LF t)) /\
    write_zip ZC torn set_order f1 (sp_out s) (fun _ => (pairs val l0, None)) = (f2, None) /\
    forall rest c, split_namespaces cwd ZC torn set_order l f (sp_ns s :: rest) w c = split_namespaces cwd ZC torn set_order l f2 rest (sp_out s :: w) (c ++ l0)).
  { intros l f w Ll Nw F Os. assert (Os' := Os). destruct Os' as ((W & NL) & Hk & Kf0 & ND & PK & Ho & No & U & Fr).
    assert (exists c o, sp_out s = c :: o) as (c & o & Eo) by (destruct (sp_out s) as [|c o]; [congruence|eauto]). rewrite Eo in *. cbn [tl] in *.
    assert (Gk : forall g v k0, ~ In qin v -> Permutation k0 (sp_keys s) -> explicit_keys (l g ((c :: o) :: v)) k0 = (pairs val k0, None)).
    { intros g v k0 Nv Pk. rewrite Ll by (intros [E|I']; [exact (Nq E)|exact (Nv I')]). apply explicit_keys_ok. intros k Ik. apply Gt. apply (Kn s); [now left|]. now apply (Permutation_in _ Pk). }
    destruct (one_split cwd ZC torn set_order set_order_perm cwd_proper l (fun w => ~ In qin w) val f s (fun l => l) None F Os) as (f2 & ks & F2 & Pk & Hh & OW & E).
    { intros k0 Pk. exists []. rewrite app_nil_r. split; [reflexivity|]. intros g v Nv. rewrite Eo. now apply Gk. }
    rewrite Eo in *. cbn [tl] in OW. destruct (key_file_read f _ _ Kf0 ND) as (l0 & El & Pl). destruct (read_text f (sp_file s)) as [t|] eqn:Et; [|discriminate El]. cbn [bind] in El. assert (El' : l0 = dedup (filter (fun l => negb (is_nil l)) (py_split LF t))) by congruence.
    destruct (C80_existing cwd (sp_ns s) !!"keys_file" f W cwd_proper) as (E1 & _). assert (Kf' := Kf0). destruct Kf' as (bb & t0 & t' & ls & Lk & _). assert (E0 := E1 _ bb Hk Lk).
    destruct (C80_creatable cwd (sp_ns s) !!"output_file" f W cwd_proper F) as (_ & CF & _). destruct (CF c o Ho) as (CF1 & _). destruct (CF1 U) as (f1 & Ec & M).
    assert (Ew : write_zip ZC torn set_order f1 (c :: o) (fun _ => (pairs val l0, None)) = (f2, None) /\ forall rest c0, split_namespaces cwd ZC torn set_order l f (sp_ns s :: rest) w c0 = split_namespaces cwd ZC torn set_order l f2 rest ((c :: o) :: w) (c0 ++ l0)).
    { assert (Q : forall rest c0, split_namespaces cwd ZC torn set_order l f (sp_ns s :: rest) w c0 = match write_zip ZC torn set_order f1 (c :: o) (fun _ => (pairs val l0, None)) with (g, Some e) => (g, c0, Some e) | (g, None) => split_namespaces cwd ZC torn set_order l g rest ((c :: o) :: w) (c0 ++ l0) end).
      { intros rest c0. cbn [split_namespaces]. rewrite E0. cbn [bind]. rewrite Et. cbn [bind]. rewrite <- El', Ec. cbv zeta. rewrite Gk by assumption. cbn [fst]. now rewrite pairs_keys. }
      assert (Z := Q [] []). rewrite (E [] w [] Nw) in Z. cbn [split_namespaces] in Z. destruct (write_zip _ _ _ _ _ _) as [g [e|]]; [discriminate Z|]. assert (g = f2) as -> by congruence. split; [reflexivity|]. exact Q. }
    destruct Ew as (Ew & Q). exists f2, l0, t, f1. split; [exact F2|]. split; [exact (contains_perm _ _ _ _ Hh Pk)|]. split; [exact OW|]. split; [reflexivity|]. split; [exact Ec|]. split; [exact M|]. split; [exact Pl|]. split; [exact El'|]. split; [exact Ew|exact Q]. }
  destruct (One la a wa La Nwa Fa Oas) as (a2 & l0 & t & a1 & Fa2 & Ha & OWa & Ta & _ & Ma & Pl & El & Ewa & Qa). destruct (One lb b wb Lb Nwb Fb Obs) as (b2 & l0' & t' & b1 & Fb2 & Hb & OWb & Tb & _ & Mb & _ & El' & Ewb & Qb). clear One.
  assert (l0' = l0) as ->. { unfold read_text in Ta, Tb. rewrite (Kf s (or_introl eq_refl)) in Tb. congruence. }
  assert (A' : apart xs). { destruct A as (N & A). cbn [map] in N. inversion N as [|? ? N1 N2]; subst. split; [assumption|]. intros s1 s2 I1 I2. apply A; now right. }
  assert (Ns : forall s', In s' xs -> sp_out s' <> sp_out s). { intros s' I' E'. destruct A as (N & _). cbn [map] in N. inversion N as [|? ? N1 _]; subst. apply N1. rewrite <- E'. now apply in_map. }
  assert (Lft : forall f f2, wf_fs f -> wf_fs f2 -> split_ok cwd f s -> holds f2 (sp_out s) (sp_keys s) val -> only_writes f f2 (tl (sp_out s)) [sp_out s] -> left_by f f2 (map (fun s => tl (sp_out s)) (s :: xs)) (map sp_out (s :: xs))).
  { intros f f2 F F2 Os Hh OW. eapply left_more; [apply (writes_left f f2 (tl (sp_out s)) [sp_out s]); [assumption|apply Os| |assumption]|intros x [<-|[]]; now left|intros x [<-|[]]; now left].
    intros o [<-|[]]. split; [apply Os|]. destruct (holds_file ZC f2 _ _ _ Hh) as (x & ar & L & _). eauto. }
  assert (L1 := Lft a a2 Fa Fa2 Oas Ha OWa). assert (L2 := Lft b b2 Fb Fb2 Obs Hb OWb). clear Lft.
  assert (Ka : forall s', In s' xs -> split_ok cwd a2 s' /\ sp_out s' <> qin) by (intros s' I'; split; [apply (split_ok_left cwd (s :: xs) a); [exact A|now right|exact L1|apply Oa; now right]|apply Oa; now right]).
  assert (Kb : forall s', In s' xs -> split_ok cwd b2 s') by (intros s' I'; apply (split_ok_left cwd (s :: xs) b); [exact A|now right|exact L2|apply Ob; now right]).
  cbn [map]. rewrite Qa, Qb. destruct I0 as [<-|I0].
  - assert (exists x, look a2 (sp_out s) = Some (KFile x) /\ look b2 (sp_out s) = Some (KFile x)) as (x & X1 & X2).
    { assert (Os' := Oas). destruct Os' as (_ & _ & _ & ND & PK & _ & No & U & Fr). assert (FrB : free b (sp_out s)) by apply Obs. destruct (sp_out s) as [|c o] eqn:Eo; [congruence|]. cbn [tl] in *.
      assert (Nl : NoDup l0) by exact (Permutation_NoDup (Permutation_sym Pl) ND).
      destruct (write_stream_pairs set_order set_order_perm Absent l0 val None Nl) as (dd & Es & Cd); [intros k I; apply PK; now apply (Permutation_in _ Pl)|].
      destruct (write_zip_bytes ZC torn set_order a b a1 b1 c o (fun _ => (pairs val l0, None)) (fun _ => (pairs val l0, None)) l0 val dd Fa Fb Ma Mb Fr FrB Es Cd eq_refl) as (x & X1 & X2). rewrite Ewa in X1. rewrite Ewb in X2. eauto. }
    exists x. assert (Rest : forall l f w c0, (forall f w, ~ In qin w -> l f w = src) -> ~ In qin w -> wf_fs f -> (forall s', In s' xs -> split_ok cwd f s') -> look f (sp_out s) = Some (KFile x) -> look (fst (fst (split_namespaces cwd ZC torn set_order l f (map sp_ns xs) (sp_out s :: w) c0))) (sp_out s) = Some (KFile x)).
    { intros l f w c0 Ll Nw F Ok_ L. destruct (splits_from cwd ZC torn set_order set_order_perm cwd_proper l qin src ks0 val [] Ll Gt xs f F) as (f' & _ & _ & WA & _ & More).
      { intros s' I. rewrite app_nil_r in I. now apply Ok_. } { intros s' I. now apply Ka. } { now rewrite app_nil_r. } { intros s' k I. apply Kn. now right. }
      destruct (More (sp_out s :: w) c0) as (more & _ & _ & M2); [intros [E|I']; [exact (Nq E)|exact (Nw I')]|]. specialize (M2 []). rewrite app_nil_r in M2. cbn [split_namespaces] in M2. rewrite M2. cbn [fst].
      destruct (WA (sp_out s)) as [E|(E & _)]; [|congruence|congruence]. intros I'. apply in_map_iff in I'. destruct I' as (s' & E' & I'). exact (Ns s' I' E'). }
    split; [apply Rest|apply Rest]; try assumption. intros s' I'. now apply Ka.
  - apply (IH a2 b2); try assumption.
    + intros s' I'. assert (Nf : forall o, In o [sp_out s] -> sp_file s' <> o) by (intros o [<-|[]]; apply (proj2 A s s' (or_introl eq_refl) (or_intror I'))).
      assert (Same : forall f f2, left_by f f2 (map (fun s => tl (sp_out s)) (s :: xs)) (map sp_out (s :: xs)) -> split_ok cwd f s' -> look f2 (sp_file s') = look f (sp_file s')).
      { intros f f2 L (_ & _ & (bb & t0 & t1 & ls & Lk & _) & _). rewrite Lk. apply (left_file _ _ _ _ _ _ L Lk). intros I. apply in_map_iff in I. destruct I as (s2 & E & I). destruct (proj2 (proj2 A s2 s' I (or_intror I'))). now rewrite E. }
      rewrite (Same a a2 L1), (Same b b2 L2); [apply Kf; now right|apply Ob; now right|apply Oa; now right].
    + intros s' k I'. apply Kn. now right.
    + intros [E|I']; [exact (Nq E)|exact (Nwa I')].
    + intros [E|I']; [exact (Nq E)|exact (Nwb I')].
Qed.
Lemma only_touches st f dir outs : outs <> [] -> (forall o, In o outs -> tl o = dir) -> only_writes st f dir outs -> touches st f outs.
Proof using Type.
  intros N D OW r Nr. destruct (OW r Nr) as (O1 & O2). split.
  - intros (o & Io & B). rewrite (D o Io) in B. exact (O1 B).
  - intros H. apply O2. destruct outs as [|o outs]; [congruence|]. rewrite <- (D o (or_introl eq_refl)). apply H. now left.
Qed.
Lemma one_output fs dirs outs m c d : (exists b, unblocked fs d /\ free fs (c :: d) /\ forall st, left_by fs st dirs outs -> exists f, m st = (f, None) /\ wf_fs f /\ look f (c :: d) = Some (KFile b) /\ only_writes st f d [c :: d]) ->
  steady fs dirs outs (Job m [c :: d]).
Proof using Type.
  intros (b & U & F & H). split; [intros o [<-|[]]; split; [discriminate|split; assumption]|]. exists (fun _ => b). intros st L. destruct (H st L) as (f & E & Wf & K & OW). exists f. split; [exact E|]. split; [exact Wf|].
  split; [intros o [<-|[]]; exact K|]. apply (only_touches st f d); [discriminate|intros o [<-|[]]; reflexivity|exact OW].
Qed.
Lemma working_steady fs js j : wf_fs fs -> apart_jobs js -> In j js -> working fs (all_outs js) j -> steady fs (out_dirs js) (all_outs js) j.
Proof using cwd_proper random_perm set_order_perm seeded_perm seeded_shuffle other_sink x_is_linear oeq.
  intros F (_ & Side) Hj Wk. assert (Out := in_outs js j). destruct Wk as [p ns qin ks val nv n sv c d SW Nq|p ns c d xs SW No|p ns qin ks val nv n seed dir SW FO Nq|p ns qin ks val sns xs b SW Cov Nq Nf]; cbn [job_outs] in Out;
    [destruct (Out (c :: d) Hj (or_introl eq_refl)) as (Do & Dd); cbn [tl] in Dd; apply one_output|destruct (Out (c :: d) Hj (or_introl eq_refl)) as (Do & Dd); cbn [tl] in Dd; apply one_output| |].
  - assert (exists z, source_enter (disk_at ZC fs qin) = Ok z) as (z & Ez) by (destruct SW as (_ & _ & _ & (z & Ez & _) & _); eauto).
    destruct (sample_setup X import_module other_eval builtin locals_of x_is_class x_from_parameters x_construct x_callable x_call x_is_linear x_is_source cwd other_globals ZC torn set_order random_shuffle other_source set_order_perm random_perm cwd_proper p fs ns qin ks val nv n sv c d z F SW Ez) as (fs1 & keys & seed & dd & kept & _ & _ & M & Sk & Sd & Ew & Cd & E1). cbv zeta in Ew, E1.
    assert (Same : forall st, left_by fs st (out_dirs js) (all_outs js) -> sample_wanted cwd ZC p st ns qin ks val nv n sv c d) by (intros st L; eapply sample_kept; eassumption).
    assert (C : holds fs qin ks val) by apply SW. assert (Fr : free fs (c :: d)) by apply SW.
    set (strm := yield_all _ _) in Ew, E1. assert (exists x, forall st, left_by fs st (out_dirs js) (all_outs js) -> look (fst (downsample_main p st)) (c :: d) = Some (KFile x)) as (x & Hx).
    { assert (G : forall st, left_by fs st (out_dirs js) (all_outs js) -> exists x, look (fst (downsample_main p fs)) (c :: d) = Some (KFile x) /\ look (fst (downsample_main p st)) (c :: d) = Some (KFile x)).
      { intros st L. assert (SW' := Same st L). assert (Dq : disk_at ZC st qin = disk_at ZC fs qin).
        { destruct (holds_file ZC fs qin ks val C) as (b & a & Lq & _). unfold disk_at. now rewrite (left_file _ _ _ _ _ _ L Lq Nq), Lq. }
        assert (Ez' := Ez). rewrite <- Dq in Ez'.
        destruct (sample_setup X import_module other_eval builtin locals_of x_is_class x_from_parameters x_construct x_callable x_call x_is_linear x_is_source cwd other_globals ZC torn set_order random_shuffle other_source set_order_perm random_perm cwd_proper p st ns qin ks val nv n sv c d z (proj1 L) SW' Ez') as (st1 & keys' & seed' & dd' & kept' & _ & _ & M' & Sk' & Sd' & _ & _ & E2). cbv zeta in E2.
        assert (keys' = keys) as -> by congruence. assert (seed' = seed) as -> by congruence. fold strm in E2. rewrite E1, E2.
        apply (write_zip_bytes ZC torn set_order fs st fs1 st1 c d (fun _ => strm) (fun _ => strm) kept val dd F (proj1 L) M M' Fr); [apply SW'|exact Ew|exact Cd|reflexivity]. }
      destruct (G fs (left_refl fs _ _ F)) as (x & Hx & _). exists x. intros st L. destruct (G st L) as (x' & Hx' & Hy). congruence. }
    exists x. split; [apply SW|]. split; [exact Fr|]. intros st L. destruct (Same st L) as (Wp & T & Hin & C' & PK & Sn & In_ & N0 & Hs & Ho & U' & Fr' & Nq').
    destruct (C86_downsample X import_module other_eval builtin locals_of x_is_class x_from_parameters x_construct x_callable x_call x_is_linear x_is_source cwd other_globals ZC torn set_order seeded_shuffle random_shuffle other_source other_sink set_order_perm random_perm cwd_proper p st ns qin ks val nv n sv c d Wp (proj1 L) T Hin C' PK Sn In_ N0 Hs Ho U' Fr' Nq') as (f & kept' & Em & Wf & _ & _ & _ & _ & OW & _).
    exists f. split; [exact Em|]. split; [exact Wf|]. split; [|exact OW]. specialize (Hx st L). rewrite Em in Hx. exact Hx.
  - assert (Fr : free fs (c :: d)) by apply SW. assert (LI : lists_inputs cwd p fs (map (fun x => fst (fst x)) xs)) by apply SW. assert (Ok_ : stores_ok ZC fs xs) by apply SW. destruct LI as (ms & LP & FL).
    assert (Same : forall st, left_by fs st (out_dirs js) (all_outs js) -> join_wanted cwd ZC p st ns c d xs /\ forall ms, lists_paths cwd p fs ms -> lists_paths cwd p st ms) by (intros st L; eapply join_kept; eassumption).
    destruct (join_setup X import_module other_eval builtin locals_of x_is_class x_from_parameters x_construct x_callable x_call x_is_sink cwd other_globals ZC torn set_order other_sink set_order_perm cwd_proper p fs ns c d xs ms F SW LP FL) as (fs1 & dd & val & M & _ & _ & Pa & Ew & Cd & E1). cbv beta zeta in Pa; cbv zeta in Ew, E1.
    assert (exists x, forall st, left_by fs st (out_dirs js) (all_outs js) -> look (fst (join_main p st)) (c :: d) = Some (KFile x)) as (x & Hx).
    { assert (G : forall st, left_by fs st (out_dirs js) (all_outs js) -> exists x, look (fst (join_main p fs)) (c :: d) = Some (KFile x) /\ look (fst (join_main p st)) (c :: d) = Some (KFile x)).
      { intros st L. destruct (Same st L) as (SW' & Lk).
        destruct (join_setup X import_module other_eval builtin locals_of x_is_class x_from_parameters x_construct x_callable x_call x_is_sink cwd other_globals ZC torn set_order other_sink set_order_perm cwd_proper p st ns c d xs ms (proj1 L) SW' (Lk ms LP) (leads_kept cwd fs st _ _ ms _ L FL)) as (st1 & dd' & val' & M' & _ & _ & Pb & _ & _ & E2). cbv beta zeta in Pb; cbv zeta in E2.
        rewrite E1, E2. apply (write_zip_bytes ZC torn set_order fs st fs1 st1 c d (fun fs2 => join_inputs [] (map (disk_of cwd ZC fs2) (map parse_path ms))) (fun fs2 => join_inputs [] (map (disk_of cwd ZC fs2) (map parse_path ms))) (stored_keys xs) val dd F (proj1 L) M M' Fr); [apply SW'|exact Ew|exact Cd|].
        rewrite Pa. refine (eq_trans Pb _). f_equal. apply map_ext_in. intros q I. assert (No' : ~ In q (all_outs js)) by (intros Io; exact (proj1 (No q Io) I)). apply in_map_iff in I. destruct I as ([[q' ks] v] & E & I). cbn [fst] in E. subst q'. destruct (Ok_ q ks v I) as (Hq' & _).
        destruct (holds_file ZC fs q ks v Hq') as (b & a & Lq & _). unfold disk_at. now rewrite (left_file _ _ _ _ _ _ L Lq No'), Lq. }
      destruct (G fs (left_refl fs _ _ F)) as (x & Hx & _). exists x. intros st L. destruct (G st L) as (x' & Hx' & Hy). congruence. }
    exists x. split; [apply SW|]. split; [exact Fr|]. intros st L. destruct (proj1 (Same st L)) as (Wp & LI' & Ok' & ND & T & H & U' & Fr' & N' & _).
    destruct (C85_join X import_module other_eval builtin locals_of x_is_class x_from_parameters x_construct x_callable x_call x_is_sink cwd other_globals ZC torn set_order other_sink set_order_perm cwd_proper p st ns c d xs Wp (proj1 L) LI' Ok' ND T H U' Fr' N') as (f & val' & Em & Wf & _ & _ & OW & _).
    exists f. split; [exact Em|]. split; [exact Wf|]. split; [|exact OW]. specialize (Hx st L). rewrite Em in Hx. exact Hx.
  - assert (Tl : forall o, In o (slice_files n dir) -> tl o = dir) by (intros o Io; apply slice_files_in in Io; destruct Io as [->|(i & _ & ->)]; reflexivity).
    assert (I0 : In (!!"_slices.txt" :: dir) (slice_files n dir)) by now left. destruct (Out _ Hj I0) as (_ & Dd). cbn [tl] in Dd. assert (Do : incl (slice_files n dir) (all_outs js)) by (intros o Io; apply (Out o Hj Io)).
    assert (Same : forall st, left_by fs st (out_dirs js) (all_outs js) -> slices_wanted cwd ZC p st ns qin ks val nv n seed dir /\ forall o, In o (slice_files n dir) -> free st o /\ o <> qin) by (intros st L; eapply slices_kept; eassumption).
    assert (exists z, source_enter (disk_at ZC fs qin) = Ok z) as (z & Ez) by (destruct SW as (_ & _ & _ & (z & Ez & _) & _); eauto).
    split.
    { intros o Io. split; [|split; [rewrite (Tl o Io); apply SW|apply (FO o Io)]]. apply slice_files_in in Io. destruct Io as [->|(i & _ & ->)]; discriminate. }
    destruct (split_setup X import_module other_eval builtin locals_of x_is_class x_from_parameters x_construct x_callable x_call x_is_linear x_is_source cwd other_globals ZC torn set_order seeded_shuffle other_source oeq set_order_perm seeded_perm cwd_proper p fs ns qin ks val nv n seed dir z F SW FO Ez) as (fs1 & lb & sv & bs & _ & _ & M & _ & _ & Os & Elb & _ & _ & Cb & Em). cbv zeta in Em.
    assert (G : forall st, left_by fs st (out_dirs js) (all_outs js) -> exists f, split_main p st = (f, None) /\ forall o, In o (slice_files n dir) -> look f o = look (fst (split_main p fs)) o /\ exists x, look f o = Some (KFile x)).
    { intros st L. destruct (Same st L) as (SW' & FO'). assert (C : holds fs qin ks val) by apply SW. assert (Dq : disk_at ZC st qin = disk_at ZC fs qin).
      { destruct (holds_file ZC fs qin ks val C) as (b & a & Lq & _). unfold disk_at. now rewrite (left_file _ _ _ _ _ _ L Lq Nq), Lq. }
      assert (Ez' := Ez). rewrite <- Dq in Ez'.
      destruct (split_setup X import_module other_eval builtin locals_of x_is_class x_from_parameters x_construct x_callable x_call x_is_linear x_is_source cwd other_globals ZC torn set_order seeded_shuffle other_source oeq set_order_perm seeded_perm cwd_proper p st ns qin ks val nv n seed dir z (proj1 L) SW' FO' Ez') as (st1 & lb' & sv' & bs' & _ & _ & M' & _ & _ & Os' & Elb' & _ & _ & Cb' & Em'). cbv zeta in Em'.
      eexists. split; [exact Em'|]. rewrite Em. cbn [fst]. assert (lb' = lb) as -> by congruence. assert (sv' = sv) as -> by congruence.
      assert (Bs : forall i, i < n -> bs' i = bs i). { intros i Li. destruct (Cb (fun _ => Absent) i Li) as (a & E & ->). destruct (Cb' (fun _ => Absent) i Li) as (a' & E' & ->). congruence. }
      destruct (set_slices_spec (set_node fs1 (!!"_slices.txt" :: dir) lb) dir n bs) as (S1 & S2). destruct (set_slices_spec (set_node st1 (!!"_slices.txt" :: dir) lb) dir n bs') as (T1 & T2).
      intros o Io. apply slice_files_in in Io. destruct Io as [->|(i & Li & ->)]; [|rewrite S1, T1, (Bs i Li) by exact Li; eauto]. rewrite S2, T2 by (intros i _; apply list_not_slice). rewrite !look_set_same by discriminate. eauto. }
    exists (content (fst (split_main p fs))). intros st L. destruct (Same st L) as (SW' & FO'). destruct SW' as (Wp & T & Hin & C' & PK & Sn & In_ & N0 & Me & Hs & Hd & U' & Enc).
    destruct (C84_split X import_module other_eval builtin locals_of x_is_class x_from_parameters x_construct x_callable x_call x_is_linear x_is_source cwd other_globals ZC torn set_order seeded_shuffle random_shuffle other_source oeq set_order_perm seeded_perm cwd_proper p st ns qin ks val nv n seed dir Wp (proj1 L) T Hin C' PK Sn In_ N0 Me Hs Hd U' Enc FO') as (f & parts & E & Wf & _ & _ & _ & _ & _ & OW & _).
    destruct (G st L) as (f' & E' & K). assert (f' = f) as -> by congruence. exists f. split; [exact E|]. split; [exact Wf|]. split.
    + intros o Io. destruct (K o Io) as (K1 & x & K2). cbn [job_main job_outs] in *. rewrite K2. f_equal. f_equal. symmetry. apply content_file. congruence.
    + cbn [job_outs]. apply (only_touches st f dir); [intros E0; unfold slice_files in E0; discriminate E0|exact Tl|exact OW].
  - assert (Dd : forall s, In s xs -> In (tl (sp_out s)) (out_dirs js)) by (intros s I; apply (Out (sp_out s) Hj); now apply in_map). assert (Do : incl (map sp_out xs) (all_outs js)) by (intros o Io; apply (Out o Hj Io)).
    assert (Same : forall st, left_by fs st (out_dirs js) (all_outs js) -> splits_wanted cwd ZC p st ns qin ks val sns xs b) by (intros st L; eapply splits_kept; eassumption).
    assert (exists z, source_enter (disk_at ZC fs qin) = Ok z) as (z & Ez) by (destruct SW as (_ & _ & _ & (z & Ez & _) & _); eauto).
    split.
    { intros o Io. apply in_map_iff in Io. destruct Io as (s & <- & I). destruct SW as (_ & _ & _ & _ & _ & _ & _ & _ & _ & Ok_ & _). destruct (Ok_ s I) as (Os & _). split; [apply Os|]. split; apply Os. }
    assert (G : forall st, left_by fs st (out_dirs js) (all_outs js) -> forall o, In o (map sp_out xs) -> exists x, look (fst (split_main p fs)) o = Some (KFile x) /\ look (fst (split_main p st)) o = Some (KFile x)).
    { intros st L o Io. assert (SW' := Same st L). assert (C : holds fs qin ks val) by apply SW. assert (Dq : disk_at ZC st qin = disk_at ZC fs qin).
      { destruct (holds_file ZC fs qin ks val C) as (bb & a & Lq & _). unfold disk_at. now rewrite (left_file _ _ _ _ _ _ L Lq Nq), Lq. }
      assert (Ez' := Ez). rewrite <- Dq in Ez'. destruct (explicit_namespaces p fs ns qin ks val sns xs b z SW Ez) as (la & La & Gt & ->). destruct (explicit_namespaces p st ns qin ks val sns xs b z SW' Ez') as (lb & Lb & _ & ->).
      destruct SW as (_ & _ & _ & _ & _ & _ & _ & _ & _ & Ok_ & A & Kn). destruct SW' as (_ & _ & _ & _ & _ & _ & _ & _ & _ & Ok' & _). apply in_map_iff in Io. destruct Io as (s & <- & I).
      apply (splits_bytes la lb qin (zip_source same_name bytes_value z) ks val La Lb Gt xs fs st [] [] [] []); [assumption|apply L|exact Ok_|intros s' I'; apply Ok'; exact I'| |exact A|exact Kn|intros []|intros []|exact I].
      intros s' I'. destruct (proj1 (Ok_ s' I')) as (_ & _ & (bb & t & t' & ls & Lk & _) & _). rewrite Lk. exact (left_file _ _ _ _ _ _ L Lk (Nf s' I')). }
    exists (content (fst (split_main p fs))). intros st L. destruct (Same st L) as (W & T & Hin & C & Mn & Se & Te & Ch & Ex & Ok_ & A & Kn).
    destruct (C88_explicit X import_module other_eval builtin locals_of x_is_class x_from_parameters x_construct x_callable x_call x_is_linear x_is_source cwd other_globals ZC torn set_order seeded_shuffle other_source oeq set_order_perm cwd_proper p st ns qin ks val sns xs b W (proj1 L) T Hin C Mn Se Te Ch Ex Ok_ A Kn) as (f & e & Em & Wf & Hf & WA & _ & E1 & _).
    rewrite (E1 Cov) in Em. exists f. split; [exact Em|]. split; [exact Wf|]. split.
    + intros o Io. destruct (G st L o Io) as (x & X1 & X2). cbn [job_main job_outs] in *. rewrite Em in X2. cbn [fst] in X2. rewrite X2. f_equal. f_equal. symmetry. now apply content_file.
    + cbn [job_outs]. intros r Nr. assert (Ab : forall o, In o (map sp_out xs) -> below r (tl o) -> below r o) by (intros [|c o] _ B; [exact B|now apply below_cons]). split.
      * intros (o & Io & B). assert (B' := Ab o Io B). assert (r <> o) by (intros ->; exact (Nr Io)). apply in_map_iff in Io. destruct Io as (s & <- & I). destruct (holds_file ZC f _ _ _ (Hf s I)) as (bb & ar & Lk & _). exact (wf_above f r (sp_out s) _ Wf Lk B' H).
      * intros N. destruct (WA r Nr) as [E|(_ & _ & o & Io & B)]; [exact E|]. exfalso. apply (N o Io). destruct o as [|c o]; [exact B|]. cbn [tl]. destruct B as (l & B). destruct l as [|x l]; [exfalso; apply Nr; cbn [app] in B; rewrite <- B; exact Io|]. injection B as _ B. exists l. exact B.
Qed.

(** ** C135 *)
(** Whatever the schedule, whatever moment each reads its inputs at: no script fails; at every moment nothing is different but new directories on the way to the outputs and the outputs
    themselves; a script that has made as many steps as it needs is through; and then its outputs are, byte for byte, what they would be had it been alone. *)
Theorem C135_at_the_same_time : forall fs js schedule fs' ps, wf_fs fs -> apart_jobs js -> (forall j, In j js -> working fs (all_outs js) j) -> run_scripts fs (map Waiting js) schedule = (fs', ps) ->
  left_by fs fs' (out_dirs js) (all_outs js) /\ (forall i e, nth_error ps i <> Some (Going (Failed e))) /\
  (forall i j, nth_error js i = Some j -> needs j <= count_occ Nat.eq_dec schedule i -> nth_error ps i = Some (Going (Running []))) /\
  (forall i j, nth_error js i = Some j -> nth_error ps i = Some (Going (Running [])) -> delivered fs fs' j).
Proof using cwd_proper random_perm set_order_perm seeded_perm seeded_shuffle other_sink x_is_linear oeq.
  intros fs js s fs' ps F A Wk E. apply (scripts_generic fs js F A); [|exact E]. intros j Hj. apply working_steady; auto.
Qed.
(** Once all are through, the files are those they would leave one after the other, in any order. *)
Theorem C135_same_as_one_by_one : forall fs js order schedule fs' ps, wf_fs fs -> apart_jobs js -> (forall j, In j js -> working fs (all_outs js) j) -> run_scripts fs (map Waiting js) schedule = (fs', ps) ->
  (forall i j, nth_error js i = Some j -> nth_error ps i = Some (Going (Running []))) -> Permutation order js ->
  exists f, one_by_one fs order = (f, None) /\ forall r, look f r = look fs' r.
Proof using cwd_proper random_perm set_order_perm seeded_perm seeded_shuffle other_sink x_is_linear oeq.
  intros fs js order s fs' ps F A Wk E Fin P. apply (same_in_the_end fs js F A) with (s := s) (ps := ps); [|assumption|assumption|assumption]. intros j Hj. apply working_steady; auto.
Qed.
(** What a script reads does not depend on the moment: in any state the others may have got to, it would give the same outputs, change nothing else, and not fail. *)
Theorem C135_steady : forall fs js schedule st ps j, wf_fs fs -> apart_jobs js -> (forall j, In j js -> working fs (all_outs js) j) -> run_scripts fs (map Waiting js) schedule = (st, ps) -> In j js ->
  exists f f', job_main j fs = (f, None) /\ job_main j st = (f', None) /\ (forall o, In o (job_outs j) -> exists b, look f o = Some (KFile b) /\ look f' o = Some (KFile b)) /\ touches st f' (job_outs j).
Proof using cwd_proper random_perm set_order_perm seeded_perm seeded_shuffle other_sink x_is_linear oeq.
  intros fs js s st ps j F A Wk E Hj. destruct (C135_at_the_same_time fs js s st ps F A Wk E) as (L & _).
  destruct (working_steady fs js j F A Hj (Wk j Hj)) as (_ & bt & H). destruct (H fs (left_refl fs _ _ F)) as (f & E0 & _ & L0 & _). destruct (H st L) as (f' & E1 & _ & L1 & T). exists f, f'. split; [exact E0|]. split; [exact E1|].
  split; [intros o Ho; exists (bt o); auto|exact T].
Qed.
End P.
