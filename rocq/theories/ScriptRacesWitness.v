(** * Concrete cases for C135, and what does not hold *)
From Coq Require Import Sorted.
From Verif Require Import Prelude PyStr SortLib TextLib Utf8 Order Range Params ParamsSpec ParamsProofs ParamsGet ParamsGetProps ParamsEq SubNamespaces ParamsEval ParamsEvalProps Fs FsProofs FsProps PathLists PathListsProps Decimals Io IoProps KeyValue KeyValueProps KvParams KvParamsProps OsPath OsPathSpec OsPathProofs Scripts ScriptsProps Mains MainsProofs MainsProps MainsWitness ScriptCrash ScriptCrashProps ScriptCrashWitness Races RacesProps ScriptRaces ScriptRacesProps.

(** Five scripts: two downsample stores into the same new directory, one joins the two stores, and two split the larger one, into two slices and by lists of keys. *)
Definition cfg135 : pv := PParams [] [zip_at !!"input" !!"d.zip"; (!!"num_to_sample", PInt 1); (!!"output_zip_path", PStr !!"s/t.zip")].
Definition js135 : list job := [Job (run_sample cfg86) [[!!"s.zip"; !!"s"]]; Job (run_join cfg85) [[!!"all.zip"; !!"o"]]; Job (run_sample cfg135) [[!!"t.zip"; !!"s"]]; Job (run_split cfg84) (slice_files 2 [!!"s"; !!"out"]); Job (run_split cfg88) [[!!"train.zip"; !!"e"]; [!!"test.zip"; !!"e"]]].
Notation working135 := (run84 working (fun _ => false) (fun _ => false) [] [] marked_zip [] (fun l => l) (fun _ l => rev l) (fun _ l => rev l) (fun _ _ => Raise AnyError) (fun _ fs _ => (fs, Some AnyError)) codes).
Lemma wc135 : wf_params cfg135. Proof. wf_cfg. Qed.
Definition outs135 : list (list str) := [[!!"s.zip"; !!"s"]; [!!"all.zip"; !!"o"]; [!!"t.zip"; !!"s"]; [!!"_slices.txt"; !!"s"; !!"out"]; [!!"0.zip"; !!"s"; !!"out"]; [!!"1.zip"; !!"s"; !!"out"]; [!!"train.zip"; !!"e"]; [!!"test.zip"; !!"e"]].
Definition dirs135 : list (list str) := [[!!"s"]; [!!"o"]; [!!"s"]; [!!"s"; !!"out"]; [!!"e"]].
Lemma all_outs135 : all_outs js135 = outs135. Proof. vm_compute. reflexivity. Qed.
Lemma out_dirs135 d : In d (out_dirs js135) -> In d dirs135.
Proof. assert (E : out_dirs js135 = [[!!"s"]; [!!"o"]; [!!"s"]; [!!"s"; !!"out"]; [!!"s"; !!"out"]; [!!"s"; !!"out"]; [!!"e"]; [!!"e"]]) by (vm_compute; reflexivity). rewrite E. unfold dirs135. simpl. tauto. Qed.
Lemma apart135 : apart_jobs js135.
Proof.
  split.
  - rewrite all_outs135. repeat constructor; unfold outs135; cbn [In]; intuition discriminate.
  - intros o d Ho Hd. rewrite all_outs135 in Ho. apply out_dirs135 in Hd. unfold outs135 in Ho. unfold dirs135 in Hd. cbn [In] in Ho, Hd.
    destruct Ho as [<-|[<-|[<-|[<-|[<-|[<-|[<-|[<-|[]]]]]]]]]; destruct Hd as [<-|[<-|[<-|[<-|[<-|[]]]]]]; rewrite <- at_or_below_spec; vm_compute; discriminate.
Qed.
Example C135_hypotheses : apart_jobs js135 /\ forall j, In j js135 -> working135 fs84 (all_outs js135) j.
Proof.
  split; [exact apart135|]. rewrite all_outs135. intros j [<-|[<-|[<-|[<-|[<-|[]]]]]].
  - destruct C117_downsample_hypotheses as (ns & SW). eapply works_downsample; [exact SW|]. unfold outs135. cbn [In]. intuition discriminate.
  - destruct C117_join_hypotheses as (ns & SW). eapply works_join; [exact SW|]. intros o Ho. split.
    + unfold outs135 in Ho. cbn [In] in Ho. cbn [map fst In]. destruct Ho as [<-|[<-|[<-|[<-|[<-|[<-|[<-|[<-|[]]]]]]]]]; intuition discriminate.
    + intros (s & S1 & R). assert (s = !!"list"). { assert (S2 : Stored cfg85 !!"input_store_list_file" (PStr !!"list")) by (apply stored_at; [exact wc85|reflexivity]). assert (E := stored_unique _ _ _ _ (proj1 wc85) S1 S2). congruence. }
      subst s. unfold outs135 in Ho. cbn [In] in Ho. destruct Ho as [<-|[<-|[<-|[<-|[<-|[<-|[<-|[<-|[]]]]]]]]]; vm_compute in R; discriminate R.
  - assert (T := typed_at cfg135 !!"input" _ wc135 eq_refl eq_refl eq_refl eq_refl eq_refl). destruct T as (T & W).
    eapply (works_downsample) with (nv := PInt 1) (n := 1) (sv := PNone) (ks := [!!"d"]) (val := val84) (qin := [!!"d.zip"]); [|unfold outs135; cbn [In]; intuition discriminate].
    split; [exact wc135|]. split; [exact T|]. split; [eapply resolve_names; [exact W|reflexivity|reflexivity]|]. split; [exact d84|]. split; [intros k I; apply plain84; simpl in *; tauto|].
    split; [apply stored_at; [exact wc135|reflexivity]|]. split; [constructor|]. split; [discriminate|]. split; [left; apply (absent_walk _ _ (proj1 wc135)); reflexivity|].
    split; [eapply resolve_names; [exact wc135|reflexivity|reflexivity]|]. split; [no_obstacle|]. split; [left; reflexivity|discriminate].
  - destruct C117_slices_hypotheses as (ns & SW & FO). eapply works_split; [exact SW|exact FO|]. unfold outs135. cbn [In]. intuition discriminate.
  - destruct C117_explicit_hypotheses as (ns & sns & SW). eapply (works_explicit) with (xs := [train88; test88]); [exact SW| | |].
    + intros _ k I. unfold ks84 in I. cbn [In] in I. destruct I as [<-|[<-|[<-|[]]]]; (first [exists train88; split; [now left|first [now left|now (right; left)]]|exists test88; split; [now (right; left)|now left]]).
    + unfold outs135. cbn [In]. intuition discriminate.
    + intros s [<-|[<-|[]]]; unfold outs135; cbn [In sp_file train88 test88 split88]; intuition discriminate.
Qed.
(** all at once: the first is truncating its output while the others read; everything as if alone *)
Definition schedule135 : list nat := flat_map (fun i => [i; 3; 4]) [0; 0; 2; 0; 2; 0; 1; 0; 2; 1; 2; 1; 0; 2; 1; 1; 2; 1; 0; 2; 1; 1; 2; 0; 0; 1; 2] ++ [3; 3; 3; 3].
Example C135_witness :
  (let (fs, ps) := run_scripts fs84 (map Waiting js135) schedule135 in (ps, map (found fs) [[!!"s.zip"; !!"s"]; [!!"all.zip"; !!"o"]; [!!"t.zip"; !!"s"]; [!!"0.zip"; !!"s"; !!"out"]; [!!"1.zip"; !!"s"; !!"out"]; [!!"train.zip"; !!"e"]; [!!"test.zip"; !!"e"]])) =
  (repeat (Going (Running [])) 5, [Some ([!!"b"; !!"a"], [!!"bb"; !!"aa"]); Some ([!!"c"; !!"a"; !!"b"; !!"d"], [!!"cc"; !!"aa"; !!"bb"; !!"dd"]); Some ([!!"d"], [!!"dd"]); Some ([!!"a"; !!"c"], [!!"aa"; !!"cc"]); Some ([!!"b"], [!!"bb"]); Some ([!!"a"; !!"c"], [!!"aa"; !!"cc"]); Some ([!!"b"], [!!"bb"])]).
Proof. vm_compute. reflexivity. Qed.
Example C135_one_by_one_witness : exists f, one_by_one fs84 (rev js135) = (f, None) /\ found f [!!"s.zip"; !!"s"] = Some ([!!"b"; !!"a"], [!!"bb"; !!"aa"]) /\ found f [!!"t.zip"; !!"s"] = Some ([!!"d"], [!!"dd"]) /\ found f [!!"1.zip"; !!"s"; !!"out"] = Some ([!!"b"], [!!"bb"]) /\ found f [!!"train.zip"; !!"e"] = Some ([!!"a"; !!"c"], [!!"aa"; !!"cc"]).
Proof. eexists. split; [vm_compute; reflexivity|]. repeat split; vm_compute; reflexivity. Qed.

(** for what does not hold *)
Definition fs135 : list (list str * fnode) := ([!!"s.zip"; !!"s"], file84 [!!"d"]) :: ([!!"s"], KDir) :: fs84.
Definition cfg135b : pv := PParams [] [zip_at !!"input" !!"s/s.zip"; (!!"num_to_sample", PInt 1); (!!"output_zip_path", PStr !!"u.zip")].
Lemma wc135b : wf_params cfg135b. Proof. wf_cfg. Qed.
Lemma wf135 : wf_fs fs135. Proof. wf_files. Qed.
(** the runs taken apart: the processes in the end, as data *)
Definition outcomes (ps : list script_proc) : list (option exn) := map (fun p => match p with Going (Failed e) => Some e | _ => None end) ps.
Lemma sample_works fs cfg n i c d q ks : wf_params cfg -> (exists ns, Typed cfg !!"input" !!"zip" ns /\ names_path [] ns !!"path" q) -> holds marked_zip fs q ks val84 -> (forall k, In k ks -> plain_key k) ->
  Stored cfg !!"num_to_sample" (PInt i) -> i = Z.of_nat n -> n <> 0 -> ParamsSpec.Absent cfg !!"random_seed" -> names_path [] cfg !!"output_zip_path" (c :: d) -> unblocked fs d -> free fs (c :: d) -> c :: d <> q ->
  forall outs, ~ In q outs -> working135 fs outs (Job (run_sample cfg) [c :: d]).
Proof.
  intros W (ns & T & H) C PK Sn -> N0 A Ho U F Nq outs No. eapply works_downsample with (nv := PInt (Z.of_nat n)) (n := n) (sv := PNone); [|exact No].
  split; [exact W|]. split; [exact T|]. split; [exact H|]. split; [exact C|]. split; [exact PK|]. split; [exact Sn|]. split; [constructor|]. split; [exact N0|]. split; [now left|]. split; [exact Ho|]. split; [exact U|]. split; [exact F|exact Nq].
Qed.
Ltac sample_ok wc num :=
  eapply sample_works with (n := num); [exact wc|eexists; destruct (typed_at _ !!"input" _ wc eq_refl eq_refl eq_refl eq_refl eq_refl) as (T & W); split; [exact T|eapply resolve_names; [exact W|reflexivity|reflexivity]]| | |
    apply stored_at; [exact wc|reflexivity]|reflexivity|discriminate|apply (absent_walk _ _ (proj1 wc)); reflexivity|eapply resolve_names; [exact wc|reflexivity|reflexivity]|no_obstacle|unfold free; vm_compute; eauto|discriminate].
Lemma works135a outs : ~ In [!!"in.zip"] outs -> working135 fs135 outs (Job (run_sample cfg86) [[!!"s.zip"; !!"s"]]).
Proof.
  assert (C : holds marked_zip fs135 [!!"in.zip"] ks84 val84) by (apply holds84; [repeat constructor; simpl; intuition discriminate|intros k J; apply plain84; simpl in *; tauto|reflexivity]). revert outs.
  sample_ok wc86 2; [exact C|intros k J; apply plain84; simpl in *; tauto].
Qed.
Lemma works135b outs : ~ In [!!"s.zip"; !!"s"] outs -> working135 fs135 outs (Job (run_sample cfg135b) [[!!"u.zip"]]).
Proof.
  assert (C : holds marked_zip fs135 [!!"s.zip"; !!"s"] [!!"d"] val84) by (apply holds84; [repeat constructor; simpl; intuition discriminate|intros k J; apply plain84; simpl in *; tauto|reflexivity]). revert outs.
  sample_ok wc135b 1; [exact C|intros k J; apply plain84; simpl in *; tauto].
Qed.
Ltac sides := intros o d Ho Hd; cbn [all_outs out_dirs map flat_map app job_outs tl] in Ho, Hd; destruct Ho as [<-|[<-|[]]]; destruct Hd as [<-|[<-|[]]]; rewrite <- at_or_below_spec; vm_compute; discriminate.
(** Each script would work by itself, and the outputs are apart; but the second reads what the first writes.  It may meet a file that is empty. *)
Theorem C135_input_of_another_refuted : ~ (forall js schedule fs' ps, apart_jobs js -> (forall j, In j js -> working135 fs135 (job_outs j) j) -> run_scripts fs135 (map Waiting js) schedule = (fs', ps) ->
  forall i e, nth_error ps i <> Some (Going (Failed e))).
Proof.
  intros H. set (js := [Job (run_sample cfg86) [[!!"s.zip"; !!"s"]]; Job (run_sample cfg135b) [[!!"u.zip"]]]). assert (E : outcomes (snd (run_scripts fs135 (map Waiting js) [0; 0; 0; 0; 1])) = [None; Some AnyError]) by (vm_compute; reflexivity).
  destruct (run_scripts fs135 (map Waiting js) [0; 0; 0; 0; 1]) as [f ps] eqn:R. refine (H js _ f ps _ _ R 1 AnyError _).
  - split; [repeat constructor; simpl; intuition discriminate|]. sides.
  - intros j [<-|[<-|[]]].
    + apply works135a. simpl. intuition discriminate.
    + apply works135b. simpl. intuition discriminate.
  - cbn [snd outcomes] in E. destruct ps as [|p0 [|p1 [|p2 ps]]]; try discriminate E. cbn [map] in E. assert (E1 := f_equal (fun l => nth 1 l None) E). cbn [nth] in E1. cbn [nth_error]. destruct p1 as [j|[l|e]]; try discriminate E1. injection E1 as ->. reflexivity.
Qed.
Definition cfg135c : pv := PParams [] [zip_at !!"input" !!"d.zip"; (!!"num_to_sample", PInt 1); (!!"output_zip_path", PStr !!"s/s.zip")].
Lemma wc135c : wf_params cfg135c. Proof. wf_cfg. Qed.
Lemma works135c outs : ~ In [!!"in.zip"] outs -> working135 fs84 outs (Job (run_sample cfg86) [[!!"s.zip"; !!"s"]]).
Proof. revert outs. sample_ok wc86 2; [exact in84|intros k J; apply plain84; simpl in *; tauto]. Qed.
Lemma works135d outs : ~ In [!!"d.zip"] outs -> working135 fs84 outs (Job (run_sample cfg135c) [[!!"s.zip"; !!"s"]]).
Proof. revert outs. sample_ok wc135c 1; [exact d84|intros k J; apply plain84; simpl in *; tauto]. Qed.
(** Two scripts with the same output: both get through, and one result is lost. *)
Theorem C135_same_output_refuted : ~ (forall js schedule fs' ps, side_by_side (out_dirs js) (all_outs js) -> (forall j, In j js -> working135 fs84 (all_outs js) j) -> run_scripts fs84 (map Waiting js) schedule = (fs', ps) ->
  forall i j, nth_error js i = Some j -> nth_error ps i = Some (Going (Running [])) -> delivered fs84 fs' j).
Proof.
  intros H. set (js := [Job (run_sample cfg86) [[!!"s.zip"; !!"s"]]; Job (run_sample cfg135c) [[!!"s.zip"; !!"s"]]]). set (sch := repeat 0 9 ++ repeat 1 9).
  assert (E : nth_error (snd (run_scripts fs84 (map Waiting js) sch)) 0 = Some (Going (Running []))) by (vm_compute; reflexivity).
  assert (F : found (fst (run_scripts fs84 (map Waiting js) sch)) [!!"s.zip"; !!"s"] = Some ([!!"d"], [!!"dd"])) by (vm_compute; reflexivity).
  assert (G : found (fst (run_sample cfg86 fs84)) [!!"s.zip"; !!"s"] = Some ([!!"b"; !!"a"], [!!"bb"; !!"aa"])) by (vm_compute; reflexivity).
  destruct (run_scripts fs84 (map Waiting js) sch) as [f ps] eqn:R. cbn [fst snd] in E, F.
  assert (D : delivered fs84 f (Job (run_sample cfg86) [[!!"s.zip"; !!"s"]])).
  { refine (H js sch f ps _ _ R 0 _ eq_refl E); [sides|]. intros j [<-|[<-|[]]].
    - apply works135c. simpl. intuition discriminate.
    - apply works135d. simpl. intuition discriminate. }
  destruct D as (f0 & E0 & L). cbn [job_main job_outs] in E0, L. destruct (L _ (or_introl eq_refl)) as (b & L0 & L1). rewrite E0 in G. cbn [fst] in G. unfold found, disk_at in F, G. rewrite L1 in F. rewrite L0 in G. rewrite G in F. discriminate F.
Qed.
Print Assumptions C135_at_the_same_time.
Print Assumptions C135_same_as_one_by_one.
Print Assumptions C135_steady.
Print Assumptions C135_input_of_another_refuted.
Print Assumptions C135_same_output_refuted.
