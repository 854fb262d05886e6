(** * Concrete cases for C126: the hypotheses of its theorems hold for them, and the results are computed *)
From Coq Require Import Sorted.
From Verif Require Import Prelude PyStr SortLib TextLib Utf8 Order Range Params ParamsSpec ParamsProofs ParamsGet ParamsGetProps ParamsEq SubNamespaces ParamsEval ParamsEvalProps Fs FsProofs FsProps PathLists PathListsProps Decimals Io IoProps KeyValue KeyValueProps KvParams KvParamsProps OsPath OsPathSpec OsPathProofs Scripts ScriptsProps Mains MainsProofs MainsProps MainsWitness MainsSample.

(** Two stores with the same pairs, listed in different orders, *)
Definition fs126 : list (list str * fnode) := [([!!"ab.zip"], file84 [!!"a"; !!"b"]); ([!!"ba.zip"], file84 [!!"b"; !!"a"])].
(** one of which is sampled *)
Definition cfg126 (input : str) (n : Z) : pv := PParams [] [zip_at !!"input" input; (!!"num_to_sample", PInt n); (!!"random_seed", PInt 5); (!!"output_zip_path", PStr !!"s/s.zip")].
(** or split. *)
Definition cfg126s (input : str) : pv := PParams [] [zip_at !!"input" input; (!!"num_slices", PInt 2); (!!"random_seed", PInt 5); (!!"output_dir", PStr !!"out")].
Lemma wf126 : wf_fs fs126. Proof. wf_files. Qed.
Lemma wc126 n : wf_params (cfg126 !!"ab.zip" n) /\ wf_params (cfg126 !!"ba.zip" n). Proof. split; wf_cfg. Qed.
Lemma wc126s : wf_params (cfg126s !!"ab.zip") /\ wf_params (cfg126s !!"ba.zip"). Proof. split; wf_cfg. Qed.
Lemma ab126 : holds marked_zip fs126 [!!"ab.zip"] [!!"a"; !!"b"] val84.
Proof. apply holds84; [|intros k I; apply plain84; simpl in *; tauto|reflexivity]. repeat constructor; simpl; intuition discriminate. Qed.
Lemma ba126 : holds marked_zip fs126 [!!"ba.zip"] [!!"b"; !!"a"] val84.
Proof. apply holds84; [|intros k I; apply plain84; simpl in *; tauto|reflexivity]. repeat constructor; simpl; intuition discriminate. Qed.
Ltac typed126 W := eexists; lazymatch type of W with wf_params ?c => destruct (typed_at c !!"input" _ W eq_refl eq_refl eq_refl eq_refl eq_refl) as (T & W'); split; [exact T|]; eapply resolve_names; [exact W'|reflexivity|reflexivity] end.
Ltac sample126 W := split; [exact W|]; split; [exact wf126|]; split; [typed126 W|]; split; [try exact ab126; exact (contains_perm _ _ _ _ ba126 (perm_swap _ _ _))|]; split; [intros k I; apply plain84; simpl in *; tauto|];
  split; [eexists; split; [apply stored_at; [exact W|reflexivity]|constructor]|]; split; [discriminate|]; split; [right; eexists; split; [apply stored_at; [exact W|reflexivity]|constructor]|];
  exists !!"s.zip", [!!"s"]; split; [reflexivity|]; split; [eapply resolve_names; [exact W|reflexivity|reflexivity]|]; split; [no_obstacle|]; split; [left; reflexivity|discriminate].
Lemma setup_ab : forall n, n = 1 \/ n = 2 -> sample_setup [] marked_zip (cfg126 !!"ab.zip" (Z.of_nat n)) fs126 [!!"ab.zip"] [!!"a"; !!"b"] val84 n 5 [!!"s.zip"; !!"s"].
Proof. intros n [-> | ->]; [assert (W := proj1 (wc126 1))|assert (W := proj1 (wc126 2))]; sample126 W. Qed.
Lemma setup_ba : sample_setup [] marked_zip (cfg126 !!"ba.zip" 1) fs126 [!!"ba.zip"] [!!"a"; !!"b"] val84 1 5 [!!"s.zip"; !!"s"].
Proof. assert (W := proj2 (wc126 1)); sample126 W. Qed.
Ltac split126 W := split; [exact W|]; split; [exact wf126|]; split; [typed126 W|]; split; [first [exact ab126|exact ba126]|]; split; [intros k I; apply plain84; simpl in *; tauto|];
  split; [eexists; split; [apply stored_at; [exact W|reflexivity]|constructor]|]; split; [discriminate|]; split; [apply missing_at; [exact W|reflexivity]|];
  split; [eexists; split; [apply stored_at; [exact W|reflexivity]|split; [constructor|reflexivity]]|]; split; [eapply resolve_names; [exact W|reflexivity|reflexivity]|]; split; [no_obstacle|];
  split; [repeat (apply Forall_cons; [apply enc_check; reflexivity|]); apply Forall_nil|];
  intros o [->|(i & L & ->)]; [|destruct i as [|[|i]]; [| |exfalso; clear -L; lia]]; (split; [left; reflexivity|discriminate]).
Lemma split_ab : split_setup [] marked_zip (cfg126s !!"ab.zip") fs126 [!!"ab.zip"] [!!"a"; !!"b"] val84 2 (Some 5%Z) [!!"out"].
Proof. assert (W := proj1 wc126s); split126 W. Qed.
Lemma split_ba : split_setup [] marked_zip (cfg126s !!"ba.zip") fs126 [!!"ba.zip"] [!!"b"; !!"a"] val84 2 (Some 5%Z) [!!"out"].
Proof. assert (W := proj2 wc126s); split126 W. Qed.
Example C126_hypotheses : sample_setup [] marked_zip (cfg126 !!"ab.zip" 1) fs126 [!!"ab.zip"] [!!"a"; !!"b"] val84 1 5 [!!"s.zip"; !!"s"] /\
  sample_setup [] marked_zip (cfg126 !!"ba.zip" 1) fs126 [!!"ba.zip"] [!!"a"; !!"b"] val84 1 5 [!!"s.zip"; !!"s"] /\
  sample_setup [] marked_zip (cfg126 !!"ab.zip" 2) fs126 [!!"ab.zip"] [!!"a"; !!"b"] val84 2 5 [!!"s.zip"; !!"s"] /\
  key_list marked_zip fs126 [!!"ab.zip"] [!!"a"; !!"b"] /\ key_list marked_zip fs126 [!!"ba.zip"] [!!"b"; !!"a"] /\ by_position (@rev str) /\
  split_setup [] marked_zip (cfg126s !!"ab.zip") fs126 [!!"ab.zip"] [!!"a"; !!"b"] val84 2 (Some 5%Z) [!!"out"] /\
  split_setup [] marked_zip (cfg126s !!"ba.zip") fs126 [!!"ba.zip"] [!!"b"; !!"a"] val84 2 (Some 5%Z) [!!"out"].
Proof.
  split; [exact (setup_ab 1 (or_introl eq_refl))|]. split; [exact setup_ba|]. split; [exact (setup_ab 2 (or_intror eq_refl))|].
  split; [do 2 eexists; split; [reflexivity|]; split; vm_compute; reflexivity|]. split; [do 2 eexists; split; [reflexivity|]; split; vm_compute; reflexivity|].
  split; [intros f l; symmetry; apply map_rev|]. split; [exact split_ab|exact split_ba].
Qed.
(** In a process with the other order of sets. *)
Notation run_sample' := (run84 downsample_main [] [] marked_zip [] (@rev str) (fun _ l => rev l) (fun _ _ => Raise AnyError)).
Example C126_witness :
  (let (fs, e) := run_sample (cfg126 !!"ab.zip" 1) fs126 in (e, found fs [!!"s.zip"; !!"s"])) = (None, Some ([!!"b"], [!!"bb"])) /\
  (let (fs, e) := run_sample' (cfg126 !!"ab.zip" 1) fs126 in (e, found fs [!!"s.zip"; !!"s"])) = (None, Some ([!!"b"], [!!"bb"])) /\
  (let (fs, e) := run_sample (cfg126 !!"ba.zip" 1) fs126 in (e, found fs [!!"s.zip"; !!"s"])) = (None, Some ([!!"a"], [!!"aa"])) /\
  (let (fs, e) := run_sample (cfg126 !!"ab.zip" 2) fs126 in (e, found fs [!!"s.zip"; !!"s"])) = (None, Some ([!!"b"; !!"a"], [!!"bb"; !!"aa"])) /\
  (let (fs, e) := run_sample' (cfg126 !!"ab.zip" 2) fs126 in (e, found fs [!!"s.zip"; !!"s"])) = (None, Some ([!!"a"; !!"b"], [!!"aa"; !!"bb"])) /\
  (let (fs, e) := run_split (cfg126s !!"ab.zip") fs126 in (e, found fs [!!"0.zip"; !!"out"], found fs [!!"1.zip"; !!"out"])) = (None, Some ([!!"b"], [!!"bb"]), Some ([!!"a"], [!!"aa"])) /\
  (let (fs, e) := run_split (cfg126s !!"ba.zip") fs126 in (e, found fs [!!"0.zip"; !!"out"], found fs [!!"1.zip"; !!"out"])) = (None, Some ([!!"b"], [!!"bb"]), Some ([!!"a"], [!!"aa"])).
Proof. repeat split; vm_compute; reflexivity. Qed.
Print Assumptions C86_which.
Print Assumptions C126_sample_repeatable.
Print Assumptions C126_output_order_refuted.
Print Assumptions C126_same_pairs_refuted.
Print Assumptions C126_split_same.
