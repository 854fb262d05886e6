(** * Concrete cases for C117 *)
From Coq Require Import Sorted.
From Verif Require Import Prelude PyStr SortLib TextLib Utf8 Order Range Params ParamsSpec ParamsProofs ParamsGet ParamsGetProps ParamsEq SubNamespaces ParamsEval ParamsEvalProps Fs FsProofs FsProps PathLists PathListsProps Decimals Io IoProps KeyValue KeyValueProps KvParams KvParamsProps OsPath OsPathSpec OsPathProofs Scripts ScriptsProps Mains MainsProofs MainsProps MainsWitness ScriptCrash ScriptCrashProps.

(** a zip file cannot be opened before it is finished *)
Definition unfinished117 (b : bytes) : Prop := forall a, unzip marked_zip b <> Ok a.
Notation split117 := (run84 split_moment [] [] marked_zip [] (fun l => l) (fun _ l => rev l) (fun _ _ => Raise AnyError) codes unfinished117).
Notation join117 := (run84 join_moment [] [] marked_zip [] (fun l => l) unfinished117).
Notation sample117 := (run84 downsample_moment [] [] marked_zip [] (fun l => l) (fun _ l => rev l) (fun _ _ => Raise AnyError) unfinished117).
Notation directory117 := (run84 directory_moment [] [] marked_zip [] (fun l => l) (fun l => l) unfinished117).

Example C117_slices_hypotheses : exists ns, slices_wanted [] marked_zip cfg84 fs84 ns [!!"in.zip"] ks84 val84 (PInt 2) 2 None [!!"s"; !!"out"] /\
  forall o, In o (slice_files 2 [!!"s"; !!"out"]) -> free fs84 o /\ o <> [!!"in.zip"].
Proof.
  destruct C84_hypotheses as (ns & W & _ & T & Hin & C & PK & Sn & In_ & Me & Hs & Hd & U & Enc & FO). exists ns. split; [|exact FO]. repeat (split; [assumption|]). split; [discriminate|]. repeat (split; [assumption|]). exact Enc.
Qed.
(** a run killed while closing: the second slice is closed, the first is not *)
Example C117_split_moment_witness : exists st, split117 cfg84 fs84 st  /\
  look st [!!"0.zip"; !!"s"; !!"out"] = Some (KFile [9%N]) /\ found st [!!"1.zip"; !!"s"; !!"out"] = Some ([!!"b"], [!!"bb"]).
Proof.
  set (fs1 := fst (creatable_directory [] cfg84 !!"output_dir" fs84)). set (fs2 := fst (write_text fs1 [!!"_slices.txt"; !!"s"; !!"out"] (slices_text [!!"s"; !!"out"] 2))).
  set (one := match look (fst (run_split cfg84 fs84)) [!!"1.zip"; !!"s"; !!"out"] with Some (KFile b) => b | _ => [] end).
  set (bs := fun i : nat => match i with 0 => [9%N] | _ => one end).
  exists (set_slices fs2 [!!"s"; !!"out"] 2 bs). split; [|split].
  - eapply split_even_slices; [vm_compute; reflexivity|vm_compute; reflexivity|vm_compute; reflexivity|].
    eapply slices_closing with (fs1 := fs1) (dir := [!!"s"; !!"out"]) (nv := PInt 2) (seed := PNone) (fs2 := fs2); [vm_compute; reflexivity|vm_compute; reflexivity|vm_compute; reflexivity|vm_compute; reflexivity|vm_compute; reflexivity|].
    exists 1, bs. split; [repeat constructor|]. split; [intros [|i] L; [intros a; discriminate|inversion L as [|? L']; inversion L']|]. split; [|reflexivity].
    intros [|[|i]] L1 L2; [exfalso; clear -L1; lia| |exfalso; assert (L3 : S (S i) < 2) by exact L2; clear -L3; lia]. unfold closed_bytes. match goal with |- exists a, ?x = Zip a /\ _ => let v := eval vm_compute in x in match v with Zip ?a0 => exists a0 end end. split; vm_compute; reflexivity.
  - vm_compute. reflexivity.
  - vm_compute. reflexivity.
Qed.
(** two killed runs (one killed while closing, one right at its start), and then a complete one *)
Example C117_split_again_witness : exists st, killed_runs (split117 cfg84) fs84 st /\ look st [!!"0.zip"; !!"s"; !!"out"] = Some (KFile [9%N]) /\
  (let (f, e) := run_split cfg84 st in (e, found f [!!"0.zip"; !!"s"; !!"out"], found f [!!"1.zip"; !!"s"; !!"out"])) = (None, Some ([!!"a"; !!"c"], [!!"aa"; !!"cc"]), Some ([!!"b"], [!!"bb"])).
Proof.
  destruct C117_split_moment_witness as (st & Mo & L0 & _). exists st. assert (W : killed_runs (split117 cfg84) fs84 st).
  { eapply one_more; [exact Mo|]. eapply one_more; [apply split_start; reflexivity|]. apply no_run. }
  split; [exact W|]. split; [exact L0|]. destruct C117_slices_hypotheses as (ns & SW & FO).
  destruct (C117_split_again unit (fun _ => Raise AnyError) (fun _ _ => Raise AnyError) (fun _ => None) (fun _ _ => []) (fun _ => true) (fun _ => None) (fun _ => Ok (OUser tt)) (fun _ => false) (fun _ _ => Raise TypeError) (fun _ => false) (fun _ => false)
    [] [] marked_zip [] (fun l => l) (fun _ l => rev l) (fun _ _ => Raise AnyError) codes unfinished117 (fun l => Permutation_refl l) (fun _ l => Permutation_sym (Permutation_rev l)) (Forall_nil _)
    cfg84 fs84 ns [!!"in.zip"] ks84 val84 (PInt 2) 2 None [!!"s"; !!"out"] st wf84 SW FO W) as (_ & _ & f & f' & E & E' & Same).
  rewrite E'. assert (Fd : forall q, found f' q = found f q) by (intros q; unfold found, disk_at; now rewrite Same). rewrite !Fd. assert (Wt := proj1 C84_witness). rewrite E in Wt. exact (f_equal fst Wt).
Qed.
Example C117_downsample_hypotheses : exists ns, sample_wanted [] marked_zip cfg86 fs84 ns [!!"in.zip"] ks84 val84 (PInt 2) 2 PNone !!"s.zip" [!!"s"].
Proof.
  destruct C86_hypotheses as (W & (ns & T & H) & Sn & In_ & Ab & Ho & U & Fr). exists ns. split; [assumption|]. split; [assumption|]. split; [assumption|]. split; [exact in84|]. split; [intros k I; apply plain84; simpl in *; tauto|].
  repeat (split; [assumption|]). split; [discriminate|]. split; [now left|]. repeat (split; [assumption|]). discriminate.
Qed.
Example C117_join_hypotheses : exists ns, join_wanted [] marked_zip cfg85 fs84 ns !!"all.zip" [!!"o"] [([!!"in.zip"], ks84, val84); ([!!"d.zip"], [!!"d"], val84)].
Proof.
  destruct C85_hypotheses as (LI & (ns & T & H) & U & Fr & So & ND & _). exists ns. split; [exact wc85|]. repeat (split; [assumption|]). split; [simpl; intuition discriminate|].
  intros (s & S1 & R). assert (s = !!"list"). { assert (S2 : Stored cfg85 !!"input_store_list_file" (PStr !!"list")) by (apply stored_at; [exact wc85|reflexivity]). assert (E := stored_unique _ _ _ _ (proj1 wc85) S1 S2). congruence. }
  subst s. vm_compute in R. discriminate R.
Qed.
Example C117_directory_hypotheses : exists ns, copy_wanted [] cfg87 fs84 ns !!"keys.zip" [] [!!"keys"] false.
Proof.
  destruct C87_hypotheses as (Hd & Ld & Kc & (ns & T & H) & Fr & Nb & PK & D). exists ns. split; [exact wc87|]. repeat (split; [assumption|]). split; [no_obstacle|]. repeat (split; [assumption|]). exact D.
Qed.
Example C117_explicit_hypotheses : exists ns sns, splits_wanted [] marked_zip cfg88 fs84 ns [!!"in.zip"] ks84 val84 sns [train88; test88] true.
Proof.
  destruct C88_hypotheses as (W & (ns & T & H) & Mn & (sns & Se & Te & Ch) & Ex & Ok_ & A & Kn). exists ns, sns. repeat (split; [assumption|]). split; [exact in84|]. repeat (split; [assumption|]). exact Kn.
Qed.
(** the old output is lost *)
Definition fs117 : list (list str * fnode) := ([!!"s.zip"; !!"s"], file84 [!!"d"]) :: ([!!"s"], KDir) :: fs84.
Example C117_old_output_witness : exists st, sample117 cfg86 fs117 st /\ found fs117 [!!"s.zip"; !!"s"] = Some ([!!"d"], [!!"dd"]) /\ look st [!!"s.zip"; !!"s"] = Some (KFile []) /\ (forall a, unzip marked_zip [] <> Ok a).
Proof.
  exists (set_node fs117 [!!"s.zip"; !!"s"] []). split; [|split; [vm_compute; reflexivity|split; [vm_compute; reflexivity|discriminate]]].
  eapply downsample_zip; try (vm_compute; reflexivity). intros a. discriminate.
Qed.
(** a state while the directories are made, and one with the join's output unfinished *)
Example C117_join_moment_witness : exists st, join117 cfg85 fs84 st /\ look st [!!"o"] = Some KDir /\ look fs84 [!!"o"] = None /\ look st [!!"all.zip"; !!"o"] = Some (KFile [7%N]).
Proof.
  eexists. split; [|split; [|split]].
  - eapply join_sink; [vm_compute; reflexivity|vm_compute; reflexivity|]. right. right. left. split; [vm_compute; reflexivity|]. exists [7%N]. split; [intros a; discriminate|reflexivity].
  - vm_compute. reflexivity.
  - reflexivity.
  - vm_compute. reflexivity.
Qed.
Print Assumptions C117_split_moments.
Print Assumptions C117_split_again.
Print Assumptions C117_downsample.
Print Assumptions C117_join.
Print Assumptions C117_directory.
Print Assumptions C117_explicit_moments.
Print Assumptions C117_explicit_again.
Print Assumptions C117_readable_slice.
Print Assumptions C117_readable_output.
Print Assumptions C117_old_output_refuted.
