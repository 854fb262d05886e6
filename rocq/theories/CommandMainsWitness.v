(** * Concrete cases for the other scripts of C95 *)
From Coq Require Import Sorted.
From Verif Require Import Prelude PyStr SortLib TextLib Utf8 Order Range Params ParamsSpec ParamsProofs ParamsUnify ParamsPairs ParamsProps ParamsGet ParamsGetProps ParamsEval ParamsEvalProps Interp InterpSpec InterpProofs InterpWf InterpProps Load LoadSpec LoadProps
  InterpLoop InterpExpand Fs FsProofs FsProps PathLists PathListsProps Decimals Io IoProps KeyValue KeyValueProps KvParams KvParamsProps Scripts ScriptsProps OsPath OsPathSpec OsPathProofs Mains MainsProofs MainsProps LoadFs LoadFsSpec LoadFsProps Entry EntryProps Command CommandProps MainsWitness.
From Verif Require Import SubNamespaces CommandMains CommandWitness.

Notation ylist l := (YList (map (fun s => ys s) l)).
Definition yaml95b : list (str * yaml) :=
  [(!!"3", YMap [(KStr !!"input_store_list_file", ys !!"list"); (KStr !!"output", yz !!"o/all.zip")]);
   (!!"4", YMap [(KStr !!"input", yz !!"in.zip"); (KStr !!"num_to_sample", YLeaf (PInt 2)); (KStr !!"output_zip_path", ys !!"s/s.zip")]);
   (!!"5", YMap [(KStr !!"input_directory", ys !!"keys"); (KStr !!"output", yz !!"keys.zip")]);
   (!!"6", YMap [(KStr !!"input", yz !!"/in.zip"); (KStr !!"explicit_split", YMap [(KStr !!"train", YMap [(KStr !!"keys_file", ys !!"keys/k1"); (KStr !!"output_file", ys !!"e/train.zip")]);
      (KStr !!"test", YMap [(KStr !!"keys_file", ys !!"keys/k2"); (KStr !!"output_file", ys !!"e/test.zip")])])])].
Definition parse95b (t : str) : res yaml := match dfind yaml95b t with Some t => Ok t | None => Raise AnyError end.
Definition fs95b : list (list str * fnode) := ([!!"3.yaml"], KFile !!"3") :: ([!!"4.yaml"], KFile !!"4") :: ([!!"5.yaml"], KFile !!"5") :: ([!!"6.yaml"], KFile !!"6") :: fs84.
Definition m3 : data_t := [(!!"input_store_list_file", PStr !!"list"); (!!"output", zmap !!"o/all.zip")].
Definition m4 : data_t := [(!!"input", zmap !!"in.zip"); (!!"num_to_sample", PInt 2); (!!"output_zip_path", PStr !!"s/s.zip")].
Definition m5 : data_t := [(!!"input_directory", PStr !!"keys"); (!!"output", zmap !!"keys.zip")].
Definition m6 : data_t := [(!!"input", zmap !!"/in.zip"); (!!"explicit_split", PMap [(!!"train", PMap [(!!"keys_file", PStr !!"keys/k1"); (!!"output_file", PStr !!"e/train.zip")]);
  (!!"test", PMap [(!!"keys_file", PStr !!"keys/k2"); (!!"output_file", PStr !!"e/test.zip")])])].
Notation run95b main args fs := (command (fun _ lg => (lg, Ok tt)) word_ascii ft1 parse95b [] [] main 5 args fs (MkLogger 30 [])).
Lemma parse95b_wf : forall t y, parse95b t = Ok y -> yaml_wf y.
Proof.
  intros t y. unfold parse95b. destruct (dfind yaml95b t) as [z|] eqn:E; [|discriminate]. intros H. injection H as <-. apply dfind_in in E. simpl in E.
  repeat (destruct E as [E|E]; [injection E as _ <-; yaml_wf_tac|]). all: contradiction.
Qed.
Ltac dotless_in m := let K := fresh in intros K; apply all_keys_in in K; unfold m in K; cbn [zmap all_keys flat_map fst snd app] in K; repeat (destruct K as [<-|K]; [vm_compute; intuition discriminate|]); destruct K.
Ltac simple_tac m txt := let k := fresh in let x := fresh in let t := fresh in let n := fresh in let V := fresh in
  split; [exists txt; eexists; split; [exists txt, txt; split; [reflexivity|split; reflexivity]|]; split; [reflexivity|]; split; [|reflexivity]; match goal with |- string_keys ?y => exact (check_keys_spec y) end|
  split; [intros k; dotless_in m|split; [reflexivity|intros x t n V; unfold m, zmap in V; leafs V]]].
Lemma simple3 : simple_file word_ascii parse95b fs95b [!!"3.yaml"] m3. Proof. simple_tac m3 !!"3". Qed.
Lemma simple4 : simple_file word_ascii parse95b fs95b [!!"4.yaml"] m4. Proof. simple_tac m4 !!"4". Qed.
Lemma simple5 : simple_file word_ascii parse95b fs95b [!!"5.yaml"] m5. Proof. simple_tac m5 !!"5". Qed.
Lemma simple6 : simple_file word_ascii parse95b fs95b [!!"6.yaml"] m6. Proof. simple_tac m6 !!"6". Qed.
Lemma compat_none m : compatible m [].
Proof. split; [constructor|]. split; [intros l1 p v l2 q w l3 E; destruct l1; discriminate E|]. intros x v. destruct x; split; intros [A B]; discriminate. Qed.
Lemma alone f : is_value f = true -> Spells [f] f [] /\ Forall (fun w => value_word w \/ w = !!"-p") [f].
Proof. intros v. split; [|apply Forall_cons; [left; now apply value_check|apply Forall_nil]]. exists [], [], [], []. split; [reflexivity|]. split; [now apply value_check|]. split; [constructor|]. split; [constructor|reflexivity]. Qed.
Lemma wf95b : wf_fs fs95b. Proof. wf_files. Qed.
Lemma in95b : holds marked_zip fs95b [!!"in.zip"] ks84 val84.
Proof. apply holds84; [repeat constructor; simpl; intuition discriminate|intros k I; apply plain84; simpl in *; tauto|reflexivity]. Qed.
Lemma d95b : holds marked_zip fs95b [!!"d.zip"] [!!"d"] val84.
Proof. apply holds84; [repeat constructor; simpl; intuition discriminate|intros k I; apply plain84; simpl in *; tauto|reflexivity]. Qed.
Ltac file_tac := split; [apply alone; reflexivity|]; split; [apply alone; reflexivity|]; split; [apply find_leads; vm_compute; reflexivity|].
Ltac zip_tac p := split; [reflexivity|]; split; [left; reflexivity|]; split; [left; reflexivity|]; exists p; split; reflexivity.

Example C95_join_hypotheses : let V := effective m3 [] in
  Spells [!!"3.yaml"] !!"3.yaml" [] /\ Forall (fun w => value_word w \/ w = !!"-p") [!!"3.yaml"] /\ leads fs95b [] !!"3.yaml" [!!"3.yaml"] /\ asks_level V 20 /\
  listed [] V fs95b [!!"/in.zip"; !!"d.zip"] /\ Forall2 (leads fs95b []) [!!"/in.zip"; !!"d.zip"] (map (fun x => fst (fst x)) [([!!"in.zip"], ks84, val84); ([!!"d.zip"], [!!"d"], val84)]) /\
  stores_ok marked_zip fs95b [([!!"in.zip"], ks84, val84); ([!!"d.zip"], [!!"d"], val84)] /\ NoDup (stored_keys [([!!"in.zip"], ks84, val84); ([!!"d.zip"], [!!"d"], val84)]) /\
  zip_file [] V !!"output" [!!"all.zip"; !!"o"] /\ unblocked fs95b [!!"o"] /\ free fs95b [!!"all.zip"; !!"o"].
Proof.
  intros V. file_tac. split; [apply asks_default; left; reflexivity|]. split.
  { eapply (listed_file [] V fs95b _ [!!"list"] _ _ [!!"/in.zip"; !!"d.zip"]); [exists !!"list"; split; reflexivity|reflexivity|vm_compute; reflexivity| |].
    - assert (U : forall s, forallb (fun c => negb (line_break c)) s = true -> unbroken s). { intros s H c I. rewrite forallb_forall in H. specialize (H c I). now destruct (line_break c). }
      apply (pc_break !!"/in.zip" LF (!!"d.zip" ++ [LF]) [!!"d.zip"]); [apply U; reflexivity|reflexivity|intros H; discriminate|].
      apply (pc_break !!"d.zip" LF [] []); [apply U; reflexivity|reflexivity|intros H; discriminate|constructor].
    - apply ke_keep; [strips|discriminate|]. apply ke_keep; [strips|discriminate|]. constructor. }
  split; [constructor; [apply find_leads; vm_compute; reflexivity|]; constructor; [apply find_leads; vm_compute; reflexivity|]; constructor|].
  split; [intros q ks v [E|[E|[]]]; injection E as <- <- <-; (split; [exact in95b || exact d95b|]); intros k I; apply plain84; simpl in *; tauto|].
  split; [repeat constructor; simpl; intuition discriminate|]. split; [zip_tac !!"o/all.zip"|]. split; [no_obstacle|left; reflexivity].
Qed.
Example C95_downsample_hypotheses : let V := effective m4 [] in
  Spells [!!"4.yaml"] !!"4.yaml" [] /\ Forall (fun w => value_word w \/ w = !!"-p") [!!"4.yaml"] /\ leads fs95b [] !!"4.yaml" [!!"4.yaml"] /\ asks_level V 20 /\
  zip_file [] V !!"input" [!!"in.zip"] /\ V [!!"num_to_sample"] = Some (Leaf (PInt (Z.of_nat 2))) /\ V [!!"random_seed"] = None /\ path_of [] V !!"output_zip_path" [!!"s.zip"; !!"s"] /\
  unblocked fs95b [!!"s"] /\ free fs95b [!!"s.zip"; !!"s"].
Proof.
  intros V. file_tac. split; [apply asks_default; left; reflexivity|]. split; [zip_tac !!"in.zip"|]. split; [reflexivity|]. split; [reflexivity|]. split; [exists !!"s/s.zip"; split; reflexivity|]. split; [no_obstacle|left; reflexivity].
Qed.
Example C95_directory_hypotheses : let V := effective m5 [] in
  Spells [!!"5.yaml"] !!"5.yaml" [] /\ Forall (fun w => value_word w \/ w = !!"-p") [!!"5.yaml"] /\ leads fs95b [] !!"5.yaml" [!!"5.yaml"] /\ asks_level V 20 /\
  path_of [] V !!"input_directory" [!!"keys"] /\ look fs95b [!!"keys"] = Some KDir /\ key_named V false /\ zip_file [] V !!"output" [!!"keys.zip"] /\ unblocked fs95b [] /\ free fs95b [!!"keys.zip"] /\ ~ below [!!"keys"] [!!"keys.zip"].
Proof.
  intros V. file_tac. split; [apply asks_default; left; reflexivity|]. split; [exists !!"keys"; split; reflexivity|]. split; [reflexivity|]. split; [left; left; reflexivity|]. split; [zip_tac !!"keys.zip"|]. split; [no_obstacle|]. split; [left; reflexivity|].
  rewrite <- at_or_below_spec. vm_compute. discriminate.
Qed.
Definition train95 : part := {| pt_name := !!"train"; pt_file := [!!"k1"; !!"keys"]; pt_keys := [!!"a"; !!"c"]; pt_out := [!!"train.zip"; !!"e"] |}.
Definition test95 : part := {| pt_name := !!"test"; pt_file := [!!"k2"; !!"keys"]; pt_keys := [!!"b"]; pt_out := [!!"test.zip"; !!"e"] |}.
Ltac keys95 := eexists _, _, _, _; split; [reflexivity|]; split; [vm_compute; reflexivity|]; split; [apply universal_spec|]; split; [apply rstripped_lines_of|]; vm_compute; intros k; split;
  [intros I; repeat (destruct I as [<-|I]; [split; [tauto|discriminate]|]); destruct I|intros (I & N); repeat (destruct I as [<-|I]; [solve [auto|congruence]|]); destruct I].
Lemma no_list95 (a b u v : str) y li : merge1 (view (PMap [(a, PStr u); (b, PStr v)]) y) None <> Some (Leaf (PList li)).
Proof. destruct y as [|k y]; [discriminate|]. cbn [view dfind]. destruct (str_eqb a k); [destruct y; discriminate|]. destruct (str_eqb b k); [destruct y; discriminate|discriminate]. Qed.
Example C95_explicit_split_hypotheses : let V := effective m6 [] in
  Spells [!!"6.yaml"] !!"6.yaml" [] /\ Forall (fun w => value_word w \/ w = !!"-p") [!!"6.yaml"] /\ leads fs95b [] !!"6.yaml" [!!"6.yaml"] /\ asks_level V 20 /\
  zip_file [] V !!"input" [!!"in.zip"] /\ unset (V [!!"num_slices"]) /\ parts_are V [train95; test95] /\ exhaustive_is V true /\ 
  (forall x, In x [train95; test95] -> part_ok [] V fs95b x /\ pt_out x <> [!!"in.zip"]) /\ parts_apart [train95; test95] /\ (forall x k, In x [train95; test95] -> In k (pt_keys x) -> In k ks84).
Proof.
  intros V. file_tac. split; [apply asks_default; left; reflexivity|]. split; [zip_tac !!"/in.zip"|]. split; [left; reflexivity|]. split; [|split; [left; split; reflexivity|split; [|split; [split|]]]].
  - split; [reflexivity|]. split; [repeat constructor; simpl; intuition discriminate|]. intros n. cbn [map pt_name train95 test95]. split.
    + intros [<-|[<-|[]]]; reflexivity.
    + unfold V, effective. intros E. change (merge1 (match dfind [(!!"train", PMap [(!!"keys_file", PStr !!"keys/k1"); (!!"output_file", PStr !!"e/train.zip")]); (!!"test", PMap [(!!"keys_file", PStr !!"keys/k2"); (!!"output_file", PStr !!"e/test.zip")])] n with
        Some x => view x [] | None => None end) None = Some Namespace) in E. cbn [dfind] in E.
      destruct (str_eqb !!"train" n) eqn:A; [apply str_eqb_eq in A; now left|]. destruct (str_eqb !!"test" n) eqn:B; [apply str_eqb_eq in B; right; now left|]. discriminate E.
  - intros x [<-|[<-|[]]]; (split; [|discriminate]); unfold part_ok; cbn [pt_name pt_file pt_keys pt_out train95 test95].
    + split; [exists !!"keys/k1"; split; reflexivity|]. split; [keys95|]. split; [repeat constructor; simpl; intuition discriminate|]. split; [intros k I; apply plain84; simpl in *; tauto|]. split; [exists !!"e/train.zip"; split; reflexivity|]. split; [discriminate|]. split; [no_obstacle|]. split; [left; reflexivity|]. intros y li. apply no_list95.
    + split; [exists !!"keys/k2"; split; reflexivity|]. split; [keys95|]. split; [repeat constructor; simpl; intuition discriminate|]. split; [intros k I; apply plain84; simpl in *; tauto|]. split; [exists !!"e/test.zip"; split; reflexivity|]. split; [discriminate|]. split; [no_obstacle|]. split; [left; reflexivity|]. intros y li. apply no_list95.
  - repeat constructor; simpl; intuition discriminate.
  - intros x y [<-|[<-|[]]] [<-|[<-|[]]]; (split; [rewrite <- at_or_below_spec; vm_compute; discriminate|discriminate]).
  - intros x k [<-|[<-|[]]] I; simpl in *; tauto.
Qed.
Definition outcome95 (r : outcome) (qs : list (list str)) : option (option exn * list (option (list str * list bytes))) := match r with Done fs' _ e => Some (e, map (found fs') qs) | Usage => None end.
Example C95_scripts_witness :
  outcome95 (run95b run_join [!!"3.yaml"] fs95b) [[!!"all.zip"; !!"o"]] = Some (None, [Some ([!!"c"; !!"a"; !!"b"; !!"d"], [!!"cc"; !!"aa"; !!"bb"; !!"dd"])]) /\
  outcome95 (run95b run_sample [!!"4.yaml"] fs95b) [[!!"s.zip"; !!"s"]] = Some (None, [Some ([!!"b"; !!"a"], [!!"bb"; !!"aa"])]) /\
  outcome95 (run95b (run_directory []) [!!"5.yaml"] fs95b) [[!!"keys.zip"]] = Some (None, [Some ([!!"k1"; !!"k2"], [!!"a" ++ [LF; LF] ++ !!"c"; !!"b" ++ [LF]])]) /\
  outcome95 (run95b run_split [!!"6.yaml"] fs95b) [[!!"train.zip"; !!"e"]; [!!"test.zip"; !!"e"]] = Some (None, [Some ([!!"a"; !!"c"], [!!"aa"; !!"cc"]); Some ([!!"b"], [!!"bb"])]).
Proof. repeat split; vm_compute; reflexivity. Qed.
Print Assumptions C95_join.
Print Assumptions C95_downsample.
Print Assumptions C95_directory.
Print Assumptions C95_explicit_split.
