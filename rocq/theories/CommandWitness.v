(** * A concrete case for C95: all hypotheses of the theorems hold for it, and the results are computed *)
From Coq Require Import Sorted.
From Verif Require Import Prelude PyStr SortLib TextLib Utf8 Order Range Params ParamsSpec ParamsProofs ParamsUnify ParamsPairs ParamsProps ParamsGet ParamsGetProps ParamsEval ParamsEvalProps Interp InterpSpec InterpProofs InterpWf InterpProps Load LoadSpec LoadProps
  InterpLoop InterpExpand Fs FsProofs FsProps PathLists PathListsProps Decimals Io IoProps KeyValue KeyValueProps KvParams KvParamsProps Scripts ScriptsProps OsPath OsPathSpec OsPathProofs Mains MainsProofs MainsProps LoadFs LoadFsSpec LoadFsProps Entry EntryProps Command CommandProps MainsWitness.

Notation yz path := (YMap [(KStr !!"type", ys !!"zip"); (KStr !!"path", ys path)]).
Definition yaml95 : list (str * yaml) :=
  [(!!"1", YMap [(KStr !!"input", yz !!"/in.zip"); (KStr !!"num_slices", YLeaf (PInt 2)); (KStr !!"output_dir", ys !!"elsewhere")]);
   (!!"2", YMap [(KStr !!"input_store_list_file", ys !!"out/s/_slices.txt"); (KStr !!"output", yz !!"back.zip"); (KStr !!"logging", YMap [(KStr !!"root_level", ys !!"DEBUG")])])].
Definition parse95 (t : str) : res yaml := match dfind yaml95 t with Some t => Ok t | None => Raise AnyError end.
Definition fs95 : list (list str * fnode) := ([!!"1.yaml"], KFile !!"1") :: ([!!"2.yaml"; !!"cfg"], KFile !!"2") :: ([!!"cfg"], KDir) :: fs84.
Definition zmap (path : str) : pv := PMap [(!!"type", PStr !!"zip"); (!!"path", PStr path)].
Definition m1 : data_t := [(!!"input", zmap !!"/in.zip"); (!!"num_slices", PInt 2); (!!"output_dir", PStr !!"elsewhere")].
Definition m2 : data_t := [(!!"input_store_list_file", PStr !!"out/s/_slices.txt"); (!!"output", zmap !!"back.zip"); (!!"logging", PMap [(!!"root_level", PStr !!"DEBUG")])].
Definition args1 : list str := [!!"-p"; !!"output_dir"; !!"out/s"; !!"1.yaml"].
Definition args2 : list str := [!!"cfg/../cfg/2.yaml"].
Notation run95 main args fs := (command (fun _ lg => (lg, Ok tt)) word_ascii ft1 parse95 [] [] main 5 args fs (MkLogger 30 [])).

Lemma parse95_wf : forall t y, parse95 t = Ok y -> yaml_wf y.
Proof.
  intros t y. unfold parse95. destruct (dfind yaml95 t) as [z|] eqn:E; [|discriminate]. intros H. injection H as <-. apply dfind_in in E. simpl in E.
  repeat (destruct E as [E|E]; [injection E as _ <-; yaml_wf_tac|]). all: contradiction.
Qed.
Lemma value_check w : is_value w = true -> value_word w. Proof. apply value_spec. Qed.
Lemma wf95 : wf_fs fs95. Proof. wf_files. Qed.
Lemma in95 : holds marked_zip fs95 [!!"in.zip"] ks84 val84.
Proof. unfold holds, disk_at. replace (look fs95 [!!"in.zip"]) with (look fs84 [!!"in.zip"]) by reflexivity. exact in84. Qed.
Ltac no_refs := let R := fresh in intros R; apply refers_to_iff in R; [|reflexivity]; vm_compute in R; exact R.
Ltac leafs V := lazymatch type of V with
  | view _ ?x = _ => destruct x as [|? x]; [cbn [view] in V; first [discriminate V|injection V as <-; no_refs]|cbn [view dfind] in V; leafs V]
  | match (if str_eqb ?a ?k then _ else _) with _ => _ end = _ => destruct (str_eqb a k); leafs V
  | _ => discriminate V
  end.
Lemma no_refs1 x t n : view (PMap m1) x = Some (Leaf (PStr t)) -> ~ refers_to word_ascii t n.
Proof. unfold m1, zmap. intros V. leafs V. Qed.
Lemma no_refs2 x t n : view (PMap m2) x = Some (Leaf (PStr t)) -> ~ refers_to word_ascii t n.
Proof. unfold m2, zmap. intros V. leafs V. Qed.
(** all keys of a mapping of at most two levels *)
Fixpoint all_keys (v : pv) : list str := match v with PMap m => flat_map (fun kv => fst kv :: all_keys (snd kv)) m | _ => [] end.
Lemma all_keys_in v k : nested_key v k -> In k (all_keys v).
Proof. induction 1 as [m k x I|m k x k' I _ IH]; cbn [all_keys]; apply in_flat_map; exists (k, x); cbn [fst snd]; simpl; auto. Qed.
Ltac dotless_tac := let K := fresh in intros K; apply all_keys_in in K; cbn [m1 m2 zmap all_keys flat_map fst snd app] in K; repeat (destruct K as [<-|K]; [vm_compute; intuition discriminate|]); destruct K.
Lemma dotless1 k : nested_key (PMap m1) k -> dotless k.
Proof. dotless_tac. Qed.
Lemma dotless2 k : nested_key (PMap m2) k -> dotless k.
Proof. dotless_tac. Qed.
Lemma text95 q t : look fs95 q = Some (KFile t) -> encode t = Ok t -> universal_newlines t = t -> text_at fs95 q t.
Proof. intros L E U. exists t, t. auto. Qed.
Lemma simple1 : simple_file word_ascii parse95 fs95 [!!"1.yaml"] m1.
Proof.
  split; [|split; [exact dotless1|split; [reflexivity|exact no_refs1]]]. exists !!"1". eexists. split; [apply text95; reflexivity|]. split; [reflexivity|]. split; [|reflexivity]. match goal with |- string_keys ?y => exact (check_keys_spec y) end.
Qed.
Lemma simple2 : simple_file word_ascii parse95 fs95 [!!"2.yaml"; !!"cfg"] m2.
Proof.
  split; [|split; [exact dotless2|split; [reflexivity|exact no_refs2]]]. exists !!"2". eexists. split; [apply text95; reflexivity|]. split; [reflexivity|]. split; [|reflexivity]. match goal with |- string_keys ?y => exact (check_keys_spec y) end.
Qed.
Lemma compat1 : compatible m1 [(!!"output_dir", !!"out/s")].
Proof.
  split; [repeat constructor; discriminate|]. split.
  - intros l1 p v l2 q w l3 E. destruct l1 as [|? [|? ?]]; [|discriminate E|discriminate E]. injection E as _ _ E. destruct l2; discriminate E.
  - intros x v. destruct x as [|k x]; [split; intros [A B]; discriminate|]. change (rev (override_leaves [(!!"output_dir", !!"out/s")])) with [([!!"output_dir"], PStr !!"out/s")]. cbn [decided is_prefix andb].
    destruct (str_eqb !!"output_dir" k) eqn:K.
    + apply str_eqb_eq in K. subst k. split; intros [A B]; [|destruct x; discriminate A]. cbn [andb] in B. destruct x; discriminate B.
    + cbn [andb]. destruct (str_eqb k !!"output_dir") eqn:K2; [apply str_eqb_eq in K2; subst k; discriminate K|]. cbn [andb]. split; intros [A B]; discriminate B.
Qed.
Lemma compat2 : compatible m2 [].
Proof.
  split; [constructor|]. split; [intros l1 p v l2 q w l3 E; destruct l1; discriminate E|]. intros x v. destruct x; split; intros [A B]; discriminate.
Qed.
(** The hypotheses of C95_split_then_join (which are those of C95_split and some more) *)
Example C95_hypotheses :
  Forall (fun w => value_word w \/ w = !!"-p") args1 /\ Spells args1 !!"1.yaml" [(!!"output_dir", !!"out/s")] /\ leads fs95 [] !!"1.yaml" [!!"1.yaml"] /\ simple_file word_ascii parse95 fs95 [!!"1.yaml"] m1 /\
  compatible m1 [(!!"output_dir", !!"out/s")] /\
  let V := effective m1 [(!!"output_dir", !!"out/s")] in
  asks_level V 20 /\ zip_file [] V !!"input" [!!"in.zip"] /\ V [!!"num_slices"] = Some (Leaf (PInt (Z.of_nat 2))) /\ unset (V [!!"explicit_split"]) /\ seed_is V None /\ path_of [] V !!"output_dir" [!!"s"; !!"out"] /\
  wf_fs fs95 /\ holds marked_zip fs95 [!!"in.zip"] ks84 val84 /\ unblocked fs95 [!!"s"; !!"out"] /\ (forall o, In o (split_outs [!!"s"; !!"out"] 2) -> free fs95 o /\ o <> [!!"in.zip"]) /\
  Forall (fun w => value_word w \/ w = !!"-p") args2 /\ Spells args2 !!"cfg/../cfg/2.yaml" [] /\ leads fs95 [] !!"cfg/../cfg/2.yaml" [!!"2.yaml"; !!"cfg"] /\ simple_file word_ascii parse95 fs95 [!!"2.yaml"; !!"cfg"] m2 /\ compatible m2 [] /\
  let V2 := effective m2 [] in
  asks_level V2 10 /\ path_of [] V2 !!"input_store_list_file" [!!"_slices.txt"; !!"s"; !!"out"] /\ zip_file [] V2 !!"output" [!!"back.zip"].
Proof.
  split; [repeat (apply Forall_cons; [first [right; reflexivity|left; apply value_check; reflexivity]|]); apply Forall_nil|].
  split; [exists [!!"-p"; !!"output_dir"; !!"out/s"], [], [(!!"output_dir", !!"out/s")], []; split; [reflexivity|]; split; [apply value_check; reflexivity|]; split; [apply pairs_more; [apply value_check; reflexivity|apply value_check; reflexivity|constructor]|]; split; [constructor|reflexivity]|].
  split; [split; [vm_compute; intuition discriminate|]; right; split; [discriminate|]; vm_compute py_split; op|]. split; [exact simple1|]. split; [exact compat1|]. cbv zeta.
  split; [apply asks_default; left; reflexivity|]. split; [split; [reflexivity|]; split; [left; reflexivity|]; split; [left; reflexivity|]; exists !!"/in.zip"; split; reflexivity|].
  split; [reflexivity|]. split; [left; reflexivity|]. split; [left; reflexivity|]. split; [exists !!"out/s"; split; reflexivity|]. split; [exact wf95|]. split; [exact in95|]. split; [no_obstacle|].
  split; [intros o [<-|[<-|[<-|[]]]]; (split; [left; reflexivity|discriminate])|].
  split; [apply Forall_cons; [left; apply value_check; reflexivity|apply Forall_nil]|].
  split; [exists [], [], [], []; split; [reflexivity|]; split; [apply value_check; reflexivity|]; split; [constructor|]; split; [constructor|reflexivity]|].
  split; [split; [vm_compute; intuition discriminate|]; right; split; [discriminate|]; vm_compute py_split; op|]. split; [exact simple2|]. split; [exact compat2|].
  split; [apply (asks_given _ !!"DEBUG"); [left; reflexivity|reflexivity|constructor]|]. split; [exists !!"out/s/_slices.txt"; split; reflexivity|].
  split; [reflexivity|]. split; [left; reflexivity|]. split; [left; reflexivity|]. exists !!"back.zip". split; reflexivity.
Qed.
Example C95_witness :
  match run95 run_split args1 fs95 with
  | Done fs1 lg1 None => (lg1, found fs1 [!!"0.zip"; !!"s"; !!"out"]) = (MkLogger 20 [20%Z], Some ([!!"a"; !!"c"], [!!"aa"; !!"cc"])) /\
      match run95 run_join args2 fs1 with Done fs2 lg2 None => (lg2, found fs2 [!!"back.zip"]) = (MkLogger 10 [10%Z], Some ([!!"a"; !!"c"; !!"b"], [!!"aa"; !!"cc"; !!"bb"])) | _ => False end
  | _ => False
  end /\
  (* numbers cannot be overridden *)
  match run95 run_split (args1 ++ [!!"-p"; !!"num_slices"; !!"3"]) fs95 with Done fs1 _ (Some ParameterError) => (look fs1 [!!"s"; !!"out"], look fs1 [!!"_slices.txt"; !!"s"; !!"out"]) = (Some KDir, None) | _ => False end /\
  (* usage errors *)
  run95 run_split [!!"-p"; !!"a"; !!"1.yaml"] fs95 = Usage /\ run95 run_split [] fs95 = Usage /\ run95 run_split [!!"1.yaml"; !!"cfg"] fs95 = Usage /\ parse_args [!!"-"; !!"-p"; !!"x"; !!"-1.5"] = Some (!!"-", [(!!"x", !!"-1.5")]) /\
  (* a file that cannot be loaded *)
  run95 run_split [!!"3.yaml"] fs95 = Done fs95 (MkLogger 30 []) (Some FileNotFoundError).
Proof. repeat split; vm_compute; repeat split; reflexivity. Qed.
