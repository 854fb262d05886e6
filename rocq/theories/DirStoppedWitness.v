(** * Concrete cases for C97_join_clash and C97_join_unreadable *)
From Verif Require Import Prelude PyStr SortLib TextLib Utf8 Params ParamsSpec ParamsProofs ParamsGet ParamsGetProps ParamsEval ParamsEvalProps Fs FsProofs FsProps PathLists PathListsProps Io IoProps KeyValue KeyValueProps KvParams KvParamsProps Scripts ScriptsProps OsPath OsPathSpec OsPathProofs Mains MainsProofs MainsProps LoadFs DirFs DirFsProps DirMains MainsWitness DirFsWitness DirMainsWitness DirStopped.

Notation before99 := [([!!"in.zip"], ks84, val84)].
Definition fs99 : list (list str * fnode) := ([!!"e.zip"], file84 [!!"a/x"; !!"b/y"]) :: fs98.
Definition cfg99 : pv := PParams [] [(!!"input_store_list_file", PList [PStr !!"/in.zip"; PStr !!"e.zip"; PStr !!"d.zip"]); dir_at !!"output" !!"store"].
Definition cfg99b : pv := PParams [] [(!!"input_store_list_file", PList [PStr !!"/in.zip"; PStr !!"list"; PStr !!"d.zip"]); dir_at !!"output" !!"store"].
Lemma wf99 : wf_fs fs99. Proof. wf_files. Qed.
Lemma wc99 : wf_params cfg99. Proof. wf_cfg. Qed.
Lemma wc99b : wf_params cfg99b. Proof. wf_cfg. Qed.
Lemma ok99 : stores_ok marked_zip fs99 (before99 ++ [([!!"e.zip"], [!!"a/x"; !!"b/y"], val84)]).
Proof.
  assert (Pk : forall k, In k [!!"a/x"; !!"b/y"] -> ScriptsProps.plain_key k) by (intros k [<-|[<-|[]]]; plain).
  intros q ks v [E|[E|[]]]; injection E as <- <- <-; split.
  - apply holds84; [repeat constructor; simpl; intuition discriminate|intros k I; apply plain84; simpl in *; tauto|reflexivity].
  - intros k I. apply plain84. simpl in *. tauto.
  - apply holds84; [repeat constructor; simpl; intuition discriminate|exact Pk|reflexivity].
  - exact Pk.
Qed.
Example C97_join_clash_hypotheses : wf_params cfg99 /\ wf_fs fs99 /\ lists_inputs [] cfg99 fs99 [[!!"in.zip"]; [!!"e.zip"]; [!!"d.zip"]] /\
  stores_ok marked_zip fs99 (before99 ++ [([!!"e.zip"], [!!"a/x"; !!"b/y"], val84)]) /\ NoDup (stored_keys before99) /\ good_keys store98 (fun k => In k (stored_keys before99)) /\
  (forall k, In k [!!"a/x"; !!"b/y"] -> clashes (stored_keys before99) k) /\
  (exists ns, Typed cfg99 !!"output" !!"file-map" ns /\ names_path [] ns !!"path" store98) /\ look fs99 store98 = Some KDir /\ (forall x, look fs99 (x :: store98) = None).
Proof.
  split; [exact wc99|]. split; [exact wf99|]. split.
  { exists [!!"/in.zip"; !!"e.zip"; !!"d.zip"]. split.
    - apply (li_list [] cfg99 fs99 _ [!!"/in.zip"; !!"e.zip"; !!"d.zip"]); [apply stored_at; [exact wc99|reflexivity]|]. constructor; [strips|]. constructor; [strips|]. constructor; [strips|]. constructor.
    - repeat (constructor; [apply find_leads; vm_compute; reflexivity|]). constructor. }
  split; [exact ok99|]. split; [repeat constructor; simpl; intuition discriminate|]. split; [apply good98; intros k I; simpl in *; tauto|]. split.
  { intros k [<-|[<-|[]]]; [exists !!"a", [!!"a"], [!!"x"]|exists !!"b", [!!"b"], [!!"y"]]; (split; [simpl; tauto|]); (split; [discriminate|]); left; (split; [pk|pk]). }
  split. { eexists. destruct (typed_dir cfg99 !!"output" _ wc99 eq_refl eq_refl eq_refl eq_refl eq_refl) as (T & W). split; [exact T|]. eapply resolve_names; [exact W|reflexivity|reflexivity]. }
  split; [reflexivity|]. intros x; exact (proj2 (proj1 (empty_spec fs99 store98) eq_refl) x).
Qed.
Example C97_join_clash_witness : (let (fs, e) := run_join_dir cfg99 fs99 in (e, read98 fs)) = (Some FileExistsError, Some [(!!"a", Ok !!"aa"); (!!"b", Ok !!"bb"); (!!"c", Ok !!"cc")]).
Proof. vm_compute. reflexivity. Qed.
Example C97_join_unreadable_hypotheses : wf_params cfg99b /\ lists_paths [] cfg99b fs99 ([!!"/in.zip"] ++ !!"list" :: [!!"d.zip"]) /\ Forall2 (leads fs99 []) [!!"/in.zip"] [[!!"in.zip"]] /\
  (forall q b a, resolve [] !!"list" = Ok q -> look fs99 q = Some (KFile b) -> unzip marked_zip b <> Ok a) /\ (forall q, resolve [] !!"list" = Ok q -> ~ below store98 q).
Proof.
  split; [exact wc99b|]. split.
  { apply (li_list [] cfg99b fs99 _ [!!"/in.zip"; !!"list"; !!"d.zip"]); [apply stored_at; [exact wc99b|reflexivity]|]. constructor; [strips|]. constructor; [strips|]. constructor; [strips|]. constructor. }
  split; [constructor; [apply find_leads; vm_compute; reflexivity|constructor]|]. split.
  - intros q b a E L Z. vm_compute in E. inversion E; subst. vm_compute in L. inversion L; subst. vm_compute in Z. discriminate.
  - intros q E. vm_compute in E. inversion E; subst. rewrite <- at_or_below_spec. vm_compute. discriminate.
Qed.
Example C97_join_unreadable_witness : (let (fs, e) := run_join_dir cfg99b fs99 in (e, read98 fs)) = (Some AnyError, Some [(!!"a", Ok !!"aa"); (!!"b", Ok !!"bb"); (!!"c", Ok !!"cc")]).
Proof. vm_compute. reflexivity. Qed.
Definition fs99c : list (list str * fnode) := (!!"old" :: store98, file84 []) :: fs99.
Example C97_join_not_empty_witness : wf_fs fs99c /\ lists_paths [] cfg99 fs99c [!!"/in.zip"; !!"e.zip"; !!"d.zip"] /\ look fs99c store98 = Some KDir /\ (exists b, look fs99c (!!"old" :: store98) = Some (KFile b)) /\
  run_join_dir cfg99 fs99c = (fs99c, Some IOError).
Proof.
  split; [wf_files|]. split. { apply (li_list [] cfg99 fs99c _ [!!"/in.zip"; !!"e.zip"; !!"d.zip"]); [apply stored_at; [exact wc99|reflexivity]|]. constructor; [strips|]. constructor; [strips|]. constructor; [strips|]. constructor. }
  split; [reflexivity|]. split; [eexists; reflexivity|]. vm_compute. reflexivity.
Qed.
Print Assumptions C97_join_not_empty. Print Assumptions C97_join_clash. Print Assumptions C97_join_unreadable.
