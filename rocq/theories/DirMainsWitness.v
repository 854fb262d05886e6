(** * Concrete cases for C97_join and C97_directory *)
From Verif Require Import Prelude PyStr SortLib TextLib Utf8 Params ParamsSpec ParamsProofs ParamsGet ParamsGetProps ParamsEval ParamsEvalProps Fs FsProofs FsProps PathLists PathListsProps Io IoProps KeyValue KeyValueProps KvParams KvParamsProps Scripts ScriptsProps OsPath OsPathSpec OsPathProofs Mains MainsProofs MainsProps LoadFs DirFs DirFsProps DirMains MainsWitness DirFsWitness.

Definition store98 : list str := [!!"store"].
Definition fs98 : list (list str * fnode) := (store98, KDir) :: fs84.
Definition dir_at (n : str) (path : str) : str * pv := (n, PParams [n] [(!!"type", PStr !!"file-map"); (!!"path", PStr path)]).
Definition cfg98 : pv := PParams [] [(!!"input_store_list_file", PList [PStr !!"/in.zip"; PStr !!" d.zip "]); dir_at !!"output" !!"store"].
Definition cfg98d : pv := PParams [] [(!!"input_directory", PStr !!"keys"); dir_at !!"output" !!"/store"].
Notation run_join_dir := (run84 join_main [] [] marked_zip [] (fun l => l) (dir_sink [] (fun _ fs _ => (fs, Some AnyError)))).
Notation run_directory_dir := (run84 directory_main [] [] marked_zip [] (fun l => l) (fun l => l) (dir_sink [] (fun _ fs _ => (fs, Some AnyError)))).
Definition read98 (fs : list (list str * fnode)) : option (list (str * res bytes)) :=
  match map_source_from_params unit [] fs true (PParams [] [(!!"path", PStr !!"store/_index")]) with
  | Ok (OMapSource _ files) => Some (map (fun k => (k, src_item (byte_map_source [] fs files) k)) (map fst files))
  | _ => None
  end.
Lemma wf98 : wf_fs fs98. Proof. wf_files. Qed.
Lemma wc98 : wf_params cfg98. Proof. wf_cfg. Qed.
Lemma wc98d : wf_params cfg98d. Proof. wf_cfg. Qed.
Lemma typed_dir p name ns : wf_params p -> walk p (py_split dot name) = Some ns -> is_params ns = true -> walk ns (py_split dot !!"type") = Some (PStr !!"file-map") -> Params.contains ns !!"value" = false -> Params.contains ns !!"import" = false ->
  Typed p name !!"file-map" ns /\ wf_params ns.
Proof.
  intros (W & _) S1 T1 T2 M1 M2. apply (stored_walk _ _ _ W) in S1. assert (W1 := stored_wf _ _ _ W S1). split; [|exact (conj W1 T1)].
  split; [assumption|]. split; [assumption|]. split; [now apply (stored_walk _ _ _ W1)|]. split; now apply (contains_false _ _ W1).
Qed.
Lemma holds98 q ks : q <> store98 -> holds marked_zip fs84 q ks val84 -> holds marked_zip fs98 q ks val84.
Proof.
  intros N H. unfold holds, disk_at in *. replace (look fs98 q) with (look fs84 q); [exact H|]. unfold fs98. rewrite look_cons. destruct (rpath_eqb_spec store98 q); [congruence|reflexivity].
Qed.
Definition keys98 : list str := [!!"c"; !!"a"; !!"b"; !!"d"; !!"k1"; !!"k2"].
Lemma good98 (K : str -> Prop) : (forall k, K k -> In k keys98) -> good_keys store98 K.
Proof.
  intros HK. assert (A : forall k, In k keys98 -> field_ok k /\ DirFsProps.plain_key k [k] /\ field_ok (path_str (k :: store98)) /\ k <> index_name).
  { intros k [<-|[<-|[<-|[<-|[<-|[<-|[]]]]]]]; (split; [field97|]); (split; [pk|]); (split; [field97|discriminate]). }
  split.
  - intros k H. destruct (A k (HK k H)) as (F & P & F' & N). split; [assumption|]. exists [k]. auto.
  - intros k k' cs x H H' P P'. destruct (A k (HK k H)) as (_ & Q & _). destruct (A k' (HK k' H')) as (_ & Q' & _). assert (E := plain_fun k cs [k] P Q). subst cs. assert (E := plain_fun k' _ _ P' Q'). cbn [app] in E. now inversion E.
Qed.
Example C97_join_hypotheses : wf_params cfg98 /\ wf_fs fs98 /\ lists_inputs [] cfg98 fs98 [[!!"in.zip"]; [!!"d.zip"]] /\
  stores_ok marked_zip fs98 [([!!"in.zip"], ks84, val84); ([!!"d.zip"], [!!"d"], val84)] /\ NoDup (stored_keys [([!!"in.zip"], ks84, val84); ([!!"d.zip"], [!!"d"], val84)]) /\
  (exists ns, Typed cfg98 !!"output" !!"file-map" ns /\ names_path [] ns !!"path" store98) /\ look fs98 store98 = Some KDir /\ (forall x, look fs98 (x :: store98) = None) /\
  good_keys store98 (fun k => In k (stored_keys [([!!"in.zip"], ks84, val84); ([!!"d.zip"], [!!"d"], val84)])).
Proof.
  split; [exact wc98|]. split; [exact wf98|]. split.
  { exists [!!"/in.zip"; !!"d.zip"]. split.
    - apply (li_list [] cfg98 fs98 _ [!!"/in.zip"; !!" d.zip "]); [apply stored_at; [exact wc98|reflexivity]|]. constructor; [strips|]. constructor; [strips|]. constructor.
    - constructor; [apply find_leads; vm_compute; reflexivity|]. constructor; [apply find_leads; vm_compute; reflexivity|]. constructor. }
  split. { intros q ks v [E|[E|[]]]; injection E as <- <- <-; (split; [apply holds98; [discriminate|exact in84 || exact d84]|]); intros k I; apply plain84; simpl in *; tauto. }
  split; [repeat constructor; simpl; intuition discriminate|]. split.
  { eexists. destruct (typed_dir cfg98 !!"output" _ wc98 eq_refl eq_refl eq_refl eq_refl eq_refl) as (T & W). split; [exact T|]. eapply resolve_names; [exact W|reflexivity|reflexivity]. }
  split; [reflexivity|]. split; [intros x; exact (proj2 (proj1 (empty_spec fs98 store98) eq_refl) x)|]. apply good98. intros k I. simpl in *. tauto.
Qed.
Example C97_join_witness : (let (fs, e) := run_join_dir cfg98 fs98 in (e, read98 fs)) = (None, Some [(!!"a", Ok !!"aa"); (!!"b", Ok !!"bb"); (!!"c", Ok !!"cc"); (!!"d", Ok !!"dd")]).
Proof. vm_compute. reflexivity. Qed.
Example C97_directory_hypotheses : names_path [] cfg98d !!"input_directory" [!!"keys"] /\ look fs98 [!!"keys"] = Some KDir /\ key_choice cfg98d false /\
  (exists ns, Typed cfg98d !!"output" !!"file-map" ns /\ names_path [] ns !!"path" store98) /\ ~ below [!!"keys"] store98 /\
  good_keys store98 (fun k => exists q b, file_under fs98 [!!"keys"] q b /\ file_key false q k).
Proof.
  split; [eapply resolve_names; [exact wc98d|reflexivity|reflexivity]|]. split; [reflexivity|]. split; [left; left; apply (absent_walk _ _ (proj1 wc98d)); reflexivity|].
  split. { eexists. destruct (typed_dir cfg98d !!"output" _ wc98d eq_refl eq_refl eq_refl eq_refl eq_refl) as (T & W). split; [exact T|]. eapply resolve_names; [exact W|reflexivity|reflexivity]. }
  split. { intros (l & E). destruct l as [|? [|? l]]; discriminate. }
  apply good98. intros k (q & b & U & K). assert (I : In (q, b) (files_under fs98 [!!"keys"])) by now apply files_under_in. vm_compute in I.
  destruct I as [E|[E|[]]]; inversion E; subst; (apply (file_key_spec false _ [] k) in K; [|discriminate]); vm_compute in K; subst k; vm_compute; tauto.
Qed.
Example C97_directory_witness : (let (fs, e) := run_directory_dir cfg98d fs98 in (e, read98 fs)) = (None, Some [(!!"k1", Ok (!!"a" ++ [LF; LF] ++ !!"c")); (!!"k2", Ok (!!"b" ++ [LF]))]).
Proof. vm_compute. reflexivity. Qed.
Print Assumptions C97_join. Print Assumptions C97_directory.
