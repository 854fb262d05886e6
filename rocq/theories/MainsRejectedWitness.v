(** * Concrete cases for the rejected runs of MainsRejected.v *)
From Coq Require Import Sorted.
From Verif Require Import Prelude PyStr SortLib TextLib Utf8 Order Range Params ParamsSpec ParamsProofs ParamsGet ParamsGetProps ParamsEq SubNamespaces ParamsEval ParamsEvalProps Fs FsProofs FsProps PathLists PathListsProps Decimals Io IoProps KeyValue KeyValueProps KvParams KvParamsProps OsPath OsPathSpec OsPathProofs Scripts ScriptsProps Mains MainsProofs MainsProps MainsWitness MainsRejected.

(** a list of keys given as the input *)
Definition cfg84r : pv := PParams [] [zip_at !!"input" !!"keys/k1"; (!!"num_slices", PInt 2); (!!"output_dir", PStr !!"out/s")].
Lemma wc84r : wf_params cfg84r. Proof. wf_cfg. Qed.
Example C84_bad_input_hypotheses : wf_params cfg84r /\ (exists ns, Typed cfg84r !!"input" !!"zip" ns /\ names_path [] ns !!"path" [!!"k1"; !!"keys"]) /\
  (forall b a, look fs84 [!!"k1"; !!"keys"] = Some (KFile b) -> unzip marked_zip b <> Ok a) /\ run_split cfg84r fs84 = (fs84, Some AnyError).
Proof.
  split; [exact wc84r|]. split.
  { eexists. destruct (typed_at cfg84r !!"input" _ wc84r eq_refl eq_refl eq_refl eq_refl eq_refl) as (T & W). split; [exact T|]. eapply resolve_names; [exact W|reflexivity|reflexivity]. }
  split; [|vm_compute; reflexivity]. intros b a L. vm_compute in L. injection L as <-. vm_compute. discriminate.
Qed.
(** an input directory that is not there *)
Definition cfg87r : pv := PParams [] [(!!"input_directory", PStr !!"nowhere"); zip_at !!"output" !!"keys.zip"].
(** an input directory that is a file *)
Definition cfg87s : pv := PParams [] [(!!"input_directory", PStr !!"in.zip"); zip_at !!"output" !!"keys.zip"].
Lemma wc87r : wf_params cfg87r. Proof. wf_cfg. Qed.
Lemma wc87s : wf_params cfg87s. Proof. wf_cfg. Qed.
Example C87_no_directory_hypotheses : names_path [] cfg87r !!"input_directory" [!!"nowhere"] /\ look fs84 [!!"nowhere"] <> Some KDir /\ names_path [] cfg87s !!"input_directory" [!!"in.zip"] /\ look fs84 [!!"in.zip"] <> Some KDir /\
  run_directory [] cfg87r fs84 = (fs84, Some ParameterError) /\ run_directory [] cfg87s fs84 = (fs84, Some ParameterError).
Proof.
  split; [eapply resolve_names; [exact wc87r|reflexivity|reflexivity]|]. split; [vm_compute; discriminate|]. split; [eapply resolve_names; [exact wc87s|reflexivity|reflexivity]|]. split; [vm_compute; discriminate|]. split; vm_compute; reflexivity.
Qed.
(** a key function that there is not *)
Definition cfg87t : pv := PParams [] [(!!"input_directory", PStr !!"keys"); (!!"key_function", PStr !!"upper"); zip_at !!"output" !!"keys.zip"].
Lemma wc87t : wf_params cfg87t. Proof. wf_cfg. Qed.
Example C87_bad_key_function_hypotheses : names_path [] cfg87t !!"input_directory" [!!"keys"] /\ look fs84 [!!"keys"] = Some KDir /\ Stored cfg87t !!"key_function" (PStr !!"upper") /\ run_directory [] cfg87t fs84 = (fs84, Some ParameterError).
Proof.
  split; [eapply resolve_names; [exact wc87t|reflexivity|reflexivity]|]. split; [reflexivity|]. split; [apply stored_at; [exact wc87t|reflexivity]|vm_compute; reflexivity].
Qed.
(** an output below a file *)
Definition cfg87u : pv := PParams [] [(!!"input_directory", PStr !!"keys"); zip_at !!"output" !!"in.zip/x/keys.zip"].
Lemma wc87u : wf_params cfg87u. Proof. wf_cfg. Qed.
Example C87_blocked_output_hypotheses : names_path [] cfg87u !!"input_directory" [!!"keys"] /\ look fs84 [!!"keys"] = Some KDir /\ key_choice cfg87u false /\
  (exists ns, Typed cfg87u !!"output" !!"zip" ns /\ names_path [] ns !!"path" [!!"keys.zip"; !!"x"; !!"in.zip"]) /\ below [!!"in.zip"] [!!"x"; !!"in.zip"] /\ occupied fs84 [!!"in.zip"] /\
  run_directory [] cfg87u fs84 = (fs84, Some NotADirectoryError).
Proof.
  split; [eapply resolve_names; [exact wc87u|reflexivity|reflexivity]|]. split; [reflexivity|]. split; [left; apply missing_at; [exact wc87u|reflexivity]|]. split.
  { eexists. destruct (typed_at cfg87u !!"output" _ wc87u eq_refl eq_refl eq_refl eq_refl eq_refl) as (T & W). split; [exact T|]. eapply resolve_names; [exact W|reflexivity|reflexivity]. }
  split; [exists [!!"x"]; reflexivity|]. split; [|vm_compute; reflexivity]. unfold occupied. vm_compute. eexists. split; [reflexivity|discriminate].
Qed.
(** the second split has no keys *)
Definition cfg88r : pv := PParams [] [zip_at !!"input" !!"/in.zip"; (!!"explicit_split", PParams [!!"explicit_split"] [split_at !!"train" !!"keys/k1" !!"e/train.zip"; split_at !!"test" !!"keys/k3" !!"e/test.zip"])].
Lemma wc88r : wf_params cfg88r. Proof. wf_cfg. Qed.
(** its namespace *)
Definition bad88 : pv := snd (split_at !!"test" !!"keys/k3" !!"e/test.zip").
Lemma wb88 : wf_params bad88. Proof. wf_cfg. Qed.
Example C88_no_keys_file_hypotheses : wf_params cfg88r /\ (exists ns, Typed cfg88r !!"input" !!"zip" ns /\ names_path [] ns !!"path" [!!"in.zip"]) /\ Missing cfg88r !!"num_slices" /\
  (exists sns, Stored cfg88r !!"explicit_split" sns /\ is_params sns = true /\ children sns = map sp_ns [train88] ++ bad88 :: []) /\ no_list_inside bad88 /\ split_ok [] fs84 train88 /\ sp_out train88 <> [!!"in.zip"] /\ apart [train88] /\
  (forall k, In k (sp_keys train88) -> In k ks84) /\ wf_params bad88 /\ names_path [] bad88 !!"keys_file" [!!"k3"; !!"keys"] /\ (forall b, look fs84 [!!"k3"; !!"keys"] <> Some (KFile b)) /\ sp_out train88 <> [!!"k3"; !!"keys"] /\
  (let (fs, e) := run_split cfg88r fs84 in (e, found fs [!!"train.zip"; !!"e"], look fs [!!"test.zip"; !!"e"])) = (Some ParameterError, Some ([!!"a"; !!"c"], [!!"aa"; !!"cc"]), None).
Proof.
  split; [exact wc88r|]. split.
  { eexists. destruct (typed_at cfg88r !!"input" _ wc88r eq_refl eq_refl eq_refl eq_refl eq_refl) as (T & W). split; [exact T|]. eapply resolve_names; [exact W|reflexivity|reflexivity]. }
  split; [apply missing_at; [exact wc88r|reflexivity]|]. split; [eexists; split; [apply stored_at; [exact wc88r|reflexivity]|split; reflexivity]|]. split; [apply (hashable_spec _ wb88); reflexivity|].
  split; [exact train_ok|]. split; [discriminate|]. split.
  { split; [repeat constructor; simpl; intuition discriminate|]. intros s s' [<-|[]] [<-|[]]. split; [intros (l & E); destruct l as [|? l]; [discriminate|]; destruct l as [|? l]; [discriminate|]; destruct l; discriminate|discriminate]. }
  split; [intros k I; simpl in *; tauto|]. split; [exact wb88|]. split; [eapply resolve_names; [exact wb88|reflexivity|reflexivity]|]. split; [intros b; vm_compute; discriminate|]. split; [discriminate|vm_compute; reflexivity].
Qed.
(** the output of the second split lies below that of the first *)
Definition cfg88t : pv := PParams [] [zip_at !!"input" !!"/in.zip"; (!!"explicit_split", PParams [!!"explicit_split"] [split_at !!"train" !!"keys/k1" !!"e/train.zip"; split_at !!"test" !!"keys/k2" !!"e/train.zip/x/test.zip"])].
(** its namespace *)
Definition below88 : pv := snd (split_at !!"test" !!"keys/k2" !!"e/train.zip/x/test.zip").
Lemma wc88t : wf_params cfg88t. Proof. wf_cfg. Qed.
Lemma wbelow88 : wf_params below88. Proof. wf_cfg. Qed.
Example C88_blocked_output_hypotheses : wf_params cfg88t /\ (exists ns, Typed cfg88t !!"input" !!"zip" ns /\ names_path [] ns !!"path" [!!"in.zip"]) /\ Missing cfg88t !!"num_slices" /\
  (exists sns, Stored cfg88t !!"explicit_split" sns /\ is_params sns = true /\ children sns = map sp_ns [train88] ++ below88 :: []) /\ no_list_inside below88 /\
  wf_params below88 /\ names_path [] below88 !!"keys_file" [!!"k2"; !!"keys"] /\ look fs84 [!!"k2"; !!"keys"] = Some (KFile (!!"b" ++ [LF])) /\ sp_out train88 <> [!!"k2"; !!"keys"] /\
  names_path [] below88 !!"output_file" [!!"test.zip"; !!"x"; !!"train.zip"; !!"e"] /\ below (sp_out train88) [!!"x"; !!"train.zip"; !!"e"] /\
  (let (fs, e) := run_split cfg88t fs84 in (e, found fs [!!"train.zip"; !!"e"], look fs [!!"x"; !!"train.zip"; !!"e"])) = (Some NotADirectoryError, Some ([!!"a"; !!"c"], [!!"aa"; !!"cc"]), None).
Proof.
  split; [exact wc88t|]. split.
  { eexists. destruct (typed_at cfg88t !!"input" _ wc88t eq_refl eq_refl eq_refl eq_refl eq_refl) as (T & W). split; [exact T|]. eapply resolve_names; [exact W|reflexivity|reflexivity]. }
  split; [apply missing_at; [exact wc88t|reflexivity]|]. split; [eexists; split; [apply stored_at; [exact wc88t|reflexivity]|split; reflexivity]|]. split; [apply (hashable_spec _ wbelow88); reflexivity|].
  split; [exact wbelow88|]. split; [eapply resolve_names; [exact wbelow88|reflexivity|reflexivity]|]. split; [reflexivity|]. split; [discriminate|]. split; [eapply resolve_names; [exact wbelow88|reflexivity|reflexivity]|].
  split; [exists [!!"x"]; reflexivity|vm_compute; reflexivity].
Qed.
(** an output_dir that is a file *)
Definition cfg84s : pv := PParams [] [zip_at !!"input" !!"/in.zip"; (!!"num_slices", PInt 2); (!!"output_dir", PStr !!"list")].
(** a sample below a file *)
Definition cfg86s : pv := PParams [] [zip_at !!"input" !!"in.zip"; (!!"num_to_sample", PInt 2); (!!"output_zip_path", PStr !!"list/s.zip")].
(** joining into a place below an input *)
Definition cfg85s : pv := PParams [] [(!!"input_store_list_file", PStr !!"list"); zip_at !!"output" !!"in.zip/x/all.zip"].
(** joining what a directory lists *)
Definition cfg85t : pv := PParams [] [(!!"input_store_list_file", PStr !!"keys"); zip_at !!"output" !!"all.zip"].
(** joining a list with a number in it *)
Definition cfg85u : pv := PParams [] [(!!"input_store_list_file", PList [PStr !!"in.zip"; PInt 3]); zip_at !!"output" !!"all.zip"].
Lemma wc84s : wf_params cfg84s. Proof. wf_cfg. Qed.
Lemma wc86s : wf_params cfg86s. Proof. wf_cfg. Qed.
Lemma wc85s : wf_params cfg85s. Proof. wf_cfg. Qed.
Lemma wc85t : wf_params cfg85t. Proof. wf_cfg. Qed.
Lemma wc85u : wf_params cfg85u. Proof. wf_cfg. Qed.
Example C84_blocked_output_hypotheses : wf_params cfg84s /\ Stored cfg84s !!"num_slices" (PInt 2) /\ names_path [] cfg84s !!"output_dir" [!!"list"] /\ below [!!"list"] [!!"list"] /\ occupied fs84 [!!"list"] /\ run_split cfg84s fs84 = (fs84, Some FileExistsError).
Proof.
  split; [exact wc84s|]. split; [apply stored_at; [exact wc84s|reflexivity]|]. split; [eapply resolve_names; [exact wc84s|reflexivity|reflexivity]|]. split; [exists []; reflexivity|].
  split; [unfold occupied; vm_compute; eexists; split; [reflexivity|discriminate]|vm_compute; reflexivity].
Qed.
Example C86_blocked_output_hypotheses : wf_params cfg86s /\ names_path [] cfg86s !!"output_zip_path" [!!"s.zip"; !!"list"] /\ below [!!"list"] [!!"list"] /\ occupied fs84 [!!"list"] /\ run_sample cfg86s fs84 = (fs84, Some FileExistsError).
Proof.
  split; [exact wc86s|]. split; [eapply resolve_names; [exact wc86s|reflexivity|reflexivity]|]. split; [exists []; reflexivity|].
  split; [unfold occupied; vm_compute; eexists; split; [reflexivity|discriminate]|vm_compute; reflexivity].
Qed.
Example C85_blocked_output_hypotheses : wf_params cfg85s /\ (exists ns, Typed cfg85s !!"output" !!"zip" ns /\ names_path [] ns !!"path" [!!"all.zip"; !!"x"; !!"in.zip"]) /\ below [!!"in.zip"] [!!"x"; !!"in.zip"] /\ occupied fs84 [!!"in.zip"] /\
  run_join cfg85s fs84 = (fs84, Some NotADirectoryError).
Proof.
  split; [exact wc85s|]. split.
  { eexists. destruct (typed_at cfg85s !!"output" _ wc85s eq_refl eq_refl eq_refl eq_refl eq_refl) as (T & W). split; [exact T|]. eapply resolve_names; [exact W|reflexivity|reflexivity]. }
  split; [exists [!!"x"]; reflexivity|]. split; [unfold occupied; vm_compute; eexists; split; [reflexivity|discriminate]|vm_compute; reflexivity].
Qed.
Example C85_bad_list_hypotheses :
  (wf_params cfg85t /\ (exists q, names_path [] cfg85t !!"input_store_list_file" q /\ forall b t, look fs84 q = Some (KFile b) -> decode b <> Ok t) /\ run_join cfg85t fs84 = (fs84, Some ParameterError)) /\
  (wf_params cfg85u /\ (exists vs v, Stored cfg85u !!"input_store_list_file" (PList vs) /\ In v vs /\ forall s, v <> PStr s) /\ run_join cfg85u fs84 = (fs84, Some AttributeError)).
Proof.
  split; (split; [first [exact wc85t|exact wc85u]|]).
  - split; [|vm_compute; reflexivity]. exists [!!"keys"]. split; [eapply resolve_names; [exact wc85t|reflexivity|reflexivity]|]. intros b t L. assert (L2 : look fs84 [!!"keys"] = Some KDir) by (vm_compute; reflexivity). rewrite L2 in L. discriminate L.
  - split; [|vm_compute; reflexivity]. eexists. exists (PInt 3). split; [apply stored_at; [exact wc85u|reflexivity]|]. split; [right; left; reflexivity|discriminate].
Qed.
Print Assumptions C84_bad_input.
Print Assumptions C87_no_directory.
Print Assumptions C87_bad_key_function.
Print Assumptions C87_blocked_output.
Print Assumptions C88_no_keys_file.
Print Assumptions C88_blocked_output.
Print Assumptions C84_blocked_output.
Print Assumptions C85_blocked_output.
Print Assumptions C86_blocked_output.
Print Assumptions C85_bad_list.
