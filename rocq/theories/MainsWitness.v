(** * Concrete cases for C84 - C88: all hypotheses of the theorems hold for them, and the results are computed *)
From Coq Require Import Sorted.
From Verif Require Import Prelude PyStr SortLib TextLib Utf8 Order Range Params ParamsSpec ParamsProofs ParamsGet ParamsGetProps ParamsEq SubNamespaces ParamsEval ParamsEvalProps Fs FsProofs FsProps PathLists PathListsProps Decimals Io IoProps KeyValue KeyValueProps KvParams KvParamsProps OsPath OsPathSpec OsPathProofs Scripts ScriptsProps Mains MainsProofs MainsProps.

(** A zip format in which an archive begins with the byte 1, so that what is torn (the empty file) is none. *)
Definition marked_unzip (c : bytes) : res archive := match c with 1%N :: c' => unzip toy_zip c' | _ => Raise AnyError end.
Definition marked_zip : zip_codec.
Proof.
  refine {| unzip := marked_unzip; dozip old a := 1%N :: dozip toy_zip [] a |}.
  - intros old a Z. exact (unzip_dozip toy_zip [] a Z).
  - intros c a E. unfold marked_unzip in E. destruct c as [|[|[]] c]; try discriminate. exact (unzip_ok toy_zip c a E).
Defined.
Definition val84 (k : str) : bytes := k ++ k.
Definition ks84 : list str := [!!"c"; !!"a"; !!"b"].
Definition file84 (ks : list str) : fnode := match fst (write_stream (fun l => l) Absent (pairs val84 ks, None)) with Zip a => KFile (dozip marked_zip [] a) | _ => KDir end.
Definition fs84 : list (list str * fnode) :=
  [([!!"in.zip"], file84 ks84); ([!!"d.zip"], file84 [!!"d"]); ([!!"list"], KFile (!!"/in.zip" ++ [LF] ++ !!"d.zip" ++ [LF]));
   ([!!"k1"; !!"keys"], KFile (!!"a" ++ [LF; LF] ++ !!"c")); ([!!"k2"; !!"keys"], KFile (!!"b" ++ [LF])); ([!!"keys"], KDir)].
Definition zip_at (n : str) (path : str) : str * pv := (n, PParams [n] [(!!"type", PStr !!"zip"); (!!"path", PStr path)]).
Definition cfg84 : pv := PParams [] [zip_at !!"input" !!"/in.zip"; (!!"num_slices", PInt 2); (!!"output_dir", PStr !!"out/s")].
Definition cfg84b : pv := PParams [] [(!!"input_store_list_file", PStr !!"out/s/_slices.txt"); zip_at !!"output" !!"back.zip"].
Definition cfg84c : pv := PParams [] [zip_at !!"input" !!"/in.zip"; (!!"num_slices", PInt 0); (!!"output_dir", PStr !!"out/s")].
Definition cfg85 : pv := PParams [] [(!!"input_store_list_file", PStr !!"list"); zip_at !!"output" !!"o/all.zip"].
Definition cfg85b : pv := PParams [] [(!!"input_store_list_file", PList [PStr !!"/in.zip"; PStr !!" in.zip "]); zip_at !!"output" !!"all.zip"].
Definition cfg85c : pv := PParams [] [(!!"input_store_list_file", PStr !!"list"); zip_at !!"output" !!"in.zip"].
Definition cfg86 : pv := PParams [] [zip_at !!"input" !!"in.zip"; (!!"num_to_sample", PInt 2); (!!"output_zip_path", PStr !!"s/s.zip")].
Definition cfg87 : pv := PParams [] [(!!"input_directory", PStr !!"keys"); zip_at !!"output" !!"keys.zip"].
Definition cfg87b : pv := PParams [] [(!!"input_directory", PStr !!"keys"); zip_at !!"output" !!"keys/keys.zip"].
Definition cfg87c : pv := PParams [] [(!!"input_directory", PStr !!"."); (!!"key_function", PStr !!"strip_one_extension"); zip_at !!"output" !!"../keys.zip"].
Definition split_at (n kf o : str) : str * pv := (n, PParams [!!"explicit_split"; n] [(!!"keys_file", PStr kf); (!!"output_file", PStr o)]).
Definition cfg88 : pv := PParams [] [zip_at !!"input" !!"/in.zip"; (!!"explicit_split", PParams [!!"explicit_split"] [split_at !!"train" !!"keys/k1" !!"e/train.zip"; split_at !!"test" !!"keys/k2" !!"e/test.zip"])].
Definition cfg88b : pv := PParams [] [zip_at !!"input" !!"/in.zip"; (!!"explicit_split", PParams [!!"explicit_split"] [split_at !!"train" !!"keys/k1" !!"e/train.zip"; (!!"must_be_exhaustive", PBool false)])].
(** one of the splits has a parameter "tags: [x]" *)
Definition cfg88d : pv := PParams [] [zip_at !!"input" !!"/d.zip"; (!!"explicit_split", PParams [!!"explicit_split"] [split_at !!"train" !!"keys/k1" !!"e/train.zip"; (!!"test", PParams [!!"explicit_split"; !!"test"] [(!!"tags", PList [PStr !!"x"])])])].
Definition cfg88c : pv := PParams [] [zip_at !!"input" !!"/d.zip"; (!!"explicit_split", PParams [!!"explicit_split"] [split_at !!"train" !!"keys/k1" !!"e/train.zip"])].
Definition fs87 : list (list str * fnode) := [([!!"a.txt"; !!"w"], KFile !!"1"); ([!!"a.csv"; !!"sub"; !!"w"], KFile !!"2"); ([!!"sub"; !!"w"], KDir); ([!!"w"], KDir)].

Notation run84 f := (f unit (fun _ => Raise AnyError) (fun _ _ => Raise AnyError) (fun _ => None) (fun _ _ => []) (fun _ => true) (fun _ => None) (fun _ => Ok (OUser tt)) (fun _ => false) (fun _ _ => Raise TypeError) (fun _ => false)).
Notation run_split := (run84 split_main [] [] marked_zip [] (fun l => l) (fun _ l => rev l) (fun _ _ => Raise AnyError) codes).
Notation run_join := (run84 join_main [] [] marked_zip [] (fun l => l) (fun _ fs _ => (fs, Some AnyError))).
Notation run_sample := (run84 downsample_main [] [] marked_zip [] (fun l => l) (fun _ l => rev l) (fun _ _ => Raise AnyError)).
Notation run_directory cwd := (run84 directory_main cwd [] marked_zip [] (fun l => l) (fun l => l) (fun _ fs _ => (fs, Some AnyError))).

(** ** Tactics for concrete parameters and files *)
Lemma resolve_names cwd p name s q : wf_params p -> walk p (py_split dot name) = Some (PStr s) -> resolve cwd s = Ok q -> names_path cwd p name q.
Proof. intros (W & _) S1 R. exists s. split; [now apply (stored_walk _ _ _ W)|assumption]. Qed.
Lemma typed_at p name ns : wf_params p -> walk p (py_split dot name) = Some ns -> is_params ns = true -> walk ns (py_split dot !!"type") = Some (PStr !!"zip") -> Params.contains ns !!"value" = false -> Params.contains ns !!"import" = false ->
  Typed p name !!"zip" ns /\ wf_params ns.
Proof.
  intros (W & _) S1 T1 T2 M1 M2. apply (stored_walk _ _ _ W) in S1. assert (W1 := stored_wf _ _ _ W S1). split; [|exact (conj W1 T1)].
  split; [assumption|]. split; [assumption|]. split; [now apply (stored_walk _ _ _ W1)|]. split; now apply (contains_false _ _ W1).
Qed.
Lemma missing_at p name : wf_params p -> Params.contains p name = false -> Missing p name.
Proof. intros (W & _). now apply contains_false. Qed.
Lemma stored_at p name v : wf_params p -> walk p (py_split dot name) = Some v -> Stored p name v.
Proof. intros (W & _). now apply stored_walk. Qed.
Ltac wf_cfg := split; [|reflexivity]; simpl; repeat split; repeat constructor; simpl; unfold dotless; simpl; intuition discriminate.
Lemma wf_check fs : forallb (fun e : list str * fnode => match fst e with [] => true | _ :: d => match look fs d with Some KDir => true | _ => false end end) fs = true -> wf_fs fs.
Proof.
  intros H c q k L. rewrite forallb_forall in H. assert (exists v, In (c :: q, v) fs) as (v & I) by (apply find_path_in; unfold look in L; congruence). specialize (H _ I). cbn [fst] in H. destruct (look fs q) as [[]|]; congruence.
Qed.
Ltac wf_files := apply wf_check; vm_compute; reflexivity.
Ltac no_obstacle := intros r (l & E) (k & L & Nk);
  repeat (destruct l as [|? l]; [cbn [app] in E; subst r; vm_compute in L; congruence|cbn [app] in E; try (injection E as _ E)]); try discriminate.
Lemma enc_check s : forallb (fun c => (c <? 55296)%N) s = true -> encodable s.
Proof. intros H. apply Forall_forall. intros c J. rewrite forallb_forall in H. specialize (H c J). unfold scalar. apply N.ltb_lt in H. lia. Qed.
Ltac plain := split; [discriminate|]; split; [simpl; intuition discriminate|]; split; [simpl; intuition discriminate|]; split; [apply enc_check; reflexivity|discriminate].
Lemma wf84 : wf_fs fs84. Proof. wf_files. Qed.
Lemma wf87 : wf_fs fs87. Proof. wf_files. Qed.
Lemma wc84 : wf_params cfg84. Proof. wf_cfg. Qed.
Lemma wc84b : wf_params cfg84b. Proof. wf_cfg. Qed.
Lemma wc84c : wf_params cfg84c. Proof. wf_cfg. Qed.
Lemma wc85 : wf_params cfg85. Proof. wf_cfg. Qed.
Lemma wc85b : wf_params cfg85b. Proof. wf_cfg. Qed.
Lemma wc85c : wf_params cfg85c. Proof. wf_cfg. Qed.
Lemma wc86 : wf_params cfg86. Proof. wf_cfg. Qed.
Lemma wc87 : wf_params cfg87. Proof. wf_cfg. Qed.
Lemma wc87b : wf_params cfg87b. Proof. wf_cfg. Qed.
Lemma wc87c : wf_params cfg87c. Proof. wf_cfg. Qed.
Lemma wc88 : wf_params cfg88. Proof. wf_cfg. Qed.
Lemma wc88b : wf_params cfg88b. Proof. wf_cfg. Qed.
Lemma wc88d : wf_params cfg88d. Proof. wf_cfg. Qed.
Lemma wc88c : wf_params cfg88c. Proof. wf_cfg. Qed.
Lemma holds84 fs q ks : NoDup ks -> (forall k, In k ks -> plain_key k) -> look fs q = Some (file84 ks) -> holds marked_zip fs q ks val84.
Proof.
  intros ND PK L. destruct (write_stream_pairs (fun l => l) (fun l => Permutation_refl l) Absent ks val84 None ND PK) as (d & E & C).
  unfold holds, disk_at. rewrite L. unfold file84. rewrite E. cbn [fst]. destruct (contains_zip _ _ _ C) as (a & ->). apply write_stream_sound in E. destruct E as (_ & Z).
  cbn [unzip dozip marked_zip]. unfold marked_unzip. rewrite unzip_dozip by now apply Z. exact C.
Qed.
Lemma plain84 k : In k [!!"a"; !!"b"; !!"c"; !!"d"] -> plain_key k.
Proof. intros [<-|[<-|[<-|[<-|[]]]]]; plain. Qed.
Lemma in84 : holds marked_zip fs84 [!!"in.zip"] ks84 val84.
Proof. apply holds84; [|intros k I; apply plain84; simpl in *; tauto|reflexivity]. repeat constructor; simpl; intuition discriminate. Qed.
Lemma d84 : holds marked_zip fs84 [!!"d.zip"] [!!"d"] val84.
Proof. apply holds84; [|intros k I; apply plain84; simpl in *; tauto|reflexivity]. repeat constructor; simpl; intuition discriminate. Qed.
(** What a run leaves: its outcome, and the keys and values of the zip files asked for. *)
Definition found (fs : list (list str * fnode)) (q : list str) : option (list str * list bytes) :=
  match source_enter (disk_at marked_zip fs q) with
  | Ok z => let src := zip_source same_name bytes_value z in
            match src_keys src with Ok (Some ks) => Some (ks, map (fun k => match src_item src k with Ok b => b | Raise _ => [] end) ks) | _ => None end
  | Raise _ => None
  end.

(** ** C84 *)
Example C84_hypotheses : exists ns, wf_params cfg84 /\ wf_fs fs84 /\ Typed cfg84 !!"input" !!"zip" ns /\ names_path [] ns !!"path" [!!"in.zip"] /\ holds marked_zip fs84 [!!"in.zip"] ks84 val84 /\
  (forall k, In k ks84 -> plain_key k) /\ Stored cfg84 !!"num_slices" (PInt 2) /\ int_value (PInt 2) (Z.of_nat 2) /\ Missing cfg84 !!"explicit_split" /\ seed_given cfg84 None /\
  names_path [] cfg84 !!"output_dir" [!!"s"; !!"out"] /\ unblocked fs84 [!!"s"; !!"out"] /\ Forall encodable [!!"s"; !!"out"] /\
  (forall o, In o ((!!"_slices.txt" :: [!!"s"; !!"out"]) :: map (fun i => slice_name i :: [!!"s"; !!"out"]) (seq 0 2)) -> free fs84 o /\ o <> [!!"in.zip"]).
Proof.
  eexists. split; [exact wc84|]. split; [exact wf84|]. destruct (typed_at cfg84 !!"input" _ wc84 eq_refl eq_refl eq_refl eq_refl eq_refl) as (T & W). split; [exact T|].
  split; [eapply resolve_names; [exact W|reflexivity|reflexivity]|]. split; [exact in84|]. split; [intros k I; apply plain84; simpl in *; tauto|].
  split; [apply stored_at; [exact wc84|reflexivity]|]. split; [constructor|]. split; [apply missing_at; [exact wc84|reflexivity]|]. split; [apply missing_at; [exact wc84|reflexivity]|].
  split; [eapply resolve_names; [exact wc84|reflexivity|reflexivity]|]. split; [no_obstacle|]. split; [repeat (apply Forall_cons; [apply enc_check; reflexivity|]); apply Forall_nil|].
  intros o [<-|[<-|[<-|[]]]]; (split; [left; reflexivity|discriminate]).
Qed.
Example C84_witness :
  (let (fs, e) := run_split cfg84 fs84 in (e, found fs [!!"0.zip"; !!"s"; !!"out"], found fs [!!"1.zip"; !!"s"; !!"out"], look fs [!!"_slices.txt"; !!"s"; !!"out"])) =
    (None, Some ([!!"a"; !!"c"], [!!"aa"; !!"cc"]), Some ([!!"b"], [!!"bb"]), Some (KFile (!!"/out/s/0.zip" ++ [LF] ++ !!"/out/s/1.zip"))) /\
  (let (fs, e) := run_split cfg84c fs84 in (e, look fs [!!"s"; !!"out"], look fs [!!"_slices.txt"; !!"s"; !!"out"])) = (Some ParameterError, Some KDir, None) /\
  run_split cfg85 fs84 = (fs84, Some ParameterError).
Proof. repeat split; vm_compute; reflexivity. Qed.
(** ** C85 *)
Ltac strips := match goal with |- stripped _ ?l _ => exact (strip_spec l) end.
Lemma list85 p : wf_params p -> walk p (py_split dot !!"input_store_list_file") = Some (PStr !!"list") -> lists_inputs [] p fs84 [[!!"in.zip"]; [!!"d.zip"]].
Proof.
  intros W E. exists [!!"/in.zip"; !!"d.zip"]. split; [eapply (li_file [] p fs84 _ [!!"list"] _ _ [!!"/in.zip"; !!"d.zip"])|].
  - eapply resolve_names; [exact W|exact E|reflexivity].
  - reflexivity.
  - vm_compute. reflexivity.
  - assert (U : forall s, forallb (fun c => negb (line_break c)) s = true -> unbroken s). { intros s H c I. rewrite forallb_forall in H. specialize (H c I). now destruct (line_break c). }
    apply (pc_break !!"/in.zip" LF (!!"d.zip" ++ [LF]) [!!"d.zip"]); [apply U; reflexivity|reflexivity|intros H; discriminate|].
    apply (pc_break !!"d.zip" LF [] []); [apply U; reflexivity|reflexivity|intros H; discriminate|constructor].
  - apply ke_keep; [strips|discriminate|]. apply ke_keep; [strips|discriminate|]. constructor.
  - constructor; [apply find_leads; vm_compute; reflexivity|]. constructor; [apply find_leads; vm_compute; reflexivity|]. constructor.
Qed.
Example C85_join_split_hypotheses : wf_params cfg84b /\ names_path [] cfg84b !!"input_store_list_file" [!!"_slices.txt"; !!"s"; !!"out"] /\ Forall unbroken [!!"s"; !!"out"] /\
  (exists ns, Typed cfg84b !!"output" !!"zip" ns /\ names_path [] ns !!"path" [!!"back.zip"]) /\ unblocked fs84 [] /\ free fs84 [!!"back.zip"] /\
  (forall o, In o ((!!"_slices.txt" :: [!!"s"; !!"out"]) :: map (fun i => slice_name i :: [!!"s"; !!"out"]) (seq 0 2)) -> ~ below o []) /\ ~ below [!!"back.zip"] [!!"s"; !!"out"] /\
  ~ In [!!"back.zip"] ((!!"_slices.txt" :: [!!"s"; !!"out"]) :: map (fun i => slice_name i :: [!!"s"; !!"out"]) (seq 0 2)).
Proof.
  split; [exact wc84b|]. split; [eapply resolve_names; [exact wc84b|reflexivity|reflexivity]|]. split; [repeat (apply Forall_cons || apply Forall_nil); intros c I; simpl in I; repeat (destruct I as [<-|I]; [reflexivity|]); destruct I|].
  split; [|split; [no_obstacle|split; [left; reflexivity|split; [|split]]]].
  - eexists. destruct (typed_at cfg84b !!"output" _ wc84b eq_refl eq_refl eq_refl eq_refl eq_refl) as (T & W). split; [exact T|]. eapply resolve_names; [exact W|reflexivity|reflexivity].
  - intros o [<-|[<-|[<-|[]]]] (l & E); destruct l; discriminate.
  - intros (l & E). destruct l as [|? [|? [|? l]]]; discriminate.
  - simpl. intuition discriminate.
Qed.
Example C85_hypotheses : lists_inputs [] cfg85 fs84 [[!!"in.zip"]; [!!"d.zip"]] /\ (exists ns, Typed cfg85 !!"output" !!"zip" ns /\ names_path [] ns !!"path" [!!"all.zip"; !!"o"]) /\
  unblocked fs84 [!!"o"] /\ free fs84 [!!"all.zip"; !!"o"] /\
  stores_ok marked_zip fs84 [([!!"in.zip"], ks84, val84); ([!!"d.zip"], [!!"d"], val84)] /\ NoDup (stored_keys [([!!"in.zip"], ks84, val84); ([!!"d.zip"], [!!"d"], val84)]) /\
  lists_inputs [] cfg85b fs84 [[!!"in.zip"]; [!!"in.zip"]] /\ ~ NoDup (stored_keys [([!!"in.zip"], ks84, val84); ([!!"in.zip"], ks84, val84)]) /\
  lists_inputs [] cfg85c fs84 [[!!"in.zip"]; [!!"d.zip"]] /\ (forall a, unzip marked_zip [] <> Ok a) /\ unblocked fs84 [] /\ free fs84 [!!"in.zip"].
Proof.
  assert (So : stores_ok marked_zip fs84 [([!!"in.zip"], ks84, val84); ([!!"d.zip"], [!!"d"], val84)]).
  { intros q ks v [E|[E|[]]]; injection E as <- <- <-; (split; [exact in84 || exact d84|]); intros k I; apply plain84; simpl in *; tauto. }
  split; [apply list85; [exact wc85|reflexivity]|]. split.
  { eexists. destruct (typed_at cfg85 !!"output" _ wc85 eq_refl eq_refl eq_refl eq_refl eq_refl) as (T & W). split; [exact T|]. eapply resolve_names; [exact W|reflexivity|reflexivity]. }
  split; [no_obstacle|]. split; [left; reflexivity|]. split; [exact So|]. split; [repeat constructor; simpl; intuition discriminate|]. split.
  { exists [!!"/in.zip"; !!"in.zip"]. split.
    - apply (li_list [] cfg85b fs84 _ [!!"/in.zip"; !!" in.zip "]); [apply stored_at; [exact wc85b|reflexivity]|]. constructor; [strips|]. constructor; [strips|]. constructor.
    - constructor; [apply find_leads; vm_compute; reflexivity|]. constructor; [apply find_leads; vm_compute; reflexivity|]. constructor. }
  split; [intros N; inversion N as [|? ? N1 _]; subst; apply N1; simpl; tauto|]. split; [apply list85; [exact wc85c|reflexivity]|]. split; [discriminate|]. split; [no_obstacle|]. right. eexists. reflexivity.
Qed.
Example C85_witness :
  (let (fs, e) := run_join cfg84b (fst (run_split cfg84 fs84)) in (e, found fs [!!"back.zip"])) = (None, Some ([!!"a"; !!"c"; !!"b"], [!!"aa"; !!"cc"; !!"bb"])) /\
  (let (fs, e) := run_join cfg85 fs84 in (e, found fs [!!"all.zip"; !!"o"])) = (None, Some ([!!"c"; !!"a"; !!"b"; !!"d"], [!!"cc"; !!"aa"; !!"bb"; !!"dd"])) /\
  (let (fs, e) := run_join cfg85b fs84 in (e, found fs [!!"all.zip"])) = (Some RuntimeError, Some ([!!"c"; !!"a"; !!"b"], [!!"cc"; !!"aa"; !!"bb"])) /\
  (let (fs, e) := run_join cfg85c fs84 in (e, found fs [!!"in.zip"])) = (Some AnyError, Some ([], [])).
Proof. repeat split; vm_compute; reflexivity. Qed.

(** an input that is not there; one reached through a directory that is not there; and one reached through the output's directory, which is made first *)
Definition cfg85d (m : str) : pv := PParams [] [(!!"input_store_list_file", PList [PStr !!"d.zip"; PStr m; PStr !!"in.zip"]); zip_at !!"output" !!"o/all.zip"].
Lemma wc85d : wf_params (cfg85d !!"keys/none.zip"). Proof. wf_cfg. Qed.
Example C85_unreadable_hypotheses : let p := cfg85d !!"keys/none.zip" in
  lists_paths [] p fs84 ([!!"d.zip"] ++ !!"keys/none.zip" :: [!!"in.zip"]) /\ Forall2 (leads fs84 []) [!!"d.zip"] (map (fun x => fst (fst x)) [([!!"d.zip"], [!!"d"], val84)]) /\
  stores_ok marked_zip fs84 [([!!"d.zip"], [!!"d"], val84)] /\ NoDup (stored_keys [([!!"d.zip"], [!!"d"], val84)]) /\
  (forall q b a, resolve [] !!"keys/none.zip" = Ok q -> look fs84 q = Some (KFile b) -> q <> [!!"all.zip"; !!"o"] -> unzip marked_zip b <> Ok a) /\ (forall a, unzip marked_zip [] <> Ok a) /\
  (exists ns, Typed p !!"output" !!"zip" ns /\ names_path [] ns !!"path" [!!"all.zip"; !!"o"]) /\ unblocked fs84 [!!"o"] /\ free fs84 [!!"all.zip"; !!"o"].
Proof.
  intros p. split. { apply (li_list [] p fs84 _ [!!"d.zip"; !!"keys/none.zip"; !!"in.zip"]); [apply stored_at; [exact wc85d|reflexivity]|]. repeat (constructor; [strips|]). constructor. }
  split. { constructor; [apply find_leads; vm_compute; reflexivity|constructor]. }
  split. { intros q ks v [E|[]]. injection E as <- <- <-. split; [exact d84|]. intros k I; apply plain84; simpl in *; tauto. }
  split; [repeat constructor; simpl; tauto|]. split. { intros q b a E L. injection E as <-. vm_compute in L. discriminate L. }
  split; [discriminate|]. split; [|split; [no_obstacle|left; reflexivity]].
  eexists. destruct (typed_at p !!"output" _ wc85d eq_refl eq_refl eq_refl eq_refl eq_refl) as (T & W). split; [exact T|]. eapply resolve_names; [exact W|reflexivity|reflexivity].
Qed.
Example C85_unreadable_witness :
  (let (fs, e) := run_join (cfg85d !!"keys/none.zip") fs84 in (e, found fs [!!"all.zip"; !!"o"])) = (Some FileNotFoundError, Some ([!!"d"], [!!"dd"])) /\
  (let (fs, e) := run_join (cfg85d !!"no/../in.zip") fs84 in (e, found fs [!!"all.zip"; !!"o"])) = (Some FileNotFoundError, Some ([!!"d"], [!!"dd"])) /\
  fst (let (fs, e) := run_join (cfg85d !!"o/../in.zip") fs84 in (e, tt)) = Some RuntimeError.
Proof. repeat split; vm_compute; reflexivity. Qed.

(** ** C86 *)
Example C86_hypotheses : wf_params cfg86 /\ (exists ns, Typed cfg86 !!"input" !!"zip" ns /\ names_path [] ns !!"path" [!!"in.zip"]) /\ Stored cfg86 !!"num_to_sample" (PInt 2) /\ int_value (PInt 2) (Z.of_nat 2) /\
  ParamsSpec.Absent cfg86 !!"random_seed" /\ names_path [] cfg86 !!"output_zip_path" [!!"s.zip"; !!"s"] /\ unblocked fs84 [!!"s"] /\ free fs84 [!!"s.zip"; !!"s"].
Proof.
  split; [exact wc86|]. split.
  { eexists. destruct (typed_at cfg86 !!"input" _ wc86 eq_refl eq_refl eq_refl eq_refl eq_refl) as (T & W). split; [exact T|]. eapply resolve_names; [exact W|reflexivity|reflexivity]. }
  split; [apply stored_at; [exact wc86|reflexivity]|]. split; [constructor|]. split; [apply (absent_walk _ _ (proj1 wc86)); reflexivity|]. split; [eapply resolve_names; [exact wc86|reflexivity|reflexivity]|]. split; [no_obstacle|left; reflexivity].
Qed.
Example C86_witness : (let (fs, e) := run_sample cfg86 fs84 in (e, found fs [!!"s.zip"; !!"s"])) = (None, Some ([!!"b"; !!"a"], [!!"bb"; !!"aa"])).
Proof. vm_compute. reflexivity. Qed.

(** ** C87 *)
Lemma under_check fs d q b : file_under fs d q b <-> In (q, b) (files_under fs d).
Proof. symmetry. apply files_under_in. Qed.
Example C87_hypotheses : names_path [] cfg87 !!"input_directory" [!!"keys"] /\ look fs84 [!!"keys"] = Some KDir /\ key_choice cfg87 false /\
  (exists ns, Typed cfg87 !!"output" !!"zip" ns /\ names_path [] ns !!"path" [!!"keys.zip"]) /\ free fs84 [!!"keys.zip"] /\ ~ below [!!"keys"] [!!"keys.zip"] /\
  (forall q b k, file_under fs84 [!!"keys"] q b -> file_key false q k -> plain_key k) /\
  (forall q q' b b' k, file_under fs84 [!!"keys"] q b -> file_under fs84 [!!"keys"] q' b' -> file_key false q k -> file_key false q' k -> q = q').
Proof.
  assert (L : forall q b, file_under fs84 [!!"keys"] q b -> q = [!!"k1"; !!"keys"] \/ q = [!!"k2"; !!"keys"]).
  { intros q b H. apply under_check in H. vm_compute in H. destruct H as [E|[E|[]]]; injection E as <- _; auto. }
  split; [eapply resolve_names; [exact wc87|reflexivity|reflexivity]|]. split; [reflexivity|]. split; [left; apply missing_at; [exact wc87|reflexivity]|]. split.
  { eexists. destruct (typed_at cfg87 !!"output" _ wc87 eq_refl eq_refl eq_refl eq_refl eq_refl) as (T & W). split; [exact T|]. eapply resolve_names; [exact W|reflexivity|reflexivity]. }
  split; [left; reflexivity|]. split; [intros (l & E); destruct l as [|? [|? l]]; discriminate|]. split.
  - intros q b k H (d & K). destruct (L q b H) as [->| ->]; injection K as <- <-; plain.
  - intros q q' b b' k H H' (d & K) (d' & K'). destruct (L q b H) as [->| ->], (L q' b' H') as [->| ->]; congruence.
Qed.
Example C87_duplicate_hypotheses : wf_params cfg87c /\ wf_fs fs87 /\ key_choice cfg87c true /\ names_path [!!"w"] cfg87c !!"input_directory" [!!"w"] /\ (exists ns, Typed cfg87c !!"output" !!"zip" ns /\ names_path [!!"w"] ns !!"path" [!!"keys.zip"]) /\
  file_under fs87 [!!"w"] [!!"a.txt"; !!"w"] !!"1" /\ file_under fs87 [!!"w"] [!!"a.csv"; !!"sub"; !!"w"] !!"2" /\ file_key true [!!"a.txt"; !!"w"] !!"a" /\ file_key true [!!"a.csv"; !!"sub"; !!"w"] !!"a".
Proof.
  split; [exact wc87c|]. split; [exact wf87|]. split; [apply stored_at; [exact wc87c|reflexivity]|]. split; [eapply resolve_names; [exact wc87c|reflexivity|reflexivity]|]. split.
  { eexists. destruct (typed_at cfg87c !!"output" _ wc87c eq_refl eq_refl eq_refl eq_refl eq_refl) as (T & W). split; [exact T|]. eapply resolve_names; [exact W|reflexivity|reflexivity]. }
  split; [apply under_check; vm_compute; tauto|]. split; [apply under_check; vm_compute; tauto|].
  split; (eexists; eexists; split; [reflexivity|]); match goal with |- drops_extension ?n _ => exact (C75_stem n) end.
Qed.
Example C87_witness :
  (let (fs, e) := run_directory [] cfg87 fs84 in (e, found fs [!!"keys.zip"])) = (None, Some ([!!"k1"; !!"k2"], [!!"a" ++ [LF; LF] ++ !!"c"; !!"b" ++ [LF]])) /\
  (let (fs, e) := run_directory [] cfg87b fs84 in (e, found fs [!!"keys.zip"; !!"keys"])) = (None, Some ([!!"keys.zip"; !!"k1"; !!"k2"], [[]; !!"a" ++ [LF; LF] ++ !!"c"; !!"b" ++ [LF]])) /\
  (let (fs, e) := run_directory [!!"w"] cfg87c fs87 in (e, found fs [!!"keys.zip"])) = (Some ValueError, Some ([!!"a"], [!!"1"])).
Proof. repeat split; vm_compute; reflexivity. Qed.

(** ** C88 *)
Definition split88 (n kf o : str) (f : list str) (ks : list str) (q : list str) : split := {| sp_ns := snd (split_at n kf o); sp_file := f; sp_keys := ks; sp_out := q |}.
Definition train88 : split := split88 !!"train" !!"keys/k1" !!"e/train.zip" [!!"k1"; !!"keys"] [!!"a"; !!"c"] [!!"train.zip"; !!"e"].
Definition test88 : split := split88 !!"test" !!"keys/k2" !!"e/test.zip" [!!"k2"; !!"keys"] [!!"b"] [!!"test.zip"; !!"e"].
Lemma split_check (fs : list (list str * fnode)) n kf o f ks q : resolve [] kf = Ok f -> resolve [] o = Ok q -> key_file fs f ks -> NoDup ks -> (forall k, In k ks -> plain_key k) -> q <> [] -> unblocked fs (tl q) -> free fs q -> split_ok [] fs (split88 n kf o f ks q).
Proof.
  intros R1 R2 K N P Nq U F. assert (W : wf_params (snd (split_at n kf o))) by wf_cfg. split; [split; [exact W|apply (hashable_spec _ W); reflexivity]|]. split; [eapply resolve_names; [exact W|reflexivity|exact R1]|]. split; [exact K|]. split; [exact N|]. split; [exact P|].
  split; [eapply resolve_names; [exact W|reflexivity|exact R2]|]. split; [exact Nq|]. split; [exact U|exact F].
Qed.
Lemma train_ok : split_ok [] fs84 train88.
Proof.
  apply split_check; [reflexivity|reflexivity| |repeat constructor; simpl; intuition discriminate|intros k I; apply plain84; simpl in *; tauto|discriminate|no_obstacle|left; reflexivity].
  eexists _, _, _, _. split; [reflexivity|]. split; [vm_compute; reflexivity|]. split; [apply universal_spec|]. split; [apply rstripped_lines_of|]. vm_compute. intros k; split; [intros [<-|[<-|[]]]; (split; [tauto|discriminate])|]. intros ([<-|[<-|[<-|[]]]] & N); auto; congruence.
Qed.
Lemma test_ok : split_ok [] fs84 test88.
Proof.
  apply split_check; [reflexivity|reflexivity| |repeat constructor; simpl; intuition discriminate|intros k I; apply plain84; simpl in *; tauto|discriminate|no_obstacle|left; reflexivity].
  eexists _, _, _, _. split; [reflexivity|]. split; [vm_compute; reflexivity|]. split; [apply universal_spec|]. split; [apply rstripped_lines_of|]. vm_compute. intros k; split; [intros [<-|[]]; (split; [tauto|discriminate])|]. intros ([<-|[]] & N); auto.
Qed.
Example C88_hypotheses : wf_params cfg88 /\ (exists ns, Typed cfg88 !!"input" !!"zip" ns /\ names_path [] ns !!"path" [!!"in.zip"]) /\ Missing cfg88 !!"num_slices" /\
  (exists sns, Stored cfg88 !!"explicit_split" sns /\ is_params sns = true /\ children sns = map sp_ns [train88; test88]) /\ exhaustive_given cfg88 true /\
  (forall s, In s [train88; test88] -> split_ok [] fs84 s /\ sp_out s <> [!!"in.zip"]) /\ apart [train88; test88] /\ (forall s k, In s [train88; test88] -> In k (sp_keys s) -> In k ks84).
Proof.
  split; [exact wc88|]. split.
  { eexists. destruct (typed_at cfg88 !!"input" _ wc88 eq_refl eq_refl eq_refl eq_refl eq_refl) as (T & W). split; [exact T|]. eapply resolve_names; [exact W|reflexivity|reflexivity]. }
  split; [apply missing_at; [exact wc88|reflexivity]|]. split; [eexists; split; [apply stored_at; [exact wc88|reflexivity]|split; reflexivity]|]. split; [left; split; [|reflexivity]; apply (absent_walk _ _ (proj1 wc88)); reflexivity|].
  split; [intros s [<-|[<-|[]]]; (split; [exact train_ok || exact test_ok|discriminate])|]. split; [split|].
  - repeat constructor; simpl; intuition discriminate.
  - intros s s' [<-|[<-|[]]] [<-|[<-|[]]]; (split; [intros (l & E); destruct l as [|? l]; [discriminate|]; destruct l as [|? l]; [discriminate|]; destruct l; discriminate|discriminate]).
  - intros s k [<-|[<-|[]]] I; simpl in *; tauto.
Qed.
Example C88_missing_hypotheses : wf_params cfg88c /\ (exists ns, Typed cfg88c !!"input" !!"zip" ns /\ names_path [] ns !!"path" [!!"d.zip"]) /\ holds marked_zip fs84 [!!"d.zip"] [!!"d"] val84 /\
  (exists sns, Stored cfg88c !!"explicit_split" sns /\ children sns = map sp_ns [] ++ sp_ns train88 :: []) /\ In !!"a" (sp_keys train88) /\ ~ In !!"a" [!!"d"].
Proof.
  split; [exact wc88c|]. split.
  { eexists. destruct (typed_at cfg88c !!"input" _ wc88c eq_refl eq_refl eq_refl eq_refl eq_refl) as (T & W). split; [exact T|]. eapply resolve_names; [exact W|reflexivity|reflexivity]. }
  split; [exact d84|]. split; [eexists; split; [apply stored_at; [exact wc88c|reflexivity]|reflexivity]|]. split; [now left|]. simpl. intuition discriminate.
Qed.
Example C88_list_witness : wf_params cfg88d /\ wf_fs fs84 /\ (exists ns, Typed cfg88d !!"input" !!"zip" ns /\ names_path [] ns !!"path" [!!"d.zip"]) /\ holds marked_zip fs84 [!!"d.zip"] [!!"d"] val84 /\ Missing cfg88d !!"num_slices" /\
  (exists sns c, Stored cfg88d !!"explicit_split" sns /\ is_params sns = true /\ In c (children sns) /\ Stored c !!"tags" (PList [PStr !!"x"])) /\ run_split cfg88d fs84 = (fs84, Some TypeError).
Proof.
  split; [exact wc88d|]. split; [wf_files|]. split.
  { eexists. destruct (typed_at cfg88d !!"input" _ wc88d eq_refl eq_refl eq_refl eq_refl eq_refl) as (T & W). split; [exact T|]. eapply resolve_names; [exact W|reflexivity|reflexivity]. }
  split; [exact d84|]. split; [apply missing_at; [exact wc88d|reflexivity]|]. split; [|vm_compute; reflexivity]. eexists. eexists. split; [apply stored_at; [exact wc88d|reflexivity]|]. split; [reflexivity|]. split; [right; left; reflexivity|]. apply stored_at; [wf_cfg|reflexivity].
Qed.
Example C88_witness :
  (let (fs, e) := run_split cfg88 fs84 in (e, found fs [!!"train.zip"; !!"e"], found fs [!!"test.zip"; !!"e"])) = (None, Some ([!!"a"; !!"c"], [!!"aa"; !!"cc"]), Some ([!!"b"], [!!"bb"])) /\
  (let (fs, e) := run_split cfg88b fs84 in (e, found fs [!!"train.zip"; !!"e"])) = (Some RuntimeError, Some ([!!"a"; !!"c"], [!!"aa"; !!"cc"])) /\
  (let (fs, e) := run_split cfg88c fs84 in (e, found fs [!!"train.zip"; !!"e"])) = (Some RuntimeError, Some ([], [])) /\
  Stored cfg88b !!"explicit_split.must_be_exhaustive" (PBool false) /\ ParamsSpec.Absent cfg88b !!"must_be_exhaustive".
Proof. split; [vm_compute; reflexivity|]. split; [vm_compute; reflexivity|]. split; [vm_compute; reflexivity|]. split; [apply stored_at; [exact wc88b|reflexivity]|apply (absent_walk _ _ (proj1 wc88b)); reflexivity]. Qed.

(** ** Scripts told to write where their input lies *)
Definition fs84x : list (list str * fnode) := ([!!"0.zip"; !!"keys"], file84 ks84) :: fs84.
Definition cfg84x : pv := PParams [] [zip_at !!"input" !!"keys/0.zip"; (!!"num_slices", PInt 2); (!!"output_dir", PStr !!"/keys")].
Definition cfg86x : pv := PParams [] [zip_at !!"input" !!"in.zip"; (!!"num_to_sample", PInt 2); (!!"output_zip_path", PStr !!"/in.zip")].
Definition cfg86y : pv := PParams [] [zip_at !!"input" !!"in.zip"; (!!"num_to_sample", PInt 0); (!!"output_zip_path", PStr !!"/in.zip")].
Definition cfg86z : pv := PParams [] [zip_at !!"input" !!"keys/k1"; (!!"num_to_sample", PInt 1); (!!"output_zip_path", PStr !!"s.zip")].
Definition cfg88x : pv := PParams [] [zip_at !!"input" !!"/in.zip"; (!!"explicit_split", PParams [!!"explicit_split"] [split_at !!"train" !!"keys/k1" !!"e/train.zip"; split_at !!"test" !!"keys/k2" !!"in.zip"])].
Definition over88 : split := split88 !!"test" !!"keys/k2" !!"in.zip" [!!"k2"; !!"keys"] [!!"b"] [!!"in.zip"].
Lemma wc84x : wf_params cfg84x. Proof. wf_cfg. Qed.
Lemma wc86x : wf_params cfg86x. Proof. wf_cfg. Qed.
Lemma wc86y : wf_params cfg86y. Proof. wf_cfg. Qed.
Lemma wc86z : wf_params cfg86z. Proof. wf_cfg. Qed.
Lemma wc88x : wf_params cfg88x. Proof. wf_cfg. Qed.
Ltac typed_zip W := eexists; destruct (typed_at _ !!"input" _ W eq_refl eq_refl eq_refl eq_refl eq_refl) as (T & W'); split; [exact T|]; eapply resolve_names; [exact W'|reflexivity|reflexivity].
Example C84_input_overwritten_hypotheses : wf_params cfg84x /\ wf_fs fs84x /\ (exists ns, Typed cfg84x !!"input" !!"zip" ns /\ names_path [] ns !!"path" [!!"0.zip"; !!"keys"]) /\ holds marked_zip fs84x [!!"0.zip"; !!"keys"] ks84 val84 /\
  Stored cfg84x !!"num_slices" (PInt 2) /\ Missing cfg84x !!"explicit_split" /\ seed_given cfg84x None /\ names_path [] cfg84x !!"output_dir" [!!"keys"] /\ unblocked fs84x [!!"keys"] /\ Forall encodable [!!"keys"] /\
  (forall o, In o ((!!"_slices.txt" :: [!!"keys"]) :: map (fun i => slice_name i :: [!!"keys"]) (seq 0 2)) -> free fs84x o) /\ In [!!"0.zip"; !!"keys"] (map (fun i => slice_name i :: [!!"keys"]) (seq 0 2)) /\ ks84 <> [].
Proof.
  split; [exact wc84x|]. split; [wf_files|]. split; [typed_zip wc84x|]. split; [apply holds84; [repeat constructor; simpl; intuition discriminate|intros k I; apply plain84; simpl in *; tauto|reflexivity]|].
  split; [apply stored_at; [exact wc84x|reflexivity]|]. split; [apply missing_at; [exact wc84x|reflexivity]|]. split; [apply missing_at; [exact wc84x|reflexivity]|].
  split; [eapply resolve_names; [exact wc84x|reflexivity|reflexivity]|]. split; [no_obstacle|]. split; [repeat (apply Forall_cons; [apply enc_check; reflexivity|]); apply Forall_nil|].
  split; [intros o [<-|[<-|[<-|[]]]]; [left; reflexivity|right; eexists; reflexivity|left; reflexivity]|]. split; [now left|discriminate].
Qed.
Example C84_input_overwritten_witness :
  (let (fs, e) := run_split cfg84x fs84x in (e, found fs [!!"0.zip"; !!"keys"], found fs [!!"1.zip"; !!"keys"])) = (Some AnyError, Some ([], []), Some ([], [])).
Proof. vm_compute. reflexivity. Qed.
Example C85_first_duplicate_hypotheses : let xs := [([!!"in.zip"], ks84, val84)] ++ ([!!"in.zip"], ks84, val84) :: [] in
  lists_inputs [] cfg85b fs84 (map (fun x => fst (fst x)) xs) /\ NoDup (stored_keys [([!!"in.zip"], ks84, val84)]) /\ (exists k, In k ks84 /\ In k (stored_keys [([!!"in.zip"], ks84, val84)])) /\
  unblocked fs84 [] /\ free fs84 [!!"all.zip"] /\ ~ In [!!"all.zip"] (map (fun x => fst (fst x)) xs).
Proof.
  intros xs. split; [apply C85_hypotheses|]. split; [repeat constructor; simpl; intuition discriminate|]. split; [exists !!"a"; split; simpl; tauto|]. split; [no_obstacle|]. split; [left; reflexivity|]. simpl. intuition discriminate.
Qed.
Example C86_in_place_hypotheses : wf_params cfg86x /\ (exists ns, Typed cfg86x !!"input" !!"zip" ns /\ names_path [] ns !!"path" [!!"in.zip"]) /\ Stored cfg86x !!"num_to_sample" (PInt 2) /\
  ParamsSpec.Absent cfg86x !!"random_seed" /\ names_path [] cfg86x !!"output_zip_path" [!!"in.zip"] /\ unblocked fs84 [] /\ free fs84 [!!"in.zip"] /\
  wf_params cfg86y /\ (exists ns, Typed cfg86y !!"input" !!"zip" ns /\ names_path [] ns !!"path" [!!"in.zip"]) /\ Stored cfg86y !!"num_to_sample" (PInt 0) /\ (forall z, int_value (PInt 0) z -> (z <= 0)%Z) /\
  wf_params cfg86z /\ (exists ns, Typed cfg86z !!"input" !!"zip" ns /\ names_path [] ns !!"path" [!!"k1"; !!"keys"]) /\ (forall b a, look fs84 [!!"k1"; !!"keys"] = Some (KFile b) -> unzip marked_zip b <> Ok a).
Proof.
  split; [exact wc86x|]. split; [typed_zip wc86x|]. split; [apply stored_at; [exact wc86x|reflexivity]|]. split; [apply (absent_walk _ _ (proj1 wc86x)); reflexivity|]. split; [eapply resolve_names; [exact wc86x|reflexivity|reflexivity]|].
  split; [no_obstacle|]. split; [right; eexists; reflexivity|]. split; [exact wc86y|]. split; [typed_zip wc86y|]. split; [apply stored_at; [exact wc86y|reflexivity]|]. split; [intros z V; inversion V; subst; lia|].
  split; [exact wc86z|]. split; [typed_zip wc86z|]. intros b a L. vm_compute in L. injection L as <-. discriminate.
Qed.
Example C86_in_place_witness :
  (let (fs, e) := run_sample cfg86x fs84 in (e, found fs [!!"in.zip"])) = (Some AnyError, Some ([], [])) /\
  run_sample cfg86y fs84 = (fs84, Some ParameterError) /\ run_sample cfg86z fs84 = (fs84, Some AnyError).
Proof. repeat split; vm_compute; reflexivity. Qed.
Lemma over_ok : split_ok [] fs84 over88.
Proof.
  apply split_check; [reflexivity|reflexivity| |repeat constructor; simpl; intuition discriminate|intros k I; apply plain84; simpl in *; tauto|discriminate|no_obstacle|right; eexists; reflexivity].
  apply test_ok.
Qed.
Example C88_input_overwritten_hypotheses : wf_params cfg88x /\ (exists ns, Typed cfg88x !!"input" !!"zip" ns /\ names_path [] ns !!"path" [!!"in.zip"]) /\ Missing cfg88x !!"num_slices" /\
  (exists sns, Stored cfg88x !!"explicit_split" sns /\ is_params sns = true /\ children sns = map sp_ns ([train88] ++ [] ++ [over88]) ++ []) /\
  (forall s', In s' ([train88] ++ [] ++ [over88]) -> split_ok [] fs84 s') /\ apart ([train88] ++ [] ++ [over88]) /\ (forall s' k, In s' ([train88] ++ [] ++ [over88]) -> In k (sp_keys s') -> In k ks84) /\
  (forall s', In s' [train88] -> sp_out s' <> [!!"in.zip"]) /\ In [!!"in.zip"] (map sp_out ([] ++ [over88])) /\ sp_keys over88 <> [].
Proof.
  split; [exact wc88x|]. split; [typed_zip wc88x|]. split; [apply missing_at; [exact wc88x|reflexivity]|]. split; [eexists; split; [apply stored_at; [exact wc88x|reflexivity]|split; reflexivity]|].
  split; [intros s' [<-|[<-|[]]]; [exact train_ok|exact over_ok]|]. split; [split|split; [|split; [intros s' [<-|[]]; discriminate|split; [now left|discriminate]]]].
  - repeat constructor; simpl; intuition discriminate.
  - intros s s' [<-|[<-|[]]] [<-|[<-|[]]]; (split; [intros (l & E); destruct l as [|? l]; [discriminate|]; destruct l as [|? l]; [discriminate|]; destruct l; discriminate|discriminate]).
  - intros s k [<-|[<-|[]]] I; simpl in *; tauto.
Qed.
(** The same with an empty split in between: the input is written over by a split without keys, the next one fails. *)
Definition cfg88y : pv := PParams [] [zip_at !!"input" !!"/in.zip"; (!!"explicit_split", PParams [!!"explicit_split"] [split_at !!"none" !!"keys/k0" !!"in.zip"; split_at !!"train" !!"keys/k1" !!"e/train.zip"])].
Definition none88 : split := split88 !!"none" !!"keys/k0" !!"in.zip" [!!"k0"; !!"keys"] [] [!!"in.zip"].
Definition fs88y : list (list str * fnode) := ([!!"k0"; !!"keys"], KFile [10%N; 10%N]) :: fs84.
Lemma wc88y : wf_params cfg88y. Proof. wf_cfg. Qed.
Example C88_input_overwritten_hypotheses2 : wf_params cfg88y /\ wf_fs fs88y /\ (exists sns, Stored cfg88y !!"explicit_split" sns /\ is_params sns = true /\ children sns = map sp_ns ([] ++ [none88] ++ [train88]) ++ []) /\
  (forall s', In s' ([] ++ [none88] ++ [train88]) -> split_ok [] fs88y s') /\ apart ([] ++ [none88] ++ [train88]) /\ (forall s', In s' [none88] -> sp_keys s' = []) /\ In [!!"in.zip"] (map sp_out ([none88] ++ [train88])) /\ sp_keys train88 <> [].
Proof.
  split; [exact wc88y|]. split; [wf_files|]. split; [eexists; split; [apply stored_at; [exact wc88y|reflexivity]|split; reflexivity]|]. split; [|split; [split|split; [intros s' [<-|[]]; reflexivity|split; [now left|discriminate]]]].
  - intros s' [<-|[<-|[]]].
    + apply split_check; [reflexivity|reflexivity| |constructor|intros k []|discriminate|no_obstacle|right; eexists; reflexivity].
      exists [10%N; 10%N], [10%N; 10%N], [10%N; 10%N], [[]; []]. split; [reflexivity|]. split; [vm_compute; reflexivity|]. split; [|split; [split; [intros l [<-|[<-|[]]] []|left; reflexivity]|]].
      * exact (universal_spec [10%N; 10%N]).
      * intros k. split; [intros []|]. intros ([<-|[<-|[]]] & N); congruence.
    + destruct train_ok as (A1 & A2 & A3 & A4 & A5 & A6 & A7 & A8 & A9). split; [exact A1|]. split; [exact A2|]. split; [exact A3|]. split; [exact A4|]. split; [exact A5|]. split; [exact A6|]. split; [exact A7|]. split; [no_obstacle|exact A9].
  - repeat constructor; simpl; intuition discriminate.
  - intros s s' [<-|[<-|[]]] [<-|[<-|[]]]; (split; [intros (l & E); destruct l as [|? l]; [discriminate|]; destruct l as [|? l]; [discriminate|]; destruct l; discriminate|discriminate]).
Qed.
Example C88_input_overwritten_witness :
  (let (fs, e) := run_split cfg88x fs84 in (e, found fs [!!"train.zip"; !!"e"], found fs [!!"in.zip"])) = (Some AnyError, Some ([!!"a"; !!"c"], [!!"aa"; !!"cc"]), Some ([], [])) /\
  (let (fs, e) := run_split cfg88y fs88y in (e, found fs [!!"train.zip"; !!"e"], found fs [!!"in.zip"])) = (Some AnyError, Some ([], []), Some ([], [])).
Proof. split; vm_compute; reflexivity. Qed.
Print Assumptions C84_split.
Print Assumptions C84_choice.
Print Assumptions C84_bad_num_slices.
Print Assumptions C85_join.
Print Assumptions C85_duplicate.
Print Assumptions C85_output_among_inputs_refuted.
Print Assumptions C85_join_split.
Print Assumptions C85_unreadable_input.
Print Assumptions C86_downsample.
Print Assumptions C87_copy.
Print Assumptions C87_duplicate.
Print Assumptions C87_output_inside_refuted.
Print Assumptions C88_explicit.
Print Assumptions C88_missing.
Print Assumptions C88_must_be_exhaustive_refuted.
Print Assumptions C88_list_refuted.
Print Assumptions C84_input_overwritten_refuted.
Print Assumptions C85_first_duplicate.
Print Assumptions C86_in_place_refuted.
Print Assumptions C86_bad_num_to_sample.
Print Assumptions C86_bad_input.
Print Assumptions C88_input_overwritten_refuted.
