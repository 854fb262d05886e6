(** * Concrete cases for C97 *)
From Verif Require Import Prelude PyStr SortLib TextLib Utf8 Params ParamsSpec ParamsProofs Fs FsProofs FsProps PathLists PathListsProps Io IoProps KeyValue KeyValueProps KvParams Mains MainsProofs OsPath OsPathProofs LoadFs LoadFsProps DirFs DirFsProps LoadFsSpec DirFsKeys MainsWitness.

Definition store97 : list str := [!!"store"; !!"w"].
Definition fs97 : list (list str * fnode) := [(store97, KDir); ([!!"w"], KDir); ([!!"f"; !!"w"], KFile !!"old")].
Definition cfg97 : pv := PParams [] [(!!"path", PStr !!"store/_index")].
Definition ops97 : list (str * value) :=
  [(!!"x", VStr !!"one"); (!!"a/b/c", VStr !!"nested"); (!!"./x", VStr (!!"two" ++ [CR; LF])); (!!"a//d", VStr !!"beside")].
Definition run97 (ops : list (str * value)) := fs_session [!!"w"] false store97 fs97 ops.
(** What is read through the index. *)
Definition read97 (fs : list (list str * fnode)) : option (list str * list (res str)) :=
  match map_source_from_params unit [!!"w"] fs false cfg97 with
  | Ok (OMapSource _ files) => Some (map fst files, map (src_item (char_map_source [!!"w"] fs files)) (map fst files))
  | _ => None
  end.
Lemma wf97 : wf_fs fs97. Proof. wf_files. Qed.
Lemma wc97 : wf_params cfg97. Proof. wf_cfg. Qed.
Lemma plain97 k cs : p_parts (parse_path k) = cs -> root_of k = 0%N -> forallb (fun c => negb (c =? 0)%N) k = true -> cs <> [] -> existsb (fun c => str_eqb c !!"..") cs = false -> DirFsProps.plain_key k cs.
Proof.
  intros P R Z N U. split; [now apply spells_spec|]. split; [intros r ->; simpl in R; destruct r as [|b r]; [discriminate|]; destruct (b =? slash)%N; [|discriminate]; destruct r as [|x r]; [discriminate|]; destruct (x =? slash)%N; discriminate|].
  split; [intros I; rewrite forallb_forall in Z; specialize (Z _ I); discriminate|]. split; [assumption|]. intros I. rewrite <- not_true_iff_false in U. apply U. apply existsb_exists. exists !!"..". auto.
Qed.
Ltac pk := apply plain97; [reflexivity|reflexivity|reflexivity|discriminate|reflexivity].
Ltac proper97 := repeat (apply Forall_cons; [repeat split; try discriminate; vm_compute; intuition discriminate|]); apply Forall_nil.
Lemma trim97 s : match s with [] => true | c :: _ => negb (is_space c) end = true -> match rev s with [] => true | c :: _ => negb (is_space c) end = true -> trim s.
Proof.
  intros A B. split; [intros c r ->; now apply negb_true_iff in A|]. intros c r ->. rewrite rev_app_distr in B. now apply negb_true_iff in B.
Qed.
Ltac field97 := split; [apply trim97; vm_compute; reflexivity|]; split; [simpl; intuition discriminate|]; split; [simpl; intuition discriminate|]; split; [simpl; intuition discriminate|apply enc_check; reflexivity].
Example C97_hypotheses : wf_fs fs97 /\ Forall proper store97 /\ Forall proper [!!"w"] /\ store97 <> [] /\ look fs97 store97 = Some KDir /\ (forall x, look fs97 (x :: store97) = None) /\
  (forall k v, In (k, v) ops97 -> (exists b, accepts false v b) /\ field_ok k /\ exists cs, DirFsProps.plain_key k cs /\ field_ok (path_str (rev cs ++ store97))) /\ side_by_side ops97 /\
  wf_params cfg97 /\ names_path [!!"w"] cfg97 !!"path" (index_name :: store97).
Proof.
  split; [exact wf97|]. split; [proper97|]. split; [proper97|]. split; [discriminate|]. split; [reflexivity|].
  split; [intros x; exact (proj2 (proj1 (empty_spec fs97 store97) eq_refl) x)|].
  split; [|split; [|split; [exact wc97|eapply resolve_names; [exact wc97|reflexivity|reflexivity]]]].
  - intros k v [E|[E|[E|[E|[]]]]]; inversion E; subst; (split; [eexists; constructor; reflexivity|]); (split; [field97|]); eexists; (split; [pk|field97]).
  - assert (A : forall k v cs, In (k, v) ops97 -> DirFsProps.plain_key k cs -> In cs [[!!"x"]; [!!"a"; !!"b"; !!"c"]; [!!"a"; !!"d"]]).
    { intros k v cs [E|[E|[E|[E|[]]]]] (S1 & _); inversion E; subst; apply spells_spec in S1; vm_compute in S1; subst; vm_compute; auto. }
    split; [intros k v k' v' cs cs' x I I' K K' E|intros k v cs I K]; assert (J := A _ _ _ I K); [assert (J' := A _ _ _ I' K')|].
    + destruct J as [<-|[<-|[<-|[]]]], J' as [<-|[<-|[<-|[]]]]; destruct x; try reflexivity; cbn in E; discriminate.
    + destruct J as [<-|[<-|[<-|[]]]]; discriminate.
Qed.
Example C97_witness : (let (fs, o) := run97 ops97 in (o, read97 fs, look fs [!!"f"; !!"w"])) =
  ((Ok tt, [Ok tt; Ok tt; Ok tt; Ok tt], Ok tt),
   Some ([!!"./x"; !!"a//d"; !!"a/b/c"; !!"x"], [Ok (!!"two" ++ [LF]); Ok !!"beside"; Ok !!"nested"; Ok (!!"two" ++ [LF])]), Some (KFile !!"old")).
Proof. vm_compute. reflexivity. Qed.
(** Failing puts: a value that is no str, a key below a file, a key above one; the index lists the others. *)
Example C97_failures_witness : (let (fs, o) := run97 [(!!"x", VStr !!"1"); (!!"y", VBytes !!"2"); (!!"x/z", VStr !!"3"); (!!"d/e/f", VStr !!"4"); (!!"d", VStr !!"5"); (!!"x/y/z", VStr !!"6"); (!!"s", VStr [55296%N])] in (o, read97 fs, look fs (!!"y" :: store97))) =
  ((Ok tt, [Ok tt; Raise TypeError; Raise FileExistsError; Ok tt; Raise IOError; Raise NotADirectoryError; Raise UnicodeEncodeError], Ok tt), Some ([!!"d/e/f"; !!"x"], [Ok !!"4"; Ok !!"1"]), Some (KFile [])).
Proof. vm_compute. reflexivity. Qed.
(** C97 refuted: keys without line breaks, tabs and surrounding spaces can be read back.  A key ending in " /" names a file whose name ends in
    a space, which is lost when the index is read. *)
Theorem C97_space_refuted : exists fs, run97 [(!!"c /", VStr !!"1")] = (fs, (Ok tt, [Ok tt], Ok tt)) /\ read97 fs = Some ([!!"c /"], [Raise FileNotFoundError]).
Proof. eexists. split; [vm_compute; reflexivity|]. vm_compute. reflexivity. Qed.
(** C97 refuted: different keys are kept apart.  "c" and "./c" name the same file. *)
Theorem C97_shared_refuted : exists fs, run97 [(!!"c", VStr !!"1"); (!!"./c", VStr !!"2")] = (fs, (Ok tt, [Ok tt; Ok tt], Ok tt)) /\ read97 fs = Some ([!!"./c"; !!"c"], [Ok !!"2"; Ok !!"2"]).
Proof. eexists. split; [vm_compute; reflexivity|]. vm_compute. reflexivity. Qed.
(** Keys that leave the directory: the files beside and above it are overwritten; the index in it lists them. *)
Example C97_escape_witness : (let (fs, o) := run97 [(!!"../f", VStr !!"new"); (!!"/w/g/h", VStr !!"made"); (!!"../../r", VStr !!"up")] in (o, read97 fs, look fs [!!"f"; !!"w"], look fs [!!"h"; !!"g"; !!"w"], look fs [!!"r"])) =
  ((Ok tt, [Ok tt; Ok tt; Ok tt], Ok tt), Some ([!!"../../r"; !!"../f"; !!"/w/g/h"], [Ok !!"up"; Ok !!"new"; Ok !!"made"]), Some (KFile !!"new"), Some (KFile !!"made"), Some (KFile !!"up")).
Proof. vm_compute. reflexivity. Qed.
Example C97_parent_hypotheses : spells !!"../../r" (repeat !!".." 2 ++ [!!"r"]) /\ free fs97 (!!"r" :: skipn 2 store97).
Proof. split; [now apply spells_spec|]. now left. Qed.
Example C97_index_witness : (let (fs, o) := run97 [(!!"_index/x", VStr !!"1")] in (o, look fs (index_name :: store97))) = ((Ok tt, [Ok tt], Raise IOError), Some KDir) /\
  (let (fs, o) := run97 [(!!"_index", VStr !!"1")] in (o, read97 fs)) = ((Ok tt, [Ok tt], Ok tt), Some ([!!"_index"], [Ok (!!"_index" ++ [TAB] ++ !!"/w/store/_index" ++ [LF])])).
Proof. split; vm_compute; reflexivity. Qed.
(** A directory that is not empty, and one that is missing. *)
Example C97_enter_witness : fs_session [!!"w"] false [!!"w"] fs97 [] = (fs97, (Raise IOError, [], Ok tt)) /\ fs_session [!!"w"] false [!!"n"; !!"w"] fs97 [] = (fs97, (Raise FileNotFoundError, [], Ok tt)) /\
  fs_session [!!"w"] false [!!"f"; !!"w"] fs97 [] = (fs97, (Raise NotADirectoryError, [], Ok tt)).
Proof. repeat split; vm_compute; reflexivity. Qed.
(** "n/../b" makes the directory n and writes b; with a file in the way nothing is written, but the directory before it stays. *)
Example C97_any_key_hypotheses : spells !!"n/.././b" ([!!"n"; !!".."] ++ [!!"b"]) /\ origin store97 !!"n/.././b" store97 /\ way fs97 store97 [!!"n"; !!".."] ((!!"n" :: store97, KDir) :: fs97) store97 /\ place store97 !!"b" (!!"b" :: store97) /\
  spells !!"/w/n/../f/y" ([!!"w"; !!"n"; !!".."; !!"f"] ++ [!!"y"]) /\ origin store97 !!"/w/n/../f/y" [] /\ dead_end fs97 [] [!!"w"; !!"n"; !!".."; !!"f"] (([!!"n"; !!"w"], KDir) :: fs97).
Proof.
  split; [now apply spells_spec|]. split; [apply or_rel; discriminate|]. split; [apply way_new; [discriminate|reflexivity|]; apply way_up; [reflexivity|]; constructor|]. split; [constructor; discriminate|].
  split; [now apply spells_spec|]. split; [constructor|]. exists [!!"w"; !!"n"; !!".."], !!"f", [], [!!"w"]. split; [reflexivity|]. split; [discriminate|].
  split; [apply way_in; [discriminate|reflexivity|]; apply way_new; [discriminate|reflexivity|]; apply way_up; [reflexivity|]; constructor|]. exists (KFile !!"old"). split; [reflexivity|discriminate].
Qed.
Example C97_any_key_witness : (let (fs, o) := run97 [(!!"n/.././b", VStr !!"1"); (!!"/w/n/../f/y", VStr !!"2"); (!!"..", VStr !!"3"); ([], VStr !!"4"); ([0%N], VStr !!"5")] in (o, look fs (!!"n" :: store97), look fs (!!"b" :: store97), look fs [!!"n"; !!"w"], read97 fs)) =
  ((Ok tt, [Ok tt; Raise FileExistsError; Raise IOError; Raise IOError; Raise ValueError], Ok tt), Some KDir, Some (KFile !!"1"), Some KDir, Some ([!!"n/.././b"], [Ok !!"1"])).
Proof. vm_compute. reflexivity. Qed.
Example C97_map_source_witness : leads fs97 [!!"w"] !!"store/../f" [!!"f"; !!"w"] /\ (let bs := byte_map_source [!!"w"] fs97 [(!!"k", parse_path !!"store/../f"); (!!"l", parse_path !!"nowhere/../f")] in (src_item bs !!"k", src_get bs !!"k", src_item bs !!"l", src_item bs !!"m", src_get bs !!"m")) =
  (Ok !!"old", Ok (Some !!"old"), Raise FileNotFoundError, Raise KeyError, Ok None).
Proof. split; [apply start_leads; reflexivity|vm_compute; reflexivity]. Qed.
Print Assumptions C97_put. Print Assumptions C97_enter. Print Assumptions C97_confined. Print Assumptions C97_round_trip. Print Assumptions C97_index.
Print Assumptions C97_absolute_refuted. Print Assumptions C97_parent_refuted. Print Assumptions C97_nested_refuted. Print Assumptions C97_index_directory_refuted. Print Assumptions C97_index_key_refuted.
