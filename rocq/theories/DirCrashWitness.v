(** * C105: what is not guaranteed, and concrete cases *)
From Verif Require Import Prelude PyStr SortLib TextLib Utf8 Params ParamsSpec ParamsProofs Fs FsProofs FsProps PathLists PathListsProps Io IoProps KeyValue KeyValueProps KvParams Mains MainsProofs OsPath OsPathProofs LoadFs LoadFsProps DirFs DirFsProps LoadFsSpec DirFsKeys MainsWitness DirFsWitness DirCrash DirCrashProps.

(** C105 refuted: a put that does not complete leaves the old value.  A file that is written again is emptied first: if the process dies then, its old content is lost and the new not yet there. *)
Theorem C105_old_value_refuted : forall cwd fs c q old data, wf_fs fs -> Forall proper (c :: q) -> look fs (c :: q) = Some (KFile old) ->
  exists st, write_state cwd fs (abs_path (c :: q)) data st /\ look st (c :: q) = Some (KFile []) /\ forall a, a <> c :: q -> look st a = look fs a.
Proof.
  intros cwd fs c q old data W P L. assert (Dq : look fs q = Some KDir) by (eapply W; exact L).
  assert (WR : writable fs (c :: q)). { split; [|right; eauto]. intros a B N (k & K & Nk). assert (look fs a = Some KDir) by exact (wf_above fs a (c :: q) _ W L B N). congruence. }
  destruct (C105_write_possible cwd fs c q data W P) as (_ & _ & A). destruct (A WR [] (ex_intro _ data eq_refl)) as (st & H & (F1 & F2 & F3)). exists st. split; [exact H|]. split; [exact F1|].
  intros a N. destruct (at_or_below a (c :: q)) eqn:X; [|apply F3; intros Y; apply at_or_below_spec in Y; congruence]. apply at_or_below_spec in X. rewrite (F2 a X N). symmetry. exact (wf_above fs a (c :: q) _ W L X N).
Qed.

(** Two documents, one named by a beginning of the other's name, and the state after both puts. *)
Definition ops105 : list (str * value) := [(!!"a", VStr !!"one"); (!!"ab", VStr !!"two")].
Definition fs105 : list (list str * fnode) := fst (fst (fs_puts [!!"w"] false store97 (fst (fs_enter store97 fs97)) [] ops105)).
Example C105_hypotheses : ready false store97 fs97 ops105 /\ Forall proper [!!"w"] /\ (forall k v cs, In (k, v) ops105 -> DirFsProps.plain_key k cs -> field_ok k /\ field_ok (path_str (rev cs ++ store97))).
Proof.
  assert (A : forall k v cs, In (k, v) ops105 -> DirFsProps.plain_key k cs -> In cs [[!!"a"]; [!!"ab"]]).
  { intros k v cs [E|[E|[]]] (S1 & _); inversion E; subst; apply spells_spec in S1; vm_compute in S1; subst; vm_compute; auto. }
  split; [|split; [proper97|]].
  - split; [exact wf97|]. split; [proper97|]. split; [discriminate|]. split; [reflexivity|]. split; [intros x; exact (proj2 (proj1 (empty_spec fs97 store97) eq_refl) x)|]. split.
    + intros k v [E|[E|[]]]; inversion E; subst; (split; [eexists; constructor; reflexivity|]); eexists; pk.
    + split; [intros k v k' v' cs cs' x I I' K K' E|intros k v cs I K]; assert (J := A _ _ _ I K); [assert (J' := A _ _ _ I' K')|].
      * destruct J as [<-|[<-|[]]], J' as [<-|[<-|[]]]; destruct x; try reflexivity; cbn in E; discriminate.
      * destruct J as [<-|[<-|[]]]; discriminate.
  - intros k v cs I K. assert (J := A _ _ _ I K). destruct I as [E|[E|[]]]; inversion E; subst; (split; [field97|]); destruct J as [<-|[<-|[]]]; field97.
Qed.
(** the states with the first [n] bytes of the index *)
Definition torn105 (n : nat) : list (list str * fnode) := set_node fs105 (index_name :: store97) (firstn n (!!"a" ++ [TAB] ++ !!"/w/store/a" ++ [LF] ++ !!"ab" ++ [TAB] ++ !!"/w/store/ab" ++ [LF])).
Lemma torn105_state n : session_state [!!"w"] false store97 fs97 ops105 2 (torn105 n).
Proof.
  eapply (in_exit [!!"w"] false store97 fs97 ops105); [vm_compute; reflexivity|vm_compute; reflexivity|]. right. eexists _, _, _, (skipn n (!!"a" ++ [TAB] ++ !!"/w/store/a" ++ [LF] ++ !!"ab" ++ [TAB] ++ !!"/w/store/ab" ++ [LF])).
  split; [vm_compute; reflexivity|]. split; [vm_compute; reflexivity|]. split; [vm_compute; reflexivity|]. split; [rewrite firstn_skipn; vm_compute; reflexivity|reflexivity].
Qed.
(** C105 refuted: a store that can be read is right.  If the process dies while it writes the index, the torn index can be read without error, the last path in it being that of another document: "ab" then has the value of "a". *)
Theorem C105_torn_refuted : exists st, session_state [!!"w"] false store97 fs97 ops105 2 st /\ read97 st = Some ([!!"a"; !!"ab"], [Ok !!"one"; Ok !!"one"]) /\
  read97 (fst (run97 ops105)) = Some ([!!"a"; !!"ab"], [Ok !!"one"; Ok !!"two"]).
Proof. exists (torn105 26). split; [apply torn105_state|]. split; vm_compute; reflexivity. Qed.
(** C105 refuted: a store that can be read is complete.  An index of which nothing has been written is that of an empty store. *)
Theorem C105_empty_refuted : exists st, session_state [!!"w"] false store97 fs97 ops105 2 st /\ read97 st = Some ([], []).
Proof. exists (torn105 0). split; [apply torn105_state|]. vm_compute. reflexivity. Qed.
(** Other torn indices: cut after the first line, in the second key (IOError), in the second path. *)
Example C105_witness : map (fun n => read97 (torn105 n)) [13; 14; 15; 16; 17; 22; 27; 28] =
  [Some ([!!"a"], [Ok !!"one"]); None; None; Some ([!!"a"; !!"ab"], [Ok !!"one"; Raise IOError]); Some ([!!"a"; !!"ab"], [Ok !!"one"; Raise IOError]); Some ([!!"a"; !!"ab"], [Ok !!"one"; Raise FileNotFoundError]); Some ([!!"a"; !!"ab"], [Ok !!"one"; Ok !!"two"]); Some ([!!"a"; !!"ab"], [Ok !!"one"; Ok !!"two"])].
Proof. vm_compute. reflexivity. Qed.
(** A session that dies in the second put, with the directory n made, or with two of five bytes written; then the sink cannot be entered again. *)
Example C105_put_witness : let ops := [(!!"a", VStr !!"one"); (!!"n/b", VStr !!"seven")] in
  exists st1 st2, session_state [!!"w"] false store97 fs97 ops 1 st1 /\ session_state [!!"w"] false store97 fs97 ops 1 st2 /\
    (look st1 (!!"a" :: store97), look st1 (!!"n" :: store97), look st1 (!!"b" :: !!"n" :: store97)) = (Some (KFile !!"one"), Some KDir, None) /\
    (look st2 (!!"a" :: store97), look st2 (!!"n" :: store97), look st2 (!!"b" :: !!"n" :: store97)) = (Some (KFile !!"one"), Some KDir, Some (KFile !!"se")) /\
    read97 st2 = None /\ snd (fs_enter store97 st2) = Raise IOError.
Proof.
  intros ops. eexists _, _. split; [|split; [|split; [|split; [|split]]]].
  - eapply (in_put [!!"w"] false store97 fs97 ops _ [(!!"a", VStr !!"one")]); [vm_compute; reflexivity|reflexivity|vm_compute; reflexivity|]. left. vm_compute. right. left. reflexivity.
  - eapply (in_put [!!"w"] false store97 fs97 ops _ [(!!"a", VStr !!"one")]); [vm_compute; reflexivity|reflexivity|vm_compute; reflexivity|]. right. eexists _, _, !!"se", !!"ven". split; [vm_compute; reflexivity|]. split; [vm_compute; reflexivity|]. split; [vm_compute; reflexivity|]. split; reflexivity.
  - vm_compute. reflexivity.
  - vm_compute. reflexivity.
  - vm_compute. reflexivity.
  - vm_compute. reflexivity.
Qed.
(** A process that dies in __enter__ between rmdir and mkdir. *)
Example C105_enter_witness : exists st, session_state [!!"w"] false store97 fs97 ops105 0 st /\ look st store97 = None /\ fs_enter store97 st = (st, Raise FileNotFoundError).
Proof. exists [([!!"w"], KDir); ([!!"f"; !!"w"], KFile !!"old")]. split; [constructor; vm_compute; right; left; reflexivity|]. split; vm_compute; reflexivity. Qed.
Print Assumptions C105_write. Print Assumptions C105_write_possible. Print Assumptions C105_outside. Print Assumptions C105_documents. Print Assumptions C105_possible. Print Assumptions C105_restart. Print Assumptions C105_torn_index.
Print Assumptions C105_old_value_refuted. Print Assumptions C105_torn_refuted. Print Assumptions C105_empty_refuted.
