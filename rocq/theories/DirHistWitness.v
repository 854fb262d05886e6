(** * Concrete cases for C114 *)
From Verif Require Import Prelude PyStr SortLib TextLib Utf8 Params ParamsSpec ParamsProofs Fs FsProofs FsProps PathLists PathListsProps Io IoProps KeyValue KeyValueProps KvParams Mains MainsProofs OsPath OsPathProofs LoadFs LoadFsProps DirFs DirFsProps LoadFsSpec DirFsKeys DirHist DirHistProps MainsWitness DirFsWitness.

(** sink 0 is for text, sinks 1 and 2 are for bytes *)
Definition kind114 (i : nat) : bool := negb (i =? 0)%nat.
Definition run114 (h : list dcall) := let '(fs, _, os) := dcalls [!!"w"] store97 kind114 fs97 (fun _ => []) h in (fs, os).
Definition h114 : list dcall :=
  [DEnter 0; DEnter 1; DPut 0 !!"x" (VStr !!"one"); DEnter 2; DPut 1 !!"a/b" (VBytes !!"nested"); DPut 1 !!"./x" (VBytes !!"two"); DPut 0 !!"y" (VBytes !!"no");
   DExit 1; DPut 0 !!"z" (VStr !!"late"); DExit 0; DPut 1 !!"z" (VBytes !!"later")].
Example C114_hypotheses : usable store97 fs97 h114 /\ last_exit h114 0 (firstn 9 h114) /\ wf_params cfg97 /\ names_path [!!"w"] cfg97 !!"path" (index_name :: store97).
Proof.
  split; [|split; [exists [DPut 1 !!"z" (VBytes !!"later")]; split; [reflexivity|intros j [J|[]]; discriminate]|split; [exact wc97|eapply resolve_names; [exact wc97|reflexivity|reflexivity]]]].
  split; [exact wf97|]. split; [proper97|]. split; [discriminate|]. split; [reflexivity|].
  split; [intros x; exact (proj2 (proj1 (empty_spec fs97 store97) eq_refl) x)|]. split.
  - intros i k v J. unfold h114 in J. repeat (destruct J as [J|J]; [try discriminate J; inversion J; subst; (split; [field97|]); eexists; (split; [pk|field97])|]). destruct J.
  - assert (A : forall k v cs, In (k, v) (all_puts h114) -> DirFsProps.plain_key k cs -> In cs [[!!"x"]; [!!"a"; !!"b"]; [!!"y"]; [!!"z"]]).
    { intros k v cs J (S1 & _). cbn [all_puts h114 flat_map app] in J. repeat (destruct J as [E|J]; [inversion E; subst; apply spells_spec in S1; vm_compute in S1; subst; vm_compute; auto|]). destruct J. }
    split; [intros k v k' v' cs cs' x J J' K K' E|intros k v cs J K]; assert (Q := A _ _ _ J K); [assert (Q' := A _ _ _ J' K')|].
    + destruct Q as [<-|[<-|[<-|[<-|[]]]]], Q' as [<-|[<-|[<-|[<-|[]]]]]; destruct x; try reflexivity; cbn in E; discriminate.
    + destruct Q as [<-|[<-|[<-|[<-|[]]]]]; discriminate.
Qed.
(** Sink 2 comes too late; the index is sink 0's, but x and z read what sink 1 has put. *)
Example C114_witness : (let (fs, os) := run114 h114 in (os, read97 fs, look fs (!!"y" :: store97), look fs [!!"f"; !!"w"])) =
  ([Ok tt; Ok tt; Ok tt; Raise IOError; Ok tt; Ok tt; Raise TypeError; Ok tt; Ok tt; Ok tt; Ok tt],
   Some ([!!"x"; !!"z"], [Ok !!"two"; Ok !!"later"]), Some (KFile []), Some (KFile !!"old")).
Proof. vm_compute. reflexivity. Qed.
(** C114 refuted: what has been put, and not replaced, into a directory through sinks that have all been left can be read.  Of two sinks entered on one directory the one left first loses
    its index: its key is not listed, though its file is there. *)
Theorem C114_lost_refuted : let h := [DEnter 0; DEnter 1; DPut 0 !!"x" (VStr !!"one"); DPut 1 !!"y" (VBytes !!"two"); DExit 0; DExit 1] in
  usable store97 fs97 h /\ exists fs, run114 h = (fs, [Ok tt; Ok tt; Ok tt; Ok tt; Ok tt; Ok tt]) /\ look fs (!!"x" :: store97) = Some (KFile !!"one") /\ read97 fs = Some ([!!"y"], [Ok !!"two"]).
Proof.
  cbv zeta. split; [|eexists; split; [vm_compute; reflexivity|split; vm_compute; reflexivity]].
  split; [exact wf97|]. split; [proper97|]. split; [discriminate|]. split; [reflexivity|].
  split; [intros x; exact (proj2 (proj1 (empty_spec fs97 store97) eq_refl) x)|]. split.
  - intros i k v J. repeat (destruct J as [J|J]; [try discriminate J; inversion J; subst; (split; [field97|]); eexists; (split; [pk|field97])|]). destruct J.
  - assert (A : forall k v cs, In (k, v) (all_puts [DEnter 0; DEnter 1; DPut 0 !!"x" (VStr !!"one"); DPut 1 !!"y" (VBytes !!"two"); DExit 0; DExit 1]) -> DirFsProps.plain_key k cs -> In cs [[!!"x"]; [!!"y"]]).
    { intros k v cs J (S1 & _). cbn [all_puts flat_map app] in J. repeat (destruct J as [E|J]; [inversion E; subst; apply spells_spec in S1; vm_compute in S1; subst; vm_compute; auto|]). destruct J. }
    split; [intros k v k' v' cs cs' x J J' K K' E|intros k v cs J K]; assert (Q := A _ _ _ J K); [assert (Q' := A _ _ _ J' K')|].
    + destruct Q as [<-|[<-|[]]], Q' as [<-|[<-|[]]]; destruct x; try reflexivity; cbn in E; discriminate.
    + destruct Q as [<-|[<-|[]]]; discriminate.
Qed.
Print Assumptions C114_calls. Print Assumptions C114_files. Print Assumptions C114_read. Print Assumptions C114_lost_refuted.
