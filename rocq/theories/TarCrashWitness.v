(** * C120: a concrete case *)
From Verif Require Import Prelude PyStr TextLib Utf8 Params Fs FsProofs FsProps Io IoProps KeyValue KeyValueProps Scripts ScriptsProps Mains MainsProofs ScriptCrash ScriptCrashProps TarMain TarMainProps TarCrash TarCrashProps.
(** what is in the zip file of this case while it is written: nothing, or a nine *)
Definition unfinished120 (b : bytes) : Prop := b = [] \/ b = [9%N].
Notation moment120 := (tar_moment [!!"w"] toy_zip [] untar90 unfinished120).
(** With --dont-stream, killed while "c" is unpacked (one of its two bytes is written), then killed again when "a/b" is packed: *)
Definition first120 : list (list str * fnode) :=
  set_node (fst (extract [!!"w"] (set_node (fst (os_remove (fs90 [1%N]) [!!"x.zip"; !!"d"; !!"w"])) [!!"x.zip"; !!"d"; !!"w"] []) (!!"a/b", TFile !!"1"))) [!!"c"; !!"w"] !!"2".
Definition second120 : list (list str * fnode) :=
  set_node (fst (os_remove (fst (extract_all [!!"w"] (set_node (fst (os_remove first120 [!!"x.zip"; !!"d"; !!"w"])) [!!"x.zip"; !!"d"; !!"w"] [9%N]) ms90)) [!!"b"; !!"a"; !!"w"])) [!!"x.zip"; !!"d"; !!"w"] [9%N].
Lemma first120_moment : moment120 !!"d/x.tar" true None (fs90 [1%N]) first120.
Proof.
  eapply (tm_unpacking _ _ _ _ _ _ _ _ _ _ [!!"x.zip"; !!"d"; !!"w"] (fst (os_remove (fs90 [1%N]) [!!"x.zip"; !!"d"; !!"w"])) [] ms90 None); [reflexivity|reflexivity|reflexivity|reflexivity|now left|reflexivity|].
  eapply un_later; [vm_compute; reflexivity|]. apply un_now. eapply (ex_writing _ _ _ _ [!!"c"; !!"w"] _ !!"2" !!"2"); [reflexivity|vm_compute; reflexivity|vm_compute; reflexivity|reflexivity|vm_compute; reflexivity].
Qed.
Lemma second120_moment : moment120 !!"d/x.tar" true None first120 second120.
Proof.
  eapply (tm_packing _ _ _ _ _ _ _ _ _ _ [!!"x.zip"; !!"d"; !!"w"] (fst (os_remove first120 [!!"x.zip"; !!"d"; !!"w"])) [9%N] ms90 _ _ [9%N]);
    [reflexivity|reflexivity|vm_compute; reflexivity|vm_compute; reflexivity|now right|vm_compute; reflexivity|vm_compute; reflexivity| |now right|].
  - eapply pk_later; [vm_compute; reflexivity|vm_compute; reflexivity|]. apply pk_now.
  - vm_compute. reflexivity.
Qed.
Example C120_witness : killed_runs (moment120 !!"d/x.tar" true None) (fs90 [1%N]) second120 /\
  look first120 [!!"c"; !!"w"] = Some (KFile !!"2") /\ look first120 [!!"b"; !!"a"; !!"w"] = Some (KFile !!"1") /\ look first120 [!!"x.zip"; !!"d"; !!"w"] = Some (KFile []) /\
  look second120 [!!"c"; !!"w"] = Some (KFile !!"22") /\ look second120 [!!"b"; !!"a"; !!"w"] = None /\ look second120 [!!"a"; !!"w"] = Some KDir /\ look second120 [!!"x.zip"; !!"d"; !!"w"] = Some (KFile [9%N]) /\
  (let r := run90 !!"d/x.tar" true None second120 in snd r = None /\ out90 r = Ok [(!!"a/b", !!"1"); (!!"c", !!"22")] /\ look (fst r) [!!"c"; !!"w"] = None).
Proof. split; [eapply one_more; [exact first120_moment|]; eapply one_more; [exact second120_moment|apply no_run]|]. vm_compute. repeat split. Qed.
(** without it, killed when the old output was removed *)
Example C120_witness_stream :
  let st := fst (os_remove (fs90 [1%N]) [!!"x.zip"; !!"d"; !!"w"]) in
  moment120 !!"d/x.tar" false (Some 1%N) (fs90 [1%N]) st /\ look (fs90 [1%N]) [!!"x.zip"; !!"d"; !!"w"] = Some (KFile !!"mine") /\ look st [!!"x.zip"; !!"d"; !!"w"] = None /\ out90 (run90 !!"d/x.tar" false (Some 1%N) st) = Ok [(!!"a/b", !!"1")].
Proof. cbv zeta. split; [eapply (tm_removed _ _ _ _ _ _ _ _ _ _ [!!"x.zip"; !!"d"; !!"w"]); vm_compute; reflexivity|]. vm_compute. repeat split. Qed.
(** The hypotheses of the theorems hold ([C90_hypotheses] of TarMainProps.v has the others). *)
Example C120_hypotheses : look (fs90 [1%N]) [!!"x.tar"; !!"d"; !!"w"] = Some (KFile [1%N]) /\ look (fs90 [1%N]) [!!"x.zip"; !!"d"; !!"w"] <> Some KDir /\ untar90 [1%N] = Ok (ms90, None) /\
  remains [!!"w"] ms90 [!!"x.zip"; !!"d"; !!"w"] (fs90 [1%N]) second120.
Proof.
  split; [reflexivity|]. split; [discriminate|]. split; [reflexivity|]. destruct C90_hypotheses as (W & A & Z & F & U & _).
  exact (C120_unpack_killed [!!"w"] toy_zip [] untar90 unfinished120 proper90_w (fs90 [1%N]) !!"d/" !!"x.tar" [!!"d"; !!"w"] !!"x.zip" [1%N] ms90 _ None second120 W A Z eq_refl (fun X => ltac:(discriminate X)) eq_refl F U (proj1 C120_witness)).
Qed.
Print Assumptions C120_stream_moments.
Print Assumptions C120_stream_again.
Print Assumptions C120_unpack_killed.
Print Assumptions C120_unpack_again.
Print Assumptions C120_leftovers_refuted.
