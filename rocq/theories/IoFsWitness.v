(** * Concrete cases for C99 *)
From Verif Require Import Prelude PyStr SortLib TextLib Utf8 Params ParamsSpec ParamsProofs Fs FsProofs FsProps PathLists PathListsProps Io IoProps KeyValue KeyValueProps KvParams OsPath OsPathSpec OsPathProofs Mains MainsProofs LoadFs LoadFsSpec DirFs DirFsProps DirFsKeys IoFs IoFsProps MainsWitness DirFsWitness.

Definition w99 : list str := [!!"w"].
Definition fs99 : list (list str * fnode) := [([!!"w"], KDir); ([!!"f"; !!"w"], KFile !!"old"); ([!!"d"; !!"w"], KDir)].
Lemma wf99 : wf_fs fs99. Proof. wf_files. Qed.
Definition before99 : list io_op := [NewCharSink (AStr !!"new//deep/x.txt"); UseSink (ZipSink !!"a.zip" !!"e") [VBytes !!"0"]].
Definition use99 : io_op := UseSink (FileSink false !!"new//deep/x.txt") [VStr !!"one"; VBytes !!"no"; VStr [55296%N]; VStr (!!"two" ++ [CR; LF])].
Definition zip99 : io_op := UseSink (ZipSink !!"./a.zip" !!"e") [VBytes !!"1"; VStr !!"no"; VBytes !!"2"].
Definition after99 : list io_op :=
  [UseSink (FileSink true !!"d/../f") [VBytes !!"bin"]; UseSink (ZipSink !!"d/../a.zip" !!"g") [VBytes !!"3"]; UseSink (FileSink false !!"none/x.txt") [VStr !!"lost"]; UseSink (FileSink false !!"d") [VStr !!"lost"];
   UseSink NullSink [VStr !!"lost"]; NewByteSink (AStr !!"q/r"); NewByteSink (APath !!"q/r"); NewByteSink (APath !!"f/r"); UseSink (ZipSink !!"a.zip" [55296%N]) []].
Notation run99 := (io_run w99 marked_zip).
Definition all99 : list io_op := before99 ++ use99 :: zip99 :: after99.
Notation x99 := ([!!"x.txt"; !!"deep"; !!"new"; !!"w"]).
Notation z99 := ([!!"a.zip"; !!"w"]).
Example C99_witness : let fs := run99 fs99 all99 in
  (look fs x99, source_text w99 marked_zip fs (FileSource !!"/w/./new/deep/../deep/x.txt"), source_bytes w99 marked_zip fs (FileSource !!"f"),
   (source_bytes w99 marked_zip fs (ZipSource !!"a.zip" !!"e"), source_bytes w99 marked_zip fs (ZipSource !!"a.zip" !!"g"), source_bytes w99 marked_zip fs (ZipSource !!"a.zip" !!"h")),
   look fs [!!"q"; !!"w"], look fs [!!"none"; !!"w"]) =
  (Some (KFile (!!"onetwo" ++ [CR; LF])), Ok (!!"onetwo" ++ [LF]), Ok !!"bin", (Ok !!"12", Ok !!"3", Raise KeyError), Some KDir, None).
Proof. vm_compute. reflexivity. Qed.
Example C99_outcomes : (snd (session w99 marked_zip (run99 fs99 before99) (FileSink false !!"new//deep/x.txt") [VStr !!"one"; VBytes !!"no"; VStr [55296%N]; VStr (!!"two" ++ [CR; LF])]),
   snd (session w99 marked_zip fs99 (FileSink false !!"none/x.txt") [VStr !!"lost"]), snd (session w99 marked_zip fs99 (FileSink false !!"d") []), snd (session w99 marked_zip fs99 (ZipSink !!"f/x" !!"e") []),
   snd (byte_to_file w99 fs99 (APath !!"f/r")), snd (char_to_file w99 fs99 (AStr !!"f/r/s")), snd (char_to_file w99 fs99 (AStr !!"a/../f/s")), snd (char_to_file w99 fs99 (AStr [0%N; slash; 97%N]))) =
  (Ok [None; Some TypeError; Some UnicodeEncodeError; None], Raise FileNotFoundError, Raise IOError, Raise NotADirectoryError, Raise FileExistsError, Raise NotADirectoryError, Raise FileExistsError, Raise ValueError).
Proof. vm_compute. reflexivity. Qed.
Ltac leads99 := apply find_leads; vm_compute; reflexivity.
(** The hypotheses of C99_last_session hold for the block in the middle of the history, those of C99_zip_last_session for the one after it. *)
Example C99_hypotheses : wf_fs fs99 /\ look fs99 w99 = Some KDir /\
  leads (run99 fs99 before99) w99 !!"new//deep/x.txt" x99 /\ free (run99 fs99 before99) x99 /\
  (forall a o c, zip99 :: after99 = a ++ o :: c -> spares w99 (run99 fs99 (before99 ++ use99 :: a)) o x99) /\
  leads (run99 fs99 (before99 ++ [use99])) w99 !!"./a.zip" z99 /\ free (run99 fs99 (before99 ++ [use99])) z99 /\ ~ In 0%N !!"e" /\ encodable !!"e" /\
  (forall a o c, after99 = a ++ o :: c -> spares_entry w99 (run99 fs99 ((before99 ++ [use99]) ++ zip99 :: a)) o z99 !!"e") /\
  leads (run99 fs99 all99) w99 !!"/w/./new/deep/../deep/x.txt" x99 /\ leads (run99 fs99 all99) w99 !!"/w//a.zip" z99.
Proof.
  split; [exact wf99|]. split; [reflexivity|]. split; [leads99|]. split; [left; vm_compute; reflexivity|]. split.
  { intros a o c E k ws s Eo Wt L. apply find_leads in L. subst o.
    do 10 (destruct a as [|? a]; [injection E as E _; try discriminate E; inversion E; subst; inversion Wt; subst; vm_compute in L; discriminate L|cbn [app] in E; injection E as <- E]).
    destruct a; discriminate. }
  split; [leads99|]. split; [right; eexists; vm_compute; reflexivity|]. split; [vm_compute; intuition discriminate|]. split; [apply enc_check; reflexivity|]. split; [|split; leads99].
  intros a o c E k ws s Eo Wt L. apply find_leads in L. subst o.
  do 9 (destruct a as [|? a]; [injection E as E _; try discriminate E; inversion E; subst; inversion Wt; subst; first [vm_compute in L; discriminate L|eexists; split; [reflexivity|vm_compute; discriminate]]|cbn [app] in E; injection E as <- E]).
  destruct a; discriminate.
Qed.
Example C99_construct_hypotheses : ~ In 0%N !!"new//deep/x.txt" /\ spells !!"new//deep/x.txt" ([!!"new"; !!"deep"] ++ [!!"x.txt"]) /\ origin w99 !!"new//deep/x.txt" w99 /\
  (exists fs1, way fs99 w99 [!!"new"; !!"deep"] fs1 [!!"deep"; !!"new"; !!"w"]) /\ (exists fs1, dead_end fs99 w99 [!!"d"; !!"e"; !!".."; !!".."; !!"f"] fs1 /\ look fs1 [!!"e"; !!"d"; !!"w"] = Some KDir).
Proof.
  split; [vm_compute; intuition discriminate|]. split; [apply spells_spec; vm_compute; reflexivity|]. split; [apply or_rel; intros r E; discriminate|]. split.
  - eexists. apply way_new; [intros H; vm_compute in H; discriminate H|reflexivity|]. apply way_new; [intros H; vm_compute in H; discriminate H|reflexivity|constructor].
  - eexists. split.
    + exists [!!"d"; !!"e"; !!".."; !!".."], !!"f", [], w99. split; [reflexivity|]. split; [intros H; vm_compute in H; discriminate H|]. split.
      * apply way_in; [intros H; vm_compute in H; discriminate H|reflexivity|]. apply way_new; [intros H; vm_compute in H; discriminate H|reflexivity|]. apply way_up; [reflexivity|]. apply way_up; [reflexivity|]. constructor.
      * eexists. split; [vm_compute; reflexivity|discriminate].
    + vm_compute. reflexivity.
Qed.
Print Assumptions C99_to_file. Print Assumptions C99_construction_keeps. Print Assumptions C99_str_paths. Print Assumptions C99_session. Print Assumptions C99_write. Print Assumptions C99_write_fails. Print Assumptions C99_zip_write. Print Assumptions C99_zip_session. Print Assumptions C99_nowhere.
Print Assumptions C99_history_grows. Print Assumptions C99_untouched. Print Assumptions C99_last_session. Print Assumptions C99_zip_last_session. Print Assumptions C99_read. Print Assumptions C99_zip_directories_refuted.
