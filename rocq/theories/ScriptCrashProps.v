(** * Property C117: scripts that are killed, and running them again *)
From Coq Require Import Sorted.
From Verif Require Import Prelude PyStr SortLib TextLib Utf8 Order Range Params ParamsSpec ParamsProofs ParamsGet ParamsGetProps ParamsEq SubNamespaces ParamsEval ParamsEvalProps Fs FsProofs FsProps PathLists PathListsProps Decimals Io IoProps KeyValue KeyValueProps KvParams KvParamsProps OsPath OsPathSpec OsPathProofs Scripts ScriptsProps Mains MainsProofs MainsProps ScriptCrash.

(** ** Specification *)
(** [st] is [fs] but for new directories on the way to some of [dirs] and files with any contents at some of the places [outs]. *)
Definition left_by (fs st : list (list str * fnode)) (dirs outs : list (list str)) : Prop :=
  wf_fs st /\ forall r, look st r = look fs r \/ (exists d, In d dirs /\ below r d /\ look fs r = None /\ look st r = Some KDir) \/ (In r outs /\ free fs r /\ exists b, look st r = Some (KFile b)).

(** ** Facts *)
Lemma left_refl fs dirs outs : wf_fs fs -> left_by fs fs dirs outs.
Proof. intros W. split; [assumption|]. intros r. now left. Qed.
Lemma left_more fs st dirs dirs' outs outs' : left_by fs st dirs outs -> incl dirs dirs' -> incl outs outs' -> left_by fs st dirs' outs'.
Proof.
  intros (W & H) I J. split; [assumption|]. intros r. destruct (H r) as [E|[(d & D & R)|(O & F)]]; [now left|right; left; exists d; auto|right; right; auto].
Qed.
(** no output is a directory above another *)
Definition side_by_side (dirs outs : list (list str)) : Prop := forall o d, In o outs -> In d dirs -> ~ below o d.
Lemma left_trans a b c dirs outs : side_by_side dirs outs -> left_by a b dirs outs -> left_by b c dirs outs -> left_by a c dirs outs.
Proof.
  intros SS (_ & H1) (W & H2). split; [assumption|]. intros r. destruct (H2 r) as [E|[(d & D & B & N & K)|(O & F & b0 & K)]].
  - rewrite E. exact (H1 r).
  - destruct (H1 r) as [E|[(d' & D' & B' & N' & K')|(O & F & b0 & K')]]; [|congruence|congruence]. right. left. exists d. rewrite <- E. auto.
  - right. right. split; [assumption|]. split; [|eauto]. destruct (H1 r) as [E|[(d' & D' & B' & N' & K')|(_ & F' & _)]]; [unfold free in *; now rewrite <- E| |assumption]. exfalso. exact (SS r d' O D' B').
Qed.
Lemma left_file a b dirs outs q x : left_by a b dirs outs -> look a q = Some (KFile x) -> ~ In q outs -> look b q = Some (KFile x).
Proof. intros (_ & H) L N. destruct (H q) as [->|[(d & _ & _ & E & _)|(O & _)]]; [assumption|congruence|contradiction]. Qed.
Lemma left_dir a b dirs outs q : left_by a b dirs outs -> look a q = Some KDir -> look b q = Some KDir.
Proof. intros (_ & H) L. destruct (H q) as [->|[(d & _ & _ & E & _)|(O & [F|(x & F)] & _)]]; [assumption|congruence|congruence|congruence]. Qed.
Lemma left_unblocked a b dirs outs d : left_by a b dirs outs -> unblocked a d -> (forall o, In o outs -> ~ below o d) -> unblocked b d.
Proof.
  intros (_ & H) U N r B (k & K & NK). destruct (H r) as [E|[(d' & _ & _ & _ & E)|(O & _)]]; [|congruence|exact (N r O B)]. apply (U r B). exists k. now rewrite <- E.
Qed.
Lemma left_free a b dirs outs o : left_by a b dirs outs -> free a o -> (forall d, In d dirs -> ~ below o d) -> free b o.
Proof.
  intros (_ & H) F N. destruct (H o) as [E|[(d & D & B & _)|(_ & _ & x & E)]]; [unfold free in *; now rewrite E|destruct (N d D B)|right; eauto].
Qed.
Lemma left_holds ZC a b dirs outs q ks val : left_by a b dirs outs -> holds ZC a q ks val -> ~ In q outs -> holds ZC b q ks val.
Proof.
  intros L C N. destruct (holds_file ZC a q ks val C) as (x & ar & Lq & _). apply (holds_same ZC a); [assumption|]. rewrite Lq. eapply left_file; eauto.
Qed.
(** Running on from such a state leaves the same everywhere else. *)
Lemma left_writes a b c dir outs : left_by a b [dir] outs -> only_writes b c dir outs -> only_writes a c dir outs.
Proof.
  intros (_ & H) O r N. destruct (O r N) as (O1 & O2). split; [assumption|]. intros B. rewrite (O2 B). destruct (H r) as [E|[(d & [<-|[]] & B' & _)|(I & _)]]; [assumption|contradiction|contradiction].
Qed.
Lemma writes_left a c dir outs : wf_fs c -> unblocked a dir -> (forall o, In o outs -> free a o /\ exists b, look c o = Some (KFile b)) -> only_writes a c dir outs -> left_by a c [dir] outs.
Proof.
  intros W U F O. split; [assumption|]. intros r. destruct (in_dec (list_eq_dec (list_eq_dec N.eq_dec)) r outs) as [I|I].
  - right. right. destruct (F r I). auto.
  - destruct (O r I) as (O1 & O2). destruct (at_or_below r dir) eqn:E.
    + apply at_or_below_spec in E. specialize (O1 E). destruct (look a r) as [k|] eqn:L.
      * left. destruct k; try (symmetry in O1; congruence); exfalso; apply (U r E); eexists; (split; [exact L|discriminate]).
      * right. left. exists dir. split; [now left|auto].
    + left. apply O2. intros B. apply at_or_below_spec in B. congruence.
Qed.
Lemma made_left fs fs1 d outs : wf_fs fs -> unblocked fs d -> made fs fs1 d -> left_by fs fs1 [d] outs.
Proof.
  intros W U M. assert (left_by fs fs1 [d] []) as L. { apply writes_left; [eapply made_wf; eauto|assumption|intros ? []|]. intros r _. exact (conj (proj1 M r) (proj2 M r)). }
  eapply left_more; [exact L|apply incl_refl|intros ? []].
Qed.
Lemma left_set fs st c d b dirs outs : left_by fs st dirs outs -> In (c :: d) outs -> look st d = Some KDir -> free fs (c :: d) -> free st (c :: d) -> left_by fs (set_node st (c :: d) b) dirs outs.
Proof.
  intros (W & H) I D F0 F. split; [now apply set_wf|]. intros r. rewrite look_set by discriminate. destruct (rpath_eqb_spec (c :: d) r) as [<-|N]; [right; right; eauto|apply H].
Qed.
Lemma moments_unfold fs q : mkdir_moments fs q =
  match os_mkdir fs q with
  | Ok fs' => [fs; fs']
  | Raise FileNotFoundError =>
      match q with
      | [] => [fs]
      | _ :: r => mkdir_moments fs r ++ match mkdir_p fs r with (fs1, Ok _) => match os_mkdir fs1 q with Ok fs2 => [fs2] | Raise _ => [] end | _ => [] end
      end
  | Raise _ => [fs]
  end.
Proof. destruct q; reflexivity. Qed.
Lemma left_up fs st c q : left_by fs st [q] [] -> left_by fs st [c :: q] [].
Proof.
  intros (W & H). split; [assumption|]. intros r. destruct (H r) as [E|[(d & [<-|[]] & B & R)|([] & _)]]; [now left|]. right. left. exists (c :: q). split; [now left|]. split; [now apply below_cons|assumption].
Qed.
Lemma moments_left fs q : wf_fs fs -> forall st, In st (mkdir_moments fs q) -> left_by fs st [q] [].
Proof.
  intros W. induction q as [|c q IH]; intros st; rewrite moments_unfold; [cbn; intros [<-|[]]; now apply left_refl|].
  assert (One : forall fs1 fs2, wf_fs fs1 -> os_mkdir fs1 (c :: q) = Ok fs2 -> left_by fs fs1 [q] [] -> left_by fs fs2 [c :: q] []).
  { intros fs1 fs2 W1 E G. unfold os_mkdir in E. assert (S1 := search_spec fs1 q W1). destruct (search fs1 q) as [[]|e]; [|discriminate]. cbn [bind] in E. destruct (look fs1 (c :: q)) as [k|] eqn:L; [discriminate|]. inversion E; subst; clear E.
    assert (M := mkdir_one fs1 c q W1 S1 L). split; [exact (made_wf _ _ _ W1 M)|]. intros r. destruct (at_or_below r (c :: q)) eqn:B.
    - apply at_or_below_spec in B. rewrite (proj1 M r B). destruct G as (_ & G). destruct (G r) as [X|[(d & [<-|[]] & B' & N & K)|([] & _)]].
      + destruct (look fs r) as [k|] eqn:Lr; [left|right; left; exists (c :: q); split; [now left|auto]].
        apply below_inv in B. destruct B as [->|B]; [congruence|]. assert (look fs1 r = Some KDir) by (eapply dir_all_above; eauto). congruence.
      + right. left. exists (c :: q). split; [now left|auto].
    - assert (NB : ~ below r (c :: q)) by (intros X; apply at_or_below_spec in X; congruence). rewrite (proj2 M r NB). destruct (proj2 G r) as [X|[(d & [<-|[]] & B' & N & K)|([] & _)]]; [now left|]. destruct NB. now apply below_cons. }
  destruct (os_mkdir fs (c :: q)) as [fs'|e] eqn:E.
  - intros [<-|[<-|[]]]; [now apply left_refl|]. apply (One fs fs' W E). now apply left_refl.
  - assert (Same : In st [fs] -> left_by fs st [c :: q] []) by (intros [<-|[]]; now apply left_refl).
    destruct e; try exact Same. intros I. apply in_app_or in I. destruct I as [I|I]; [now apply left_up, IH|].
    assert (M := mkdir_p_spec fs q W). destruct (mkdir_p fs q) as [fs1 [u|e]]; [|destruct I]. destruct M as (U & M). assert (W1 : wf_fs fs1) by (eapply made_wf; eauto).
    destruct (os_mkdir fs1 (c :: q)) as [fs2|e] eqn:E2; [|destruct I]. destruct I as [<-|[]]. apply (One fs1 fs2 W1 E2). now apply made_left.
Qed.

(** ** The slices *)
Lemma set_slices_look fs dir bs : forall l, NoDup l -> forall fs0, (forall r, look fs0 r = look fs r) ->
  let fs' := fold_left (fun f i => set_node f (slice_file dir i) (bs i)) l fs0 in
  (forall i, In i l -> look fs' (slice_file dir i) = Some (KFile (bs i))) /\ (forall r, (forall i, In i l -> r <> slice_file dir i) -> look fs' r = look fs r).
Proof.
  intros l. revert fs. induction l as [|i l IH]; intros fs ND fs0 E; cbn [fold_left]; [split; [intros ? []|intros r _; apply E]|]. inversion ND as [|? ? N1 N2]; subst.
  destruct (IH (set_node fs0 (slice_file dir i) (bs i)) N2 (set_node fs0 (slice_file dir i) (bs i)) (fun r => eq_refl)) as (H1 & H2). split.
  - intros j [->|I]; [|now apply H1]. rewrite H2; [apply look_set_same; discriminate|]. intros k Ik Ek. apply slice_file_inj in Ek. now subst.
  - intros r N. rewrite H2 by (intros j I; apply N; now right). rewrite look_set_other; [apply E|discriminate|]. intros Er. apply (N i); [now left|auto].
Qed.
Lemma set_slices_spec fs dir m bs : (forall i, i < m -> look (set_slices fs dir m bs) (slice_file dir i) = Some (KFile (bs i))) /\ (forall r, (forall i, i < m -> r <> slice_file dir i) -> look (set_slices fs dir m bs) r = look fs r).
Proof.
  destruct (set_slices_look fs dir bs (seq 0 m) (seq_NoDup m 0) fs (fun r => eq_refl)) as (H1 & H2). split.
  - intros i L. apply H1. apply in_seq. lia.
  - intros r N. apply H2. intros i I. apply in_seq in I. apply N. lia.
Qed.
Lemma list_not_slice dir i : !!"_slices.txt" :: dir <> slice_file dir i.
Proof.
  intros E. unfold slice_file in E. injection E as E. assert (I0 := decimal_digits (N.of_nat i)). destruct (decimal (N.of_nat i)) as [|c l]; simpl in E; [discriminate|]. injection E as E _. specialize (I0 c (or_introl eq_refl)). subst c. lia.
Qed.
Section Slices.
Variable ZC : zip_codec.
Variable torn : bytes.
Variable set_order : list str -> list str.
Lemma split_even_same reorder n src ds ds' j : j < n -> fst (split_even set_order reorder n src ds) j = fst (split_even set_order reorder n src ds') j.
Proof. clear ZC torn.
  intros L. unfold split_even. change (fun j0 => fst (sink_enter true (ds j0) new_sink)) with (fun j0 => fst (sink_enter true (ds' j0) new_sink)).
  destruct (match src_keys src with Raise e => _ | Ok None => _ | Ok (Some keys) => _ end) as [st e]. cbn [fst]. now rewrite (proj2 (Nat.ltb_lt j n) L).
Qed.
Lemma put_set_slices fs dir m (ds : nat -> disk) (bs : nat -> bytes) : (forall i, i < m -> closed_bytes ZC (ds i) (bs i)) -> put_slices ZC torn fs dir m ds = set_slices fs dir m bs.
Proof. clear set_order.
  intros H. unfold Mains.put_slices, set_slices. assert (G : forall l f, (forall i, In i l -> i < m) -> fold_left (fun f i => put_disk ZC torn f (slice_file dir i) (ds i)) l f = fold_left (fun f i => set_node f (slice_file dir i) (bs i)) l f).
  { induction l as [|i l IH]; intros f L; [reflexivity|]. cbn [fold_left]. destruct (H i (L i (or_introl eq_refl))) as (a & -> & Eb). cbn [Mains.put_disk]. rewrite <- Eb. apply IH. intros j I. apply L. now right. }
  apply G. intros i I. apply in_seq in I. lia.
Qed.
End Slices.

(** ** Several runs *)
Lemma killed_left (moment : list (list str * fnode) -> list (list str * fnode) -> Prop) (wanted : list (list str * fnode) -> Prop) dirs outs : side_by_side dirs outs ->
  (forall fs st, wf_fs fs -> wanted fs -> moment fs st -> left_by fs st dirs outs) -> (forall fs st, wf_fs fs -> wanted fs -> left_by fs st dirs outs -> wanted st) ->
  forall fs st, wf_fs fs -> wanted fs -> killed_runs moment fs st -> left_by fs st dirs outs /\ wanted st.
Proof.
  intros SS H1 H2 fs st F Wa K. induction K as [fs|fs st st' Mo K IH]; [split; [now apply left_refl|assumption]|]. assert (L := H1 _ _ F Wa Mo). destruct IH as (L' & Wa'); [apply L|exact (H2 _ _ F Wa L)|].
  split; [|assumption]. exact (left_trans _ _ _ _ _ SS L L').
Qed.
(** The same directories made in both states: nothing is different but the outputs. *)
Lemma made_same a b a1 b1 d outs r : left_by a b [d] outs -> made a a1 d -> made b b1 d -> ~ In r outs -> look b1 r = look a1 r.
Proof.
  intros (_ & L) (M1 & M2) (M1' & M2') N. destruct (at_or_below r d) eqn:E.
  - apply at_or_below_spec in E. now rewrite (M1 r E), (M1' r E).
  - assert (B : ~ below r d) by (intros B; apply at_or_below_spec in B; congruence). assert (E1 := M2 r B). assert (E2 := M2' r B). unfold same_at in E1, E2. rewrite E1, E2. destruct (L r) as [->|[(d' & [<-|[]] & B' & _)|(I & _)]]; [reflexivity|contradiction|contradiction].
Qed.
Section Zip.
Variable ZC : zip_codec.
Variable torn : bytes.
Variable set_order : list str -> list str.
Lemma write_stream_same d d' (st : stream value) : write_stream set_order d st = write_stream set_order d' st.
Proof. reflexivity. Qed.
(** the bytes of a zip output depend on what is put only *)
Lemma write_zip_same a b a1 b1 c d (pa pb : list (list str * fnode) -> stream value) ks val dd e : wf_fs a -> wf_fs b -> left_by a b [d] [c :: d] -> made a a1 d -> made b b1 d -> free a (c :: d) ->
  write_stream set_order Absent (pa (put_disk ZC torn a1 (c :: d) Partial)) = (dd, e) -> contains dd ks val -> pb (put_disk ZC torn b1 (c :: d) Partial) = pa (put_disk ZC torn a1 (c :: d) Partial) ->
  exists f f', write_zip ZC torn set_order a1 (c :: d) pa = (f, e) /\ write_zip ZC torn set_order b1 (c :: d) pb = (f', e) /\ forall r, look f' r = look f r.
Proof.
  intros Wa Wb L Ma Mb Fa E C Same. assert (Fb : free b (c :: d)) by (apply (left_free a b [d] [c :: d]); [assumption|assumption|intros ? [<-|[]]; apply not_below_tail]).
  assert (Can : forall f f1, wf_fs f -> made f f1 d -> free f (c :: d) -> can_write f1 (c :: d) = Ok tt).
  { intros f f1 W M Fr. apply (can_write_ok f1 c d); [eapply made_wf; eassumption|apply (proj1 M), below_refl|]. unfold free. assert (look f1 (c :: d) = look f (c :: d)) as -> by apply (proj2 M), not_below_tail. exact Fr. }
  unfold write_zip. rewrite (Can a a1 Wa Ma Fa), (Can b b1 Wb Mb Fb), Same. rewrite (write_stream_same (disk_at ZC a1 (c :: d)) Absent), (write_stream_same (disk_at ZC b1 (c :: d)) Absent), E.
  destruct (contains_zip _ _ _ C) as (ar & ->). eexists. eexists. split; [reflexivity|]. split; [reflexivity|]. intros r. cbn [put_disk]. destruct (list_eq_dec (list_eq_dec N.eq_dec) (c :: d) r) as [<-|Nr].
  - now rewrite !look_set_same by discriminate.
  - rewrite !look_set_other by (discriminate || exact Nr). apply (made_same a b a1 b1 d [c :: d] r L Ma Mb). intros [E'|[]]. exact (Nr E').
Qed.
End Zip.

Section P.
Variable X : Type.
Notation obj := (kv_obj X).
Variable import_module : str -> res obj.
Variable other_eval : str -> list (str * obj) -> res obj.
Variable builtin : str -> option obj.
Variable locals_of : pv -> str -> list (str * obj).
Variable x_is_class : X -> bool.
Variable x_from_parameters : X -> option (pv -> res obj).
Variable x_construct : X -> res obj.
Variable x_callable : X -> bool.
Variable x_call : X -> pv -> res obj.
Variables x_is_linear x_is_source x_is_sink : X -> bool.
Variable cwd : list str.
Variable other_globals : list (str * obj).
Variable ZC : zip_codec.
Variable torn : bytes.
Variable set_order : list str -> list str.
Variables seeded_shuffle random_shuffle : Z -> list str -> list str.
Variable rglob_order : list (list str * bytes) -> list (list str * bytes).
Variable other_source : obj -> list (list str * fnode) -> res (source bytes).
Variable other_sink : obj -> list (list str * fnode) -> (list (list str * fnode) -> stream value) -> list (list str * fnode) * option exn.
Variable oeq : pv -> pv -> bool.
Variable unfinished : bytes -> Prop.
Notation the_linear_source := (the_linear_source X import_module other_eval builtin locals_of x_is_class x_from_parameters x_construct x_callable x_call x_is_linear cwd other_globals).
Notation the_source := (the_source X import_module other_eval builtin locals_of x_is_class x_from_parameters x_construct x_callable x_call x_is_source cwd other_globals).
Notation the_sink := (the_sink X import_module other_eval builtin locals_of x_is_class x_from_parameters x_construct x_callable x_call x_is_sink cwd other_globals).
Notation open_source := (open_source X cwd ZC other_source).
Notation split_main := (split_main X import_module other_eval builtin locals_of x_is_class x_from_parameters x_construct x_callable x_call x_is_linear cwd other_globals ZC torn set_order seeded_shuffle other_source oeq).
Notation join_main := (join_main X import_module other_eval builtin locals_of x_is_class x_from_parameters x_construct x_callable x_call x_is_sink cwd other_globals ZC torn set_order other_sink).
Notation downsample_main := (downsample_main X import_module other_eval builtin locals_of x_is_class x_from_parameters x_construct x_callable x_call x_is_source cwd other_globals ZC torn set_order random_shuffle other_source).
Notation directory_main := (directory_main X import_module other_eval builtin locals_of x_is_class x_from_parameters x_construct x_callable x_call x_is_sink cwd other_globals ZC torn set_order rglob_order other_sink).
Notation split_moment := (split_moment X import_module other_eval builtin locals_of x_is_class x_from_parameters x_construct x_callable x_call x_is_linear cwd other_globals ZC torn set_order seeded_shuffle other_source oeq unfinished).
Notation join_moment := (join_moment X import_module other_eval builtin locals_of x_is_class x_from_parameters x_construct x_callable x_call x_is_sink cwd other_globals ZC torn set_order unfinished).
Notation downsample_moment := (downsample_moment X import_module other_eval builtin locals_of x_is_class x_from_parameters x_construct x_callable x_call x_is_source cwd other_globals ZC torn set_order random_shuffle other_source unfinished).
Notation directory_moment := (directory_moment X import_module other_eval builtin locals_of x_is_class x_from_parameters x_construct x_callable x_call x_is_sink cwd other_globals ZC torn set_order rglob_order unfinished).
Notation holds := (holds ZC).
Notation put_disk := (put_disk ZC torn).
Notation put_slices := (put_slices ZC torn).
Hypothesis set_order_perm : forall l, Permutation (set_order l) l.
Hypothesis seeded_perm : forall z l, Permutation (seeded_shuffle z l) l.
Hypothesis random_perm : forall z l, Permutation (random_shuffle z l) l.
Hypothesis rglob_perm : forall l, Permutation (rglob_order l) l.
Hypothesis cwd_proper : Forall proper cwd.

(** ** The input *)
Lemma input_same fs p ns q ks val : wf_params p -> Typed p !!"input" !!"zip" ns -> names_path cwd ns !!"path" q -> holds fs q ks val ->
  exists z, source_enter (disk_at ZC fs q) = Ok z /\ the_linear_source fs p = Ok (OZipSource true q) /\ the_source fs p = Ok (OZipSource true q) /\
    forall f, look f q = look fs q -> open_source f (OZipSource true q) = Ok (zip_source same_name bytes_value z).
Proof using cwd_proper.
  intros W T H C. destruct (holds_file ZC fs q ks val C) as (b & a & L & U & D).
  assert (S0 : silent (@None (list (str * obj))) (source_class_name true true)) by (intros u E; discriminate).
  destruct (C83_zip_source X import_module other_eval builtin locals_of x_is_class x_from_parameters x_construct x_callable x_call x_is_linear x_is_source cwd other_globals fs true p !!"input" ns None W cwd_proper T S0) as (E & F & _).
  specialize (F q b H L). destruct C as (z & Ez & _). exists z. split; [exact Ez|]. split; [unfold Mains.the_linear_source; rewrite E; exact F|]. split; [exact F|]. intros f Lf. cbn [Mains.open_source]. unfold disk_at in Ez |- *. rewrite Lf, Ez. reflexivity.
Qed.
Lemma read_later_same q z f w : ~ In q w -> read_later X cwd ZC other_source (OZipSource true q) (zip_source same_name bytes_value z) f w = zip_source same_name bytes_value z.
Proof using Type.
  intros N. unfold read_later. destruct (existsb (rpath_eqb q) w) eqn:Xw; [|reflexivity]. exfalso. apply N. apply existsb_exists in Xw. destruct Xw as (r & Ir & Er). destruct (rpath_eqb_spec q r) as [->|]; [exact Ir|discriminate Er].
Qed.


(** ** split_key_value_store with num_slices *)
(** what C84 asks for *)
Definition slices_wanted (p : pv) (fs : list (list str * fnode)) (ns : pv) (qin : list str) (ks : list str) (val : str -> bytes) (nv : pv) (n : nat) (seed : option Z) (dir : list str) : Prop :=
  wf_params p /\ Typed p !!"input" !!"zip" ns /\ names_path cwd ns !!"path" qin /\ holds fs qin ks val /\ (forall k, In k ks -> plain_key k) /\
  Stored p !!"num_slices" nv /\ int_value nv (Z.of_nat n) /\ n <> 0 /\ Missing p !!"explicit_split" /\ seed_given p seed /\
  names_path cwd p !!"output_dir" dir /\ unblocked fs dir /\ Forall encodable dir.
(** the files written *)
Definition slice_files (n : nat) (dir : list str) : list (list str) := (!!"_slices.txt" :: dir) :: map (fun i => slice_name i :: dir) (seq 0 n).
Lemma slice_files_in n dir o : In o (slice_files n dir) <-> o = !!"_slices.txt" :: dir \/ exists i, i < n /\ o = slice_file dir i.
Proof using Type.
  unfold slice_files. split.
  - intros [<-|I]; [now left|]. right. apply in_map_iff in I. destruct I as (i & <- & I). apply in_seq in I. exists i. split; [clear -I; lia|reflexivity].
  - intros [->|(i & L & ->)]; [now left|]. right. apply in_map_iff. exists i. split; [reflexivity|]. apply in_seq. clear -L. lia.
Qed.
Lemma slice_files_side n dir : side_by_side [dir] (slice_files n dir).
Proof using Type. intros o d I [<-|[]]. apply slice_files_in in I. destruct I as [->|(i & _ & ->)]; apply not_below_tail. Qed.

Lemma split_setup p fs ns qin ks val nv n seed dir z : wf_fs fs -> slices_wanted p fs ns qin ks val nv n seed dir -> (forall o, In o (slice_files n dir) -> free fs o /\ o <> qin) ->
  source_enter (disk_at ZC fs qin) = Ok z ->
  exists fs1 lb sv bs, creatable_directory cwd p !!"output_dir" fs = (fs1, Ok dir) /\ path_param cwd p !!"output_dir" = Ok dir /\ made fs fs1 dir /\
    positive_integer p !!"num_slices" PNone = Ok nv /\ Z.to_nat (int_of nv) = n /\ optional_positive_integer p !!"random_seed" PNone = Ok sv /\ encode (slices_text dir n) = Ok lb /\
    let fs2 := set_node fs1 (!!"_slices.txt" :: dir) lb in
    write_text fs1 (!!"_slices.txt" :: dir) (slices_text dir n) = (fs2, None) /\ first_failure fs2 dir 0 n = None /\
    (forall ds i, i < n -> closed_bytes ZC (fst (split_even set_order (slice_order seeded_shuffle sv) n (zip_source same_name bytes_value z) ds) i) (bs i)) /\
    split_main p fs = (set_slices fs2 dir n bs, None).
Proof using cwd_proper seeded_perm set_order_perm x_is_source.
  intros F (W & T & Hin & C & PK & Sn & In_ & N0 & Me & Hs & Hd & U & Enc) FO Ez.
  destruct (input_same fs p ns qin ks val W T Hin C) as (z' & Ez' & El & _ & Op). rewrite Ez in Ez'. injection Ez' as <-.
  assert (NN : nv <> PNone) by (intros ->; inversion In_).
  assert (Pn : present_ p !!"num_slices") by (exists nv; auto).
  destruct (C80_creatable cwd p !!"output_dir" fs W cwd_proper F) as (CD & _). destruct (CD dir Hd) as (CD1 & _). destruct (CD1 U) as (fs1 & Cd & M).
  assert (W1 := made_wf _ _ _ F M). assert (D1 : look fs1 dir = Some KDir) by (apply (proj1 M), below_refl).
  assert (Pi : positive_integer p !!"num_slices" PNone = Ok nv).
  { destruct (C46_required_getters p !!"num_slices" PNone W) as (_ & _ & (G & _) & _). apply G; [now constructor|]. exists (Z.of_nat n). split; [assumption|]. clear -N0. lia. }
  assert (exists sv, optional_positive_integer p !!"random_seed" PNone = Ok sv) as (sv & Os).
  { destruct (C46_optional_getters (fun _ => true) p !!"random_seed" W) as (_ & _ & _ & (G1 & _ & G3) & _). destruct seed as [s|]; [destruct Hs as (sv & S1 & I1 & P1)|exists PNone; auto].
    exists sv. apply G1; [assumption|intros ->; inversion I1|]. exists s. auto. }
  assert (Nn : Z.to_nat (int_of nv) = n). { assert (int_of nv = Z.of_nat n) as -> by (inversion In_; reflexivity). apply Nat2Z.id. }
  assert (Fo1 : forall o, In o (slice_files n dir) -> free fs1 o).
  { intros o I. destruct (FO o I) as (Fo & _). assert (Ec : look fs1 o = look fs o) by (apply (proj2 M); exact (slice_files_side n dir o dir I (or_introl eq_refl))). unfold free. rewrite Ec. exact Fo. }
  destruct (slices_text_encodes dir n Enc) as (lb & Elb). set (fs2 := set_node fs1 (!!"_slices.txt" :: dir) lb).
  assert (Ew : write_text fs1 (!!"_slices.txt" :: dir) (slices_text dir n) = (fs2, None)). { unfold write_text. rewrite (can_write_ok fs1 _ dir W1 D1) by (apply Fo1; now left). now rewrite Elb. }
  assert (W2 : wf_fs fs2) by (unfold fs2; apply set_wf; [assumption|assumption|apply Fo1; now left]).
  assert (D2 : look fs2 dir = Some KDir). { unfold fs2. rewrite look_set_other; [assumption|discriminate|]. intros E. apply (f_equal (@length _)) in E. simpl in E. clear -E. lia. }
  assert (Fo2 : forall i, i < n -> free fs2 (slice_file dir i)).
  { intros i L. unfold free, fs2. rewrite look_set_other; [|discriminate|apply list_not_slice]. apply Fo1. apply slice_files_in. right. exists i. split; [exact L|reflexivity]. }
  assert (Ff : first_failure fs2 dir 0 n = None) by (apply first_failure_none; intros j L; apply can_write_ok; [assumption|assumption|apply Fo2; clear -L; lia]).
  assert (exists ks', serves (zip_source same_name bytes_value z) ks' val /\ forall k, In k ks' -> plain_key k) as (ks' & Sv & PK').
  { destruct (input_opens X import_module other_eval builtin locals_of x_is_class x_from_parameters x_construct x_callable x_call x_is_linear x_is_source cwd other_globals ZC other_source cwd_proper fs p ns qin ks val W T Hin C) as (later & z0 & ks' & Eo & _ & La & _ & Pk & Sv & _).
    rewrite El in Eo. cbn [bind] in Eo. rewrite (Op fs eq_refl) in Eo. cbn [bind] in Eo. injection Eo as <-. specialize (La fs [] (@in_nil _ _)). rewrite read_later_same in La by (intros []). rewrite <- La in Sv. exists ks'. split; [exact Sv|]. intros k I. apply PK. now apply (Permutation_in _ Pk). }
  destruct (C61_split set_order set_order_perm (slice_order seeded_shuffle sv) n (zip_source same_name bytes_value z) ks' val (fun i => disk_at ZC fs2 (slice_file dir i))
    (slice_order_perm seeded_shuffle seeded_perm sv) N0 Sv PK') as (ds & parts & E & Ln & Pp & H & _).
  assert (Cl : forall i, i < n -> exists b, closed_bytes ZC (ds i) b).
  { intros i L. destruct (nth_error parts i) as [part|] eqn:Ni; [|apply nth_error_None in Ni; clear -Ln Ni L; lia]. destruct (H i part Ni) as (Ci & _). destruct (contains_zip _ _ _ Ci) as (a & ->). eexists. exists a. split; reflexivity. }
  assert (exists bs, forall i, i < n -> closed_bytes ZC (ds i) (bs i)) as (bs & Hbs).
  { exists (fun i => match ds i with Zip a => dozip ZC [] a | _ => [] end). intros i L. destruct (Cl i L) as (b & a & -> & _). exists a. split; reflexivity. }
  exists fs1, lb, sv, bs. split; [exact Cd|]. split; [unfold creatable_directory in Cd; destruct (path_param cwd p !!"output_dir") as [d0|e]; [|discriminate Cd]; destruct (mkdir_p fs d0) as [? [?|?]]; cbn [bind] in Cd; congruence|].
  split; [exact M|]. split; [exact Pi|]. split; [exact Nn|]. split; [exact Os|]. split; [exact Elb|]. cbv zeta. fold fs2. split; [exact Ew|]. split; [exact Ff|]. split.
  - intros ds0 i L. rewrite (split_even_same set_order _ n _ ds0 (fun i => disk_at ZC fs2 (slice_file dir i)) i L), E. cbn [fst]. now apply Hbs.
  - unfold Mains.split_main. rewrite (proj2 (exactly_one p !!"num_slices" !!"explicit_split" (proj1 W))) by (left; auto). rewrite El. cbn [bind]. rewrite (Op fs eq_refl). cbn [bind].
    rewrite (proj2 (present_contains _ _ (proj1 W)) Pn). unfold split_slices. rewrite Cd, Pi, Os, Nn, Ew, Ff. cbv zeta.
    rewrite read_later_same by (intros I; now apply (FO qin)). rewrite E. now rewrite (put_set_slices ZC torn fs2 dir n ds bs Hbs).
Qed.
(** C117: a run of split_key_value_store with num_slices that is killed leaves everything but the directories on the way to output_dir and the files there as it was.  Of the slices the
    first [j] are unfinished, those from [j] to [m] are complete and those from [m] on are untouched; there are complete ones only when all have been opened, and _slices.txt is then complete. *)
Theorem C117_split_moments : forall p fs ns qin ks val nv n seed dir st, wf_fs fs -> slices_wanted p fs ns qin ks val nv n seed dir -> (forall o, In o (slice_files n dir) -> free fs o /\ o <> qin) ->
  split_moment p fs st ->
  left_by fs st [dir] (slice_files n dir) /\
  exists f j m, split_main p fs = (f, None) /\ j <= m /\ m <= n /\ (j < m -> m = n) /\
    (forall i, i < j -> exists b, unfinished b /\ look st (slice_name i :: dir) = Some (KFile b)) /\
    (forall i, j <= i -> i < m -> look st (slice_name i :: dir) = look f (slice_name i :: dir)) /\
    (forall i, m <= i -> i < n -> look st (slice_name i :: dir) = look fs (slice_name i :: dir)) /\
    (0 < m -> look st (!!"_slices.txt" :: dir) = look f (!!"_slices.txt" :: dir)) /\
    (look st (!!"_slices.txt" :: dir) = look fs (!!"_slices.txt" :: dir) \/
     exists part rest, look st (!!"_slices.txt" :: dir) = Some (KFile part) /\ look f (!!"_slices.txt" :: dir) = Some (KFile (part ++ rest))).
Proof using cwd_proper seeded_perm set_order_perm x_is_source.
  intros p fs ns qin ks val nv n seed dir st F SW FO Mo. assert (SW' := SW). destruct SW' as (W & T & Hin & C & PK & Sn & In_ & N0 & Me & Hs & Hd & U & Enc).
  destruct (input_same fs p ns qin ks val W T Hin C) as (z & Ez & El & _ & Op).
  destruct (split_setup p fs ns qin ks val nv n seed dir z F SW FO Ez) as (fs1 & lb & sv & bs & Cd & Pp & M & Pi & Nn & Os & Elb & Ew & Ff & Cb & Em). cbv zeta in Ew, Ff, Em.
  set (txt := !!"_slices.txt" :: dir) in *. set (fs2 := set_node fs1 txt lb) in *. set (f := set_slices fs2 dir n bs) in *.
  assert (W1 := made_wf _ _ _ F M). assert (D1 : look fs1 dir = Some KDir) by (apply (proj1 M), below_refl).
  assert (L1 : left_by fs fs1 [dir] (slice_files n dir)) by (now apply made_left).
  assert (Same1 : forall o, In o (slice_files n dir) -> look fs1 o = look fs o) by (intros o I; apply (proj2 M); exact (slice_files_side n dir o dir I (or_introl eq_refl))).
  assert (In1 : In txt (slice_files n dir)) by now left.
  assert (Ins : forall i, i < n -> In (slice_file dir i) (slice_files n dir)) by (intros i L; apply slice_files_in; right; exists i; split; [exact L|reflexivity]).
  assert (Fr1 : forall o, In o (slice_files n dir) -> free fs1 o) by (intros o I; unfold free; rewrite (Same1 o I); apply (FO o I)).
  assert (Lt : forall b, left_by fs (set_node fs1 txt b) [dir] (slice_files n dir)) by (intros b; apply left_set; [assumption|assumption|assumption|apply (FO _ In1)|now apply Fr1]).
  assert (D2 : look fs2 dir = Some KDir). { unfold fs2. rewrite look_set_other; [assumption|discriminate|]. intros E. apply (f_equal (@length _)) in E. simpl in E. clear -E. lia. }
  assert (Fr2 : forall o, In o (slice_files n dir) -> free fs2 o). { intros o I. unfold free, fs2. rewrite look_set by discriminate. destruct (rpath_eqb txt o); [right; eauto|now apply Fr1]. }
  assert (Txt : forall m cs, look (set_slices fs2 dir m cs) txt = Some (KFile lb)).
  { intros m cs. rewrite (proj2 (set_slices_spec fs2 dir m cs)) by (intros i _; apply list_not_slice). apply look_set_same. discriminate. }
  assert (Ls : forall m cs, m <= n -> left_by fs (set_slices fs2 dir m cs) [dir] (slice_files n dir)).
  { intros m cs Lm. split.
    - assert (G : forall l f0, (forall i, In i l -> i < n) -> wf_fs f0 -> look f0 dir = Some KDir -> (forall o, In o (slice_files n dir) -> free f0 o) -> wf_fs (fold_left (fun g i => set_node g (slice_file dir i) (cs i)) l f0)).
      { induction l as [|i l IH]; intros f0 Li Wf Df Ff0; [exact Wf|]. cbn [fold_left]. apply IH.
        - intros k I. apply Li. now right.
        - apply set_wf; [assumption|assumption|]. apply Ff0, Ins, Li. now left.
        - rewrite look_set_other; [assumption|discriminate|]. intros E. apply (f_equal (@length _)) in E. simpl in E. clear -E. lia.
        - intros o I. unfold free. rewrite look_set by discriminate. destruct (rpath_eqb (slice_file dir i) o); [right; eauto|now apply Ff0]. }
      apply G; [intros i I; apply in_seq in I; clear -I Lm; lia|apply Lt|assumption|assumption].
    - intros r. destruct (set_slices_spec fs2 dir m cs) as (S1 & S2). destruct (in_dec (list_eq_dec (list_eq_dec N.eq_dec)) r (slice_files n dir)) as [I|I].
      + apply slice_files_in in I. assert (I' := proj2 (slice_files_in n dir r) I). destruct I as [->|(i & Li & ->)]; [right; right; split; [exact In1|]; split; [apply (FO _ In1)|]; exists lb; apply Txt|].
        destruct (Nat.lt_ge_cases i m) as [Lm'|Lm']; [right; right; split; [assumption|]; split; [apply (FO _ I')|]; exists (cs i); now apply S1|]. left. rewrite S2.
        * unfold fs2. rewrite look_set_other; [now apply Same1|discriminate|apply list_not_slice].
        * intros k Lk E. apply slice_file_inj in E. clear -E Lk Lm'. lia.
      + rewrite S2 by (intros i Li ->; apply I, Ins; clear -Li Lm; lia). destruct (proj2 (Lt lb) r) as [E|[E|(I' & _)]]; [now left|right; left; exact E|contradiction]. }
  assert (Unt : forall m cs i, m <= i -> i < n -> look (set_slices fs2 dir m cs) (slice_file dir i) = look fs (slice_file dir i)).
  { intros m cs i Lm Li. rewrite (proj2 (set_slices_spec fs2 dir m cs)) by (intros k Lk E; apply slice_file_inj in E; clear -E Lk Lm; lia). unfold fs2. rewrite look_set_other; [now apply Same1, Ins|discriminate|apply list_not_slice]. }
  assert (Early : forall st0, left_by fs st0 [dir] (slice_files n dir) -> (forall i, i < n -> look st0 (slice_file dir i) = look fs (slice_file dir i)) ->
    (look st0 txt = look fs txt \/ exists part rest, look st0 txt = Some (KFile part) /\ lb = part ++ rest) ->
    left_by fs st0 [dir] (slice_files n dir) /\ exists f j m, split_main p fs = (f, None) /\ j <= m /\ m <= n /\ (j < m -> m = n) /\
    (forall i, i < j -> exists b, unfinished b /\ look st0 (slice_name i :: dir) = Some (KFile b)) /\
    (forall i, j <= i -> i < m -> look st0 (slice_name i :: dir) = look f (slice_name i :: dir)) /\
    (forall i, m <= i -> i < n -> look st0 (slice_name i :: dir) = look fs (slice_name i :: dir)) /\
    (0 < m -> look st0 txt = look f txt) /\ (look st0 txt = look fs txt \/ exists part rest, look st0 txt = Some (KFile part) /\ look f txt = Some (KFile (part ++ rest)))).
  { intros st0 L H1 H2. split; [assumption|]. exists f, 0, 0. split; [exact Em|]. split; [apply Nat.le_refl|]. split; [apply Nat.le_0_l|]. split; [intros A; inversion A|]. split; [intros i A; inversion A|]. split; [intros i _ A; inversion A|]. split; [intros i _ A; exact (H1 i A)|]. split; [intros A; inversion A|].
    destruct H2 as [H2|(part & rest & H2 & E)]; [now left|right]. exists part, rest. split; [assumption|]. unfold f. rewrite Txt. now rewrite E. }
  assert (Late : forall j m cs, j <= m -> m <= n -> (j < m -> m = n) -> (forall i, i < j -> unfinished (cs i)) -> (forall i, j <= i -> i < m -> cs i = bs i) -> let st0 := set_slices fs2 dir m cs in
    left_by fs st0 [dir] (slice_files n dir) /\ exists f j m, split_main p fs = (f, None) /\ j <= m /\ m <= n /\ (j < m -> m = n) /\
    (forall i, i < j -> exists b, unfinished b /\ look st0 (slice_name i :: dir) = Some (KFile b)) /\
    (forall i, j <= i -> i < m -> look st0 (slice_name i :: dir) = look f (slice_name i :: dir)) /\
    (forall i, m <= i -> i < n -> look st0 (slice_name i :: dir) = look fs (slice_name i :: dir)) /\
    (0 < m -> look st0 txt = look f txt) /\ (look st0 txt = look fs txt \/ exists part rest, look st0 txt = Some (KFile part) /\ look f txt = Some (KFile (part ++ rest)))).
  { intros j m cs J1 J2 J3 Un Cl st0. split; [now apply Ls|]. exists f, j, m. split; [exact Em|]. split; [exact J1|]. split; [exact J2|]. split; [exact J3|].
    split; [intros i Li; exists (cs i); split; [now apply Un|]; apply (proj1 (set_slices_spec fs2 dir m cs)); exact (Nat.lt_le_trans _ _ _ Li J1)|].
    split; [intros i Li Mi; change (look (set_slices fs2 dir m cs) (slice_file dir i) = look (set_slices fs2 dir n bs) (slice_file dir i)); rewrite (proj1 (set_slices_spec fs2 dir m cs) i Mi), (proj1 (set_slices_spec fs2 dir n bs) i (Nat.lt_le_trans _ _ _ Mi J2)), (Cl i Li Mi); reflexivity|].
    split; [intros i Li Mi; exact (Unt m cs i Li Mi)|]. split; [intros _; unfold st0, f; now rewrite !Txt|]. right. exists lb, []. unfold st0, f. rewrite !Txt, app_nil_r. split; reflexivity. }
  assert (Eo : (let* o := the_linear_source fs p in let* src := open_source fs o in Ok (read_later X cwd ZC other_source o src)) = Ok (read_later X cwd ZC other_source (OZipSource true qin) (zip_source same_name bytes_value z))).
  { rewrite El. cbn [bind]. rewrite (Op fs eq_refl). reflexivity. }
  assert (Pn : Params.contains p !!"num_slices" = true). { apply (present_contains _ _ (proj1 W)). exists nv. split; [assumption|]. intros ->. inversion In_. }
  assert (NQ : ~ In qin (txt :: map (slice_file dir) (seq 0 n))) by (intros I; now apply (FO qin)).
  destruct Mo as [->|later _ El2 _ Sm|later ns' splits _ _ Nc _ _ _]; [apply Early; [now apply left_refl|reflexivity|now left]| |congruence].
  pose proof (eq_trans (eq_sym Eo) El2) as Eq. injection Eq as <-. clear El2.
  destruct Sm as [dir' P' Im|fs1' dir' nv' sv' Cd' Pi' Os' Tm|fs1' dir' nv' sv' fs2' m cs Cd' Pi' Os' Ew' Lm _ Un ->|fs1' dir' nv' sv' fs2' m e Cd' Pi' Os' Ew' Ff' _|fs1' dir' nv' sv' fs2' Cd' Pi' Os' Ew' n' Ff' src Sl|En].
  - assert (dir' = dir) as -> by congruence. assert (Lq := moments_left fs dir F st Im). assert (Same : forall o, In o (slice_files n dir) -> look st o = look fs o).
    { intros o I. destruct (proj2 Lq o) as [E|[(d & [<-|[]] & B & _)|([] & _)]]; [assumption|]. destruct (slice_files_side n dir o dir I (or_introl eq_refl) B). }
    apply Early; [eapply left_more; [exact Lq|apply incl_refl|intros ? []]|intros i L; now apply Same, Ins|left; now apply Same].
  - assert (fs1' = fs1 /\ dir' = dir /\ nv' = nv) as (-> & -> & ->) by (repeat split; congruence). rewrite Nn in Tm. fold txt in Tm. destruct Tm as [->|(_ & wr & rest & E & ->)].
    + apply Early; [assumption|intros i L; now apply Same1, Ins|left; now apply Same1].
    + apply Early; [apply Lt|intros i L; rewrite look_set_other; [now apply Same1, Ins|discriminate|apply list_not_slice]|]. right. destruct E as [E| ->].
      * exists wr, rest. split; [apply look_set_same; discriminate|congruence].
      * exists [], lb. split; [apply look_set_same; discriminate|reflexivity].
  - assert (fs1' = fs1 /\ dir' = dir /\ nv' = nv) as (-> & -> & ->) by (repeat split; congruence). rewrite Nn in Ew', Lm. fold txt in Ew'; assert (fs2' = fs2) as -> by congruence.
    apply (Late m m cs); [apply Nat.le_refl|assumption|intros A; destruct (Nat.lt_irrefl _ A)|assumption|intros i A B; destruct (Nat.lt_irrefl i); exact (Nat.lt_le_trans _ _ _ B A)].
  - exfalso. assert (fs1' = fs1 /\ dir' = dir /\ nv' = nv) as (-> & -> & ->) by (repeat split; congruence). rewrite Nn in Ew', Ff'. fold txt in Ew'; assert (fs2' = fs2) as -> by congruence. congruence.
  - assert (fs1' = fs1 /\ dir' = dir /\ nv' = nv /\ sv' = sv) as (-> & -> & -> & ->) by (repeat split; congruence). subst src n'. rewrite Nn in Ew', Ff', Sl. fold txt in Ew'; assert (fs2' = fs2) as -> by congruence.
    fold txt in Sl. rewrite read_later_same in Sl by exact NQ. destruct Sl as (j & cs & Lj & Un & Cl & ->). apply (Late j n cs); [assumption|apply Nat.le_refl|reflexivity|assumption|].
    intros i Li Ln. destruct (Cl i Li Ln) as (a & E1 & ->). destruct (Cb (fun i => disk_at ZC fs2 (slice_file dir i)) i Ln) as (a' & E2 & ->). congruence.
  - assert (st = f) as ->.
    { rewrite En. unfold split_slices. rewrite Cd, Pi, Os, Nn. cbv zeta. fold txt. rewrite Ew, Ff. rewrite read_later_same by exact NQ.
      destruct (split_even set_order (slice_order seeded_shuffle sv) n (zip_source same_name bytes_value z) (fun i => disk_at ZC fs2 (slice_file dir i))) as [ds e0] eqn:E. cbn [fst].
      apply put_set_slices. intros i L. assert (Q := Cb (fun i => disk_at ZC fs2 (slice_file dir i)) i L). rewrite E in Q. exact Q. }
    apply (Late 0 n bs); [apply Nat.le_0_l|apply Nat.le_refl|reflexivity|intros i A; inversion A|reflexivity].
Qed.
(** C117: however often the script was killed before, and wherever, its input and everything else is as it was; and a run that is not killed then succeeds and gives the very same files, byte for
    byte, as if there had been no other run. *)
Theorem C117_split_again : forall p fs ns qin ks val nv n seed dir st, wf_fs fs -> slices_wanted p fs ns qin ks val nv n seed dir -> (forall o, In o (slice_files n dir) -> free fs o /\ o <> qin) ->
  killed_runs (split_moment p) fs st ->
  left_by fs st [dir] (slice_files n dir) /\ holds st qin ks val /\
  exists f f', split_main p fs = (f, None) /\ split_main p st = (f', None) /\ forall r, look f' r = look f r.
Proof using cwd_proper seeded_perm set_order_perm x_is_source.
  intros p fs ns qin ks val nv n seed dir st F SW FO K.
  assert (Keep : forall fs st, wf_fs fs -> (slices_wanted p fs ns qin ks val nv n seed dir /\ forall o, In o (slice_files n dir) -> free fs o /\ o <> qin) -> left_by fs st [dir] (slice_files n dir) ->
    slices_wanted p st ns qin ks val nv n seed dir /\ forall o, In o (slice_files n dir) -> free st o /\ o <> qin).
  { clear. intros fs st F ((W & T & Hin & C & PK & Sn & In_ & N0 & Me & Hs & Hd & U & Enc) & FO) L. split.
    - split; [assumption|]. split; [assumption|]. split; [assumption|]. split; [apply (left_holds ZC fs st [dir] (slice_files n dir)); [assumption|assumption|intros I; now apply (FO qin)]|].
      repeat (split; [assumption|]). split; [|assumption]. apply (left_unblocked fs st [dir] (slice_files n dir)); [assumption|assumption|]. intros o I. exact (slice_files_side n dir o dir I (or_introl eq_refl)).
    - intros o I. split; [|apply (FO o I)]. apply (left_free fs st [dir] (slice_files n dir)); [assumption|apply (FO o I)|]. intros d [<-|[]]. exact (slice_files_side n dir o dir I (or_introl eq_refl)). }
  destruct (killed_left (split_moment p) (fun fs => slices_wanted p fs ns qin ks val nv n seed dir /\ forall o, In o (slice_files n dir) -> free fs o /\ o <> qin) [dir] (slice_files n dir) (slice_files_side n dir)) with (fs := fs) (st := st) as (L & SW' & FO'); [|exact Keep|assumption|split; assumption|exact K|].
  { intros fs0 st0 F0 (SW0 & FO0) Mo. apply (C117_split_moments p fs0 ns qin ks val nv n seed dir st0 F0 SW0 FO0 Mo). }
  split; [assumption|]. assert (Hq : holds st qin ks val) by apply SW'. split; [assumption|]. assert (NQ : ~ In qin (slice_files n dir)) by (intros I; now apply (FO qin)).
  assert (Dq : disk_at ZC st qin = disk_at ZC fs qin).
  { assert (C : holds fs qin ks val) by apply SW. destruct (holds_file ZC fs qin ks val C) as (b & a & Lq & _). unfold disk_at. rewrite (left_file _ _ _ _ _ _ L Lq NQ), Lq. reflexivity. }
  assert (exists z, source_enter (disk_at ZC fs qin) = Ok z) as (z & Ez). { destruct SW as (_ & _ & _ & (z & Ez & _) & _). eauto. }
  destruct (split_setup p fs ns qin ks val nv n seed dir z F SW FO Ez) as (fs1 & lb & sv & bs & _ & _ & M & _ & _ & Os & Elb & _ & _ & Cb & Em).
  rewrite <- Dq in Ez. destruct (split_setup p st ns qin ks val nv n seed dir z (proj1 L) SW' FO' Ez) as (st1 & lb' & sv' & bs' & _ & _ & M' & _ & _ & Os' & Elb' & _ & _ & Cb' & Em'). cbv zeta in Em, Em'.
  eexists. eexists. split; [exact Em|]. split; [exact Em'|]. intros r. assert (lb' = lb) as -> by congruence. assert (sv' = sv) as -> by congruence.
  assert (Bs : forall i, i < n -> bs' i = bs i). { intros i Li. destruct (Cb (fun _ => Absent) i Li) as (a & E & ->). destruct (Cb' (fun _ => Absent) i Li) as (a' & E' & ->). congruence. }
  destruct (set_slices_spec (set_node fs1 (!!"_slices.txt" :: dir) lb) dir n bs) as (S1 & S2). destruct (set_slices_spec (set_node st1 (!!"_slices.txt" :: dir) lb) dir n bs') as (T1 & T2).
  destruct (in_dec (list_eq_dec (list_eq_dec N.eq_dec)) r (slice_files n dir)) as [I|I].
  - apply slice_files_in in I. destruct I as [->|(i & Li & ->)]; [|now rewrite S1, T1, (Bs i Li)]. rewrite S2, T2 by (intros i _; apply list_not_slice). rewrite !look_set_same by discriminate. reflexivity.
  - assert (Nr : forall i, i < n -> r <> slice_file dir i) by (intros i Li ->; apply I, slice_files_in; right; eauto). assert (Nt : !!"_slices.txt" :: dir <> r) by (intros <-; apply I, slice_files_in; now left).
    rewrite (S2 r Nr), (T2 r Nr), !look_set_other by (discriminate || exact Nt). exact (made_same fs st fs1 st1 dir _ r L M M' I).
Qed.

(** ** One zip file as the output *)
(** The output as it was before, unfinished, or everything done. *)
Definition output_state (fs f st : list (list str * fnode)) (q : list str) : Prop :=
  look st q = look fs q \/ (exists b, unfinished b /\ look st q = Some (KFile b)) \/ st = f.
Lemma dirs_output fs f c d st : wf_fs fs -> In st (mkdir_moments fs d) -> left_by fs st [d] [c :: d] /\ output_state fs f st (c :: d).
Proof using Type.
  intros F I. assert (L := moments_left fs d F st I). split; [eapply left_more; [exact L|apply incl_refl|intros ? []]|]. left.
  destruct (proj2 L (c :: d)) as [E|[(d' & [<-|[]] & B & _)|([] & _)]]; [assumption|]. destruct (not_below_tail c d B).
Qed.
Lemma unfinished_output fs f fs1 c d b : wf_fs fs -> unblocked fs d -> made fs fs1 d -> free fs (c :: d) -> unfinished b ->
  left_by fs (set_node fs1 (c :: d) b) [d] [c :: d] /\ output_state fs f (set_node fs1 (c :: d) b) (c :: d).
Proof using Type.
  intros F U M Fr Ub. split.
  - apply left_set; [now apply made_left|now left|apply (proj1 M), below_refl|assumption|]. unfold free. assert (look fs1 (c :: d) = look fs (c :: d)) as -> by apply (proj2 M), not_below_tail. exact Fr.
  - right. left. exists b. split; [assumption|]. apply look_set_same. discriminate.
Qed.
Lemma zip_output fs f fs1 c d puts st : wf_fs fs -> unblocked fs d -> made fs fs1 d -> free fs (c :: d) -> left_by fs f [d] [c :: d] -> fst (write_zip ZC torn set_order fs1 (c :: d) puts) = f ->
  zip_moment ZC torn set_order unfinished fs1 (c :: d) puts st -> left_by fs st [d] [c :: d] /\ output_state fs f st (c :: d).
Proof using Type.
  intros F U M Fr Lf Ef [->|[(_ & b & Ub & ->)| ->]].
  - split; [now apply made_left|]. left. apply (proj2 M), not_below_tail.
  - now apply unfinished_output.
  - rewrite Ef. split; [assumption|]. right. now right.
Qed.

(** ** downsample_key_value_store *)
(** what C86 asks for *)
Definition sample_wanted (p : pv) (fs : list (list str * fnode)) (ns : pv) (qin : list str) (ks : list str) (val : str -> bytes) (nv : pv) (n : nat) (sv : pv) (c : str) (d : list str) : Prop :=
  wf_params p /\ Typed p !!"input" !!"zip" ns /\ names_path cwd ns !!"path" qin /\ holds fs qin ks val /\ (forall k, In k ks -> plain_key k) /\
  Stored p !!"num_to_sample" nv /\ int_value nv (Z.of_nat n) /\ n <> 0 /\ (ParamsSpec.Absent p !!"random_seed" \/ exists s, Stored p !!"random_seed" sv /\ int_value sv s) /\
  names_path cwd p !!"output_zip_path" (c :: d) /\ unblocked fs d /\ free fs (c :: d) /\ c :: d <> qin.
Lemma sample_setup p fs ns qin ks val nv n sv c d z : wf_fs fs -> sample_wanted p fs ns qin ks val nv n sv c d -> source_enter (disk_at ZC fs qin) = Ok z ->
  exists fs1 keys seed dd kept, creatable_file cwd p !!"output_zip_path" fs = (fs1, Ok (c :: d)) /\ path_param cwd p !!"output_zip_path" = Ok (c :: d) /\ made fs fs1 d /\
    src_keys (zip_source same_name bytes_value z) = Ok (Some keys) /\ integer p !!"random_seed" (PInt 0) (MkRange BelowAll AboveAll) = Ok seed /\
    let st := yield_all (fun k => let* b := src_item (zip_source same_name bytes_value z) k in Ok (Some (k, VBytes b))) (firstn (Nat.min n (length keys)) (random_shuffle (int_of seed) keys)) in
    write_stream set_order Absent st = (dd, None) /\ contains dd kept val /\ downsample_main p fs = write_zip ZC torn set_order fs1 (c :: d) (fun _ => st).
Proof using cwd_proper random_perm set_order_perm x_is_linear.
  intros F (W & T & Hin & C & PK & Sn & In_ & N0 & Hs & Ho & U & Fr & Nq) Ez.
  destruct (input_same fs p ns qin ks val W T Hin C) as (z' & Ez' & _ & Es & Op). rewrite Ez in Ez'. injection Ez' as <-.
  assert (exists ks', serves (zip_source same_name bytes_value z) ks' val /\ forall k, In k ks' -> plain_key k) as (ks' & Sv & PK').
  { destruct (input_opens X import_module other_eval builtin locals_of x_is_class x_from_parameters x_construct x_callable x_call x_is_linear x_is_source cwd other_globals ZC other_source cwd_proper fs p ns qin ks val W T Hin C) as (later & z0 & ks' & _ & Eo & La & _ & Pk & Sv & _).
    rewrite Es in Eo. cbn [bind] in Eo. rewrite (Op fs eq_refl) in Eo. cbn [bind] in Eo. injection Eo as <-. specialize (La fs [] (@in_nil _ _)). rewrite read_later_same in La by (intros []). rewrite <- La in Sv. exists ks'. split; [exact Sv|]. intros k I. apply PK. now apply (Permutation_in _ Pk). }
  assert (Sk := proj1 Sv).
  assert (exists seed, integer p !!"random_seed" (PInt 0) (MkRange BelowAll AboveAll) = Ok seed) as (seed & Ei).
  { destruct (C46_required_getters p !!"random_seed" (PInt 0) W) as (_ & G & _). destruct (G (MkRange BelowAll AboveAll)) as (G1 & _).
    destruct Hs as [A|(s & Ss & Is)]; [exists (PInt 0); apply G1; [constructor; [assumption|discriminate]|]; exists 0%Z; split; [constructor|reflexivity]|].
    exists sv. apply G1; [now constructor|]. exists s. split; [assumption|reflexivity]. }
  destruct (C80_creatable cwd p !!"output_zip_path" fs W cwd_proper F) as (_ & CF & _). destruct (CF c d Ho) as (CF1 & _). destruct (CF1 U) as (fs1 & Ec1 & M).
  destruct (C64_downsample set_order set_order_perm (random_shuffle (int_of seed)) n (zip_source same_name bytes_value z) ks' val Absent (random_perm _) Sv PK') as (dd & kept & E & Cd & Nk & Ik & Lk & _).
  unfold downsample in E. rewrite Sk in E. exists fs1, ks', seed, dd, kept. split; [exact Ec1|].
  split; [unfold creatable_file in Ec1; destruct (path_param cwd p !!"output_zip_path") as [q0|e0]; [|discriminate Ec1]; destruct (mkdir_p fs (tl q0)) as [? [?|?]]; cbn [bind] in Ec1; congruence|].
  split; [exact M|]. split; [exact Sk|]. split; [exact Ei|]. cbv zeta. split; [exact E|]. split; [exact Cd|].
  unfold Mains.downsample_main. rewrite Es. cbn [bind]. rewrite (Op fs eq_refl). cbn [bind]. rewrite read_later_same by (intros []). rewrite Sk.
  assert (positive_integer p !!"num_to_sample" PNone = Ok nv) as ->.
  { destruct (C46_required_getters p !!"num_to_sample" PNone W) as (_ & _ & (G & _) & _). apply G; [now constructor|]. exists (Z.of_nat n). split; [assumption|]. clear -N0. lia. }
  rewrite Ei, Ec1. assert (int_of nv = Z.of_nat n) as -> by (inversion In_; reflexivity). rewrite Nat2Z.id. unfold write_zip. destruct (can_write fs1 (c :: d)); [|reflexivity].
  rewrite read_later_same by (intros [E0|[]]; exact (Nq E0)). unfold downsample. rewrite Sk. reflexivity.
Qed.
(** C117: a run of downsample_key_value_store that is killed leaves everything but the directories on the way to its output and the output as it was, and the output as it was, unfinished or
    as after a complete run.  After any number of killed runs, a run that is not killed gives the very same files as if there had been no other. *)
Theorem C117_downsample : forall p fs ns qin ks val nv n sv c d, wf_fs fs -> sample_wanted p fs ns qin ks val nv n sv c d ->
  exists f, downsample_main p fs = (f, None) /\
    (forall st, downsample_moment p fs st -> left_by fs st [d] [c :: d] /\ output_state fs f st (c :: d)) /\
    (forall st, killed_runs (downsample_moment p) fs st -> left_by fs st [d] [c :: d] /\ holds st qin ks val /\ exists f', downsample_main p st = (f', None) /\ forall r, look f' r = look f r).
Proof using cwd_proper random_perm set_order_perm x_is_linear seeded_shuffle other_sink.
  assert (G : forall p fs ns qin ks val nv n sv c d st, wf_fs fs -> sample_wanted p fs ns qin ks val nv n sv c d -> exists f, downsample_main p fs = (f, None) /\ (downsample_moment p fs st -> left_by fs st [d] [c :: d] /\ output_state fs f st (c :: d))).
  { intros p fs ns qin ks val nv n sv c d st F SW. assert (SW' := SW). destruct SW' as (W & T & Hin & C & PK & Sn & In_ & N0 & Hs & Ho & U & Fr & Nq).
    destruct (C86_downsample X import_module other_eval builtin locals_of x_is_class x_from_parameters x_construct x_callable x_call x_is_linear x_is_source cwd other_globals ZC torn set_order seeded_shuffle random_shuffle other_source other_sink set_order_perm random_perm cwd_proper p fs ns qin ks val nv n sv c d W F T Hin C PK Sn In_ N0 Hs Ho U Fr Nq) as (f & kept & Em & Wf & Hf & _ & _ & _ & OW & _).
    exists f. split; [exact Em|]. intros Mo. assert (Lf : left_by fs f [d] [c :: d]).
    { apply writes_left; [assumption|assumption| |assumption]. intros o [<-|[]]. split; [assumption|]. destruct (holds_file ZC f (c :: d) kept val Hf) as (b & a & L & _). eauto. }
    assert (exists z, source_enter (disk_at ZC fs qin) = Ok z) as (z & Ez) by (destruct C as (z & Ez & _); eauto).
    destruct (sample_setup p fs ns qin ks val nv n sv c d z F SW Ez) as (fs1 & keys & seed & dd & kept' & Ec & Pp & M & _).
    destruct Mo as [->|o src q _ _ Pp' I|o src keys' nv' seed' fs1' q b _ _ _ _ _ Ec' _ Ub ->| ->].
    - split; [now apply left_refl|now left].
    - assert (q = c :: d) as -> by congruence. now apply dirs_output.
    - assert (fs1' = fs1 /\ q = c :: d) as (-> & ->) by (split; congruence). now apply unfinished_output.
    - rewrite Em. split; [exact Lf|]. right. now right. }
  intros p fs ns qin ks val nv n sv c d F SW. destruct (G p fs ns qin ks val nv n sv c d fs F SW) as (f & Em & _). exists f. split; [exact Em|]. split.
  - intros st. destruct (G p fs ns qin ks val nv n sv c d st F SW) as (f' & Em' & H). assert (f' = f) as -> by congruence. exact H.
  - intros st K. assert (Side : side_by_side [d] [c :: d]) by (intros o d' [<-|[]] [<-|[]]; apply not_below_tail).
    destruct (killed_left (downsample_moment p) (fun fs => sample_wanted p fs ns qin ks val nv n sv c d) [d] [c :: d] Side) with (fs := fs) (st := st) as (L & SW'); [| |assumption|assumption|assumption|].
    + intros fs0 st0 F0 SW0 Mo. destruct (G p fs0 ns qin ks val nv n sv c d st0 F0 SW0) as (f0 & _ & H). apply (H Mo).
    + clear -Side. intros fs st F (W & T & Hin & C & PK & Sn & In_ & N0 & Hs & Ho & U & Fr & Nq) L. split; [assumption|]. split; [assumption|]. split; [assumption|].
      split; [apply (left_holds ZC fs st [d] [c :: d]); [assumption|assumption|intros [E|[]]; exact (Nq E)]|]. repeat (split; [assumption|]).
      split; [apply (left_unblocked fs st [d] [c :: d]); [assumption|assumption|intros o I; apply (Side o d I); now left]|]. split; [|assumption].
      apply (left_free fs st [d] [c :: d]); [assumption|assumption|]. intros d' I. apply (Side _ d'); [now left|exact I].
    + split; [exact L|]. assert (Hq : holds st qin ks val) by apply SW'. split; [exact Hq|].
      assert (C : holds fs qin ks val) by apply SW. assert (Nq : c :: d <> qin) by apply SW. assert (Fr : free fs (c :: d)) by apply SW.
      assert (Dq : disk_at ZC st qin = disk_at ZC fs qin).
      { destruct (holds_file ZC fs qin ks val C) as (b & a & Lq & _). unfold disk_at. rewrite (left_file _ _ _ _ _ _ L Lq), Lq; [reflexivity|]. intros [E|[]]; exact (Nq E). }
      assert (exists z, source_enter (disk_at ZC fs qin) = Ok z) as (z & Ez) by (destruct C as (z & Ez & _); eauto). assert (Ez' := Ez). rewrite <- Dq in Ez'.
      destruct (sample_setup p fs ns qin ks val nv n sv c d z F SW Ez) as (fs1 & keys & seed & dd & kept & _ & _ & M & Sk & Sd & Ew & Cd & E1).
      destruct (sample_setup p st ns qin ks val nv n sv c d z (proj1 L) SW' Ez') as (st1 & keys' & seed' & dd' & kept' & _ & _ & M' & Sk' & Sd' & _ & _ & E2). cbv zeta in Ew, E1, E2.
      assert (keys' = keys) as -> by congruence. assert (seed' = seed) as -> by congruence.
      set (strm := yield_all _ _) in Ew, E1, E2. destruct (write_zip_same ZC torn set_order fs st fs1 st1 c d (fun _ => strm) (fun _ => strm) kept val dd None F (proj1 L) L M M' Fr Ew Cd (eq_refl _)) as (g & g' & Eg & Eg' & H). exists g'. split; [now rewrite E2|]. intros r. assert (g = f) as <- by congruence. apply H.
Qed.

(** ** join_key_value_stores *)
(** what C85 asks for; besides, the output is not the list of the inputs *)
Definition join_wanted (p : pv) (fs : list (list str * fnode)) (ns : pv) (c : str) (d : list str) (xs : stores) : Prop :=
  wf_params p /\ lists_inputs cwd p fs (map (fun x => fst (fst x)) xs) /\ stores_ok ZC fs xs /\ NoDup (stored_keys xs) /\
  Typed p !!"output" !!"zip" ns /\ names_path cwd ns !!"path" (c :: d) /\ unblocked fs d /\ free fs (c :: d) /\ ~ In (c :: d) (map (fun x => fst (fst x)) xs) /\
  ~ names_path cwd p !!"input_store_list_file" (c :: d).
Lemma paths_kept p fs st c d ms : left_by fs st [d] [c :: d] -> ~ names_path cwd p !!"input_store_list_file" (c :: d) -> lists_paths cwd p fs ms -> lists_paths cwd p st ms.
Proof using Type.
  intros L N [q b t ls Hq Lq D Pc K|ss Hs F]; [|eapply li_list; eassumption]. eapply li_file; try eassumption. apply (left_file fs st [d] [c :: d]); [assumption|assumption|]. intros [E|[]]. apply N. now rewrite E.
Qed.
Lemma leads_kept fs st dirs outs ms qs : left_by fs st dirs outs -> Forall2 (leads fs cwd) ms qs -> Forall2 (leads st cwd) ms qs.
Proof using Type. intros L FL. induction FL as [|m q ms qs Lm FL IH]; constructor; [|assumption]. eapply leads_stay; [|exact Lm]. intros r. now apply (left_dir fs st dirs outs). Qed.
Lemma join_setup p fs ns c d xs ms : wf_fs fs -> join_wanted p fs ns c d xs -> lists_paths cwd p fs ms -> Forall2 (leads fs cwd) ms (map (fun x => fst (fst x)) xs) ->
  exists fs1 dd val, made fs fs1 d /\ the_sink fs p (map (fun n => (n, ONone)) join_locals) = Ok (OZipSink true (c :: d) fs1) /\ path_list_from_file cwd p !!"input_store_list_file" None fs = Ok (map parse_path ms) /\
    let puts := fun fs2 => join_inputs [] (map (disk_of cwd ZC fs2) (map parse_path ms)) in
    puts (put_disk fs1 (c :: d) Partial) = join_inputs [] (map (disk_at ZC fs) (map (fun x => fst (fst x)) xs)) /\
    write_stream set_order Absent (puts (put_disk fs1 (c :: d) Partial)) = (dd, None) /\ contains dd (stored_keys xs) val /\ join_main p fs = write_zip ZC torn set_order fs1 (c :: d) puts.
Proof using cwd_proper set_order_perm.
  intros F (W & LI & Ok_ & ND & T & H & U & Fr & N & Nl) LP FL.
  destruct (output_sink X import_module other_eval builtin locals_of x_is_class x_from_parameters x_construct x_callable x_call x_is_sink cwd other_globals cwd_proper fs p ns c d join_locals W F T H U join_silent) as (fs1 & M & Es).
  assert (Ep := listed_texts cwd cwd_proper p fs ms W LP).
  destruct (inputs_still_ok ZC torn fs fs1 c d xs U M Ok_ N) as (O & K). set (ys := map (fun x => (disk_at ZC (put_disk fs1 (c :: d) Partial) (fst (fst x)), snd (fst x), snd x)) xs) in *. rewrite <- K in ND.
  destruct (C63_join set_order set_order_perm ys Absent O ND) as (dd & val & J & V & C). rewrite K in C. unfold ys in J. rewrite map_map in J. cbn [fst] in J.
  assert (Ed : map (disk_of cwd ZC (put_disk fs1 (c :: d) Partial)) (map parse_path ms) = map (disk_at ZC (put_disk fs1 (c :: d) Partial)) (map (fun x => fst (fst x)) xs)).
  { apply (listed_disks cwd ZC fs); [intros r L; exact (dirs_then ZC torn fs fs1 c d r M Fr L)|]. clear -FL. induction FL; cbn [map]; constructor; eauto. }
  exists fs1, dd, val. split; [exact M|]. split; [exact Es|]. split; [exact Ep|]. cbv beta zeta. rewrite Ed. split; [|split; [rewrite map_map; exact J|split; [exact C|]]].
  - f_equal. apply map_ext_in. intros q I. unfold disk_at. rewrite look_put_other; [|discriminate|intros E; apply N; now rewrite E]. apply in_map_iff in I. destruct I as ([[q' ks] v] & E & I). cbn [fst] in E. subst q'.
    destruct (Ok_ q ks v I) as (Hq & _). destruct (holds_file ZC fs q ks v Hq) as (b & a & Lq & _). assert (look fs1 q = look fs q) as ->; [|reflexivity]. apply (proj2 M). intros B. apply (U q B). exists (KFile b). split; [assumption|discriminate].
  - unfold Mains.join_main. rewrite Ep, Es. reflexivity.
Qed.
(** C117: the same for join_key_value_stores *)
Theorem C117_join : forall p fs ns c d xs, wf_fs fs -> join_wanted p fs ns c d xs ->
  exists f, join_main p fs = (f, None) /\
    (forall st, join_moment p fs st -> left_by fs st [d] [c :: d] /\ output_state fs f st (c :: d)) /\
    (forall st, killed_runs (join_moment p) fs st -> left_by fs st [d] [c :: d] /\ stores_ok ZC st xs /\ exists f', join_main p st = (f', None) /\ forall r, look f' r = look f r).
Proof using cwd_proper set_order_perm.
  assert (G : forall p fs ns c d xs st, wf_fs fs -> join_wanted p fs ns c d xs -> exists f, join_main p fs = (f, None) /\ (join_moment p fs st -> left_by fs st [d] [c :: d] /\ output_state fs f st (c :: d))).
  { intros p fs ns c d xs st F SW. assert (SW' := SW). destruct SW' as (W & LI & Ok_ & ND & T & H & U & Fr & N & Nl).
    destruct (C85_join X import_module other_eval builtin locals_of x_is_class x_from_parameters x_construct x_callable x_call x_is_sink cwd other_globals ZC torn set_order other_sink set_order_perm cwd_proper p fs ns c d xs W F LI Ok_ ND T H U Fr N) as (f & val & Em & Wf & Hf & _ & OW & _).
    exists f. split; [exact Em|]. intros Mo. assert (Lf : left_by fs f [d] [c :: d]).
    { apply writes_left; [assumption|assumption| |assumption]. intros o [<-|[]]. split; [assumption|]. destruct (holds_file ZC f (c :: d) _ val Hf) as (b & a & L & _). eauto. }
    destruct LI as (ms & LP & FL). destruct (join_setup p fs ns c d xs ms F SW LP FL) as (fs1 & dd & val' & M & Es & Ep & _ & _ & _ & E1). cbv zeta in E1.
    destruct Mo as [->|paths o Ep' Es' Sm]; [split; [now apply left_refl|now left]|]. assert (o = OZipSink true (c :: d) fs1) as -> by congruence. assert (paths = map parse_path ms) as -> by congruence.
    destruct Sm as [I|Zm]; [now apply dirs_output|]. apply (zip_output fs f fs1 c d (fun fs2 => join_inputs [] (map (disk_of cwd ZC fs2) (map parse_path ms))) st F U M Fr Lf); [|exact Zm]. rewrite <- E1, Em. reflexivity. }
  intros p fs ns c d xs F SW. destruct (G p fs ns c d xs fs F SW) as (f & Em & _). exists f. split; [exact Em|]. split.
  - intros st. destruct (G p fs ns c d xs st F SW) as (f' & Em' & H). assert (f' = f) as -> by congruence. exact H.
  - intros st K. assert (Side : side_by_side [d] [c :: d]) by (intros o d' [<-|[]] [<-|[]]; apply not_below_tail).
    destruct (killed_left (join_moment p) (fun fs => join_wanted p fs ns c d xs) [d] [c :: d] Side) with (fs := fs) (st := st) as (L & SW'); [| |assumption|assumption|assumption|].
    + intros fs0 st0 F0 SW0 Mo. destruct (G p fs0 ns c d xs st0 F0 SW0) as (f0 & _ & H). apply (H Mo).
    + clear -Side. intros fs st F (W & (ms & LP & FL) & Ok_ & ND & T & H & U & Fr & N & Nl) L. split; [assumption|]. split; [exists ms; split; [eapply paths_kept; eassumption|eapply leads_kept; eassumption]|].
      split; [intros q ks v I; destruct (Ok_ q ks v I) as (Hq & PK); split; [|assumption]; apply (left_holds ZC fs st [d] [c :: d]); [assumption|assumption|intros [E|[]]; apply N; apply in_map_iff; exists (q, ks, v); split; [now rewrite E|assumption]]|].
      repeat (split; [assumption|]). split; [apply (left_unblocked fs st [d] [c :: d]); [assumption|assumption|intros o I; apply (Side o d I); now left]|]. split; [|split; assumption].
      apply (left_free fs st [d] [c :: d]); [assumption|assumption|]. intros d' I. apply (Side _ d'); [now left|exact I].
    + split; [exact L|]. assert (Hq : stores_ok ZC st xs) by apply SW'. split; [exact Hq|]. assert (Fr : free fs (c :: d)) by apply SW. assert (Nl : ~ names_path cwd p !!"input_store_list_file" (c :: d)) by apply SW. assert (N : ~ In (c :: d) (map (fun x => fst (fst x)) xs)) by apply SW.
      assert (LI : lists_inputs cwd p fs (map (fun x => fst (fst x)) xs)) by apply SW. assert (Ok_ : stores_ok ZC fs xs) by apply SW. destruct LI as (ms & LP & FL).
      destruct (join_setup p fs ns c d xs ms F SW LP FL) as (fs1 & dd & val & M & _ & _ & Pa & Ew & Cd & E1).
      destruct (join_setup p st ns c d xs ms (proj1 L) SW' (paths_kept p fs st c d ms L Nl LP) (leads_kept fs st _ _ ms _ L FL)) as (st1 & dd' & val' & M' & _ & _ & Pb & _ & _ & E2). cbv beta zeta in Pa, Pb; cbv zeta in Ew, E1, E2.
      destruct (write_zip_same ZC torn set_order fs st fs1 st1 c d (fun fs2 => join_inputs [] (map (disk_of cwd ZC fs2) (map parse_path ms))) (fun fs2 => join_inputs [] (map (disk_of cwd ZC fs2) (map parse_path ms))) (stored_keys xs) val dd None F (proj1 L) L M M' Fr Ew Cd) as (g & g' & Eg & Eg' & H).
      * rewrite Pa. refine (eq_trans Pb _). f_equal. apply map_ext_in. intros q I. apply in_map_iff in I. destruct I as ([[q' ks] v] & E & I). cbn [fst] in E. subst q'. destruct (Ok_ q ks v I) as (Hq' & _).
        destruct (holds_file ZC fs q ks v Hq') as (b & a & Lq & _). unfold disk_at. rewrite (left_file _ _ _ _ _ _ L Lq), Lq; [reflexivity|]. intros [E|[]]. apply N. apply in_map_iff. exists (q, ks, v). split; [now rewrite E|assumption].
      * exists g'. split; [now rewrite E2|]. intros r. assert (g = f) as <- by congruence. apply H.
Qed.

(** ** directory_to_key_value_store *)
Lemma contains_value dd ks val val' : contains dd ks val -> (forall k, In k ks -> val' k = val k) -> contains dd ks val'.
Proof using Type.
  intros (z & Ez & K & V & N) E. exists z. split; [assumption|]. cbv zeta in *. split; [assumption|]. split; [|assumption]. intros k I. rewrite (E k I). now apply V.
Qed.
Lemma contains_nodup dd ks val : contains dd ks val -> NoDup ks.
Proof using Type. intros (z & _ & (ks' & _ & N & P) & _). exact (Permutation_NoDup P N). Qed.
(** what C87 asks for *)
Definition copy_wanted (p : pv) (fs : list (list str * fnode)) (ns : pv) (c : str) (o d : list str) (strip : bool) : Prop :=
  wf_params p /\ names_path cwd p !!"input_directory" d /\ look fs d = Some KDir /\ key_choice p strip /\
  Typed p !!"output" !!"zip" ns /\ names_path cwd ns !!"path" (c :: o) /\ unblocked fs o /\ free fs (c :: o) /\ ~ below d (c :: o) /\
  (forall q b k, file_under fs d q b -> file_key strip q k -> plain_key k) /\
  (forall q q' b b' k, file_under fs d q b -> file_under fs d q' b' -> file_key strip q k -> file_key strip q' k -> q = q').
Lemma files_kept fs st c o d q b : left_by fs st [o] [c :: o] -> ~ below d (c :: o) -> (file_under st d q b <-> file_under fs d q b).
Proof using Type.
  intros (_ & L) N. unfold file_under. assert (look st q = Some (KFile b) /\ below d q <-> look fs q = Some (KFile b) /\ below d q) as H; [|clear -H; tauto].
  destruct (L q) as [->|[(d' & _ & _ & E1 & E2)|([<-|[]] & _)]]; [apply iff_refl| |clear -N; tauto]. rewrite E1, E2. split; intros (A & _); discriminate.
Qed.
(** C117: the same for directory_to_key_value_store (the order of the pairs in the output may be another one) *)
Theorem C117_directory : forall p fs ns c o d strip, wf_fs fs -> copy_wanted p fs ns c o d strip ->
  exists f ks val, directory_main p fs = (f, None) /\ holds f (c :: o) ks val /\
    (forall st, directory_moment p fs st -> left_by fs st [o] [c :: o] /\ output_state fs f st (c :: o)) /\
    (forall st, killed_runs (directory_moment p) fs st -> left_by fs st [o] [c :: o] /\
       exists f', directory_main p st = (f', None) /\ holds f' (c :: o) ks val /\ forall r, r <> c :: o -> look f' r = look f r).
Proof using cwd_proper rglob_perm set_order_perm.
  assert (G : forall p fs ns c o d strip, wf_fs fs -> copy_wanted p fs ns c o d strip -> exists f ks val, directory_main p fs = (f, None) /\ holds f (c :: o) ks val /\
    (forall k, In k ks <-> exists q b, file_under fs d q b /\ file_key strip q k) /\ (forall q b k, file_under fs d q b -> file_key strip q k -> val k = b) /\ only_writes fs f o [c :: o] /\
    (forall st, directory_moment p fs st -> left_by fs st [o] [c :: o] /\ output_state fs f st (c :: o))).
  { intros p fs ns c o d strip F (W & Hd & Ld & Kc & T & H & U & Fr & Nb & PK & D).
    destruct (C87_copy X import_module other_eval builtin locals_of x_is_class x_from_parameters x_construct x_callable x_call x_is_sink cwd other_globals ZC torn set_order rglob_order other_sink set_order_perm rglob_perm cwd_proper p fs ns c o d strip W F Hd Ld Kc T H U Fr Nb PK D) as (f & ks & val & Em & Wf & Hf & Kk & V & OW).
    exists f, ks, val. split; [exact Em|]. split; [exact Hf|]. split; [exact Kk|]. split; [exact V|]. split; [exact OW|]. intros st Mo. assert (Lf : left_by fs f [o] [c :: o]).
    { apply writes_left; [assumption|assumption| |assumption]. intros o' [<-|[]]. split; [assumption|]. destruct (holds_file ZC f (c :: o) ks val Hf) as (b & a & L & _). eauto. }
    assert (Ns : ~ In (sink_class_name true true) directory_locals) by (clear; simpl; intuition discriminate).
    destruct (output_sink X import_module other_eval builtin locals_of x_is_class x_from_parameters x_construct x_callable x_call x_is_sink cwd other_globals cwd_proper fs p ns c o directory_locals W F T H U Ns) as (fs1 & M & Es).
    destruct Mo as [->|d' strip' ob Ed Ek Es' Sm]; [split; [now apply left_refl|now left]|]. assert (ob = OZipSink true (c :: o) fs1) as -> by congruence.
    destruct Sm as [I|Zm]; [now apply dirs_output|]. eapply zip_output; [exact F|exact U|exact M|exact Fr|exact Lf| |exact Zm].
    unfold Mains.directory_main in Em. rewrite Ed, Ek, Es' in Em. exact (f_equal fst Em). }
  intros p fs ns c o d strip F SW. destruct (G p fs ns c o d strip F SW) as (f & ks & val & Em & Hf & Kk & V & OW & Mo). exists f, ks, val. split; [exact Em|]. split; [exact Hf|]. split; [exact Mo|].
  intros st K. assert (Side : side_by_side [o] [c :: o]) by (intros o' d' [<-|[]] [<-|[]]; apply not_below_tail).
  destruct (killed_left (directory_moment p) (fun fs => copy_wanted p fs ns c o d strip) [o] [c :: o] Side) with (fs := fs) (st := st) as (L & SW'); [| |assumption|assumption|assumption|].
  - intros fs0 st0 F0 SW0 Mo0. destruct (G p fs0 ns c o d strip F0 SW0) as (f0 & ? & ? & _ & _ & _ & _ & _ & H). apply (H st0 Mo0).
  - clear -Side. intros fs st F (W & Hd & Ld & Kc & T & H & U & Fr & Nb & PK & D) L. split; [assumption|]. split; [assumption|]. split; [exact (left_dir _ _ _ _ _ L Ld)|]. repeat (split; [assumption|]).
    split; [apply (left_unblocked fs st [o] [c :: o]); [assumption|assumption|intros o' I; apply (Side o' o I); now left]|].
    split; [apply (left_free fs st [o] [c :: o]); [assumption|assumption|]; intros d' I; apply (Side _ d'); [now left|exact I]|]. split; [assumption|]. split.
    + intros q b k I. apply (PK q b). now apply (files_kept fs st c o d).
    + intros q q' b b' k I I'. apply (D q q' b b'); now apply (files_kept fs st c o d).
  - split; [exact L|]. destruct (G p st ns c o d strip (proj1 L) SW') as (f' & ks' & val' & Em' & Hf' & Kk' & V' & OW' & _). assert (Nb : ~ below d (c :: o)) by apply SW. exists f'. split; [exact Em'|]. split.
    + apply contains_value with (val := val'); [apply contains_perm with (ks := ks'); [exact Hf'|]|].
      * apply NoDup_Permutation; [exact (contains_nodup _ _ _ Hf')|exact (contains_nodup _ _ _ Hf)|]. intros k. rewrite Kk, Kk'. split; intros (q & b & Fu & Fk); exists q, b; (split; [now apply (files_kept fs st c o d)|exact Fk]).
      * intros k I. apply Kk in I. destruct I as (q & b & Fu & Fk). rewrite (V q b k Fu Fk). symmetry. apply (V' q b k); [now apply (files_kept fs st c o d)|exact Fk].
    + intros r Nr. assert (Nr' : ~ In r [c :: o]) by (intros [E|[]]; exact (Nr (eq_sym E))). destruct (OW r Nr') as (O1 & O2), (OW' r Nr') as (O1' & O2'). destruct (at_or_below r o) eqn:B.
      * apply at_or_below_spec in B. now rewrite (O1 B), (O1' B).
      * assert (B' : ~ below r o) by (intros B'; apply at_or_below_spec in B'; congruence). rewrite (O2 B'), (O2' B'). destruct (proj2 L r) as [E|[(d' & [<-|[]] & B2 & _)|(I & _)]]; [exact E|destruct (B' B2)|destruct (Nr' I)].
Qed.

(** ** split_key_value_store with explicit_split *)
Notation split_dirs xs := (map (fun s => tl (sp_out s)) xs) (only parsing).
Lemma apart_side xs : apart xs -> side_by_side (split_dirs xs) (map sp_out xs).
Proof using Type. intros (_ & A) o d Io Id. apply in_map_iff in Io, Id. destruct Io as (s & <- & Is), Id as (s' & <- & Is'). apply (A s s' Is Is'). Qed.
Lemma split_ok_left xs fs st s : apart xs -> In s xs -> left_by fs st (split_dirs xs) (map sp_out xs) -> split_ok cwd fs s -> split_ok cwd st s.
Proof using Type.
  intros A Is L (W & Hk & (b & t & t' & ls & Lk & Kf) & ND & PK & Ho & No & U & Fr). split; [assumption|]. split; [assumption|]. split.
  - exists b, t, t', ls. split; [|assumption]. apply (left_file _ _ _ _ _ _ L Lk). intros I. apply in_map_iff in I. destruct I as (s' & E & I). destruct (proj2 (proj2 A s' s I Is)). now rewrite E.
  - repeat (split; [assumption|]). split.
    + apply (left_unblocked _ _ _ _ _ L U). intros o Io. apply (apart_side xs A o _ Io). now apply (in_map (fun s => tl (sp_out s))).
    + apply (left_free _ _ _ _ _ L Fr). intros d Id. apply (apart_side xs A); [now apply in_map|exact Id].
Qed.
Lemma write_zip_left fs fs1 c d puts : wf_fs fs -> unblocked fs d -> made fs fs1 d -> free fs (c :: d) -> left_by fs (fst (write_zip ZC torn set_order fs1 (c :: d) puts)) [d] [c :: d].
Proof using Type.
  intros F U M Fr. assert (L1 : left_by fs fs1 [d] [c :: d]) by now apply made_left. assert (D1 : look fs1 d = Some KDir) by apply (proj1 M), below_refl.
  assert (Fr1 : free fs1 (c :: d)). { unfold free. assert (look fs1 (c :: d) = look fs (c :: d)) as -> by apply (proj2 M), not_below_tail. exact Fr. }
  unfold write_zip. destruct (can_write fs1 (c :: d)); [|exact L1]. destruct (write_stream _ _ _) as [[| |ar] ex]; cbn [fst Mains.put_disk]; [exact L1| |]; (apply left_set; [exact L1|now left|exact D1|exact Fr|exact Fr1]).
Qed.
(** The splits before the m-th are written, the m-th is untouched or unfinished, the others are untouched. *)
Definition written_up_to (fs st : list (list str * fnode)) (val : str -> bytes) (m : nat) (xs : list split) : Prop :=
  forall i s, nth_error xs i = Some s ->
    (i < m -> holds st (sp_out s) (sp_keys s) val) /\
    (i = m -> look st (sp_out s) = look fs (sp_out s) \/ exists b, unfinished b /\ look st (sp_out s) = Some (KFile b)) /\
    (m < i -> look st (sp_out s) = look fs (sp_out s)).
Lemma splits_moments later qin src ks0 val : (forall f w, ~ In qin w -> later f w = src) -> (forall k, In k ks0 -> src_get src k = Ok (Some (val k))) ->
  forall xs fs written st, wf_fs fs -> (forall s, In s xs -> split_ok cwd fs s /\ sp_out s <> qin) -> apart xs -> (forall s k, In s xs -> In k (sp_keys s) -> In k ks0) -> ~ In qin written ->
  splits_moment cwd ZC torn set_order unfinished later fs (map sp_ns xs) written st -> left_by fs st (split_dirs xs) (map sp_out xs) /\ exists m, written_up_to fs st val m xs.
Proof using cwd_proper set_order_perm.
  intros La Gt. induction xs as [|s xs IH]; intros fs written st F Ok_ A Kn Nw Mo.
  { inversion Mo; subst. split; [now apply left_refl|]. exists 0. intros i s E. destruct i; discriminate. }
  destruct (Ok_ s (or_introl eq_refl)) as (Os & Nq). assert (Os' := Os). destruct Os' as ((W & NL) & Hk & Kf & ND & PK & Ho & No & U & Fr). assert (exists c o, sp_out s = c :: o) as (c & o & Eo) by (destruct (sp_out s) as [|c o]; [congruence|eauto]).
  rewrite Eo in *. cbn [tl] in U, Fr.
  assert (A' : apart xs). { destruct A as (N & A). cbn [map] in N. inversion N as [|? ? N1 N2]; subst. split; [assumption|]. intros s1 s2 I1 I2. apply A; now right. }
  assert (Ns : forall s', In s' xs -> sp_out s' <> c :: o). { intros s' I' E'. destruct A as (N & _). cbn [map] in N. inversion N as [|? ? N1 _]; subst. apply N1. rewrite Eo, <- E'. now apply in_map. }
  assert (Same : forall fs' s', left_by fs fs' [o] [c :: o] -> In s' xs -> look fs' (sp_out s') = look fs (sp_out s')).
  { intros fs' s' L I'. destruct (proj2 L (sp_out s')) as [E|[(d & [<-|[]] & B & _)|([E|[]] & _)]]; [exact E| |destruct (Ns s' I'); now rewrite E]. exfalso. destruct A as (_ & A). refine (proj1 (A s' s (or_intror I') (or_introl eq_refl)) _). rewrite Eo. exact B. }
  assert (More : forall fs', left_by fs fs' [o] [c :: o] -> left_by fs fs' (split_dirs (s :: xs)) (map sp_out (s :: xs))).
  { intros fs' L. eapply left_more; [exact L|intros x [<-|[]]; cbn [map]; left; now rewrite Eo|intros x [<-|[]]; cbn [map]; left; exact Eo]. }
  assert (Untouched : forall fs', left_by fs fs' [o] [c :: o] -> look fs' (c :: o) = look fs (c :: o) \/ (exists b, unfinished b /\ look fs' (c :: o) = Some (KFile b)) -> written_up_to fs fs' val 0 (s :: xs)).
  { intros fs' L H [|i] s' E; (split; [intros B; inversion B|split; intros B]); cbn [nth_error] in E; try discriminate B.
    - injection E as <-. rewrite Eo. exact H.
    - inversion B.
    - apply Same; [exact L|]. now apply nth_error_In in E. }
  assert (Done : forall f t fs1 q, existing_file cwd (sp_ns s) !!"keys_file" fs = Ok f -> read_text fs f = Ok t -> creatable_file cwd (sp_ns s) !!"output_file" fs = (fs1, Ok q) ->
    q = c :: o /\ made fs fs1 o /\ exists fs2, write_zip ZC torn set_order fs1 q (fun _ => explicit_keys (later (put_disk fs1 q Partial) (q :: written)) (dedup (filter (fun l => negb (is_nil l)) (py_split LF t)))) = (fs2, None) /\
      holds fs2 (c :: o) (sp_keys s) val).
  { intros f t fs1 q Ef Et Ec. destruct (C80_creatable cwd (sp_ns s) !!"output_file" fs W cwd_proper F) as (_ & CF & _). destruct (CF c o Ho) as (CF1 & _). destruct (CF1 U) as (fs1' & Ec' & M). assert (fs1' = fs1 /\ q = c :: o) as (-> & ->) by (split; congruence).
    split; [reflexivity|]. split; [exact M|].
    destruct (one_split cwd ZC torn set_order set_order_perm cwd_proper later (fun w => ~ In qin w) val fs s (fun l => l) None F Os) as (fs2 & ks & F2 & Pk & Hh & OW & E).
    { intros ks Pk. exists []. rewrite app_nil_r. split; [reflexivity|]. intros f0 w Pw. rewrite La by (rewrite Eo; intros [E|I']; [exact (Nq E)|exact (Pw I')]). apply explicit_keys_ok. intros k Ik. apply Gt. apply (Kn s); [now left|]. now apply (Permutation_in _ Pk). }
    specialize (E [] written [] Nw). cbn [split_namespaces] in E. rewrite Ef in E. cbn [bind] in E. rewrite Et in E. cbn [bind] in E. rewrite Ec in E. cbv zeta in E. exists fs2.
    destruct (write_zip ZC torn set_order fs1 (c :: o) _) as [fs2' [e|]] eqn:Ew; [discriminate E|]. injection E as -> _. split; [reflexivity|]. rewrite Eo in Hh. exact (contains_perm _ _ _ _ Hh Pk). }
  assert (Finished : forall fs2, left_by fs fs2 [o] [c :: o] -> holds fs2 (c :: o) (sp_keys s) val -> written_up_to fs fs2 val 1 (s :: xs)).
  { intros fs2 L Hh [|i] s' E; cbn [nth_error] in E.
    - injection E as <-. rewrite Eo. split; [intros _; exact Hh|]. split; intros B; [discriminate B|inversion B].
    - apply nth_error_In in E. split; [intros B; apply Nat.succ_lt_mono in B; inversion B|]. split; intros _; [left|]; now apply Same. }
  cbn [map] in Mo. inversion Mo as [? ? ?|? ? ? ? q ? Pp I|? ? ? ? f t fs1 q ? Ef Et Ec Zm|? ? ? ? f t fs1 q fs2 ? Ef Et Ec Ew Mo2]; subst.
  - split; [now apply left_refl|]. exists 0. apply Untouched; [now apply left_refl|now left].
  - assert (q = c :: o) as ->. { destruct (C80_creatable cwd (sp_ns s) !!"output_file" fs W cwd_proper F) as (_ & CF & _). destruct (CF c o Ho) as (CF1 & _). destruct (CF1 U) as (fs1 & Ec & _). unfold creatable_file in Ec. rewrite Pp in Ec. destruct (mkdir_p fs (tl q)) as [? [?|?]]; cbn [bind] in Ec; congruence. }
    destruct (dirs_output fs fs c o st F I) as (L & Os2). split; [now apply More|]. exists 0. apply Untouched; [exact L|]. destruct Os2 as [E|[E| ->]]; [now left|now right|now left].
  - destruct (Done f t fs1 q Ef Et Ec) as (-> & M & fs2 & Ew & Hh). assert (L2 := write_zip_left fs fs1 c o (fun _ => explicit_keys (later (put_disk fs1 (c :: o) Partial) ((c :: o) :: written)) (dedup (filter (fun l => negb (is_nil l)) (py_split LF t)))) F U M Fr). rewrite Ew in L2. cbn [fst] in L2.
    destruct (zip_output fs fs2 fs1 c o _ st F U M Fr L2 (f_equal fst Ew) Zm) as (L & Os2). split; [now apply More|]. destruct Os2 as [E|[E| ->]]; [exists 0; apply Untouched; [exact L|now left]|exists 0; apply Untouched; [exact L|now right]|exists 1; now apply Finished].
  - destruct (Done f t fs1 q Ef Et Ec) as (-> & M & fs2' & Ew' & Hh). assert (fs2' = fs2) as -> by congruence. assert (L2 := write_zip_left fs fs1 c o (fun _ => explicit_keys (later (put_disk fs1 (c :: o) Partial) ((c :: o) :: written)) (dedup (filter (fun l => negb (is_nil l)) (py_split LF t)))) F U M Fr). rewrite Ew in L2. cbn [fst] in L2.
    destruct (IH fs2 ((c :: o) :: written) st) as (L & m & Wm); [apply L2| |exact A'|intros s' k I'; apply Kn; now right|intros [E|I']; [exact (Nq E)|exact (Nw I')]|exact Mo2|].
    { intros s' I'. split; [|apply Ok_; now right]. apply (split_ok_left (s :: xs) fs); [exact A|now right|now apply More|apply Ok_; now right]. }
    split.
    + apply left_trans with fs2; [now apply apart_side|now apply More|]. eapply left_more; [exact L|intros x I; cbn [map]; now right|intros x I; cbn [map]; now right].
    + exists (S m). intros [|i] s' E; cbn [nth_error] in E.
      * injection E as <-. rewrite Eo. split; [intros _|split; intros B; [discriminate B|inversion B]]. apply (left_holds ZC fs2 st (split_dirs xs) (map sp_out xs)); [exact L|exact Hh|]. intros I. apply in_map_iff in I. destruct I as (s' & E' & I'). exact (Ns s' I' E').
      * destruct (Wm i s' E) as (H1 & H2 & H3). apply nth_error_In in E. split; [intros B; apply H1; now apply Nat.succ_lt_mono|]. split; intros B; [injection B as B; destruct (H2 B) as [E'|E']; [left; rewrite E'; now apply Same|now right]|rewrite H3 by (now apply Nat.succ_lt_mono); now apply Same].
Qed.
(** what C88 asks for *)
Definition splits_wanted (p : pv) (fs : list (list str * fnode)) (ns : pv) (qin ks : list str) (val : str -> bytes) (sns : pv) (xs : list split) (b : bool) : Prop :=
  wf_params p /\ Typed p !!"input" !!"zip" ns /\ names_path cwd ns !!"path" qin /\ holds fs qin ks val /\
  Missing p !!"num_slices" /\ Stored p !!"explicit_split" sns /\ is_params sns = true /\ children sns = map sp_ns xs /\ exhaustive_given p b /\
  (forall s, In s xs -> split_ok cwd fs s /\ sp_out s <> qin) /\ apart xs /\ (forall s k, In s xs -> In k (sp_keys s) -> In k ks).
(** C117: a run of split_key_value_store with explicit_split that is killed leaves everything but the directories on the way to the outputs and the outputs as it was; the outputs are written
    one after the other: those before the m-th are complete, the m-th is untouched or unfinished, the others are untouched. *)
Theorem C117_explicit_moments : forall p fs ns qin ks val sns xs b st, wf_fs fs -> splits_wanted p fs ns qin ks val sns xs b -> split_moment p fs st ->
  left_by fs st (map (fun s => tl (sp_out s)) xs) (map sp_out xs) /\ exists m, written_up_to fs st val m xs.
Proof using cwd_proper set_order_perm x_is_source.
  intros p fs ns qin ks val sns xs b st F (W & T & Hin & C & Mn & Se & Te & Ch & Ex & Ok_ & A & Kn) Mo.
  assert (NL : forall c, In c (children sns) -> no_list_inside c). { rewrite Ch. intros c I. apply in_map_iff in I. destruct I as (s & <- & I). apply (Ok_ s I). }
  destruct (input_same fs p ns qin ks val W T Hin C) as (z & Ez & El & _ & Op).
  assert (Gt : forall k, In k ks -> src_get (zip_source same_name bytes_value z) k = Ok (Some (val k))).
  { destruct C as (z' & Ez' & _ & V & _). rewrite Ez in Ez'. injection Ez' as <-. intros k I. apply (V k I). }
  assert (Eo : (let* o := the_linear_source fs p in let* src := open_source fs o in Ok (read_later X cwd ZC other_source o src)) = Ok (read_later X cwd ZC other_source (OZipSource true qin) (zip_source same_name bytes_value z))).
  { rewrite El. cbn [bind]. rewrite (Op fs eq_refl). reflexivity. }
  destruct Mo as [->|later _ _ Pn _|later ns' splits _ El2 _ En Es Sm].
  - split; [now apply left_refl|]. exists 0. intros i s E. split; [intros B; inversion B|]. split; [now left|reflexivity].
  - exfalso. apply (present_contains _ _ (proj1 W)) in Pn. destruct Pn as (v & S1 & N1). destruct Mn as [Ab|S2]; [destruct (Ab v S1)|]. destruct (N1 (stored_unique _ _ _ _ (proj1 W) S1 S2)).
  - pose proof (eq_trans (eq_sym Eo) El2) as Eq. injection Eq as <-.
    assert (ns' = sns) as ->. { unfold namespace in En. destruct (get_spec p !!"explicit_split" is_params PNone (proj1 W)) as (G & _). rewrite (G sns) in En; [congruence|now constructor|assumption]. }
    assert (splits = map sp_ns xs) as ->.
    { rewrite (sub_namespaces_spec oeq sns (conj (stored_wf _ _ _ (proj1 W) Se) Te) NL), Ch, (first_all _ _ (splits_unequal cwd oeq fs xs (fun s I => proj1 (Ok_ s I)) (proj1 A))) in Es. congruence. }
    apply (splits_moments _ qin (zip_source same_name bytes_value z) ks val (fun f w N => read_later_same qin z f w N) Gt xs fs [] st F Ok_ A Kn); [intros []|exact Sm].
Qed.
(** C117: after any number of killed runs the input is as it was, and a run that is not killed ends as it would have without the others, with the same pairs in every output and the same everywhere else. *)
Theorem C117_explicit_again : forall p fs ns qin ks val sns xs b st, wf_fs fs -> splits_wanted p fs ns qin ks val sns xs b -> killed_runs (split_moment p) fs st ->
  left_by fs st (map (fun s => tl (sp_out s)) xs) (map sp_out xs) /\ holds st qin ks val /\
  exists f f' e, split_main p fs = (f, e) /\ split_main p st = (f', e) /\ (forall s, In s xs -> holds f (sp_out s) (sp_keys s) val /\ holds f' (sp_out s) (sp_keys s) val) /\
    forall r, ~ In r (map sp_out xs) -> look f' r = look f r.
Proof using cwd_proper set_order_perm x_is_source.
  intros p fs ns qin ks val sns xs b st F SW K. assert (SW0 := SW). destruct SW0 as (W & T & Hin & C & Mn & Se & Te & Ch & Ex & Ok_ & A & Kn).
  destruct (killed_left (split_moment p) (fun fs => splits_wanted p fs ns qin ks val sns xs b) (split_dirs xs) (map sp_out xs) (apart_side xs A)) with (fs := fs) (st := st) as (L & SW'); [| |assumption|assumption|assumption|].
  { intros fs0 st0 F0 SW0 Mo. apply (C117_explicit_moments p fs0 ns qin ks val sns xs b st0 F0 SW0 Mo). }
  { clear. intros fs st F (W & T & Hin & C & Mn & Se & Te & Ch & Ex & Ok_ & A & Kn) L. repeat (split; [assumption|]). split.
    - apply (left_holds ZC _ _ _ _ _ _ _ L C). intros I. apply in_map_iff in I. destruct I as (s & E & I). destruct (Ok_ s I) as (_ & N). exact (N E).
    - repeat (split; [assumption|]). split; [|split; assumption]. intros s I. destruct (Ok_ s I) as (O1 & N1). split; [|assumption]. apply (split_ok_left xs fs); assumption. }
  split; [exact L|]. assert (Hq : holds st qin ks val) by apply SW'. split; [exact Hq|]. assert (Ok' : forall s, In s xs -> split_ok cwd st s /\ sp_out s <> qin) by apply SW'.
  destruct (C88_explicit X import_module other_eval builtin locals_of x_is_class x_from_parameters x_construct x_callable x_call x_is_linear x_is_source cwd other_globals ZC torn set_order seeded_shuffle other_source oeq set_order_perm cwd_proper p fs ns qin ks val sns xs b W F T Hin C Mn Se Te Ch Ex Ok_ A Kn) as (f & e & Em & Wf & Hf & WA & _ & E1 & E2).
  destruct (C88_explicit X import_module other_eval builtin locals_of x_is_class x_from_parameters x_construct x_callable x_call x_is_linear x_is_source cwd other_globals ZC torn set_order seeded_shuffle other_source oeq set_order_perm cwd_proper p st ns qin ks val sns xs b W (proj1 L) T Hin Hq Mn Se Te Ch Ex Ok' A Kn) as (f' & e' & Em' & Wf' & Hf' & WA' & _ & E1' & E2').
  exists f, f', e. split; [exact Em|]. split.
  - assert (e' = e) as ->; [|exact Em']. destruct b; [|rewrite E1, E1' by (intros B; discriminate B); reflexivity].
    destruct (forallb (fun k => existsb (fun s => existsb (str_eqb k) (sp_keys s)) xs) ks) eqn:Q.
    + assert (H : true = true -> forall k, In k ks -> exists s, In s xs /\ In k (sp_keys s)); [|rewrite (E1 H), (E1' H); reflexivity]. intros _ k I. rewrite forallb_forall in Q. specialize (Q k I). apply existsb_exists in Q. destruct Q as (s & Is & Q). apply existsb_exists in Q. destruct Q as (k' & Ik & Q). apply str_eqb_eq in Q. subst k'. eauto.
    + assert (exists k, In k ks /\ forall s, In s xs -> ~ In k (sp_keys s)) as (k & I & H).
      { clear -Q. induction ks as [|k l IH]; [discriminate|]. cbn [forallb] in Q. apply andb_false_iff in Q. destruct Q as [Q|Q]; [|destruct (IH Q) as (k' & I & H); exists k'; split; [now right|exact H]].
        exists k. split; [now left|]. intros s Is Ik. assert (existsb (fun s => existsb (str_eqb k) (sp_keys s)) xs = true) as E; [|congruence]. apply existsb_exists. exists s. split; [exact Is|]. apply existsb_exists. exists k. split; [exact Ik|apply str_eqb_refl]. }
      rewrite (E2 k eq_refl I H), (E2' k eq_refl I H). reflexivity.
  - split; [intros s I; split; auto|]. intros r Nr.
    assert (Dir : forall g, wf_fs g -> (forall s, In s xs -> holds g (sp_out s) (sp_keys s) val) -> forall s, In s xs -> below r (sp_out s) -> look g r = Some KDir).
    { intros g Wg Hg s I B. destruct (holds_file ZC g _ _ _ (Hg s I)) as (x & a & Lx & _). apply (wf_above g r (sp_out s) _ Wg Lx B). intros E. apply Nr. rewrite E. now apply in_map. }
    destruct (existsb (fun s => at_or_below r (sp_out s)) xs) eqn:Q.
    + apply existsb_exists in Q. destruct Q as (s & I & B). apply at_or_below_spec in B. rewrite (Dir f Wf Hf s I B), (Dir f' Wf' Hf' s I B). reflexivity.
    + assert (NB : forall s, In s xs -> ~ below r (sp_out s)). { intros s I B. assert (existsb (fun s => at_or_below r (sp_out s)) xs = true) as E; [|congruence]. apply existsb_exists. exists s. split; [exact I|]. now apply at_or_below_spec. }
      assert (forall g g', writes_all g g' (map sp_out xs) -> look g' r = look g r) as S1. { intros g g' Wa. destruct (Wa r Nr) as [E|(_ & _ & o & Io & B)]; [exact E|]. apply in_map_iff in Io. destruct Io as (s & <- & I). destruct (NB s I B). }
      rewrite (S1 _ _ WA), (S1 _ _ WA'). destruct (proj2 L r) as [E|[(d & Id & B & _)|(I & _)]]; [exact E| |destruct (Nr I)]. apply in_map_iff in Id. destruct Id as (s & <- & I). destruct (NB s I). destruct (sp_out s) as [|c o]; [exact B|now apply below_cons].
Qed.

(** ** What can be concluded from a file that can be opened, and what cannot be saved *)
(** C117: if an unfinished zip file cannot be opened, then any slice that can be opened after a killed run is complete, or as it was before. *)
Theorem C117_readable_slice : forall p fs ns qin ks val nv n seed dir st i ks1 val1, wf_fs fs -> slices_wanted p fs ns qin ks val nv n seed dir -> (forall o, In o (slice_files n dir) -> free fs o /\ o <> qin) ->
  (forall b a, unfinished b -> unzip ZC b <> Ok a) -> split_moment p fs st -> i < n -> holds st (slice_name i :: dir) ks1 val1 ->
  exists f, split_main p fs = (f, None) /\ (look st (slice_name i :: dir) = look f (slice_name i :: dir) \/ look st (slice_name i :: dir) = look fs (slice_name i :: dir)).
Proof using cwd_proper seeded_perm set_order_perm x_is_source.
  intros p fs ns qin ks val nv n seed dir st i ks1 val1 F SW FO Un Mo Li Hi. destruct (C117_split_moments p fs ns qin ks val nv n seed dir st F SW FO Mo) as (_ & f & j & m & Em & Jm & Mn & _ & H1 & H2 & H3 & _).
  exists f. split; [exact Em|]. destruct (Nat.lt_ge_cases i j) as [A|A].
  - exfalso. destruct (H1 i A) as (b & Ub & Lb). destruct (holds_file ZC st _ _ _ Hi) as (b' & a & Lb' & Ua & _). assert (b' = b) as -> by congruence. exact (Un b a Ub Ua).
  - destruct (Nat.lt_ge_cases i m) as [B|B]; [left; now apply H2|right; now apply H3].
Qed.
(** C117: and likewise for the output of the other scripts *)
Theorem C117_readable_output : forall fs f st q ks val, (forall b a, unfinished b -> unzip ZC b <> Ok a) -> output_state fs f st q -> holds st q ks val -> look st q = look fs q \/ look st q = look f q.
Proof using Type.
  intros fs f st q ks val Un [E|[(b & Ub & Lb)| ->]] Hq; [now left| |now right]. exfalso. destruct (holds_file ZC st _ _ _ Hq) as (b' & a & Lb' & Ua & _). assert (b' = b) as -> by congruence. exact (Un b a Ub Ua).
Qed.
(** Refuted: a script that is killed leaves its old output or the new one.  The output is emptied when it is opened: whatever was there before is lost, and any unfinished file can be left. *)
Theorem C117_old_output_refuted : forall p fs ns qin ks val nv n sv c d b, wf_fs fs -> sample_wanted p fs ns qin ks val nv n sv c d -> unfinished b -> exists st, downsample_moment p fs st /\ look st (c :: d) = Some (KFile b).
Proof using cwd_proper random_perm set_order_perm x_is_linear.
  intros p fs ns qin ks val nv n sv c d b F SW Ub. assert (SW' := SW). destruct SW' as (W & T & Hin & C & PK & Sn & In_ & N0 & Hs & Ho & U & Fr & Nq).
  destruct (input_same fs p ns qin ks val W T Hin C) as (z & Ez & _ & Es & Op). destruct (sample_setup p fs ns qin ks val nv n sv c d z F SW Ez) as (fs1 & keys & seed & dd & kept & Ec & _ & M & Sk & Sd & _).
  exists (set_node fs1 (c :: d) b). split; [|apply look_set_same; discriminate]. eapply downsample_zip with (nv := nv); [exact Es|exact (Op fs eq_refl)|exact Sk| |exact Sd|exact Ec| |exact Ub|reflexivity].
  - destruct (C46_required_getters p !!"num_to_sample" PNone W) as (_ & _ & (G & _) & _). apply G; [now constructor|]. exists (Z.of_nat n). split; [assumption|]. clear -N0. lia.
  - apply (can_write_ok fs1 c d); [eapply made_wf; eassumption|apply (proj1 M), below_refl|]. unfold free. assert (look fs1 (c :: d) = look fs (c :: d)) as -> by apply (proj2 M), not_below_tail. exact Fr.
Qed.
End P.
