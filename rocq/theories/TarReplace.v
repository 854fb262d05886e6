(** * Property C121: the zip file that tar_gz_to_zip makes serves instead of the tar file

    The script (TarMain.v), CharSource.from_file_in_tgz (TarLinks.v), CharSource and ByteSource.from_file_in_zip (Io.v), zip stores and the linear tar source (KeyValue.v) on one file system. *)
From Verif Require Import Prelude PyStr TextLib Utf8 Params Fs FsProofs FsProps Io IoProps KeyValue KeyValueProps KeyValueSources Scripts ScriptsProps Mains MainsProofs TarMain TarMainProps TarLinks TarLinksProps.

(** ** Model *)
(** The files of a file system by their names: open(p, "rb"), as io_utils.py:225, 375-402 use it.  (A name of something that is not a file counts as that of no file.) *)
Definition files_on (cwd : list str) (fs : list (list str * fnode)) : world :=
  fun p => match resolve cwd p with Ok q => match look fs q with Some (KFile b) => Some b | _ => None end | Raise _ => None end.

(** ** Specification *)
(** The two models of tarfile see the same archive: members of the same names, the same of them regular files with the same contents. *)
Definition same_archive (ks : list (str * kind)) (ms : list (str * entry)) : Prop :=
  Forall2 (fun k m => fst k = fst m /\ forall x, snd k = TFile x <-> snd m = EFile x) ks ms.
(** --omit-large-files lets the contents [x] through. *)
Definition small (cutoff : option N) (x : bytes) : Prop := forall c, cutoff = Some c -> (N.of_nat (length x) <= c)%N.
(** Among the members [l] there is no regular file [n] that is let through. *)
Definition none_small (cutoff : option N) (n : str) (l : list (str * entry)) : Prop := forall x, In (n, EFile x) l -> ~ small cutoff x.

(** ** Facts *)
Lemma small_dec cutoff x : small cutoff x \/ exists c, cutoff = Some c /\ (c < N.of_nat (length x))%N.
Proof.
  destruct cutoff as [c|]; [|left; intros c E; discriminate]. destruct (N.le_gt_cases (N.of_nat (length x)) c) as [L|G]; [left; intros c' E; injection E as <-; exact L|right; exists c; split; [reflexivity|exact G]].
Qed.
Lemma zread_cons n x (a : archive) m : zread ((n, x) :: a) m = match zread a m with Some y => Some y | None => if str_eqb n m then Some x else None end.
Proof.
  unfold zread. cbn [fold_left fst snd]. generalize (if str_eqb n m then Some x else None). induction a as [|(n', x') a IH]; intros acc; cbn [fold_left fst snd]; [reflexivity|]. rewrite IH. rewrite (IH (if str_eqb n' m then Some x' else None)).
  destruct (fold_left _ a None); [reflexivity|]. now destruct (str_eqb n' m).
Qed.
Lemma none_in cutoff ks ms a n : transferred cutoff ks a -> same_archive ks ms -> none_small cutoff n ms -> zread a n = None.
Proof.
  intros T. revert ms. induction T as [|n' x ks a Sm T IH|n' x c ks a E Lg T IH|n' k ks a Nf T IH]; intros ms Sa Ns; [reflexivity| | |]; inversion Sa as [|k0 m l1 l2 (E1 & E2) Sa' X Y]; subst; clear Sa; destruct m as (nm, e); cbn [fst snd] in E1, E2; subst nm.
  - rewrite zread_cons, (IH _ Sa'); [|intros y H; exact (Ns y (or_intror H))]. destruct (str_eqb n' n) eqn:Eq; [|reflexivity]. apply str_eqb_eq in Eq. subst n'. exfalso. apply (Ns x); [left; f_equal; exact (proj1 (E2 x) eq_refl)|exact Sm].
  - apply (IH _ Sa'). intros y H. exact (Ns y (or_intror H)).
  - apply (IH _ Sa'). intros y H. exact (Ns y (or_intror H)).
Qed.
Lemma last_small cutoff ks ms a n l1 x l2 : transferred cutoff ks a -> same_archive ks ms -> ms = l1 ++ (n, EFile x) :: l2 -> small cutoff x -> none_small cutoff n l2 -> zread a n = Some x.
Proof.
  intros T. revert ms l1. induction T as [|n' y ks a Sm T IH|n' y c ks a E Lg T IH|n' k ks a Nf T IH]; intros ms l1 Sa Em Sx Ns; inversion Sa as [A B|k0 m la lb (E1 & E2) Sa' X Y]; subst.
  - destruct l1; discriminate.
  - destruct m as (nm, e). cbn [fst snd] in E1, E2. subst nm. rewrite zread_cons. destruct l1 as [|m1 l1]; cbn [app] in Y.
    + injection Y as -> -> ->. rewrite (none_in cutoff ks l2 a n T Sa' Ns), str_eqb_refl. assert (Q := proj2 (E2 x) eq_refl). now injection Q as ->.
    + injection Y as _ ->. now rewrite (IH _ l1 Sa' eq_refl Sx Ns).
  - destruct m as (nm, e). cbn [fst snd] in E1, E2. subst nm. destruct l1 as [|m1 l1]; cbn [app] in Y.
    + injection Y as -> -> ->. exfalso. assert (Q := proj2 (E2 x) eq_refl). injection Q as ->. specialize (Sx c eq_refl). apply N.lt_nge in Lg. exact (Lg Sx).
    + injection Y as _ ->. exact (IH _ l1 Sa' eq_refl Sx Ns).
  - destruct m as (nm, e). cbn [fst snd] in E1, E2. subst nm. destruct l1 as [|m1 l1]; cbn [app] in Y.
    + injection Y as -> -> ->. exfalso. exact (Nf x (proj2 (E2 x) eq_refl)).
    + injection Y as _ ->. exact (IH _ l1 Sa' eq_refl Sx Ns).
Qed.
Lemma last_member l1 n e l2 : ~ In n (map fst l2) -> getmember (l1 ++ (n, e) :: l2) n = Some (length l1).
Proof.
  intros N. unfold getmember. induction l1 as [|m l1 IH]; cbn [app last_index length].
  - assert (last_index (fun m => str_eqb (fst m) n) l2 = None) as ->.
    { clear -N. induction l2 as [|m l2 IH]; [reflexivity|]. cbn [last_index]. rewrite IH by (intros H; apply N; now right). destruct (str_eqb (fst m) n) eqn:E; [|reflexivity]. apply str_eqb_eq in E. exfalso. apply N. left. exact E. }
    cbn [fst]. now rewrite str_eqb_refl.
  - now rewrite IH.
Qed.
Lemma nth_mid {A} (l1 : list A) x l2 : nth_error (l1 ++ x :: l2) (length l1) = Some x.
Proof. induction l1; [reflexivity|assumption]. Qed.

Section P.
Notation fsys := (list (list str * fnode)) (only parsing).
Variable cwd : list str.
Variable ZC : zip_codec.
Variable torn : bytes.
(** tarfile.open for the script, which also sees a damaged end, and gzip and tarfile for CharSource.from_file_in_tgz *)
Variable untar : bytes -> res (list (str * kind) * option exn).
Variable gunzip : bytes -> res bytes.
Variable untar_gz : bytes -> res (list (str * entry)).
(** Io.v's tarfile, not used here *)
Variable untar_io : bytes -> res (list member).
Hypothesis cwd_proper : Forall proper cwd.
Notation tar_main := (tar_main cwd ZC torn untar).
(** CharSource.from_file_in_tgz(p, n, encoding).read_all() *)
Notation from_tgz limit dec fs p n := (tgz_text gunzip untar_gz limit dec (files_on cwd fs) p n).
(** ByteSource.from_file_in_zip(p, n).read() and CharSource.from_file_in_zip(p, n).read_all() *)
Notation bytes_from_zip fs p n := (byte_read ZC (files_on cwd fs) (BZip p n) (-1)).
Notation text_from_zip fs p n := (read_all ZC gunzip untar_io (files_on cwd fs) (CBytes (BZip p n) decode)).

(** The tar file [dir ++ name] in [fs] is gzipped and holds the members [ms], and the script can be run on it. *)
Definition convertible (fs : fsys) (dir name : str) (d : list str) (out : str) (ks : list (str * kind)) (ms : list (str * entry)) : Prop :=
  wf_fs fs /\ argument cwd dir name d /\ zip_named name out /\ look fs (out :: d) <> Some KDir /\
  (exists b u, look fs (name :: d) = Some (KFile b) /\ untar b = Ok (ks, None) /\ gunzip b = Ok u /\ untar_gz u = Ok ms) /\ same_archive ks ms /\
  (forall n x, In (n, EFile x) ms -> n <> [] /\ name_ok n).
Lemma converted fs dir name d out ks ms cutoff : convertible fs dir name d out ks ms ->
  exists fs' a b' u z, tar_main (dir ++ name) false cutoff fs = (fs', None) /\ transferred cutoff ks a /\
    files_on cwd fs' (dir ++ name) = Some b' /\ gunzip b' = Ok u /\ untar_gz u = Ok ms /\ files_on cwd fs' (dir ++ out) = Some z /\ unzip ZC z = Ok a.
Proof.
  intros (W & A & Zn & No & (b & u & L & U & G & Ug) & Sa & Ok_). assert (Gn : forall n x, In (n, TFile x) ks -> n <> [] /\ name_ok n).
  { intros n x H. apply (Ok_ n x). clear -Sa H. induction Sa as [|k m ks ms (E1 & E2) Sa IH]; [destruct H|]. destruct H as [->|H]; [left|right; exact (IH H)]. destruct m as (n', e). cbn [fst snd] in *. subst n'. f_equal. exact (proj1 (E2 x) eq_refl). }
  destruct (C90_stream cwd ZC torn untar cwd_proper fs dir name d out b ks None cutoff W A Zn L No U Gn) as (fs' & a & E & T & (z & Lz & Uz) & Oth). exists fs', a, b, u, z. split; [exact E|]. split; [exact T|].
  assert (A' := A). destruct A' as (_ & _ & _ & P). apply zip_named_output in Zn. destruct (output_proper name P) as (Po & Nn). rewrite Zn in Po, Nn.
  split; [|split; [exact G|split; [exact Ug|split; [|exact Uz]]]].
  - unfold files_on. rewrite (resolve_child cwd cwd_proper dir name d A name P), (Oth (name :: d)); [now rewrite L|]. intros X. injection X as X. apply Nn. now symmetry.
  - unfold files_on. now rewrite (resolve_child cwd cwd_proper dir name d A out Po), Lz.
Qed.
(** C121: after the conversion, a file that was read from the tar file is read from the zip file: a name whose last member is a regular file that is not too large.  The bytes are the same, and
    the text is the same up to the newlines, which only the zip source translates. *)
Theorem C121_same_text : forall fs dir name d out ks ms cutoff, convertible fs dir name d out ks ms ->
  exists fs', tar_main (dir ++ name) false cutoff fs = (fs', None) /\
    forall l1 n x l2, ms = l1 ++ (n, EFile x) :: l2 -> ~ In n (map fst l2) -> small cutoff x ->
      (forall limit dec, limit <> 0 -> from_tgz limit dec fs' (dir ++ name) n = dec x) /\
      bytes_from_zip fs' (dir ++ out) n = Ok x /\
      (forall t, decode x = Ok t -> exists t', text_from_zip fs' (dir ++ out) n = Ok t' /\ newlines_read t t' /\ (t' = t <-> ~ In CR t)) /\
      (forall e, decode x = Raise e -> text_from_zip fs' (dir ++ out) n = Raise e).
Proof.
  intros fs dir name d out ks ms cutoff C. assert (Sa : same_archive ks ms) by apply C. destruct (converted fs dir name d out ks ms cutoff C) as (fs' & a & b & u & z & E & T & Ft & G & U & Fz & Uz). exists fs'. split; [exact E|].
  intros l1 n x l2 Em Nn Sx. assert (Z : zread a n = Some x) by (apply (last_small cutoff ks ms a n l1 x l2 T Sa Em Sx); intros y H; exfalso; apply Nn; exact (in_map fst _ _ H)).
  assert (Bz : byte_content ZC (files_on cwd fs') (BZip (dir ++ out) n) = Ok x) by (unfold byte_content, read_file; rewrite Fz; cbn [bind]; rewrite Uz; cbn [bind]; now rewrite Z).
  split; [|split; [|split]].
  - intros [|limit] dec Nl; [now elim Nl|]. unfold tgz_text, open_tgz, read_file. rewrite Ft. cbn [bind]. rewrite G. cbn [bind]. rewrite U. cbn [bind]. rewrite Em, (last_member l1 n _ l2 Nn). cbn [extractfile]. now rewrite nth_mid.
  - unfold byte_read. rewrite Bz. reflexivity.
  - intros t D. exists (universal_newlines t). unfold read_all, text. rewrite Bz. cbn [bind]. rewrite D. split; [reflexivity|]. split; [apply universal_spec|apply universal_id_iff].
  - intros e D. unfold read_all, text. rewrite Bz. cbn [bind]. now rewrite D.
Qed.
(** What is not in the tar file as a regular file (that is not too large) is not in the zip file. *)
Theorem C121_missing : forall fs dir name d out ks ms cutoff, convertible fs dir name d out ks ms ->
  exists fs', tar_main (dir ++ name) false cutoff fs = (fs', None) /\
    forall n, none_small cutoff n ms -> bytes_from_zip fs' (dir ++ out) n = Raise KeyError /\ text_from_zip fs' (dir ++ out) n = Raise KeyError.
Proof.
  intros fs dir name d out ks ms cutoff C. assert (Sa : same_archive ks ms) by apply C. destruct (converted fs dir name d out ks ms cutoff C) as (fs' & a & b & u & z & E & T & Ft & G & U & Fz & Uz). exists fs'. split; [exact E|].
  intros n Ns. assert (Z := none_in cutoff ks ms a n T Sa Ns). unfold byte_read, read_all, text, byte_content, read_file. rewrite Fz. cbn [bind]. rewrite Uz. cbn [bind]. rewrite Z. split; reflexivity.
Qed.
(** As a zip store, the zip file gives the values by key, exactly (newlines included), unless a member has the name "__keys"; it has no key list, so keys() is None and items() raises NotImplementedError. *)
Theorem C121_store : forall fs dir name d out ks ms cutoff, convertible fs dir name d out ks ms -> (forall x, ~ In (keys_entry, EFile x) ms) ->
  exists fs' z a s, tar_main (dir ++ name) false cutoff fs = (fs', None) /\ files_on cwd fs' (dir ++ out) = Some z /\ unzip ZC z = Ok a /\ source_enter (Zip a) = Ok s /\
    let store := zip_source (fun k => k) bytes_value s in let char_store := zip_source (fun k => k) str_value s in
    src_keys store = Ok None /\ items store (fun _ => true) = Raise NotImplementedError /\
    (forall l1 n x l2, ms = l1 ++ (n, EFile x) :: l2 -> ~ In n (map fst l2) -> small cutoff x -> src_item store n = Ok x /\ src_item char_store n = decode x) /\
    (forall n, none_small cutoff n ms -> src_item store n = Raise KeyError /\ src_get store n = Ok None).
Proof.
  intros fs dir name d out ks ms cutoff C Nk. assert (Sa : same_archive ks ms) by apply C. destruct (converted fs dir name d out ks ms cutoff C) as (fs' & a & b & u & z & E & T & Ft & G & U & Fz & Uz). exists fs', z, a, (Some (a, None)).
  assert (Na : ~ In keys_entry (map fst a)).
  { intros H. assert (Zk := none_in cutoff ks ms a keys_entry T Sa (fun x H => False_ind _ (Nk x H))). clear -H Zk. induction a as [|(n, x) a IH]; [destruct H|]. rewrite zread_cons in Zk. destruct (zread a keys_entry) as [y|] eqn:Ea; [discriminate Zk|]. destruct H as [H|H]; [|exact (IH H eq_refl)]. cbn [fst] in H. subst n. rewrite str_eqb_refl in Zk. discriminate Zk. }
  destruct (C55_no_key_list (fun k => k) bytes bytes_value a (fun _ => true) Na) as (Se & K & It & Lk). destruct (C55_no_key_list (fun k => k) str str_value a (fun _ => true) Na) as (_ & _ & _ & Lc).
  split; [exact E|]. split; [exact Fz|]. split; [exact Uz|]. split; [exact Se|]. cbv zeta. split; [exact K|]. split; [exact It|]. split.
  - intros l1 n x l2 Em Nn Sx. assert (Z : zread a n = Some x) by (apply (last_small cutoff ks ms a n l1 x l2 T Sa Em Sx); intros y H; exfalso; apply Nn; exact (in_map fst _ _ H)). split; [exact (Lk n x Z)|exact (Lc n x Z)].
  - intros n Ns. assert (Z := none_in cutoff ks ms a n T Sa Ns). split; cbn; now rewrite Z.
Qed.
(** The pairs that a linear source over the tar file (with the names as keys) gives are the entries of the zip file, in the same order. *)
Theorem C121_pairs : forall fs dir name d out ks ms, convertible fs dir name d out ks ms ->
  exists fs' z a, tar_main (dir ++ name) false None fs = (fs', None) /\ files_on cwd fs' (dir ++ out) = Some z /\ unzip ZC z = Ok a /\
    tar_items (fun n => Some n) (fun _ => true) (fun _ => true) (Some (map as_member ks)) = Ok (a, None).
Proof.
  intros fs dir name d out ks ms C. assert (Sa : same_archive ks ms) by apply C. assert (Gn : forall n x, In (n, EFile x) ms -> n <> [] /\ name_ok n) by apply C.
  destruct (converted fs dir name d out ks ms None C) as (fs' & a & b & u & z & E & T & Ft & G & U & Fz & Uz). exists fs', z, a. split; [exact E|]. split; [exact Fz|]. split; [exact Uz|].
  assert (Gk : forall n x, In (n, TFile x) ks -> n <> []).
  { intros n x H. apply (Gn n x). clear -Sa H. induction Sa as [|k m ks ms (E1 & E2) Sa IH]; [destruct H|]. destruct H as [->|H]; [left|right; exact (IH H)]. destruct m as (n', e). cbn [fst snd] in *. subst n'. f_equal. exact (proj1 (E2 x) eq_refl). }
  apply C60_items.
  - intros m k H (F & _). apply in_map_iff in H. destruct H as ((n & [x| |]) & <- & H); cbn in F |- *; discriminate.
  - clear -T Gk. induction T as [|n x ks a Sm T IH|n x c ks a E Lg T IH|n k ks a Nf T IH]; cbn [map]; [constructor| | |].
    + apply ts_key; [|reflexivity|apply IH; intros n' x' H; exact (Gk n' x' (or_intror H))]. split; [reflexivity|]. split; [reflexivity|]. split; [reflexivity|]. split; [|reflexivity]. exact (Gk n x (or_introl eq_refl)).
    + discriminate E.
    + apply ts_skip; [|apply IH; intros n' x' H; exact (Gk n' x' (or_intror H))]. intros k' (F & _). destruct k as [x| |]; cbn in F; [exact (Nf x eq_refl)|discriminate F|discriminate F].
Qed.
(** Expected: a file that the zip file has is the one that the tar file has.  Refuted with --omit-large-files: if a file was added to the tar file again, larger than the cutoff, the zip file has the
    outdated contents, where reading the tar file gives the new ones. *)
Theorem C121_outdated_refuted : forall fs dir name d out ks ms c l1 n x l2 y l3, convertible fs dir name d out ks ms ->
  ms = l1 ++ (n, EFile x) :: l2 ++ (n, EFile y) :: l3 -> ~ In n (map fst l2) -> ~ In n (map fst l3) -> small (Some c) x -> ~ small (Some c) y ->
  exists fs', tar_main (dir ++ name) false (Some c) fs = (fs', None) /\ bytes_from_zip fs' (dir ++ out) n = Ok x /\ forall limit dec, limit <> 0 -> from_tgz limit dec fs' (dir ++ name) n = dec y.
Proof.
  intros fs dir name d out ks ms c l1 n x l2 y l3 C Em N2 N3 Sx Sy. assert (Sa : same_archive ks ms) by apply C. destruct (converted fs dir name d out ks ms (Some c) C) as (fs' & a & b & u & z & E & T & Ft & G & U & Fz & Uz). exists fs'. split; [exact E|]. split.
  - assert (Z : zread a n = Some x).
    { apply (last_small (Some c) ks ms a n l1 x (l2 ++ (n, EFile y) :: l3) T Sa Em Sx). intros w H. apply in_app_or in H. destruct H as [H|[H|H]]; [exfalso; apply N2; exact (in_map fst _ _ H)|injection H as <-; exact Sy|exfalso; apply N3; exact (in_map fst _ _ H)]. }
    unfold byte_read, byte_content, read_file. rewrite Fz. cbn [bind]. rewrite Uz. cbn [bind]. now rewrite Z.
  - intros [|limit] dec Nl; [now elim Nl|]. unfold tgz_text, open_tgz, read_file. rewrite Ft. cbn [bind]. rewrite G. cbn [bind]. rewrite U. cbn [bind]. rewrite Em.
    change (l1 ++ (n, EFile x) :: l2 ++ (n, EFile y) :: l3) with (l1 ++ ((n, EFile x) :: l2) ++ (n, EFile y) :: l3). rewrite app_assoc, (last_member (l1 ++ (n, EFile x) :: l2) n _ l3 N3). cbn [extractfile]. now rewrite nth_mid.
Qed.
End P.
