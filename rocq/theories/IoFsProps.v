(** * C99: the file sinks and sources of io_utils on a file system *)
From Verif Require Import Prelude PyStr SortLib TextLib Utf8 Params ParamsSpec ParamsProofs Fs FsProofs FsProps PathLists PathListsProps Io IoProps KeyValue KeyValueProps KvParams OsPath OsPathSpec OsPathProofs Mains MainsProofs Load LoadFs LoadFsSpec LoadFsProps ZipKeys ZipKeysProps DirFs DirFsProps DirFsKeys IoFs.

(** ** Specification *)
(** The writes of one block: each is accepted, and its bytes follow those written before, or rejected with an exception, and writes nothing. *)
Inductive written (bytes_ : bool) : list value -> list (option exn) -> bytes -> Prop :=
| wr_end : written bytes_ [] [] []
| wr_accept v b ws outs data : accepts bytes_ v b -> written bytes_ ws outs data -> written bytes_ (v :: ws) (None :: outs) (b ++ data)
| wr_reject v e ws outs data : rejects bytes_ v e -> written bytes_ ws outs data -> written bytes_ (v :: ws) (Some e :: outs) data.
(** The path a sink writes to. *)
Inductive writes_to : sink -> str -> Prop :=
| wt_file b s : writes_to (FileSink b s) s
| wt_zip s n : writes_to (ZipSink s n) s.
(** The operating system does not get to the end of the path: a NUL character, a missing directory or something that is none. *)
Definition stuck (fs : list (list str * fnode)) (cwd : list str) (s : str) (e : exn) : Prop :=
  (In 0%N s /\ e = ValueError) \/
  (~ In 0%N s /\ exists st pre c rest q, origin cwd s st /\ py_split slash s = pre ++ c :: rest /\ c <> [] /\ c <> !!"." /\ opens fs st pre q /\
     (look fs q = None /\ e = FileNotFoundError \/ occupied fs q /\ e = NotADirectoryError)).
(** Everything that was there is still there - files perhaps with another content -, and what is new are directories and files. *)
Definition grown (fs fs' : list (list str * fnode)) : Prop :=
  (forall a, look fs a = Some KDir -> look fs' a = Some KDir) /\ (forall a, look fs a = Some Fs.KOther -> look fs' a = Some Fs.KOther) /\
  (forall a b, look fs a = Some (KFile b) -> exists b', look fs' a = Some (KFile b')) /\ (forall a, look fs a = None -> look fs' a <> Some Fs.KOther).
(** ... new are directories only *)
Definition new_dirs (fs fs' : list (list str * fnode)) : Prop :=
  (forall a k, look fs a = Some k -> look fs' a = Some k) /\ (forall a, look fs a = None -> look fs' a = None \/ look fs' a = Some KDir).

(** ** Proofs *)
Lemma written_spec b ws : written b ws (map snd (map (content b) ws)) (concat (map fst (map (content b) ws))).
Proof.
  induction ws as [|v ws IH]; [constructor|]. cbn [map concat]. destruct (accepts_or_rejects b v) as [(x & A)|(e & R)].
  - rewrite (content_accepts _ _ _ A). cbn [fst snd]. now constructor.
  - rewrite (content_rejects _ _ _ R). cbn [fst snd app]. now constructor.
Qed.
Lemma written_fun b ws outs data : written b ws outs data -> outs = map snd (map (content b) ws) /\ data = concat (map fst (map (content b) ws)).
Proof.
  induction 1 as [|v x ws outs data A H (-> & ->)|v e ws outs data R H (-> & ->)]; [split; reflexivity| |]; cbn [map concat].
  - rewrite (content_accepts _ _ _ A). split; reflexivity.
  - rewrite (content_rejects _ _ _ R). split; reflexivity.
Qed.
Lemma encodes s x : encode s = Ok x -> encodable s.
Proof.
  intros E. assert (X : encodable s \/ ~ encodable s); [|destruct X as [F|F]; [exact F|rewrite (proj2 (C68_encodable s) F) in E; discriminate]].
  clear E. unfold encodable. induction s as [|c s IH]; [left; constructor|]. assert (Dc : scalar c \/ ~ scalar c) by (unfold scalar; lia). destruct Dc as [Dc|Dc]; [destruct IH as [IH|IH]|]; [left; now constructor|right; intros H; now inversion H|right; intros H; now inversion H].
Qed.
Lemma walk_parent fs cs : wf_fs fs -> forall q q', look fs q = Some KDir -> os_walk fs q cs = Ok q' -> look fs q' = Some KDir \/ exists c d, q' = c :: d /\ look fs d = Some KDir.
Proof.
  intros W. induction cs as [|c cs IH]; intros q q' D E; cbn [os_walk] in E; [injection E as <-; auto|]. rewrite D in E. destruct (str_eqb c !!".."); [eapply IH; [|exact E]; now apply up_dir|].
  destruct cs as [|c2 cs]; [cbn [os_walk] in E; injection E as <-; eauto|]. cbn [os_walk] in E. destruct (look fs (c :: q)) as [[]|] eqn:L; try discriminate. eapply IH; [exact L|]. cbn [os_walk]. now rewrite L.
Qed.
Section IoFsProps.
Notation fsys := (list (list str * fnode)) (only parsing).
Variable cwd : list str.
Variable ZC : zip_codec.
Notation session := (session cwd ZC).
Notation io_run := (io_run cwd ZC).
Notation io_step := (io_step cwd ZC).

Lemma find_parent fs p q : wf_fs fs -> look fs cwd = Some KDir -> os_find cwd fs p = Ok q -> look fs q = Some KDir \/ exists c d, q = c :: d /\ look fs d = Some KDir.
Proof. intros W D E. unfold os_find in E. destruct (existsb has_nul (p_parts p)); [discriminate|]. eapply walk_parent; [exact W| |exact E]. destruct (p_root p =? 0)%N; [exact D|reflexivity]. Qed.
Lemma open_write_spec fs s : wf_fs fs -> look fs cwd = Some KDir ->
  (forall q, leads fs cwd s q -> free fs q -> open_write cwd fs s = Ok q /\ q <> [] /\ look fs (tl q) = Some KDir) /\
  (forall q, leads fs cwd s q -> ~ free fs q -> open_write cwd fs s = Raise IOError) /\
  ((forall q, ~ leads fs cwd s q) -> exists e, open_write cwd fs s = Raise e /\ os_find cwd fs (parse_path s) = Raise e).
Proof.
  intros W D. unfold open_write. split; [|split].
  - intros q L F. apply find_leads in L. rewrite L. cbn [bind]. destruct (find_parent fs _ q W D L) as [K|(c & d & -> & K)]; [destruct F as [F|(b & F)]; congruence|]. rewrite (can_write_ok fs c d W K F). split; [reflexivity|]. split; [discriminate|exact K].
  - intros q L F. apply find_leads in L. rewrite L. cbn [bind]. assert (E : can_write fs q = Raise IOError); [|now rewrite E].
    assert (X : look fs q = Some KDir \/ look fs q = Some Fs.KOther). { destruct (look fs q) as [[b| |]|] eqn:K; auto; exfalso; apply F; [right; eauto|left; exact K]. }
    unfold can_write. destruct q as [|c d]; [reflexivity|]. assert (Dd : look fs d = Some KDir) by (destruct X as [X|X]; eapply W; exact X).
    assert (S1 := search_spec fs d W). destruct (search fs d) as [[]|e].
    + cbn [bind]. destruct X as [-> | ->]; reflexivity.
    + exfalso. destruct S1 as [(_ & L1 & _)|(_ & a & B & k & L1 & NK)]; [congruence|]. assert (look fs a = Some KDir) by (eapply dir_all_above; eauto). congruence.
  - intros N. destruct (os_find cwd fs (parse_path s)) as [q|e] eqn:E; [exfalso; apply (N q); now apply find_leads|]. exists e. auto.
Qed.
Lemma leads_dec fs s : (exists q, leads fs cwd s q) \/ forall q, ~ leads fs cwd s q.
Proof. destruct (os_find cwd fs (parse_path s)) as [q|e] eqn:E; [left; exists q; now apply find_leads|right; intros q L; apply find_leads in L; congruence]. Qed.
Lemma free_dec fs q : free fs q \/ ~ free fs q.
Proof. unfold free. destruct (look fs q) as [[b| |]|]; [left; eauto| | |left; auto]; right; intros [X|(b & X)]; discriminate. Qed.
(** why a path leads nowhere *)
Lemma walk_error fs cs : forall q e, os_walk fs q (filter keep cs) = Raise e ->
  exists pre c rest q', cs = pre ++ c :: rest /\ c <> [] /\ c <> !!"." /\ opens fs q pre q' /\ (look fs q' = None /\ e = FileNotFoundError \/ occupied fs q' /\ e = NotADirectoryError).
Proof.
  induction cs as [|c cs IH]; intros q e E; cbn [filter] in E; [discriminate|]. destruct (keep c) eqn:K.
  - assert (Kc := proj1 (keep_true c) K). destruct Kc as (K1 & K2). cbn [os_walk] in E.
    destruct (look fs q) as [[b| |]|] eqn:L.
    + injection E as <-. exists [], c, cs, q. split; [reflexivity|]. split; [assumption|]. split; [assumption|]. split; [constructor|]. right. split; [|reflexivity]. exists (KFile b). split; [assumption|discriminate].
    + destruct (str_eqb c !!"..") eqn:U.
      * apply str_eqb_eq in U. destruct (IH _ _ E) as (pre & c' & rest & q' & -> & A & B & O & X). exists (c :: pre), c', rest, q'. split; [reflexivity|]. split; [assumption|]. split; [assumption|]. split; [|exact X]. subst c. now apply op_up.
      * apply str_eqb_neq in U. destruct (IH _ _ E) as (pre & c' & rest & q' & -> & A & B & O & X). exists (c :: pre), c', rest, q'. split; [reflexivity|]. split; [assumption|]. split; [assumption|]. split; [|exact X]. now apply op_into.
    + injection E as <-. exists [], c, cs, q. split; [reflexivity|]. split; [assumption|]. split; [assumption|]. split; [constructor|]. right. split; [|reflexivity]. exists Fs.KOther. split; [assumption|discriminate].
    + injection E as <-. exists [], c, cs, q. split; [reflexivity|]. split; [assumption|]. split; [assumption|]. split; [constructor|]. auto.
  - assert (Kc := proj1 (keep_false c) K). destruct (IH _ _ E) as (pre & c' & rest & q' & -> & A & B & O & X). exists (c :: pre), c', rest, q'. split; [reflexivity|]. split; [assumption|]. split; [assumption|]. split; [|exact X]. now apply op_stay.
Qed.
Lemma origin_from s : origin cwd s (if (root_of s =? 0)%N then cwd else []).
Proof.
  destruct (root_of s =? 0)%N eqn:R.
  - apply or_rel. intros r ->. assert (X : (root_of (slash :: r) =? 0)%N = false) by (apply root_abs; eauto). congruence.
  - apply root_abs in R. destruct R as (r & ->). constructor.
Qed.
Lemma origin_fun s a b : origin cwd s a -> origin cwd s b -> a = b.
Proof. intros H1 H2. destruct H1 as [r|k N]; inversion H2 as [r' E|k' N']; subst; try reflexivity; exfalso; [eapply N'|eapply N]; reflexivity. Qed.
Lemma find_error fs s e : os_find cwd fs (parse_path s) = Raise e -> stuck fs cwd s e.
Proof.
  unfold os_find. destruct (in_dec N.eq_dec 0%N s) as [Z|Z].
  - rewrite (nul_key s Z). intros E. injection E as <-. left. auto.
  - rewrite (key_nul s Z). unfold parse_path. cbn [p_root p_parts]. intros E. destruct (walk_error _ _ _ _ E) as (pre & c & rest & q & A & B & C & O & X). right. split; [assumption|]. exists (if (root_of s =? 0)%N then cwd else []), pre, c, rest, q. split; [apply origin_from|]. auto.
Qed.

(** ** Constructing a sink *)
Lemma mkdir_at_grows fs p fs' : wf_fs fs -> look fs cwd = Some KDir -> mkdir_at cwd fs p = Ok fs' -> wf_fs fs' /\ new_dirs fs fs'.
Proof.
  intros W D E. unfold mkdir_at in E. destruct (os_find cwd fs p) as [q|] eqn:F; [|discriminate]. cbn [bind] in E. destruct (look fs q) eqn:L; [discriminate|]. injection E as <-.
  destruct (find_parent fs p q W D F) as [K|(c & d & -> & K)]; [congruence|]. split; [now apply wf_made|]. split.
  - intros a k La. rewrite look_made. destruct (rpath_eqb_spec (c :: d) a) as [<-|]; [congruence|assumption].
  - intros a La. rewrite look_made. destruct (rpath_eqb_spec (c :: d) a) as [<-|]; auto.
Qed.
Lemma new_dirs_refl fs : new_dirs fs fs.
Proof. split; auto. Qed.
Lemma new_dirs_trans a b c : new_dirs a b -> new_dirs b c -> new_dirs a c.
Proof. intros (A1 & A2) (B1 & B2). split; [auto|]. intros x L. destruct (A2 x L) as [K|K]; [auto|]. right. now apply B1. Qed.
Lemma parents_grow root : forall rp fs fs' o, wf_fs fs -> look fs cwd = Some KDir -> mkdir_parents cwd fs root rp = (fs', o) -> wf_fs fs' /\ new_dirs fs fs'.
Proof.
  assert (G : forall fs p fs' (o : res unit), wf_fs fs -> look fs cwd = Some KDir -> (if dir_at cwd fs p then (fs, Ok tt) else (fs, o)) = (fs', o) \/ fs' = fs -> wf_fs fs) by auto.
  induction rp as [|c rp IH]; intros fs fs' o W D E; cbn [mkdir_parents] in E.
  - destruct (mkdir_at cwd fs (MkPath root (rev []))) as [f|e] eqn:M; [injection E as <- _; eapply mkdir_at_grows; eassumption|].
    assert (fs' = fs) as ->; [|split; [assumption|apply new_dirs_refl]]. destruct e; try (destruct (dir_at cwd fs (MkPath root (rev [])))); now injection E.
  - destruct (mkdir_at cwd fs (MkPath root (rev (c :: rp)))) as [f|e] eqn:M; [injection E as <- _; eapply mkdir_at_grows; eassumption|].
    assert (X : fs' = fs \/ match mkdir_parents cwd fs root rp with
          | (fs1, Raise e) => (fs1, Raise e)
          | (fs1, Ok _) =>
              match mkdir_at cwd fs1 (MkPath root (rev (c :: rp))) with
              | Ok fs2 => (fs2, Ok tt)
              | Raise FileNotFoundError => (fs1, Raise FileNotFoundError)
              | Raise e => if dir_at cwd fs1 (MkPath root (rev (c :: rp))) then (fs1, Ok tt) else (fs1, Raise e)
              end
          end = (fs', o)). { destruct e; auto; left; destruct (dir_at cwd fs (MkPath root (rev (c :: rp)))); now injection E. }
    clear E. destruct X as [-> |E]; [split; [assumption|apply new_dirs_refl]|]. destruct (mkdir_parents cwd fs root rp) as [fs1 [[]|e1]] eqn:P; [|injection E as <- _; eapply IH; eassumption].
    destruct (IH _ _ _ W D P) as (W1 & N1). assert (D1 : look fs1 cwd = Some KDir) by now apply N1.
    destruct (mkdir_at cwd fs1 (MkPath root (rev (c :: rp)))) as [f|e2] eqn:M2.
    + injection E as <- _. destruct (mkdir_at_grows _ _ _ W1 D1 M2) as (W2 & N2). split; [assumption|]. eapply new_dirs_trans; eassumption.
    + assert (fs' = fs1) as ->; [|auto]. destruct e2; try (destruct (dir_at cwd fs1 (MkPath root (rev (c :: rp))))); now injection E.
Qed.
Lemma tail_parts s ps c : spells s (ps ++ [c]) -> tl (rev (p_parts (parse_path s))) = rev ps.
Proof. intros H. apply spells_spec in H. rewrite H, rev_app_distr. reflexivity. Qed.
Lemma origin_root s st : origin cwd s st -> st = if (p_root (parse_path s) =? 0)%N then cwd else [].
Proof. intros H. exact (origin_fun _ _ _ H (origin_from s)). Qed.
(** C99: to_file makes the directories above the file that are missing, nothing else; the sink's path then leads to the file.  Something in the way that is no directory
    makes it fail. *)
Theorem C99_to_file : forall fs s ps c st, wf_fs fs -> look fs cwd = Some KDir -> ~ In 0%N s -> spells s (ps ++ [c]) -> origin cwd s st ->
  (forall fs1 q, way fs st ps fs1 q ->
     char_to_file cwd fs (AStr s) = (fs1, Ok (FileSink false s)) /\ char_to_file cwd fs (APath s) = (fs1, Ok (FileSink false s)) /\ byte_to_file cwd fs (APath s) = (fs1, Ok (FileSink true s)) /\
     forall t, place q c t -> leads fs1 cwd s t) /\
  (forall fs1, dead_end fs st ps fs1 -> exists e, (e = FileExistsError \/ e = NotADirectoryError) /\
     char_to_file cwd fs (AStr s) = (fs1, Raise e) /\ char_to_file cwd fs (APath s) = (fs1, Raise e) /\ byte_to_file cwd fs (APath s) = (fs1, Raise e)).
Proof.
  intros fs s ps c st W D Z S1 Or. assert (St := origin_root s st Or). assert (P := proj1 (spells_spec _ _) S1).
  assert (NN : existsb has_nul (ps ++ [c]) = false) by (rewrite <- P; now apply key_nul). destruct (has_nul_app _ _ NN) as (NP & _).
  assert (Ds : look fs (if (p_root (parse_path s) =? 0)%N then cwd else []) = Some KDir) by (destruct (p_root (parse_path s) =? 0)%N; [exact D|reflexivity]).
  destruct (parents_way cwd (p_root (parse_path s)) fs W Ds ps NP) as (A & B). rewrite <- St in A, B, Ds. cbn [char_to_file byte_to_file]. unfold make_parent. rewrite (tail_parts s ps c S1). split.
  - intros fs1 q Hw. rewrite (A _ _ Hw). repeat (split; [reflexivity|]). intros t Hp. apply find_leads. unfold os_find. rewrite P, NN, <- St. destruct (way_walk _ _ _ _ _ Hw W Ds) as (W1 & D1 & E1 & _).
    rewrite os_app, E1. cbn [bind os_walk]. rewrite D1. inversion Hp as [E|c' N]; subst; [reflexivity|]. apply str_eqb_neq in N. now rewrite N.
  - intros fs1 Hd. destruct (B _ Hd) as (e & -> & He). exists e. auto.
Qed.
(** C99: whatever path is given and whatever happens, constructing a sink never changes or empties a file; only directories can be new. *)
Theorem C99_construction_keeps : forall fs a, wf_fs fs -> look fs cwd = Some KDir ->
  (wf_fs (fst (char_to_file cwd fs a)) /\ new_dirs fs (fst (char_to_file cwd fs a))) /\ (wf_fs (fst (byte_to_file cwd fs a)) /\ new_dirs fs (fst (byte_to_file cwd fs a))).
Proof.
  assert (G : forall b s fs, wf_fs fs -> look fs cwd = Some KDir -> wf_fs (fst (match make_parent cwd fs s with (fs1, Ok _) => (fs1, Ok (FileSink b s)) | (fs1, Raise e) => (fs1, Raise e) end)) /\ new_dirs fs (fst (match make_parent cwd fs s with (fs1, Ok _) => (fs1, Ok (FileSink b s)) | (fs1, Raise e) => (fs1, Raise e) end))).
  { intros b s fs W D. destruct (make_parent cwd fs s) as [f o] eqn:M. unfold make_parent in M. destruct (parents_grow _ _ _ _ _ W D M) as (W1 & N1). destruct o; cbn [fst]; auto. }
  intros fs a W D. split; destruct a as [s|s]; cbn [char_to_file byte_to_file]; try (apply G; assumption). split; [assumption|apply new_dirs_refl].
Qed.
(** C99: a byte sink or source and anything in a zip file need a Path; a str is an error, and nothing is changed. *)
Theorem C99_str_paths : forall fs s n, byte_to_file cwd fs (AStr s) = (fs, Raise AttributeError) /\ file_in_zip (AStr s) n = Raise TypeError /\ byte_from_file (AStr s) = Raise TypeError /\ byte_from_zip (AStr s) n = Raise TypeError /\
  char_from_file (AStr s) = char_from_file (APath s).
Proof. intros. repeat split. Qed.

(** ** One block *)
(** C99: a block on a file sink: if the path leads to a place where a file can be, the file holds exactly what the accepted writes of the block wrote, in order, and nothing else is
    changed; if something else is there, or the path leads nowhere, open() fails and nothing is changed. *)
Theorem C99_session : forall fs b s ws, wf_fs fs -> look fs cwd = Some KDir ->
  (forall q, leads fs cwd s q -> free fs q -> exists fs' outs data, session fs (FileSink b s) ws = (fs', Ok outs) /\ written b ws outs data /\
     look fs' q = Some (KFile data) /\ forall a, a <> q -> look fs' a = look fs a) /\
  (forall q, leads fs cwd s q -> ~ free fs q -> session fs (FileSink b s) ws = (fs, Raise IOError)) /\
  ((forall q, ~ leads fs cwd s q) -> exists e, session fs (FileSink b s) ws = (fs, Raise e) /\ stuck fs cwd s e).
Proof.
  intros fs b s ws W D. destruct (open_write_spec fs s W D) as (A & B & C). cbn [IoFs.session]. split; [|split].
  - intros q L F. destruct (A q L F) as (-> & Nq & _). eexists _, _, _. split; [reflexivity|]. split; [apply written_spec|]. split; [now apply look_set_same|]. intros a Na. apply look_set_other; congruence.
  - intros q L F. now rewrite (B q L F).
  - intros N. destruct (C N) as (e & -> & E). exists e. split; [reflexivity|]. now apply find_error.
Qed.
(** C99: sink.write(v) on a file sink. *)
Theorem C99_write : forall fs b s v q, wf_fs fs -> look fs cwd = Some KDir -> leads fs cwd s q -> free fs q ->
  exists fs' o, sink_write_one cwd ZC fs (FileSink b s) v = (fs', o) /\ (forall a, a <> q -> look fs' a = look fs a) /\
    (forall x, accepts b v x -> o = Ok tt /\ look fs' q = Some (KFile x)) /\ (forall e, rejects b v e -> o = Raise e /\ look fs' q = Some (KFile [])).
Proof.
  intros fs b s v q W D L F. destruct (C99_session fs b s [v] W D) as (A & _). destruct (A q L F) as (fs' & outs & data & E & Wr & Q & O). apply written_fun in Wr. destruct Wr as (-> & ->).
  unfold sink_write_one. rewrite E. cbn [map concat] in Q |- *. rewrite app_nil_r in Q.
  destruct (accepts_or_rejects b v) as [(x & Ac)|(e & Rj)].
  - rewrite (content_accepts _ _ _ Ac) in Q |- *. cbn [fst snd] in Q |- *. eexists _, _. split; [reflexivity|]. split; [assumption|]. split.
    + intros y Ay. assert (y = x) as -> by (apply content_accepts in Ac, Ay; congruence). auto.
    + intros e R. apply content_accepts in Ac. apply content_rejects in R. congruence.
  - rewrite (content_rejects _ _ _ Rj) in Q |- *. cbn [fst snd] in Q |- *. eexists _, _. split; [reflexivity|]. split; [assumption|]. split.
    + intros y Ay. apply content_accepts in Ay. apply content_rejects in Rj. congruence.
    + intros e' R. assert (e' = e) as -> by (apply content_rejects in Rj, R; congruence). auto.
Qed.
(** What a zip file at a place holds: nothing, if there is no file or none that is a zip file. *)
Inductive archive_at (fs : fsys) (q : list str) : archive -> Prop :=
| ar_zip b a : look fs q = Some (KFile b) -> unzip ZC b = Ok a -> archive_at fs q a
| ar_none : look fs q = None -> archive_at fs q []
| ar_bad b e : look fs q = Some (KFile b) -> unzip ZC b = Raise e -> archive_at fs q [].
Lemma archive_old fs q : free fs q -> archive_at fs q (old_entries ZC fs q).
Proof. intros [F|(b & F)]; unfold old_entries; rewrite F; [now apply ar_none|]. destruct (unzip ZC b) as [a|e] eqn:U; [eapply ar_zip|eapply ar_bad]; eassumption. Qed.
Lemma archive_fun fs q a b : archive_at fs q a -> archive_at fs q b -> a = b.
Proof. intros H1 H2. inversion H1; inversion H2; subst; try reflexivity; congruence. Qed.
Lemma old_zip_ok fs q : zip_ok (old_entries ZC fs q).
Proof. unfold old_entries. destruct (look fs q) as [[b| |]|]; try (intros n x []). destruct (unzip ZC b) as [a|e] eqn:U; [eapply unzip_ok; exact U|intros n x []]. Qed.
(** C99: a block on an entry of a zip file adds one entry to those the file held, with the bytes the accepted writes wrote; the archive is made if need be, but not the
    directories above it; a name UTF-8 cannot encode makes open() fail, and the entries stay. *)
Theorem C99_zip_session : forall fs s n ws, wf_fs fs -> look fs cwd = Some KDir ->
  (forall q old, leads fs cwd s q -> free fs q -> archive_at fs q old -> exists fs' o, session fs (ZipSink s n) ws = (fs', o) /\ (forall a, a <> q -> look fs' a = look fs a) /\
     (encodable (zip_name n) -> exists outs data, o = Ok outs /\ written true ws outs data /\ archive_at fs' q (old ++ [(zip_name n, data)])) /\
     (~ encodable (zip_name n) -> o = Raise UnicodeEncodeError /\ archive_at fs' q old)) /\
  (forall q, leads fs cwd s q -> ~ free fs q -> session fs (ZipSink s n) ws = (fs, Raise IOError)) /\
  ((forall q, ~ leads fs cwd s q) -> exists e, session fs (ZipSink s n) ws = (fs, Raise e) /\ stuck fs cwd s e).
Proof.
  intros fs s n ws W D. destruct (open_write_spec fs s W D) as (A & B & C). cbn [IoFs.session]. split; [|split].
  - intros q old L F Ar. destruct (A q L F) as (-> & Nq & _). assert (old = old_entries ZC fs q) as -> by (eapply archive_fun; [exact Ar|now apply archive_old]). clear Ar. assert (Zo := old_zip_ok fs q).
    unfold zappend. destruct (encode (zip_name n)) as [x|e] eqn:En; cbn [bind].
    + eexists _, _. split; [reflexivity|]. split; [intros a Na; apply look_set_other; congruence|]. split.
      * intros _. eexists _, _. split; [reflexivity|]. split; [apply written_spec|]. eapply ar_zip; [now apply look_set_same|]. apply unzip_dozip. apply zip_ok_snoc; [exact Zo|]. split; [apply zip_name_nul|eauto].
      * intros N. rewrite (proj2 (C68_encodable (zip_name n)) N) in En. discriminate.
    + eexists _, _. split; [reflexivity|]. split; [intros a Na; apply look_set_other; congruence|]. split.
      * intros E. destruct (encodable_ok _ E) as (x & Ex). congruence.
      * intros N. rewrite (proj2 (C68_encodable (zip_name n)) N) in En. injection En as <-. split; [reflexivity|]. eapply ar_zip; [now apply look_set_same|]. now apply unzip_dozip.
  - intros q L F. now rewrite (B q L F).
  - intros N. destruct (C N) as (e & -> & E). exists e. split; [reflexivity|]. now apply find_error.
Qed.
(** C99: sink.write(v) fails, changing nothing, when open() does. *)
Theorem C99_write_fails : forall fs k s v, wf_fs fs -> look fs cwd = Some KDir -> (exists b, k = FileSink b s) \/ (exists n, k = ZipSink s n) ->
  (forall q, leads fs cwd s q -> ~ free fs q -> sink_write_one cwd ZC fs k v = (fs, Raise IOError)) /\
  ((forall q, ~ leads fs cwd s q) -> exists e, sink_write_one cwd ZC fs k v = (fs, Raise e) /\ stuck fs cwd s e).
Proof.
  intros fs k s v W D K. unfold sink_write_one.
  assert (G : (forall q, leads fs cwd s q -> ~ free fs q -> session fs k [v] = (fs, Raise IOError)) /\ ((forall q, ~ leads fs cwd s q) -> exists e, session fs k [v] = (fs, Raise e) /\ stuck fs cwd s e)).
  { destruct K as [(b & ->)|(n & ->)]; [apply (C99_session fs b s [v] W D)|apply (C99_zip_session fs s n [v] W D)]. }
  destruct G as (G1 & G2). split.
  - intros q L F. now rewrite (G1 q L F).
  - intros N. destruct (G2 N) as (e & -> & E). exists e. auto.
Qed.
(** C99: sink.write(v) on an entry of a zip file. *)
Theorem C99_zip_write : forall fs s n v q old, wf_fs fs -> look fs cwd = Some KDir -> leads fs cwd s q -> free fs q -> archive_at fs q old -> encodable (zip_name n) ->
  exists fs' o, sink_write_one cwd ZC fs (ZipSink s n) v = (fs', o) /\ (forall a, a <> q -> look fs' a = look fs a) /\
    (forall x, accepts true v x -> o = Ok tt /\ archive_at fs' q (old ++ [(zip_name n, x)])) /\ (forall e, rejects true v e -> o = Raise e /\ archive_at fs' q (old ++ [(zip_name n, [])])).
Proof.
  intros fs s n v q old W D L F Ar En. destruct (C99_zip_session fs s n [v] W D) as (A & _). destruct (A q old L F Ar) as (fs' & o & E & Q & S & _). destruct (S En) as (outs & data & -> & Wr & Ar'). clear S. apply written_fun in Wr. destruct Wr as (-> & ->).
  unfold sink_write_one. rewrite E. cbn [map concat] in Ar' |- *. rewrite app_nil_r in Ar'.
  destruct (accepts_or_rejects true v) as [(x & Ac)|(e & Rj)].
  - rewrite (content_accepts _ _ _ Ac) in Ar' |- *. cbn [fst snd] in Ar' |- *. eexists _, _. split; [reflexivity|]. split; [assumption|]. split.
    + intros y Ay. assert (y = x) as -> by (apply content_accepts in Ac, Ay; congruence). auto.
    + intros e R. apply content_accepts in Ac. apply content_rejects in R. congruence.
  - rewrite (content_rejects _ _ _ Rj) in Ar' |- *. cbn [fst snd] in Ar' |- *. eexists _, _. split; [reflexivity|]. split; [assumption|]. split.
    + intros y Ay. apply content_accepts in Ay. apply content_rejects in Rj. congruence.
    + intros e' R. assert (e' = e) as -> by (apply content_rejects in Rj, R; congruence). auto.
Qed.
(** C99: the sink to nowhere accepts everything and changes nothing. *)
Theorem C99_nowhere : forall fs ws, session fs NullSink ws = (fs, Ok (map (fun _ => None) ws)).
Proof. reflexivity. Qed.

(** ** Histories *)
Lemma grown_refl fs : grown fs fs.
Proof. repeat split; auto; [intros a b H; eauto|]. intros a H. congruence. Qed.
Lemma grown_trans a b c : grown a b -> grown b c -> grown a c.
Proof.
  intros (A1 & A2 & A3 & A4) (B1 & B2 & B3 & B4). repeat split; auto.
  - intros x y L. destruct (A3 _ _ L) as (y' & L'). eapply B3; exact L'.
  - intros x L. specialize (A4 x L). destruct (look b x) as [[y| |]|] eqn:E; [destruct (B3 _ _ E) as (y' & ->); discriminate|rewrite (B1 _ E); discriminate|congruence|now apply B4].
Qed.
Lemma new_dirs_grown a b : new_dirs a b -> grown a b.
Proof. intros (A1 & A2). repeat split; auto; [intros x y L; eauto|]. intros x L. destruct (A2 x L) as [-> | ->]; discriminate. Qed.
Lemma set_grown fs q b : wf_fs fs -> q <> [] -> free fs q -> look fs (tl q) = Some KDir -> wf_fs (set_node fs q b) /\ grown fs (set_node fs q b).
Proof.
  intros W Nq F D. split.
  - intros c r k L. destruct (rpath_eqb_spec q r) as [<-|Nr].
    + exfalso. rewrite look_set_other in L by (try assumption; intros E; apply (f_equal (@length str)) in E; cbn in E; lia). eapply free_not_dir; eassumption.
    + rewrite look_set_other by assumption. destruct (rpath_eqb_spec q (c :: r)) as [E|Nq2]; [subst q; exact D|]. rewrite look_set_other in L by assumption. eapply W; exact L.
  - repeat split.
    + intros a L. destruct (rpath_eqb_spec q a) as [<-|N]; [destruct F as [F|(x & F)]; congruence|]. now rewrite look_set_other.
    + intros a L. destruct (rpath_eqb_spec q a) as [<-|N]; [destruct F as [F|(x & F)]; congruence|]. now rewrite look_set_other.
    + intros a x L. destruct (rpath_eqb_spec q a) as [<-|N]; [rewrite look_set_same by assumption; eauto|]. rewrite look_set_other by assumption. eauto.
    + intros a L. destruct (rpath_eqb_spec q a) as [<-|N]; [rewrite look_set_same by assumption; discriminate|]. rewrite look_set_other by assumption. congruence.
Qed.
Lemma session_grows fs k ws : wf_fs fs -> look fs cwd = Some KDir -> wf_fs (fst (session fs k ws)) /\ grown fs (fst (session fs k ws)).
Proof.
  intros W D. assert (R : wf_fs fs /\ grown fs fs) by (split; [assumption|apply grown_refl]).
  destruct k as [b s|s n|]; cbn [IoFs.session]; [| |exact R]; destruct (open_write cwd fs s) as [q|e] eqn:O; try exact R;
    (destruct (leads_dec fs s) as [(q' & L)|N]; [|destruct (proj2 (proj2 (open_write_spec fs s W D)) N) as (e & E & _); congruence]);
    (destruct (free_dec fs q') as [F|F]; [|rewrite (proj1 (proj2 (open_write_spec fs s W D)) q' L F) in O; discriminate]);
    destruct (proj1 (open_write_spec fs s W D) q' L F) as (E & Nq & Dt); rewrite O in E; injection E as ->.
  - cbn [fst]. now apply set_grown.
  - destruct (zappend _ _ _); cbn [fst]; now apply set_grown.
Qed.
Lemma step_grows fs o : wf_fs fs -> look fs cwd = Some KDir -> wf_fs (io_step fs o) /\ grown fs (io_step fs o).
Proof.
  intros W D. destruct o as [a|a|k ws]; cbn [IoFs.io_step].
  - destruct (C99_construction_keeps fs a W D) as ((X & Y) & _). split; [exact X|now apply new_dirs_grown].
  - destruct (C99_construction_keeps fs a W D) as (_ & (X & Y)). split; [exact X|now apply new_dirs_grown].
  - now apply session_grows.
Qed.
(** C99: no history of sinks removes anything, makes a file of a directory or a directory of a file. *)
Theorem C99_history_grows : forall h fs, wf_fs fs -> look fs cwd = Some KDir -> wf_fs (io_run fs h) /\ look (io_run fs h) cwd = Some KDir /\ grown fs (io_run fs h).
Proof.
  induction h as [|o h IH]; intros fs W D; cbn [IoFs.io_run fold_left]; [split; [assumption|split; [assumption|apply grown_refl]]|].
  destruct (step_grows fs o W D) as (W1 & G1). destruct (IH (io_step fs o) W1 (proj1 G1 _ D)) as (W2 & D2 & G2). split; [exact W2|]. split; [exact D2|]. eapply grown_trans; eassumption.
Qed.
(** A step that does not open [q] for writing. *)
Definition spares (fs : fsys) (o : io_op) (q : list str) : Prop := forall k ws s, o = UseSink k ws -> writes_to k s -> ~ leads fs cwd s q.
Lemma step_spares fs o q : wf_fs fs -> look fs cwd = Some KDir -> spares fs o q -> (forall k, look fs q = Some k -> look (io_step fs o) q = Some k) /\ (look fs q = None -> look (io_step fs o) q = None \/ look (io_step fs o) q = Some KDir).
Proof.
  intros W D Sp. destruct o as [a|a|k ws]; cbn [IoFs.io_step].
  - destruct (C99_construction_keeps fs a W D) as ((_ & (X & Y)) & _). auto.
  - destruct (C99_construction_keeps fs a W D) as (_ & (_ & (X & Y))). auto.
  - assert (E : look (fst (session fs k ws)) q = look fs q); [|rewrite E; auto]. destruct k as [b s|s n|]; [| |reflexivity].
    + assert (NL : ~ leads fs cwd s q) by (eapply Sp; [reflexivity|constructor]). destruct (C99_session fs b s ws W D) as (A & B & C). destruct (leads_dec fs s) as [(q' & L)|N]; [|destruct (C N) as (e & -> & _); reflexivity].
      destruct (free_dec fs q') as [F|F]; [|rewrite (B q' L F); reflexivity]. destruct (A q' L F) as (fs' & outs & data & -> & _ & _ & O). apply O. intros ->. contradiction.
    + assert (NL : ~ leads fs cwd s q) by (eapply Sp; [reflexivity|constructor]). destruct (C99_zip_session fs s n ws W D) as (A & B & C). destruct (leads_dec fs s) as [(q' & L)|N]; [|destruct (C N) as (e & -> & _); reflexivity].
      destruct (free_dec fs q') as [F|F]; [|rewrite (B q' L F); reflexivity]. destruct (A q' _ L F (archive_old fs q' F)) as (fs' & o & -> & O & _). apply O. intros ->. contradiction.
Qed.
Lemma run_cons fs o h : io_run fs (o :: h) = io_run (io_step fs o) h.
Proof. reflexivity. Qed.
Lemma run_app fs a b : io_run fs (a ++ b) = io_run (io_run fs a) b.
Proof. apply fold_left_app. Qed.
(** C99: a file no block of the history opened is as it was, and no file appears where none was opened. *)
Theorem C99_untouched : forall h fs q, wf_fs fs -> look fs cwd = Some KDir -> (forall h1 o h2, h = h1 ++ o :: h2 -> spares (io_run fs h1) o q) ->
  (forall k, look fs q = Some k -> look (io_run fs h) q = Some k) /\ (look fs q = None -> look (io_run fs h) q = None \/ look (io_run fs h) q = Some KDir).
Proof.
  induction h as [|o h IH]; intros fs q W D Sp; [split; auto|]. rewrite run_cons. destruct (step_grows fs o W D) as (W1 & G1). destruct (step_spares fs o q W D (Sp [] o h eq_refl)) as (A & B).
  assert (Sp1 : forall h1 o' h2, h = h1 ++ o' :: h2 -> spares (io_run (io_step fs o) h1) o' q) by (intros h1 o' h2 ->; exact (Sp (o :: h1) o' h2 eq_refl)).
  destruct (IH _ q W1 (proj1 G1 _ D) Sp1) as (A1 & B1). split; [auto|]. intros N. destruct (B N) as [K|K]; [auto|]. right. now apply A1.
Qed.
Lemma read_leads fs r q b : leads fs cwd r q -> look fs q = Some (KFile b) -> source_bytes cwd ZC fs (FileSource r) = Ok b.
Proof. intros L F. cbn [source_bytes]. unfold read_at. apply find_leads in L. rewrite L. cbn [bind]. rewrite F. reflexivity. Qed.
(** C99: after any history, a file holds what the last block that opened it wrote, whatever spelling of its path the block's sink and the source use; as text, with line ends
    read as \n. *)
Theorem C99_last_session : forall fs h1 b s ws h2 q fs', wf_fs fs -> look fs cwd = Some KDir ->
  leads (io_run fs h1) cwd s q -> free (io_run fs h1) q -> fs' = io_run fs (h1 ++ UseSink (FileSink b s) ws :: h2) ->
  (forall a o c, h2 = a ++ o :: c -> spares (io_run fs (h1 ++ UseSink (FileSink b s) ws :: a)) o q) ->
  exists outs data, written b ws outs data /\ look fs' q = Some (KFile data) /\
    forall r, leads fs' cwd r q -> source_bytes cwd ZC fs' (FileSource r) = Ok data /\ forall t u, encode t = Ok data -> newlines_read t u -> source_text cwd ZC fs' (FileSource r) = Ok u.
Proof.
  intros fs h1 b s ws h2 q fs' W D L F -> Sp. destruct (C99_history_grows h1 fs W D) as (W1 & D1 & _). destruct (C99_session _ b s ws W1 D1) as (A & _). destruct (A q L F) as (fs2 & outs & data & E & Wr & Q & O).
  exists outs, data. split; [assumption|]. set (o := UseSink (FileSink b s) ws) in *. assert (E2 : io_step (io_run fs h1) o = fs2) by (cbn [o IoFs.io_step]; now rewrite E).
  assert (R : forall a, io_run fs (h1 ++ o :: a) = io_run fs2 a) by (intros a; rewrite run_app, run_cons; now rewrite E2). rewrite !R.
  destruct (step_grows _ o W1 D1) as (W2 & G2). rewrite E2 in W2, G2. assert (D2 := proj1 G2 _ D1).
  assert (Sp2 : forall a o' c, h2 = a ++ o' :: c -> spares (io_run fs2 a) o' q) by (intros a o' c H; rewrite <- R; exact (Sp a o' c H)).
  destruct (C99_untouched h2 fs2 q W2 D2 Sp2) as (K & _). assert (Q' := K _ Q). split; [exact Q'|]. intros r Lr. assert (S1 := read_leads _ r q data Lr Q'). split; [exact S1|].
  intros t u En Nl. unfold source_text. rewrite S1. cbn [bind]. apply C68_round_trip in En. rewrite En. cbn [bind]. f_equal. eapply newlines_read_fun; [apply universal_spec|exact Nl].
Qed.
(** A step that neither opens the file at [q] nor adds an entry [n] to the zip file there. *)
Definition spares_entry (fs : fsys) (o : io_op) (q : list str) (n : str) : Prop :=
  forall k ws s, o = UseSink k ws -> writes_to k s -> leads fs cwd s q -> exists n', k = ZipSink s n' /\ zip_name n' <> n.
Lemma step_entry fs o q n b : wf_fs fs -> look fs cwd = Some KDir -> spares_entry fs o q n -> (exists a, archive_at fs q a /\ zread a n = Some b) -> exists a, archive_at (io_step fs o) q a /\ zread a n = Some b.
Proof.
  intros W D Sp (a & Ar & Z).
  assert (Same : look (io_step fs o) q = look fs q -> exists a, archive_at (io_step fs o) q a /\ zread a n = Some b).
  { intros E. exists a. split; [|assumption]. inversion Ar as [x a' L U|L|x e L U]; subst; [eapply ar_zip|apply ar_none|eapply ar_bad]; try rewrite E; eassumption. }
  assert (F : free fs q) by (inversion Ar; [right; eauto|left; assumption|right; eauto]).
  assert (Ex : exists x, look fs q = Some (KFile x)). { inversion Ar as [x a' L U|L|x e L U]; [eauto| |eauto]. subst a. discriminate. }
  destruct o as [p|p|k ws].
  - apply Same. destruct Ex as (x & L). rewrite L. cbn [IoFs.io_step]. destruct (C99_construction_keeps fs p W D) as ((_ & (X & Y)) & _). auto.
  - apply Same. destruct Ex as (x & L). rewrite L. cbn [IoFs.io_step]. destruct (C99_construction_keeps fs p W D) as (_ & (_ & (X & Y))). auto.
  - cbn [IoFs.io_step] in *. destruct k as [b' s|s n'|]; [| |now apply Same].
    + destruct (C99_session fs b' s ws W D) as (A & B & C). destruct (leads_dec fs s) as [(q' & L)|N]; [|destruct (C N) as (e & E & _); apply Same; now rewrite E].
      destruct (free_dec fs q') as [F'|F']; [|apply Same; now rewrite (B q' L F')]. destruct (A q' L F') as (fs' & outs & data & E & _ & _ & O). apply Same. rewrite E. cbn [fst]. apply O. intros ->.
      destruct (Sp _ _ _ eq_refl (wt_file b' s) L) as (x & X & _). discriminate.
    + destruct (C99_zip_session fs s n' ws W D) as (A & B & C). destruct (leads_dec fs s) as [(q' & L)|N]; [|destruct (C N) as (e & E & _); apply Same; now rewrite E].
      destruct (free_dec fs q') as [F'|F']; [|apply Same; now rewrite (B q' L F')]. destruct (rpath_eqb_spec q q') as [<-|Nq].
      * destruct (Sp _ _ _ eq_refl (wt_zip s n') L) as (x & X & Nn). injection X as <-. destruct (A q a L F Ar) as (fs' & o & E & _ & G1 & G2). rewrite E. cbn [fst].
        destruct (encode (zip_name n')) as [y|e] eqn:En.
        -- destruct G1 as (outs & data & _ & _ & Ar'); [|exists (a ++ [(zip_name n', data)]); split; [assumption|]; rewrite zread_app; destruct (str_eqb (zip_name n') n) eqn:X; [apply str_eqb_eq in X; contradiction|assumption]].
           exact (encodes _ _ En).
        -- exists a. split; [|assumption]. apply G2. intros H. destruct (encodable_ok _ H) as (y & Ey). congruence.
      * destruct (A q' _ L F' (archive_old fs q' F')) as (fs' & o & E & O & _). apply Same. rewrite E. cbn [fst]. now apply O.
Qed.
(** C99: after any history, an entry of a zip file holds what the last block on it wrote, unless the whole file was written over later. *)
Theorem C99_zip_last_session : forall fs h1 s n ws h2 q fs', wf_fs fs -> look fs cwd = Some KDir ->
  leads (io_run fs h1) cwd s q -> free (io_run fs h1) q -> ~ In 0%N n -> encodable n -> fs' = io_run fs (h1 ++ UseSink (ZipSink s n) ws :: h2) ->
  (forall a o c, h2 = a ++ o :: c -> spares_entry (io_run fs (h1 ++ UseSink (ZipSink s n) ws :: a)) o q n) ->
  exists outs data, written true ws outs data /\
    forall r, leads fs' cwd r q -> source_bytes cwd ZC fs' (ZipSource r n) = Ok data /\ forall t u, encode t = Ok data -> newlines_read t u -> source_text cwd ZC fs' (ZipSource r n) = Ok u.
Proof.
  intros fs h1 s n ws h2 q fs' W D L F Z En -> Sp. destruct (C99_history_grows h1 fs W D) as (W1 & D1 & _). destruct (C99_zip_session _ s n ws W1 D1) as (A & _). destruct (A q _ L F (archive_old _ q F)) as (fs2 & o2 & E & O & G & _).
  rewrite (zip_name_id n Z) in G. destruct (G En) as (outs & data & Eo & Wr & Ar). exists outs, data. split; [assumption|]. set (o := UseSink (ZipSink s n) ws) in *. assert (E2 : io_step (io_run fs h1) o = fs2) by (cbn [o IoFs.io_step]; now rewrite E).
  assert (R : forall a, io_run fs (h1 ++ o :: a) = io_run fs2 a) by (intros a; rewrite run_app, run_cons; now rewrite E2). rewrite !R.
  destruct (step_grows _ o W1 D1) as (W2 & G2). rewrite E2 in W2, G2. assert (D2 := proj1 G2 _ D1).
  assert (Sp2 : forall a o' c, h2 = a ++ o' :: c -> spares_entry (io_run fs2 a) o' q n) by (intros a o' c H; rewrite <- R; exact (Sp a o' c H)).
  assert (I : exists a, archive_at fs2 q a /\ zread a n = Some data). { eexists. split; [exact Ar|]. rewrite zread_app, str_eqb_refl. reflexivity. }
  clear -W2 D2 Sp2 I. revert fs2 W2 D2 Sp2 I. induction h2 as [|o h IH]; intros fs2 W2 D2 Sp2 I.
  - intros r Lr. destruct I as (a & Ar & Zr). apply find_leads in Lr. assert (S1 : source_bytes cwd ZC (io_run fs2 []) (ZipSource r n) = Ok data).
    { cbn [IoFs.io_run fold_left source_bytes]. unfold read_at. cbn [IoFs.io_run fold_left] in Lr. rewrite Lr. cbn [bind]. inversion Ar as [x a' L U|L|x e L U]; subst; try discriminate. rewrite L. cbn [bind]. rewrite U. cbn [bind]. rewrite Zr. reflexivity. }
    split; [exact S1|]. intros t u En Nl. unfold source_text. rewrite S1. cbn [bind]. apply C68_round_trip in En. rewrite En. cbn [bind]. f_equal. eapply newlines_read_fun; [apply universal_spec|exact Nl].
  - rewrite run_cons. destruct (step_grows fs2 o W2 D2) as (W3 & G3). apply (IH (io_step fs2 o) W3 (proj1 G3 _ D2)).
    + intros a o' c ->. exact (Sp2 (o :: a) o' c eq_refl).
    + apply step_entry; [assumption|assumption|exact (Sp2 [] o h eq_refl)|assumption].
Qed.
(** C99: reading: the file the path leads to, as bytes or decoded; there is no source for a path that leads nowhere or to something else than a file. *)
Theorem C99_read : forall fs r, 
  (forall q b, leads fs cwd r q -> look fs q = Some (KFile b) -> source_bytes cwd ZC fs (FileSource r) = Ok b /\
     (forall t u, encode t = Ok b -> newlines_read t u -> source_text cwd ZC fs (FileSource r) = Ok u) /\
     ((forall t, encode t <> Ok b) -> source_text cwd ZC fs (FileSource r) = Raise UnicodeDecodeError) /\
     (forall n a d, unzip ZC b = Ok a -> zread a n = Some d -> source_bytes cwd ZC fs (ZipSource r n) = Ok d) /\
     (forall n a, unzip ZC b = Ok a -> ~ In n (map fst a) -> source_bytes cwd ZC fs (ZipSource r n) = Raise KeyError)) /\
  (forall q, leads fs cwd r q -> look fs q = None -> forall n, source_bytes cwd ZC fs (FileSource r) = Raise FileNotFoundError /\ source_bytes cwd ZC fs (ZipSource r n) = Raise FileNotFoundError) /\
  (forall q, leads fs cwd r q -> look fs q = Some KDir -> forall n, source_bytes cwd ZC fs (FileSource r) = Raise IOError /\ source_bytes cwd ZC fs (ZipSource r n) = Raise IOError) /\
  ((forall q, ~ leads fs cwd r q) -> exists e, stuck fs cwd r e /\ forall n, source_bytes cwd ZC fs (FileSource r) = Raise e /\ source_bytes cwd ZC fs (ZipSource r n) = Raise e).
Proof.
  intros fs r. split; [|split; [|split]].
  - intros q b L F. assert (S1 := read_leads fs r q b L F). split; [exact S1|]. split; [|split; [|split]].
    + intros t u En Nl. unfold source_text. rewrite S1. cbn [bind]. apply C68_round_trip in En. rewrite En. cbn [bind]. f_equal. eapply newlines_read_fun; [apply universal_spec|exact Nl].
    + intros N. unfold source_text. rewrite S1. cbn [bind]. destruct (decode b) as [t|e] eqn:X; [exfalso; apply C68_round_trip in X; exact (N t X)|]. cbn [bind]. f_equal. eapply C68_decode_error; eassumption.
    + intros n a d U Z. cbn [source_bytes] in S1 |- *. rewrite S1. cbn [bind]. rewrite U. cbn [bind]. rewrite Z. reflexivity.
    + intros n a U Z. cbn [source_bytes] in S1 |- *. rewrite S1. cbn [bind]. rewrite U. cbn [bind]. destruct (zread a n) eqn:X; [|reflexivity]. exfalso. apply Z. apply zread_in. congruence.
  - intros q L F n. cbn [source_bytes]. unfold read_at. apply find_leads in L. rewrite L. cbn [bind]. rewrite F. split; reflexivity.
  - intros q L F n. cbn [source_bytes]. unfold read_at. apply find_leads in L. rewrite L. cbn [bind]. rewrite F. split; reflexivity.
  - intros N. destruct (os_find cwd fs (parse_path r)) as [q|e] eqn:X; [exfalso; apply (N q); now apply find_leads|]. exists e. split; [now apply find_error|]. intros n. cbn [source_bytes]. unfold read_at. rewrite X. split; reflexivity.
Qed.
(** C99: unlike to_file, file_in_zip makes no directories: with a directory missing above the archive open() fails. *)
Theorem C99_zip_directories_refuted : forall fs s n ws, wf_fs fs -> look fs cwd = Some KDir -> (forall q, ~ leads fs cwd s q) -> ~ In 0%N s ->
  exists k e, file_in_zip (APath s) n = Ok k /\ session fs k ws = (fs, Raise e) /\ (e = FileNotFoundError \/ e = NotADirectoryError).
Proof.
  intros fs s n ws W D N Z. destruct (proj2 (proj2 (C99_zip_session fs s n ws W D)) N) as (e & E & St). exists (ZipSink s n), e. split; [reflexivity|]. split; [exact E|].
  destruct St as [(Z' & _)|(_ & st & pre & c & rest & q & _ & _ & _ & _ & _ & [(_ & X)|(_ & X)])]; [contradiction|auto|auto].
Qed.
End IoFsProps.
