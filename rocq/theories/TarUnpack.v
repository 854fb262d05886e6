(** * Property C123: tar_gz_to_zip --dont-stream with damaged tar files and with repeated names *)
From Verif Require Import Prelude PyStr TextLib Utf8 Params Fs FsProofs FsProps Io IoProps KeyValue KeyValueProps Scripts ScriptsProps Mains MainsProofs TarMain TarMainProps.

(** ** Specification *)
(** What the last member named [n] holds. *)
Definition last_content (ms : list (str * kind)) (n : str) (b : bytes) : Prop := exists l1 l2, ms = l1 ++ (n, TFile b) :: l2 /\ ~ In n (map fst l2).
(** As [unpackable], but names may be repeated, if not for a file and a directory: nothing in the archive or on the disk is in the way of a member, and none hits the output or the tar file. *)
Definition unpackable_again (cwd : list str) (fs : list (list str * fnode)) (out tar : list str) (ms : list (str * kind)) : Prop :=
  (forall n k, In (n, k) ms -> k <> TOther /\ (exists b, encode n = Ok b) /\ exists q, lies_at cwd n q /\ ~ below out q /\ q <> tar /\
     (forall r, below r (tl q) -> look fs r = None \/ look fs r = Some KDir) /\
     (k = TDir -> look fs q = None \/ look fs q = Some KDir) /\ (k <> TDir -> look fs q = None \/ exists b, look fs q = Some (KFile b))) /\
  (forall n b n' k' q q', In (n, TFile b) ms -> In (n', k') ms -> lies_at cwd n q -> lies_at cwd n' q' -> below q q' -> q = q' /\ k' <> TDir).
(** After unpacking [ms] in [fs]: files with the last content of their name, the directories of the archive and those above its members; else what was there before, except for the output. *)
Definition all_unpacked (cwd : list str) (fs fs' : list (list str * fnode)) (out : list str) (ms : list (str * kind)) : Prop :=
  (forall n b q, last_content ms n b -> lies_at cwd n q -> look fs' q = Some (KFile b)) /\
  (forall n q, In (n, TDir) ms -> lies_at cwd n q -> look fs' q = Some KDir) /\ (forall r, above cwd ms r -> look fs' r = Some KDir) /\
  (forall r, r <> out -> ~ above cwd ms r -> (forall n k, In (n, k) ms -> ~ lies_at cwd n r) -> look fs' r = look fs r).

Lemma last_cons m ms n b : last_content ms n b -> last_content (m :: ms) n b.
Proof. intros (l1 & l2 & -> & N). exists (m :: l1), l2. auto. Qed.
Lemma last_first ms n b : ~ In n (map fst ms) -> last_content ((n, TFile b) :: ms) n b.
Proof. intros N. exists [], ms. auto. Qed.
Lemma last_in ms n b : last_content ms n b -> In (n, TFile b) ms.
Proof. intros (l1 & l2 & -> & _). apply in_or_app. right. now left. Qed.
Lemma last_exists ms n : (forall k, In (n, k) ms -> exists b, k = TFile b) -> In n (map fst ms) -> exists b, last_content ms n b.
Proof.
  induction ms as [|(n', k) ms IH]; intros F I; [destruct I|]. destruct (in_dec (list_eq_dec N.eq_dec) n (map fst ms)) as [J|J].
  - destruct (IH (fun k I => F k (or_intror I)) J) as (b & L). exists b. now apply last_cons.
  - destruct I as [E|I]; [|now elim J]. cbn [fst] in E. subst n'. destruct (F k (or_introl eq_refl)) as (b & ->). exists b. now apply last_first.
Qed.
Lemma last_unique ms n b b' : last_content ms n b -> last_content ms n b' -> b = b'.
Proof.
  intros (l1 & l2 & E & N) (l1' & l2' & E' & N'). subst ms. revert l1' E'. induction l1 as [|m l1 IH]; intros [|m' l1'] E'; cbn [app] in E'.
  - congruence.
  - injection E' as <- E'. exfalso. apply N. rewrite E', map_app. apply in_or_app. right. now left.
  - injection E' as -> E'. exfalso. apply N'. rewrite <- E', map_app. apply in_or_app. right. now left.
  - injection E' as _ E'. exact (IH l1' E').
Qed.

Section P.
Notation fsys := (list (list str * fnode)) (only parsing).
Variable cwd : list str.
Variable ZC : zip_codec.
Variable torn : bytes.
Variable untar : bytes -> res (list (str * kind) * option exn).
Hypothesis cwd_proper : Forall proper cwd.
Notation tar_main := (tar_main cwd ZC torn untar).
Notation zip_at := (zip_at ZC).
Notation opened := (opened torn).

Definition unobstructed_again (ms : list (str * kind)) : Prop :=
  forall n b n' k' q q', In (n, TFile b) ms -> In (n', k') ms -> lies_at cwd n q -> lies_at cwd n' q' -> below q q' -> q = q' /\ k' <> TDir.
Definition after_again (fs fs' : fsys) (ms : list (str * kind)) : Prop :=
  forall r, (exists n b, last_content ms n b /\ lies_at cwd n r /\ look fs' r = Some (KFile b)) \/
            (above cwd ms r \/ exists n, In (n, TDir) ms /\ lies_at cwd n r) /\ look fs' r = Some KDir \/
            ~ above cwd ms r /\ (forall n k, In (n, k) ms -> ~ lies_at cwd n r) /\ look fs' r = look fs r.
Lemma extract_again ms : forall fs, wf_fs fs -> (forall m, In m ms -> room cwd fs m) -> unobstructed_again ms -> exists fs', extract_all cwd fs ms = (fs', None) /\ wf_fs fs' /\ after_again fs fs' ms.
Proof.
  clear. induction ms as [|m ms IH]; intros fs W R A; cbn [extract_all].
  - exists fs. split; [reflexivity|]. split; [assumption|]. intros r. right. right. split; [intros (n & k & q & [] & _)|]. split; [intros n k []|reflexivity].
  - destruct (extract_one cwd fs m W (R m (or_introl eq_refl))) as (fs1 & E & W1 & P1). rewrite E.
    assert (R1 : forall m', In m' ms -> room cwd fs1 m').
    { intros (n', k') I. destruct (R (n', k') (or_intror I)) as (q' & L' & K' & U' & Rd' & Rf'). cbn [fst snd] in *. exists q'. cbn [fst snd]. split; [assumption|]. split; [assumption|]. assert (Nq' := lies_nonnil cwd n' q' L').
      split; [|split].
      - intros r B. destruct (P1 r) as [(v & Pv & ->)|(_ & ->)]; [|now apply U']. destruct Pv as [(n & b & [->|[]] & L & ->)|(-> & _)]; [|now right]. exfalso.
        assert (r = q') as -> by (apply (A n b n' k' r q'); [now left|now right|assumption|assumption|now apply below_tl]). exact (tl_not_below q' Nq' B).
      - intros ->. destruct (P1 q') as [(v & Pv & ->)|(_ & ->)]; [|now apply Rd']. destruct Pv as [(n & b & [->|[]] & L & ->)|(-> & _)]; [|now right]. exfalso.
        destruct (A n b n' TDir q' q' (or_introl eq_refl) (or_intror I) L L' (below_refl _)) as (_ & X). now apply X.
      - intros Nk. destruct (P1 q') as [(v & Pv & ->)|(_ & ->)]; [|now apply Rf']. destruct k' as [b'| |]; [|congruence|congruence]. destruct Pv as [(n & b & J & L & ->)|(-> & [(n & k & q & [->|[]] & L & B)|(n & [->|[]] & L)])]; [right; eauto| |].
        + exfalso. assert (q' = q) as -> by (apply (A n' b' n k q' q); [now right|now left|assumption|assumption|now apply below_tl]). exact (tl_not_below q Nq' B).
        + exfalso. destruct (A n' b' n TDir q' q' (or_intror I) (or_introl eq_refl) L' L (below_refl _)) as (_ & X). now apply X. }
    assert (A1 : unobstructed_again ms) by (intros n b n' k' q q' I I'; apply (A n b n' k' q q'); now right).
    destruct (IH fs1 W1 R1 A1) as (fs2 & E2 & W2 & P2). exists fs2. split; [assumption|]. split; [assumption|].
    intros r. destruct (P2 r) as [(n & b & Lc & L & Ev)|[([(n & k & q & I & L & B)|(n & I & L)] & Ev)|(Na & Nl & Ev)]].
    + left. exists n, b. split; [now apply last_cons|auto].
    + right. left. split; [|assumption]. left. exists n, k, q. split; [now right|auto].
    + right. left. split; [|assumption]. right. exists n. split; [now right|auto].
    + rewrite Ev. destruct (P1 r) as [(v & Pv & Ev1)|(Nv1 & Ev1)].
      * destruct Pv as [(n & b & [->|[]] & L & ->)|(-> & [(n & k & q & [->|[]] & L & B)|(n & [->|[]] & L)])].
        -- left. exists n, b. split; [|auto]. apply last_first. intros I. apply in_map_iff in I. destruct I as ((n', k) & En & I). cbn [fst] in En. subst n'. exact (Nl n k I L).
        -- right. left. split; [|assumption]. left. exists n, k, q. split; [now left|auto].
        -- right. left. split; [|assumption]. right. exists n. split; [now left|auto].
      * right. right. split; [|split; [|assumption]].
        -- intros (n & k & q & [->|I] & L & B); [|apply Na; exists n, k, q; auto]. apply (Nv1 KDir). right. split; [reflexivity|]. left. exists n, k, q. split; [now left|auto].
        -- intros n k [->|I] L; [|exact (Nl n k I L)]. destruct k as [b| |].
           ++ apply (Nv1 (KFile b)). left. exists n, b. split; [now left|auto].
           ++ apply (Nv1 KDir). right. split; [reflexivity|]. right. exists n. split; [now left|auto].
           ++ destruct (R _ (or_introl eq_refl)) as (q & _ & K & _). now apply K.
Qed.
Lemma extracted fs dir name d ms : wf_fs fs -> argument cwd dir name d -> look fs d = Some KDir -> look fs (output_name name :: d) <> Some KDir ->
  unpackable_again cwd fs (output_name name :: d) (name :: d) ms ->
  exists fs3, extract_all cwd (opened fs (output_name name :: d)) ms = (fs3, None) /\ wf_fs fs3 /\ after_again (opened fs (output_name name :: d)) fs3 ms.
Proof.
  clear. intros W A D No (Rm & Ob). apply extract_again; [exact (opened_wf torn fs _ d W D No)| |exact Ob].
  intros (n, k) I. destruct (Rm n k I) as (K & _ & q & Lq & Nb & _ & U1 & U2 & U3). exists q. cbn [fst snd]. split; [assumption|]. split; [assumption|].
  assert (O : forall r, below r q -> look (opened fs (output_name name :: d)) r = look fs r).
  { intros r B. rewrite opened_look. destruct (rpath_eqb_spec (output_name name :: d) r) as [<-|_]; [now apply Nb in B|reflexivity]. }
  rewrite !(O q (below_refl q)). split; [|auto]. intros r B. rewrite O by now apply below_tl. now apply U1.
Qed.
(** what lies where, from [after_again] *)
Lemma after_all fs fs3 out tar ms : unpackable_again cwd fs out tar ms -> after_again (opened fs out) fs3 ms -> out <> [] -> all_unpacked cwd fs fs3 out ms.
Proof.
  clear. intros (Rm & Ob) P No. split; [|split; [|split]].
  - intros n b q Lc L. assert (I := last_in ms n b Lc). destruct (P q) as [(n' & b' & Lc' & L' & ->)|[([(n' & k & q' & I' & L' & B)|(n' & I' & L')] & _)|(_ & Nl & _)]].
    + assert (n' = n) as -> by exact (lies_inj cwd n' n q L' L). now rewrite (last_unique ms n b b' Lc Lc').
    + exfalso. assert (q = q') as -> by (apply (Ob n b n' k q q'); auto; now apply below_tl). exact (tl_not_below q' (lies_nonnil cwd n' q' L') B).
    + exfalso. destruct (Ob n b n' TDir q q I I' L L' (below_refl _)) as (_ & X). now apply X.
    + exfalso. exact (Nl n _ I L).
  - intros n q I L. destruct (P q) as [(n' & b' & Lc' & L' & _)|[(_ & ->)|(_ & Nl & _)]]; [exfalso|reflexivity|exfalso; exact (Nl n _ I L)].
    destruct (Ob n' b' n TDir q q (last_in ms n' b' Lc') I L' L (below_refl _)) as (_ & X). now apply X.
  - intros r Ab. assert (Ab' := Ab). destruct Ab' as (n & k & q & I & L & B). destruct (P r) as [(n' & b' & Lc' & L' & _)|[(_ & ->)|(Na & _)]]; [exfalso|reflexivity|now elim Na].
    assert (r = q) as -> by (apply (Ob n' b' n k r q); auto; [now apply last_in|now apply below_tl]). exact (tl_not_below q (lies_nonnil cwd n q L) B).
  - intros r Nr Na Nl. destruct (P r) as [(n' & b' & Lc' & L' & _)|[([Ab|(n' & I' & L')] & _)|(_ & _ & ->)]].
    + exfalso. exact (Nl n' _ (last_in ms n' b' Lc') L').
    + now elim Na.
    + exfalso. exact (Nl n' _ I' L').
    + destruct out as [|c d]; [congruence|]. rewrite opened_look. destruct (rpath_eqb_spec (c :: d) r); [congruence|reflexivity].
Qed.
Lemma unpacked_outside fs out tar ms n k q : unpackable_again cwd fs out tar ms -> In (n, k) ms -> lies_at cwd n q -> ~ below out q.
Proof. clear. intros (Rm & _) I L. destruct (Rm n k I) as (_ & _ & q' & L' & Nb & _). now rewrite (lies_unique cwd n q q' L L'). Qed.
Lemma all_unpacked_closed fs fs3 out tar ms z : out <> [] -> unpackable_again cwd fs out tar ms -> all_unpacked cwd fs fs3 out ms -> all_unpacked cwd fs (set_node fs3 out z) out ms.
Proof.
  clear. intros No U (A1 & A2 & A3 & A4). split; [|split; [|split]].
  - intros n b q Lc L. rewrite look_set_other; [exact (A1 n b q Lc L)|exact No|]. intros <-. exact (unpacked_outside fs out tar ms n _ out U (last_in ms n b Lc) L (below_refl _)).
  - intros n q I L. rewrite look_set_other; [exact (A2 n q I L)|exact No|]. intros <-. exact (unpacked_outside fs out tar ms n _ out U I L (below_refl _)).
  - intros r Ab. rewrite look_set_other; [exact (A3 r Ab)|exact No|]. intros <-. destruct Ab as (n & k & q & I & L & B). exact (unpacked_outside fs out tar ms n k q U I L (below_tl _ _ B)).
  - intros r Nr Na Nl. rewrite look_set_other; [exact (A4 r Nr Na Nl)|exact No|congruence].
Qed.
(** C123: with --dont-stream, a tar file that is damaged after the members [ms] yields an empty zip file and that error; all of [ms] stay unpacked in the current
    directory, over the files of their names that were there. *)
Theorem C123_damaged : forall fs dir name d out b ms e cutoff, wf_fs fs -> argument cwd dir name d -> zip_named name out ->
  look fs (name :: d) = Some (KFile b) -> look fs (out :: d) <> Some KDir -> untar b = Ok (ms, Some e) -> unpackable_again cwd fs (out :: d) (name :: d) ms ->
  exists fs', tar_main (dir ++ name) true cutoff fs = (fs', Some e) /\ zip_at fs' (out :: d) [] /\ all_unpacked cwd fs fs' (out :: d) ms.
Proof.
  intros fs dir name d out b ms e cutoff W A Zn L No U Un. apply zip_named_output in Zn. subst out. assert (D : look fs d = Some KDir) by exact (W _ _ _ L).
  destruct (extracted fs dir name d ms W A D No Un) as (fs3 & E & W3 & P). exists (set_node fs3 (output_name name :: d) (dozip ZC [] [])). split; [|split].
  - rewrite (run_opened cwd ZC torn untar cwd_proper fs dir name d true cutoff W A D No). cbv zeta. rewrite opened_look. destruct (output_proper name) as (_ & No'); [apply A|].
    destruct (rpath_eqb_spec (output_name name :: d) (name :: d)) as [Ee|_]; [congruence|]. rewrite L, U, E. reflexivity.
  - eapply closed_zip; [reflexivity|]. intros n' b' [].
  - apply (all_unpacked_closed fs fs3 _ (name :: d)); [discriminate|exact Un|]. exact (after_all fs fs3 _ _ ms Un P ltac:(discriminate)).
Qed.

(** The loop looks at the names only: the contents come from the disk. *)
Lemma pack_contents l files files' : files_of l files -> map fst files' = map fst l -> forall fs a rest, pack cwd fs a (l ++ rest) = pack cwd fs a (map (fun e => (fst e, TFile (snd e))) files' ++ rest).
Proof.
  clear. intros F. revert files'. induction F as [|n b l a0 F IH]; intros [|(n', b') files'] E fs a rest; try discriminate; [reflexivity|]. cbn [map fst] in E. injection E as -> E. cbn [map app pack fst snd].
  destruct (zip_write cwd fs a n) as [a'|e]; [|reflexivity]. destruct (let* q := resolve cwd n in Ok (os_remove fs q)) as [(fs1, [e|])|e]; [reflexivity| |reflexivity]. exact (IH files' E fs1 a' rest).
Qed.
Lemma files_back (a : archive) : files_of (map (fun e => (fst e, TFile (snd e))) a) a.
Proof. clear. induction a as [|(n, b) a IH]; constructor. exact IH. Qed.
Lemma files_names l files : files_of l files -> forall n k, In (n, k) l -> exists b, k = TFile b.
Proof. clear. intros F n k I. destruct (files_in l files F n k I) as (b & -> & _). eauto. Qed.
Lemma contents_of ms (l : list (str * kind)) : (forall n, In n (map fst l) -> exists b, last_content ms n b) -> exists a : archive, map fst a = map fst l /\ forall n b, In (n, b) a -> last_content ms n b.
Proof.
  clear. induction l as [|(n, k) l IH]; intros H; [exists []; split; [reflexivity|intros n b []]|]. destruct (IH (fun n I => H n (or_intror I))) as (a & E & F). destruct (H n (or_introl eq_refl)) as (b & L).
  exists ((n, b) :: a). cbn [map fst]. split; [now rewrite E|]. intros n' b' [Ee|I]; [injection Ee as <- <-; exact L|exact (F n' b' I)].
Qed.
Lemma back_in (a : archive) n b : In (n, TFile b) (map (fun e => (fst e, TFile (snd e))) a) <-> In (n, b) a.
Proof. clear. split; [intros I; apply in_map_iff in I; destruct I as ((n', b') & E & I); cbn [fst snd] in E; injection E as -> ->; exact I|intros I; apply in_map_iff; exists (n, b); auto]. Qed.
Lemma back_names (a : archive) : map fst (map (fun e => (fst e, TFile (snd e))) a) = map fst a.
Proof. clear. rewrite map_map. reflexivity. Qed.
(** Documented: "Should the tar contents be added to the zip file by unpacking them to disk first".  Refuted for tar files with two files of one name, as "tar -r" makes
    them: the second is not there any more when the loop comes to it.  The zip file has the files before it, each with the last content of its name; those after it
    whose names are new stay unpacked. *)
Theorem C123_again_refuted : forall fs dir name d out b l1 files n data l2 cutoff, wf_fs fs -> argument cwd dir name d -> zip_named name out ->
  look fs (name :: d) = Some (KFile b) -> look fs (out :: d) <> Some KDir -> untar b = Ok (l1 ++ (n, TFile data) :: l2, None) -> files_of l1 files -> NoDup (map fst l1) -> In n (map fst l1) ->
  unpackable_again cwd fs (out :: d) (name :: d) (l1 ++ (n, TFile data) :: l2) ->
  exists fs' a, tar_main (dir ++ name) true cutoff fs = (fs', Some FileNotFoundError) /\ zip_at fs' (out :: d) a /\
    map fst a = map fst l1 /\ (forall n' b', In (n', b') a -> last_content (l1 ++ (n, TFile data) :: l2) n' b') /\
    (forall n' q, In n' (map fst l1) -> lies_at cwd n' q -> look fs' q = None) /\
    (forall n' b' q, last_content (l1 ++ (n, TFile data) :: l2) n' b' -> ~ In n' (map fst l1) -> lies_at cwd n' q -> look fs' q = Some (KFile b')).
Proof.
  intros fs dir name d out b l1 files n data l2 cutoff W A Zn L No U F ND In1 Un. apply zip_named_output in Zn. subst out. assert (D : look fs d = Some KDir) by exact (W _ _ _ L).
  set (ms := l1 ++ (n, TFile data) :: l2) in *. destruct (extracted fs dir name d ms W A D No Un) as (fs3 & E & W3 & P). assert (Un' := Un). destruct Un' as (Rm & Ob).
  destruct (after_all fs fs3 _ _ ms Un P ltac:(discriminate)) as (A1 & _ & _ & _).
  assert (Lc : forall n', In n' (map fst l1) -> exists b', last_content ms n' b').
  { intros n' I. apply in_map_iff in I. destruct I as ((n'', k) & En & I). cbn [fst] in En. subst n''. destruct (files_names l1 files F n' k I) as (b1 & ->). assert (I' : In (n', TFile b1) ms) by (apply in_or_app; now left).
    apply last_exists; [|exact (in_map fst _ _ I')]. intros k J. destruct (Rm n' k J) as (K & _ & q & Lq & _). destruct (Ob n' b1 n' k q q I' J Lq Lq (below_refl _)) as (_ & K'). destruct k as [b2| |]; [eauto|congruence|congruence]. }
  destruct (contents_of ms l1 Lc) as (a & Ea & Ca). set (l1' := map (fun e => (fst e, TFile (snd e))) a).
  assert (Ia : forall n' b', In (n', b') a -> exists k, In (n', k) ms).
  { intros n' b' I. exists (TFile b'). exact (last_in ms n' b' (Ca n' b' I)). }
  destruct (pack_files cwd l1' a (files_back a) fs3 [] ((n, TFile data) :: l2)) as (fs4 & E4 & G1 & G2).
  { unfold l1'. rewrite back_names, Ea. exact ND. }
  { intros n' b' I. apply back_in in I. destruct (Ia n' b' I) as (k & J). destruct (Rm n' k J) as (_ & En & q & Lq & _). split; [exact En|]. exists q. split; [exact Lq|]. exact (A1 n' b' q (Ca n' b' I) Lq). }
  assert (Nout : forall n k q, In (n, k) ms -> lies_at cwd n q -> output_name name :: d <> q).
  { intros n' k' q' I' L' <-. exact (unpacked_outside fs _ _ ms n' k' _ Un I' L' (below_refl _)). }
  assert (Gone : forall n' q, In n' (map fst l1) -> lies_at cwd n' q -> look fs4 q = None).
  { intros n' q I Lq. rewrite <- Ea in I. apply in_map_iff in I. destruct I as ((n'', b') & En & I). cbn [fst] in En. subst n''. exact (G1 n' b' q (proj2 (back_in a n' b') I) Lq). }
  assert (Im : In (n, TFile data) ms) by (apply in_or_app; right; now left). destruct (Rm n _ Im) as (_ & _ & q & Lq & _).
  exists (set_node fs4 (output_name name :: d) (dozip ZC [] a)), a. split; [|split; [|split; [|split; [|split]]]].
  - rewrite (run_opened cwd ZC torn untar cwd_proper fs dir name d true cutoff W A D No). cbv zeta. rewrite opened_look. destruct (output_proper name) as (_ & No'); [apply A|].
    destruct (rpath_eqb_spec (output_name name :: d) (name :: d)) as [Ee|_]; [congruence|]. rewrite L, U, E. unfold ms. rewrite (pack_contents l1 files a F Ea fs3 [] ((n, TFile data) :: l2)). fold l1'. rewrite E4. cbn [app pack fst snd].
    unfold zip_write. rewrite (lies_resolve cwd n q Lq). cbn [bind]. rewrite (Gone n q In1 Lq). reflexivity.
  - eapply closed_zip; [reflexivity|]. intros n' b' I. destruct (Ia n' b' I) as (k & J). destruct (Rm n' k J) as (_ & En & q' & Lq' & _). exact (lies_name_ok cwd n' q' Lq' En).
  - exact Ea.
  - exact Ca.
  - intros n' q' I Lq'. rewrite look_set_other; [exact (Gone n' q' I Lq')|discriminate|]. destruct (Lc n' I) as (b' & X). exact (Nout n' _ q' (last_in ms n' b' X) Lq').
  - intros n' b' q' X Nn Lq'. rewrite look_set_other; [|discriminate|exact (Nout n' _ q' (last_in ms n' b' X) Lq')]. rewrite G2; [exact (A1 n' b' q' X Lq')|].
    intros n2 b2 I L2. apply back_in in I. assert (n2 = n') as -> by exact (lies_inj cwd n2 n' q' L2 Lq'). apply Nn. rewrite <- Ea. exact (in_map fst _ _ I).
Qed.
End P.

(** ** Witness *)
Definition ms123 : list (str * kind) := [(!!"c", TFile !!"22"); (!!"a/b", TFile !!"1"); (!!"c", TFile !!"333"); (!!"e", TFile !!"4")].
Definition untar123 (b : bytes) : res (list (str * kind) * option exn) := match b with [1%N] => Ok (ms123, None) | [2%N] => Ok (ms123, Some AnyError) | _ => Raise AnyError end.
Notation run123 := (tar_main [!!"w"] toy_zip [] untar123).
Example C123_witness :
  (let r := run123 !!"d/x.tar" true None (fs90 [1%N]) in snd r = Some FileNotFoundError /\ out90 r = Ok [(!!"c", !!"333"); (!!"a/b", !!"1")] /\ look (fst r) [!!"c"; !!"w"] = None /\ look (fst r) [!!"e"; !!"w"] = Some (KFile !!"4")) /\
  (let r := run123 !!"d/x.tar" true None (fs90 [2%N]) in snd r = Some AnyError /\ out90 r = Ok [] /\ look (fst r) [!!"c"; !!"w"] = Some (KFile !!"333") /\ look (fst r) [!!"b"; !!"a"; !!"w"] = Some (KFile !!"1") /\ look (fst r) [!!"a"; !!"w"] = Some KDir) /\
  (let r := run123 !!"d/x.tar" false None (fs90 [1%N]) in snd r = None /\ out90 r = Ok [(!!"c", !!"22"); (!!"a/b", !!"1"); (!!"c", !!"333"); (!!"e", !!"4")]).
Proof. vm_compute. repeat split. Qed.
Lemma lies123_e : lies_at [!!"w"] !!"e" [!!"e"; !!"w"]. Proof. apply one_part90; [proper90|reflexivity]. Qed.
Example C123_hypotheses : (forall b, unpackable_again [!!"w"] (fs90 b) [!!"x.zip"; !!"d"; !!"w"] [!!"x.tar"; !!"d"; !!"w"] ms123) /\ wf_fs (fs90 [1%N]) /\ argument [!!"w"] !!"d/" !!"x.tar" [!!"d"; !!"w"] /\ zip_named !!"x.tar" !!"x.zip" /\
  (exists l1 l2 files, ms123 = l1 ++ (!!"c", TFile !!"333") :: l2 /\ files_of l1 files /\ NoDup (map fst l1) /\ In !!"c" (map fst l1)).
Proof.
  split; [|split; [apply C90_hypotheses|]; split; [apply C90_hypotheses|]; split; [apply C90_hypotheses|]; exists [(!!"c", TFile !!"22"); (!!"a/b", TFile !!"1")], [(!!"e", TFile !!"4")], [(!!"c", !!"22"); (!!"a/b", !!"1")];
    split; [reflexivity|]; split; [repeat constructor|]; split; [repeat constructor; vm_compute; intuition discriminate|now left]].
  intros b. assert (Up : forall r, In r [[!!"a"; !!"w"]; [!!"w"]; []] -> look (fs90 b) r = None \/ look (fs90 b) r = Some KDir) by (intros r [<-|[<-|[<-|[]]]]; [left|right|right]; reflexivity).
  assert (Loc : forall n k, In (n, k) ms123 -> exists q, lies_at [!!"w"] n q /\ In (n, q) [(!!"c", [!!"c"; !!"w"]); (!!"a/b", [!!"b"; !!"a"; !!"w"]); (!!"e", [!!"e"; !!"w"])] /\ exists b, k = TFile b).
  { intros n k I. destruct I as [E|[E|[E|[E|[]]]]]; injection E as <- <-; [exists [!!"c"; !!"w"]|exists [!!"b"; !!"a"; !!"w"]|exists [!!"c"; !!"w"]|exists [!!"e"; !!"w"]];
    (split; [first [exact lies90_c|exact lies90_ab|exact lies123_e]|]; split; [cbn [In]; auto|eauto]). }
  split.
  - intros n k I. destruct (Loc n k I) as (q & L & J & b' & ->). split; [discriminate|]. split; [|exists q; split; [exact L|]].
    + destruct J as [E|[E|[E|[]]]]; injection E as <- _; eexists; vm_compute; reflexivity.
    + destruct J as [E|[E|[E|[]]]]; injection E as <- <-; (split; [intros B; apply above90 in B; vm_compute in B; intuition discriminate|]; split; [discriminate|]; split; [intros r B; apply above90 in B; apply Up; vm_compute in B |- *; tauto|]; split; [discriminate|]; intros _; first [left; reflexivity|right; eexists; reflexivity]).
  - intros n b1 n' k' q q' I I' L L' B. destruct (Loc n _ I) as (q1 & L1 & J & _). destruct (Loc n' k' I') as (q1' & L1' & J' & b2 & ->). rewrite (lies_unique _ n q q1 L L1) in *. rewrite (lies_unique _ n' q' q1' L' L1') in *. split; [|discriminate]. clear -J J' B.
    destruct J as [E|[E|[E|[]]]]; injection E as <- <-; (destruct J' as [E|[E|[E|[]]]]; injection E as <- <-); try reflexivity; exfalso; apply above90 in B; vm_compute in B; intuition discriminate.
Qed.
Print Assumptions C123_damaged.
Print Assumptions C123_again_refuted.
