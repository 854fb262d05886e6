(** * Lemmas about the scripts' main functions: files, zip archives written by sinks *)
From Coq Require Import Sorted.
From Verif Require Import Prelude PyStr SortLib TextLib Utf8 Order Range Params ParamsSpec ParamsProofs ParamsGet ParamsGetProps ParamsEval Fs FsProofs FsProps PathLists PathListsProps Decimals Io IoProps AnnotatedTextProps KeyValue KeyValueProps KvParams OsPath OsPathSpec OsPathProofs Scripts ScriptsProps Mains.

(** ** Archives written by sinks can be read again *)
Lemma zip_name_nul n : ~ In 0%N (zip_name n).
Proof. induction n as [|c n IH]; [intros []|]. unfold zip_name in *. destruct (N.eqb_spec c 0); [intros []|]. intros [E|I]; [congruence|auto]. Qed.
Lemma zappend_zip_ok a n b a' : zip_ok a -> zappend a n b = Ok a' -> zip_ok a'.
Proof. intros Z E. unfold zappend in E. destruct (encode (zip_name n)) eqn:X; [|discriminate]. injection E as <-. apply zip_ok_snoc; [assumption|]. split; [apply zip_name_nul|eauto]. Qed.
Lemma writestr_zip_ok a n b a' : zip_ok a -> writestr a n b = Ok a' -> zip_ok a'.
Proof. intros Z E. unfold writestr in E. destruct (zip_name n); [discriminate|]. eauto using zappend_zip_ok. Qed.
Lemma write_keys_zip_ok a ks a' : zip_ok a -> write_keys a ks = Ok a' -> zip_ok a'.
Proof. intros Z E. unfold write_keys in E. destruct (encode (py_join [LF] ks)); [|discriminate]. eauto using writestr_zip_ok. Qed.
(** A sink in use: the file is incomplete, the entries so far are sound. *)
Definition sound (d : disk) (s : sink) : Prop := d = Partial /\ match s_state s with Opened a => zip_ok a | _ => True end.
Lemma put_sound d s k v d' s' o : sound d s -> KeyValue.put same_name d s k v = (d', s', o) -> sound d' s'.
Proof.
  intros (-> & Z) E. unfold KeyValue.put in E. destruct s as [st ks]; simpl in *. destruct st as [|a|]; [inversion E; subst; now split| |].
  - destruct v as [|t|b|]; try (inversion E; subst; now split).
    + destruct (in_keys k ks); [inversion E; subst; now split|]. destruct (encode t) as [b|e]; [|inversion E; subst; now split].
      destruct (writestr a (same_name k) b) eqn:W; inversion E; subst; (split; [reflexivity|]); cbn; eauto using writestr_zip_ok.
    + destruct (in_keys k ks); [inversion E; subst; now split|].
      destruct (writestr a (same_name k) b) eqn:W; inversion E; subst; (split; [reflexivity|]); cbn; eauto using writestr_zip_ok.
    + destruct (in_keys k ks); inversion E; subst; now split.
  - destruct v as [|t|b|]; try (inversion E; subst; now split).
    + destruct (in_keys k ks); [inversion E; subst; now split|]. destruct (encode t) as [b|e]; inversion E; subst; now split.
    + destruct (in_keys k ks); inversion E; subst; now split.
    + destruct (in_keys k ks); inversion E; subst; now split.
Qed.
Lemma enter_sound d : sound (fst (fst (sink_enter true d new_sink))) (snd (fst (sink_enter true d new_sink))).
Proof. split; [reflexivity|]. simpl. intros ? ? []. Qed.
Lemma exit_sound so d s d' s' o : sound d s -> KeyValue.sink_exit so d s = (d', s', o) -> d' <> Absent /\ forall a, d' = Zip a -> zip_ok a.
Proof.
  intros (-> & Z) E. unfold KeyValue.sink_exit in E. destruct (s_state s) as [|a|].
  - inversion E; subst. split; discriminate.
  - destruct (write_keys a (so (s_keys s))) eqn:W; inversion E; subst; (split; [discriminate|]); [|discriminate]. intros x F. injection F as <-. eauto using write_keys_zip_ok.
  - inversion E; subst. split; discriminate.
Qed.
Lemma put_until_sound ops : forall d s d' s' e, sound d s -> put_until d s ops = (d', s', e) -> sound d' s'.
Proof.
  induction ops as [|[k v] ops IH]; intros d s d' s' e Z E; cbn [put_until] in E; [inversion E; now subst|].
  destruct (KeyValue.put same_name d s k v) as [[d1 s1] [u|x]] eqn:P; [|inversion E; subst; eauto using put_sound]. eapply IH; [|eassumption]. eauto using put_sound.
Qed.
Lemma write_stream_sound so d st d' e : write_stream so d st = (d', e) -> d' <> Absent /\ forall a, d' = Zip a -> zip_ok a.
Proof.
  intros E. unfold write_stream in E. assert (Z := enter_sound d). assert (EN : exists s1, sink_enter true d new_sink = (Partial, s1, Ok tt)) by (eexists; reflexivity).
  destruct EN as (s1 & EN). rewrite EN in E, Z. cbn [fst snd] in Z.
  destruct (put_until Partial s1 (fst st)) as [[d2 s2] e2] eqn:P. apply put_until_sound in P; [|assumption]. destruct (KeyValue.sink_exit so d2 s2) as [[d3 s3] e3] eqn:Q. injection E as <- _. exact (exit_sound _ _ _ _ _ _ P Q).
Qed.
Lemma split_loop_sound src n : forall keys i st st' e, (forall j, sound (fst (st j)) (snd (st j))) -> split_loop src n i keys st = (st', e) -> forall j, sound (fst (st' j)) (snd (st' j)).
Proof.
  induction keys as [|k keys IH]; intros i st st' e Z E; cbn [split_loop] in E; [inversion E; now subst|].
  destruct (src_item src k) as [b|x]; [|inversion E; now subst].
  destruct (KeyValue.put same_name (fst (st (i mod n))) (snd (st (i mod n))) k (VBytes b)) as [[d1 s1] o] eqn:P. apply put_sound in P; [|apply Z].
  assert (U : forall j, sound (fst (upd st (i mod n) (d1, s1) j)) (snd (upd st (i mod n) (d1, s1) j))) by (intros j; unfold upd; destruct (j =? i mod n); [assumption|apply Z]).
  destruct o; [eapply IH; eassumption|]. inversion E; now subst.
Qed.
Lemma split_even_sound so reorder n src ds ds' e : split_even so reorder n src ds = (ds', e) -> forall j, j < n -> ds' j <> Absent /\ forall a, ds' j = Zip a -> zip_ok a.
Proof.
  intros E j L. unfold split_even in E. cbv zeta in E. set (st0 := fun j => fst (sink_enter true (ds j) new_sink)) in *.
  assert (Z : forall j, sound (fst (st0 j)) (snd (st0 j))) by (intros; apply enter_sound).
  assert (S0 : forall st e0, (match src_keys src with Raise x => (st0, Some x) | Ok None => (st0, Some TypeError) | Ok (Some keys) => split_loop src n 0 (reorder keys) st0 end) = (st, e0) -> forall j, sound (fst (st j)) (snd (st j))).
  { intros st e0 Q. destruct (src_keys src) as [[keys|]|x]; try (inversion Q; now subst). eapply split_loop_sound; eassumption. }
  lazymatch type of E with context [let '(_, _) := ?m in _] => destruct m as [st e0] eqn:M end. specialize (S0 st e0 M).
  injection E as <- _. cbv beta. apply Nat.ltb_lt in L. rewrite L. specialize (S0 j). destruct (KeyValue.sink_exit so (fst (st j)) (snd (st j))) as [[d s] o] eqn:Q. cbn [fst]. exact (exit_sound _ _ _ _ _ _ S0 Q).
Qed.

(** ** Files *)
Section Files.
Variable ZC : zip_codec.
Variable torn : bytes.
Notation fsys := (list (list str * fnode)) (only parsing).
Lemma look_set fs q b r : q <> [] -> look (set_node fs q b) r = if rpath_eqb q r then Some (KFile b) else look fs r.
Proof. intros N. unfold set_node. rewrite look_cons. destruct (rpath_eqb_spec q r) as [->|]; [|reflexivity]. destruct r; [congruence|reflexivity]. Qed.
Lemma look_set_same fs q b : q <> [] -> look (set_node fs q b) q = Some (KFile b).
Proof. intros N. rewrite look_set by assumption. destruct (rpath_eqb_spec q q); congruence. Qed.
Lemma look_set_other fs q b r : q <> [] -> q <> r -> look (set_node fs q b) r = look fs r.
Proof. intros N D. rewrite look_set by assumption. destruct (rpath_eqb_spec q r); congruence. Qed.
(** A place where a regular file can be written: there is nothing or a regular file. *)
Definition free (fs : fsys) (q : list str) : Prop := look fs q = None \/ exists b, look fs q = Some (KFile b).
Lemma can_write_ok fs c d : wf_fs fs -> look fs d = Some KDir -> free fs (c :: d) -> can_write fs (c :: d) = Ok tt.
Proof.
  intros W D F. unfold can_write. assert (S1 := search_spec fs d W). destruct (search fs d) as [[]|e].
  - cbn [bind]. destruct F as [->|(b & ->)]; reflexivity.
  - exfalso. destruct S1 as [(_ & L & _)|(_ & a & B & k & L & NK)]; [congruence|]. assert (look fs a = Some KDir) by (eapply dir_all_above; eauto). congruence.
Qed.
Lemma can_write_inv fs q : wf_fs fs -> can_write fs q = Ok tt -> exists c d, q = c :: d /\ look fs d = Some KDir /\ free fs q.
Proof.
  intros W E. destruct q as [|c d]; [discriminate|]. exists c, d. split; [reflexivity|]. unfold can_write in E. assert (S1 := search_spec fs d W). destruct (search fs d) as [[]|e]; [|discriminate]. split; [assumption|].
  cbn [bind] in E. unfold free. destruct (look fs (c :: d)) as [[b| |]|]; try discriminate; eauto.
Qed.
Lemma free_not_dir fs c d k : wf_fs fs -> free fs d -> look fs (c :: d) = Some k -> False.
Proof. intros W F L. apply W in L. destruct F as [F|(b & F)]; congruence. Qed.
Lemma set_wf fs c d b : wf_fs fs -> look fs d = Some KDir -> free fs (c :: d) -> wf_fs (set_node fs (c :: d) b).
Proof.
  intros W D F x q k L. rewrite look_set in L by discriminate. destruct (rpath_eqb_spec (c :: d) (x :: q)) as [E|N].
  - injection E as <- <-. rewrite look_set_other; [assumption|discriminate|]. intros E. apply (f_equal (@length _)) in E. simpl in E. lia.
  - destruct (rpath_eqb_spec (c :: d) q) as [<-|N2]; [destruct (free_not_dir fs x (c :: d) k W F L)|]. rewrite look_set_other by (discriminate || assumption). eapply W; eassumption.
Qed.
(** A file holding exactly the pairs (k, val k) as a zip store (see [contains]). *)
Definition holds (fs : fsys) (q : list str) (ks : list str) (val : str -> bytes) : Prop := contains (disk_at ZC fs q) ks val.
Lemma holds_file fs q ks val : holds fs q ks val -> exists b a, look fs q = Some (KFile b) /\ unzip ZC b = Ok a /\ disk_at ZC fs q = Zip a.
Proof.
  intros (z & E & _). unfold disk_at in *. destruct (look fs q) as [[b| |]|]; try discriminate. destruct (unzip ZC b) as [a|] eqn:U; [|discriminate]. eauto.
Qed.
Lemma holds_same fs fs' q ks val : holds fs q ks val -> look fs' q = look fs q -> holds fs' q ks val.
Proof. unfold holds, disk_at. now intros H ->. Qed.
Lemma contains_zip d ks val : contains d ks val -> exists a, d = Zip a.
Proof. intros (z & E & _). destruct d; try discriminate. eauto. Qed.
Lemma disk_put fs q a : q <> [] -> zip_ok a -> disk_at ZC (put_disk ZC torn fs q (Zip a)) q = Zip a.
Proof. intros N Z. unfold disk_at, put_disk. rewrite look_set_same by assumption. now rewrite unzip_dozip. Qed.
Lemma look_put_other fs q d r : q <> [] -> q <> r -> look (put_disk ZC torn fs q d) r = look fs r.
Proof. intros N D. destruct d; simpl put_disk; auto using look_set_other. Qed.
Lemma look_put_file fs q d : q <> [] -> d <> Absent -> exists b, look (put_disk ZC torn fs q d) q = Some (KFile b).
Proof. intros N D. destruct d; simpl put_disk; [congruence|..]; eexists; now apply look_set_same. Qed.
Lemma put_wf fs c d x : wf_fs fs -> look fs d = Some KDir -> free fs (c :: d) -> wf_fs (put_disk ZC torn fs (c :: d) x).
Proof. intros W D F. destruct x; simpl put_disk; auto using set_wf. Qed.
Lemma put_disk_holds so fs q st d e ks val : q <> [] -> write_stream so (disk_at ZC fs q) st = (d, e) -> contains d ks val -> holds (put_disk ZC torn fs q d) q ks val.
Proof.
  intros N E C. destruct (contains_zip _ _ _ C) as (a & ->). unfold holds. apply write_stream_sound in E. destruct E as (_ & Z). rewrite disk_put; auto.
Qed.
End Files.
(** The slices' paths *)
Lemma slice_file_inj dir i j : slice_file dir i = slice_file dir j -> i = j.
Proof. unfold slice_file. intros E. injection E as E. apply app_inv_tail in E. apply decimal_inj in E. lia. Qed.
(** ** Writing several files in one directory *)
Lemma slices_written ZC torn dir ds : forall l fs, NoDup l -> wf_fs fs -> look fs dir = Some KDir -> (forall i, In i l -> free fs (slice_file dir i)) ->
  let fs' := fold_left (fun f i => put_disk ZC torn f (slice_file dir i) (ds i)) l fs in
  wf_fs fs' /\ (forall r, (forall i, In i l -> r <> slice_file dir i) -> look fs' r = look fs r) /\ (forall i a, In i l -> ds i = Zip a -> zip_ok a -> disk_at ZC fs' (slice_file dir i) = Zip a).
Proof.
  induction l as [|i l IH]; intros fs ND W D F fs'; [split; [assumption|]; split; [reflexivity|intros ? ? []]|]. inversion ND as [|? ? N1 N2]; subst.
  set (f1 := put_disk ZC torn fs (slice_file dir i) (ds i)).
  assert (NE : forall j, j <> i -> slice_file dir i <> slice_file dir j) by (intros j Nj E; apply slice_file_inj in E; congruence).
  assert (ND' : slice_file dir i <> dir) by (intros E; apply (f_equal (@length _)) in E; simpl in E; lia).
  destruct (IH f1 N2) as (W1 & L1 & H1).
  - unfold f1, slice_file. apply put_wf; [assumption|assumption|]. apply (F i). now left.
  - unfold f1. rewrite look_put_other; [assumption|discriminate|assumption].
  - intros j Ij. unfold free, f1. rewrite look_put_other; [apply F; now right|discriminate|]. apply NE. congruence.
  - unfold fs'. cbn [fold_left]. fold f1. split; [assumption|]. split.
    + intros r Nr. rewrite L1 by (intros; apply Nr; now right). unfold f1. apply look_put_other; [discriminate|]. intros E. apply (Nr i); [now left|congruence].
    + intros j a [<-|Ij] E Z; [|now apply H1]. unfold disk_at. rewrite L1.
      * change (disk_at ZC f1 (slice_file dir i) = Zip a). unfold f1. rewrite E. apply disk_put; [discriminate|assumption].
      * intros j Ij. apply NE. congruence.
Qed.
Lemma first_failure_none fs dir : forall n i, (forall j, i <= j < i + n -> can_write fs (slice_file dir j) = Ok tt) -> first_failure fs dir i n = None.
Proof. induction n as [|n IH]; intros i H; cbn [first_failure]; [reflexivity|]. rewrite H by lia. apply IH. intros j L. apply H. lia. Qed.
Lemma slices_text_encodes dir n : Forall encodable dir -> exists b, encode (slices_text dir n) = Ok b.
Proof.
  intros F. apply encodable_ok. unfold slices_text. apply join_encodable. intros k I. apply in_map_iff in I. destruct I as (i & <- & _).
  assert (S1 : scalar slash) by (unfold scalar, slash; lia). unfold path_str. constructor; [assumption|].
  assert (G : Forall encodable (rev (slice_file dir i))).
  { apply Forall_rev. constructor; [|assumption]. apply Forall_app. split; apply Forall_forall; intros c I; [apply decimal_digits in I; unfold scalar; lia|].
    simpl in I. unfold scalar. repeat destruct I as [<-|I]; try lia. }
  induction (rev (slice_file dir i)) as [|a l IH]; [constructor|]. inversion G as [|? ? G1 G2]; subst. destruct l as [|b l]; [assumption|].
  change (py_join [slash] (a :: b :: l)) with (a ++ slash :: py_join [slash] (b :: l)). apply Forall_app. split; [assumption|]. constructor; auto.
Qed.
Lemma sorted_strict l : NoDup l -> StronglySorted (fun a b => str_ltb a b = true) (sorted_by str_ltb (fun k => k) l).
Proof.
  intros N. assert (Q := sorted_sorted str_ltb (fun k : str => k) str_ltb_asym str_ltb_ntrans l). assert (P : NoDup (sorted_by str_ltb (fun k => k) l)) by (apply (Permutation_NoDup (Permutation_sym (sorted_perm str_ltb (fun k => k) l))); assumption).
  induction Q as [|x r Q IH F]; [constructor|]. inversion P as [|? ? P1 P2]; subst. constructor; [auto|]. rewrite Forall_forall in *. intros y I. specialize (F y I). unfold kle in F.
  destruct (str_ltb x y) eqn:E; [reflexivity|]. destruct P1. now rewrite (str_ltb_total x y E F).
Qed.
(** Directories stay when directories are made. *)
Lemma made_dirs fs fs' d r : made fs fs' d -> look fs r = Some KDir -> look fs' r = Some KDir.
Proof.
  intros (M1 & M2) L. destruct (at_or_below r d) eqn:E; [apply M1; now apply at_or_below_spec|]. rewrite M2; [assumption|]. intros B. apply at_or_below_spec in B. congruence.
Qed.
Lemma disk_leads cwd ZC fs m q : leads fs cwd m q -> disk_of cwd ZC fs (parse_path m) = disk_at ZC fs q.
Proof. intros L. unfold disk_of. apply find_leads in L. now rewrite L. Qed.
(** Writing a zip file with a stream of distinct pairs. *)
Lemma write_zip_frame ZC torn so fs c d st ks val dd e : wf_fs fs -> look fs d = Some KDir -> free fs (c :: d) ->
  write_stream so (disk_at ZC fs (c :: d)) (st (put_disk ZC torn fs (c :: d) Partial)) = (dd, e) -> contains dd ks val ->
  exists fs', write_zip ZC torn so fs (c :: d) st = (fs', e) /\ holds ZC fs' (c :: d) ks val /\ wf_fs fs' /\ forall r, r <> c :: d -> look fs' r = look fs r.
Proof.
  intros W D F E C. exists (put_disk ZC torn fs (c :: d) dd). unfold write_zip. rewrite (can_write_ok fs c d W D F), E. split; [reflexivity|].
  split; [eapply put_disk_holds; [discriminate|exact E|exact C]|]. split; [now apply put_wf|]. intros r N. apply look_put_other; [discriminate|congruence].
Qed.
(** Lists of pairs with distinct keys, and the first repetition in others. *)
Lemma pairs_of {A} (f : A -> str) (g : A -> bytes) l : NoDup (map f l) -> exists val, map (fun a => (f a, VBytes (g a))) l = pairs val (map f l) /\ forall a, In a l -> val (f a) = g a.
Proof.
  intros N. exists (fun k => match find (fun a => str_eqb (f a) k) l with Some a => g a | None => [] end).
  assert (V : forall a, In a l -> match find (fun x => str_eqb (f x) (f a)) l with Some x => g x | None => [] end = g a).
  { induction l as [|x l IH]; intros a I; [destruct I|]. cbn [map] in N. inversion N as [|? ? N1 N2]; subst. cbn [find]. destruct (str_eqb (f x) (f a)) eqn:E.
    - apply str_eqb_eq in E. destruct I as [->|I]; [reflexivity|]. destruct N1. rewrite E. now apply in_map.
    - apply str_eqb_neq in E. destruct I as [->|I]; [congruence|auto]. }
  split; [|exact V]. unfold pairs. rewrite map_map. apply map_ext_in. intros a I. now rewrite (V a I).
Qed.
Lemma first_repetition {A} (f : A -> str) l : ~ NoDup (map f l) -> exists l1 a l2, l = l1 ++ a :: l2 /\ NoDup (map f l1) /\ In (f a) (map f l1).
Proof.
  intros N. assert (G : forall r l1, l = l1 ++ r -> NoDup (map f l1) -> exists l1 a l2, l = l1 ++ a :: l2 /\ NoDup (map f l1) /\ In (f a) (map f l1)); [|apply (G l []); [reflexivity|constructor]].
  induction r as [|a r IH]; intros l1 E N1; [rewrite app_nil_r in E; subst; contradiction|].
  destruct (in_dec (list_eq_dec N.eq_dec) (f a) (map f l1)) as [I|I]; [exists l1, a, r; auto|]. apply (IH (l1 ++ [a])); [rewrite E, <- app_assoc; reflexivity|].
  rewrite map_app. simpl. apply NoDup_Add with (a := f a) (l := map f l1); [|auto]. replace (map f l1) with (map f l1 ++ []) at 1 by apply app_nil_r. apply Add_app.
Qed.
Lemma nodup_map {A B} (f : A -> B) l : NoDup l -> (forall x y, In x l -> In y l -> f x = f y -> x = y) -> NoDup (map f l).
Proof.
  induction l as [|x l IH]; intros N J; [constructor|]. inversion N as [|? ? N1 N2]; subst. cbn [map]. constructor; [|apply IH; [assumption|]; intros; apply J; simpl; auto].
  intros I. apply in_map_iff in I. destruct I as (y & E & I). apply N1. rewrite <- (J y x); simpl; auto.
Qed.
