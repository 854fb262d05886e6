(** * Character and byte sources and sinks: theorems (C65, C66, C67) *)
From Coq Require Import Sorted.
From Verif Require Import Prelude PyStr SortLib TextLib Utf8 AnnotatedTextProps Io.

(** ** Specification *)
(** Reading a text file: \r\n and a \r not followed by \n become \n, everything else is kept. *)
Inductive newlines_read : str -> str -> Prop :=
| nr_nil : newlines_read [] []
| nr_crlf s t : newlines_read s t -> newlines_read (CR :: LF :: s) (LF :: t)
| nr_cr s t : (forall r, s <> LF :: r) -> newlines_read s t -> newlines_read (CR :: s) (LF :: t)
| nr_other c s t : c <> CR -> newlines_read s t -> newlines_read (c :: s) (c :: t).
Definition encodable (s : str) : Prop := Forall scalar s.
Lemma universal_spec s : newlines_read s (universal_newlines s).
Proof.
  remember (length s) as n eqn:L. assert (length s <= n)%nat as Ln by lia. clear L. revert s Ln.
  induction n as [|n IH]; intros [|c s] L; simpl in *; try constructor; [lia|].
  destruct (N.eqb_spec c CR) as [->|N].
  - destruct s as [|d s].
    + constructor; [discriminate|constructor].
    + simpl in L. destruct (N.eqb_spec d LF) as [->|ND].
      * constructor. apply IH. lia.
      * apply nr_cr; [congruence|]. apply IH. simpl. lia.
  - constructor; [assumption|]. apply IH. lia.
Qed.
Lemma newlines_read_fun s t : newlines_read s t -> forall t', newlines_read s t' -> t = t'.
Proof.
  induction 1 as [|s t H IH|s t N H IH|c s t N H IH]; intros t' H'; inversion H'; subst; try reflexivity; try congruence; try (f_equal; now apply IH).
Qed.
Lemma encodable_ok s : encodable s -> exists b, encode s = Ok b.
Proof. intros H. destruct (proj1 (C68_encodable s) H) as (b & E & _). eauto. Qed.

(** The zip codec exists: a toy format, to show that the assumptions about zip files can be met. *)
Fixpoint toy_dump (a : archive) : bytes :=
  match a with [] => [] | (n, b) :: r => N.of_nat (length n) :: n ++ N.of_nat (length b) :: b ++ toy_dump r end.
Fixpoint toy_parse (fuel : nat) (c : bytes) : archive :=
  match fuel, c with
  | S f, l :: r => let n := firstn (N.to_nat l) r in
      match skipn (N.to_nat l) r with
      | m :: q => if existsb (N.eqb 0%N) n then [] else match encode n with Ok _ => (n, firstn (N.to_nat m) q) :: toy_parse f (skipn (N.to_nat m) q) | Raise _ => [] end
      | [] => []
      end
  | _, _ => []
  end.
Lemma toy_parse_dump a : zip_ok a -> forall f, (length (toy_dump a) <= f)%nat -> toy_parse f (toy_dump a) = a.
Proof.
  induction a as [|[n b] a IH]; intros W f L; [now destruct f|]. cbn [toy_dump] in *. destruct f as [|f]; [simpl in L; lia|]. cbn [toy_parse].
  rewrite Nnat.Nat2N.id, firstn_app, skipn_app, firstn_all, skipn_all, Nat.sub_diag. simpl firstn. simpl skipn. rewrite app_nil_r. simpl app.
  destruct (W n b) as (N0 & e & E); [simpl; auto|]. rewrite E.
  assert (existsb (N.eqb 0%N) n = false) as ->. { apply Bool.not_true_iff_false. intros X. apply existsb_exists in X. destruct X as (x & I & X). apply N.eqb_eq in X. subst. tauto. }
  rewrite Nnat.Nat2N.id, firstn_app, skipn_app, firstn_all, skipn_all, Nat.sub_diag. simpl firstn. simpl skipn. rewrite app_nil_r. simpl app. f_equal. apply IH.
  - intros n' b' I. apply (W n' b'). simpl; auto.
  - simpl in L. rewrite app_length in L. simpl in L. rewrite app_length in L. lia.
Qed.
Lemma toy_ok f : forall c, zip_ok (toy_parse f c).
Proof.
  induction f as [|f IH]; intros c n b I; [destruct c; destruct I|]. destruct c as [|l r]; [destruct I|]. cbn [toy_parse] in I.
  destruct (skipn (N.to_nat l) r) as [|m q]; [destruct I|]. destruct (existsb _ _) eqn:X; [destruct I|]. destruct (encode _) as [e|] eqn:E; [|destruct I].
  destruct I as [I|I]; [|now apply (IH _ n b I)]. injection I as <- <-. split; [|eauto]. intros I. assert (existsb (N.eqb 0%N) (firstn (N.to_nat l) r) = true) by (apply existsb_exists; exists 0%N; auto). congruence.
Qed.
Definition toy_zip : zip_codec := {| unzip c := Ok (toy_parse (length c) c); dozip _ a := toy_dump a;
  unzip_dozip old a W := f_equal Ok (toy_parse_dump a W _ (le_n _));
  unzip_ok c a E := match E in (_ = r) return match r with Ok a => zip_ok a | Raise _ => True end with eq_refl => toy_ok (length c) c end |}.

(** ** Archives *)
Lemma zread_app a n b m : zread (a ++ [(n, b)]) m = if str_eqb n m then Some b else zread a m.
Proof. unfold zread. rewrite fold_left_app. reflexivity. Qed.
Lemma zip_name_id n : ~ In 0%N n -> zip_name n = n.
Proof.
  induction n as [|c n IH]; intros N; [reflexivity|]. cbn. destruct (N.eqb_spec c 0) as [->|NE]; [destruct N; simpl; auto|]. f_equal. apply IH. intros I. apply N. simpl; auto.
Qed.
Lemma zip_name_nul n : ~ In 0%N (zip_name n).
Proof. induction n as [|c n IH]; [simpl; tauto|]. cbn. destruct (N.eqb_spec c 0) as [->|NE]; [simpl; tauto|]. intros [X|X]; [congruence|auto]. Qed.
Lemma zappend_ok a n b : name_ok n -> zappend a n b = Ok (a ++ [(n, b)]).
Proof. intros (N & e & E). unfold zappend. rewrite zip_name_id by assumption. now rewrite E. Qed.
Lemma zip_ok_snoc a n b : zip_ok a -> name_ok n -> zip_ok (a ++ [(n, b)]).
Proof. intros W K m c I. apply in_app_or in I. destruct I as [I|[I|[]]]; [now apply (W m c)|congruence]. Qed.

Section Props.
Variable write_error : world -> path -> option exn.
Variable ZC : zip_codec.
Variable gunzip : bytes -> res bytes.
Variable untar : bytes -> res (list member).
Notation read_all := (read_all ZC gunzip untar).
Notation readlines := (readlines ZC gunzip untar).
Notation is_empty := (is_empty ZC gunzip untar).
Notation char_file_write := (char_file_write write_error).
Notation byte_file_write := (byte_file_write write_error).
Notation zip_entry_write := (zip_entry_write write_error ZC).

(** *** C65 *)
(** A string buffer sink holds exactly what the last session wrote, and a string source gives exactly its string. *)
Theorem C65_buffer : forall (A : Type) (sessions : list (list (list A))) (last : list (list A)),
  buffer_history (sessions ++ [last]) = Some (concat last).
Proof. intros. unfold buffer_history. rewrite fold_left_app. reflexivity. Qed.
Theorem C65_string : forall w s, read_all w (CString s) = Ok s.
Proof. reflexivity. Qed.
(** Writing a text file and reading it back gives the text with \r\n and \r read as \n, in particular the text
    itself exactly when it has no \r; other files are untouched, and a second write replaces the first. *)
Theorem C65_char_file : forall w p s, encodable s -> write_error w p = None ->
  exists w', char_file_write w p s = (w', Ok tt) /\
    (exists t, read_all w' (CFile p) = Ok t /\ newlines_read s t /\ (t = s <-> ~ In CR s)) /\
    (forall q, q <> p -> w' q = w q).
Proof.
  intros w p s E P. destruct (encodable_ok s E) as (b & Eb). exists (set_file w p b). unfold Io.char_file_write. rewrite P, Eb. split; [reflexivity|]. split.
  - exists (universal_newlines s). unfold Io.read_all, text, read_file, set_file. rewrite str_eqb_refl. cbn [bind]. rewrite (proj2 (C68_round_trip s b) Eb). cbn [bind].
    split; [reflexivity|]. split; [apply universal_spec|apply universal_id_iff].
  - intros q N. unfold set_file. destruct (str_eqb p q) eqn:X; [apply str_eqb_eq in X; congruence|reflexivity].
Qed.
(** Reading is the same whichever way: a text file, or the same bytes as a byte source decoded as UTF-8. *)
Theorem C65_char_from_bytes : forall w p, text ZC gunzip untar w (CFile p) = text ZC gunzip untar w (CBytes (BFile p) decode).
Proof. reflexivity. Qed.
(** A text which cannot be encoded raises UnicodeEncodeError - and the previous contents of the file are lost. *)
Theorem C65_char_file_unencodable : forall w p s, ~ encodable s -> write_error w p = None ->
  exists w', char_file_write w p s = (w', Raise UnicodeEncodeError) /\ w' p = Some [] /\ forall q, q <> p -> w' q = w q.
Proof.
  intros w p s E P. exists (set_file w p []). unfold Io.char_file_write. rewrite P, (proj2 (C68_encodable s) E). split; [reflexivity|]. unfold set_file. rewrite str_eqb_refl. split; [reflexivity|].
  intros q N. destruct (str_eqb p q) eqn:X; [apply str_eqb_eq in X; congruence|reflexivity].
Qed.
(** Byte files give back exactly the bytes; reading at most n bytes gives the first n. *)
Theorem C65_byte_file : forall w p b, write_error w p = None ->
  exists w', byte_file_write w p b = (w', Ok tt) /\ byte_content ZC w' (BFile p) = Ok b /\
    (forall size, (size < 0)%Z -> byte_read ZC w' (BFile p) size = Ok b) /\
    (forall n, exists r, byte_read ZC w' (BFile p) (Z.of_nat n) = Ok r /\ (exists s, b = r ++ s) /\ length r = Nat.min n (length b)) /\
    forall q, q <> p -> w' q = w q.
Proof.
  intros w p b P. exists (set_file w p b). unfold Io.byte_file_write. rewrite P. split; [reflexivity|].
  assert (byte_content ZC (set_file w p b) (BFile p) = Ok b) as E by (unfold byte_content, read_file, set_file; now rewrite str_eqb_refl). split; [assumption|].
  split; [|split].
  - intros size L. unfold byte_read. rewrite E. cbn [bind]. apply Z.ltb_lt in L. now rewrite L.
  - intros n. exists (firstn n b). unfold byte_read. rewrite E. cbn [bind]. replace (Z.of_nat n <? 0)%Z with false by (symmetry; apply Z.ltb_ge; lia). rewrite Nat2Z.id.
    split; [reflexivity|]. split; [exists (skipn n b); symmetry; apply firstn_skipn|apply firstn_length].
  - intros q N. unfold set_file. destruct (str_eqb p q) eqn:X; [apply str_eqb_eq in X; congruence|reflexivity].
Qed.
(** Writing an entry of a zip file: afterwards this entry reads as written (also if there was an entry of that name
    before), every other entry of the file as before, and other files are untouched. *)
Theorem C65_zip_entry : forall w p n b, name_ok n -> write_error w p = None ->
  (forall c, w p = Some c -> exists a, unzip ZC c = Ok a) ->
  exists w', zip_entry_write w p n b = (w', Ok tt) /\ byte_content ZC w' (BZip p n) = Ok b /\
    (forall m, m <> n -> w p <> None -> byte_content ZC w' (BZip p m) = byte_content ZC w (BZip p m)) /\
    (forall m, m <> n -> w p = None -> byte_content ZC w' (BZip p m) = Raise KeyError) /\
    (forall q, q <> p -> w' q = w q).
Proof.
  intros w p n b K P V. unfold Io.zip_entry_write. rewrite P, zappend_ok by assumption.
  set (a := zip_entries ZC w p). assert (W : zip_ok a). { unfold a, zip_entries. destruct (w p) as [c|]; [|intros ? ? []]. destruct (unzip ZC c) eqn:U; [now apply unzip_ok in U|intros ? ? []]. }
  eexists. split; [reflexivity|]. set (old := match w p with Some c => c | None => [] end).
  assert (forall m, byte_content ZC (set_file w p (dozip ZC old (a ++ [(n, b)]))) (BZip p m) = opt_or_raise (if str_eqb n m then Some b else zread a m) KeyError) as R.
  { intros m. unfold byte_content, read_file, set_file. rewrite str_eqb_refl. cbn [bind]. rewrite unzip_dozip by now apply zip_ok_snoc. cbn [bind]. now rewrite zread_app. }
  split; [rewrite R, str_eqb_refl; reflexivity|]. split; [|split].
  - intros m N E. rewrite R. destruct (str_eqb n m) eqn:X; [apply str_eqb_eq in X; congruence|]. unfold a, zip_entries, byte_content, read_file. destruct (w p) as [c|] eqn:Wp; [|congruence].
    cbn [bind]. destruct (V c eq_refl) as (a' & U). now rewrite U.
  - intros m N E. rewrite R. destruct (str_eqb n m) eqn:X; [apply str_eqb_eq in X; congruence|]. unfold a, zip_entries. now rewrite E.
  - intros q N. unfold set_file. destruct (str_eqb p q) eqn:X; [apply str_eqb_eq in X; congruence|reflexivity].
Qed.
(** "If you write twice, the second write will overwrite the first": false for zip entries as far as the file is concerned -
    both entries are in the archive, the file only grows. *)
Theorem C65_zip_overwrite_refuted : forall w p n b1 b2, name_ok n -> (forall w, write_error w p = None) -> w p = None ->
  let w' := fst (zip_entry_write (fst (zip_entry_write w p n b1)) p n b2) in zip_entries ZC w' p = [(n, b1); (n, b2)].
Proof.
  intros w p n b1 b2 K P N w'. unfold w', Io.zip_entry_write at 1. rewrite P.
  assert (zip_entries ZC (fst (zip_entry_write w p n b1)) p = [(n, b1)]) as E1.
  { unfold Io.zip_entry_write. rewrite P, zappend_ok by assumption. unfold zip_entries. rewrite N. simpl fst. unfold set_file. rewrite str_eqb_refl. rewrite unzip_dozip; [reflexivity|]. intros m c [I|[]]. now injection I as <- <-. }
  rewrite E1, zappend_ok by assumption. simpl fst. unfold zip_entries, set_file. rewrite str_eqb_refl, unzip_dozip; [reflexivity|]. intros m c [I|[I|[]]]; now injection I as <- <-.
Qed.
(** is_empty says whether the text is empty, whenever the text can be read: for string, file, byte and gzip sources with an
    encoding in which only the empty byte string is empty; for a member of a tgz file also. *)
Definition proper_codec (dec : bytes -> res str) : Prop := forall b s, dec b = Ok s -> (s = [] <-> b = []).
Lemma decode_proper : proper_codec decode.
Proof.
  intros b s E. split; [|intros ->; now injection E as <-]. intros ->. apply C68_round_trip in E. now injection E as <-.
Qed.
Theorem C65_is_empty : forall w c t,
  match c with CGzip _ dec | CTgz _ _ dec => proper_codec dec | _ => True end ->
  read_all w c = Ok t -> exists e, is_empty w c = Ok e /\ (e = true <-> t = []).
Proof.
  assert (forall A (l : list A), is_nil l = true <-> l = []) as N by (intros A [|]; simpl; split; congruence).
  intros w c t Dec R. destruct c as [s|p|b dec|p dec|p n dec]; unfold Io.read_all, text in R; unfold Io.is_empty.
  - injection R as <-. exists (is_nil s). split; [reflexivity|apply N].
  - apply bind_ok in R. destruct R as (b & -> & R). apply bind_ok in R. destruct R as (s & D & R). assert (t = universal_newlines s) as -> by congruence. cbn [bind]. exists (is_nil b). split; [reflexivity|].
    rewrite N, universal_nil. symmetry. now apply decode_proper.
  - unfold text. rewrite R. cbn [bind]. exists (is_nil (firstn 1 t)). split; [reflexivity|]. rewrite N. destruct t; simpl; split; congruence.
  - apply bind_ok in R. destruct R as (b & -> & R). apply bind_ok in R. destruct R as (u & G & R). apply bind_ok in R. destruct R as (s & D & R). assert (t = universal_newlines s) as -> by congruence.
    cbn [bind]. rewrite G. cbn [bind]. eexists. split; [reflexivity|]. rewrite N, universal_nil, (Dec u s D). destruct u; simpl; split; congruence.
  - apply bind_ok in R. destruct R as (b & -> & R). apply bind_ok in R. destruct R as (u & G & R). apply bind_ok in R. destruct R as (ms & U & R). cbn [bind]. rewrite G. cbn [bind]. rewrite U. cbn [bind].
    destruct (find _ _) as [m|]; [|discriminate]. destruct (m_isfile m); [|discriminate]. destruct (m_data m) as [d|]; [|discriminate]. eexists. split; [reflexivity|]. rewrite N. symmetry. now apply Dec.
Qed.
(** is_empty of a file says it is not empty even if its text cannot be read at all. *)
Theorem C65_is_empty_unreadable : forall w p b, w p = Some b -> b <> [] -> is_empty w (CFile p) = Ok false.
Proof. intros w p b E N. unfold Io.is_empty, read_file. rewrite E. destruct b; [congruence|reflexivity]. Qed.

(** *** C66 *)
(** readlines gives the lines of read_all: the unique list of newline-free strings which, each followed by a newline,
    make up the text (the last newline may be missing); it fails exactly when read_all fails, with the same error. *)
Theorem C66_readlines : forall w c, match read_all w c with
  | Ok t => exists ls, readlines w c = Ok ls /\ lines_of t ls /\ forall ls', lines_of t ls' -> ls' = ls
  | Raise e => readlines w c = Raise e
  end.
Proof.
  intros w c. unfold Io.readlines, Io.read_all. destruct (text ZC gunzip untar w c) as [t|e]; [|reflexivity]. cbn [bind]. eexists. split; [reflexivity|].
  split; [apply rstripped_lines_of|]. intros ls' L. apply (lines_of_unique t); [assumption|apply rstripped_lines_of].
Qed.
(** The documentation says "line endings are not removed": they always are. *)
Theorem C66_line_endings_kept_refuted : forall w c ls l, readlines w c = Ok ls -> In l ls -> ~ In LF l.
Proof.
  intros w c ls l R I. assert (H := C66_readlines w c). destruct (read_all w c) as [t|e]; [|congruence]. destruct H as (ls' & R' & L & _). assert (ls' = ls) as <- by congruence. now apply (proj1 L).
Qed.
(** Joining the lines with newlines gives back the text, up to one final newline. *)
Theorem C66_join : forall w c t ls, read_all w c = Ok t -> readlines w c = Ok ls -> ls <> [] ->
  (t = py_join [LF] ls \/ t = py_join [LF] ls ++ [LF]).
Proof.
  assert (forall (l : str) ls, py_join [LF] (ls ++ [l]) = flat_map (fun l => l ++ [LF]) ls ++ l) as J.
  { intros l. induction ls as [|x ls IH]; [reflexivity|]. cbn [flat_map app]. rewrite <- !app_assoc. rewrite <- IH. destruct (ls ++ [l]) as [|y r] eqn:E; [now destruct ls|]. reflexivity. }
  intros w c t ls R L N. assert (H := C66_readlines w c). rewrite R in H. destruct H as (ls' & L' & H & _). assert (ls' = ls) as -> by congruence. destruct H as (_ & [H|(r & l & -> & _ & H)]).
  - right. destruct (exists_last N) as (r & l & ->). rewrite J, H, flat_map_app. simpl. now rewrite app_nil_r, app_assoc.
  - left. now rewrite J.
Qed.
(** file_lines_to_set: the distinct non-empty lines of the file, in order of first occurrence. *)
Theorem C66_file_lines_to_set : forall w p t, read_all w (CFile p) = Ok t ->
  exists ls d, lines_of t ls /\ file_lines_to_set ZC gunzip untar w p = Ok d /\ distinct_in_order (filter (fun l => negb (is_nil l)) ls) d.
Proof.
  intros w p t R. exists (map rstrip_lf (text_lines t)), (dedup (filter (fun l => negb (is_nil l)) (map rstrip_lf (text_lines t)))). split; [apply rstripped_lines_of|]. split; [|apply dedup_spec].
  unfold file_lines_to_set. unfold Io.read_all in R. rewrite R. cbn [bind]. do 2 f_equal. clear R.
  assert (Hl := rstripped_lines_of t). destruct Hl as (H & E). set (ls := map rstrip_lf (text_lines t)) in *. clearbody ls.
  assert (forall ls (r : str), (forall l, In l ls -> ~ In LF l) -> py_split LF (flat_map (fun l => l ++ [LF]) ls ++ r) = ls ++ py_split LF r) as Sp.
  { clear. induction ls as [|l ls IH]; intros r H; [reflexivity|]. cbn [flat_map app]. rewrite <- !app_assoc. simpl. rewrite py_split_app by (apply H; simpl; auto). f_equal. apply IH. intros; apply H; simpl; auto. }
  destruct E as [->|(r & l & -> & _ & ->)].
  - rewrite <- (app_nil_r (flat_map _ _)), (Sp ls [] H), filter_app. simpl. now rewrite app_nil_r.
  - rewrite Sp by (intros; apply H; apply in_or_app; auto). rewrite py_split_no by (apply H; apply in_or_app; simpl; auto). reflexivity.
Qed.

(** *** C67 *)
Definition field_ok (s : str) : Prop := trim s /\ ~ In TAB s /\ ~ In LF s /\ ~ In CR s /\ encodable s.
Lemma TL : TAB <> LF. Proof. discriminate. Qed.
Lemma parse_line_ok a b : field_ok a -> field_ok b -> parse_map_line (a ++ [TAB] ++ b ++ [LF]) = Ok (a, b).
Proof.
  intros (Ta & Na & _) (Tb & Nb & Lb & _). unfold parse_map_line. simpl app. rewrite py_split_app by assumption. rewrite py_split_no.
  - now rewrite strip_trim, strip_trim_lf.
  - intros I. apply in_app_or in I. destruct I as [I|[I|[]]]; [auto|discriminate].
Qed.
Lemma read_lines_ok kvs : (forall a b, In (a, b) kvs -> field_ok a /\ field_ok b) ->
  mapM parse_map_line (text_lines (flat_map (fun kv => fst kv ++ [TAB] ++ snd kv ++ [LF]) kvs)) = Ok kvs.
Proof.
  induction kvs as [|[a b] kvs IH]; intros H; [reflexivity|]. cbn [flat_map fst snd]. destruct (H a b) as (Fa & Fb); [simpl; auto|].
  replace ((a ++ [TAB] ++ b ++ [LF]) ++ flat_map (fun kv => fst kv ++ [TAB] ++ snd kv ++ [LF]) kvs) with ((a ++ [TAB] ++ b) ++ LF :: flat_map (fun kv => fst kv ++ [TAB] ++ snd kv ++ [LF]) kvs) by (simpl; rewrite <- !app_assoc; simpl; rewrite <- !app_assoc; reflexivity).
  rewrite text_lines_line.
  - cbn [mapM]. replace ((a ++ [TAB] ++ b) ++ [LF]) with (a ++ [TAB] ++ b ++ [LF]) by (simpl; rewrite <- !app_assoc; reflexivity). rewrite parse_line_ok by assumption. cbn [bind]. rewrite IH; [reflexivity|]. intros; apply H; simpl; auto.
  - destruct Fa as (_ & _ & La & _), Fb as (_ & _ & Lb & _). intros I. apply in_app_or in I. destruct I as [I|[I|I]]; [auto|discriminate|auto].
Qed.
(** Writing a map and reading it back - from a string or from a file - gives the entries of the map, ordered by id. *)
Theorem C67_round_trip : forall w p m, NoDup (map fst m) -> (forall a b, In (a, b) m -> field_ok a /\ field_ok b) -> write_error w p = None ->
  exists r, Permutation r m /\ StronglySorted (fun a b => str_ltb (fst a) (fst b) = true) r /\
    read_doc_id_to_file_map ZC gunzip untar w (CString (write_doc_id_to_file_map m)) = Ok r /\
    exists w', char_file_write w p (write_doc_id_to_file_map m) = (w', Ok tt) /\ read_doc_id_to_file_map ZC gunzip untar w' (CFile p) = Ok r.
Proof.
  intros w p m ND H P. exists (sorted_by str_ltb fst m). set (r := sorted_by str_ltb fst m). assert (Pr : Permutation r m) by apply sorted_perm. split; [assumption|].
  assert (Hr : forall a b, In (a, b) r -> field_ok a /\ field_ok b) by (intros a b I; apply H; now apply (Permutation_in _ Pr)).
  split; [|split].
  - assert (S := sorted_sorted str_ltb (fst : str * path -> str) str_ltb_asym str_ltb_ntrans m). change (StronglySorted (kle str_ltb (fst : str * path -> str)) r) in S. assert (N : NoDup (map fst r)) by (apply (Permutation_NoDup (l := map fst m)); [apply Permutation_map; now symmetry|assumption]).
    clearbody r. clear -S N. induction S as [|x l S IH F]; [constructor|]. inversion N as [|? ? N1 N2]; subst. constructor; [auto|]. rewrite Forall_forall in *. intros y I. specialize (F y I). unfold kle in F.
    destruct (str_ltb (fst x) (fst y)) eqn:X; [reflexivity|]. exfalso. apply N1. rewrite (str_ltb_total _ _ X F). now apply in_map.
  - unfold read_doc_id_to_file_map, text, write_doc_id_to_file_map. cbn [bind]. fold r. now apply read_lines_ok.
  - assert (E : encodable (write_doc_id_to_file_map m)). { unfold write_doc_id_to_file_map. fold r. clearbody r. clear -Hr. apply Forall_forall. intros c I. apply in_flat_map in I. destruct I as ([a b] & I & J). destruct (Hr a b I) as ((_ & _ & _ & _ & Ea) & (_ & _ & _ & _ & Eb)). unfold encodable in *. rewrite Forall_forall in *. simpl in J. apply in_app_or in J.
      destruct J as [J|[<-|J]]; [auto|vm_compute; intuition discriminate|]. apply in_app_or in J. destruct J as [J|[<-|[]]]; [auto|vm_compute; intuition discriminate]. }
    destruct (C65_char_file w p _ E P) as (w' & W & (t & R & _ & T) & _). exists w'. split; [assumption|]. assert (t = write_doc_id_to_file_map m) as ->.
    { apply T. unfold write_doc_id_to_file_map. fold r. clearbody r. clear -Hr. intros I. apply in_flat_map in I. destruct I as ([a b] & I & J). destruct (Hr a b I) as ((_ & _ & _ & Ca & _) & (_ & _ & _ & Cb & _)). simpl in J. apply in_app_or in J.
      destruct J as [J|[J|J]]; [auto|discriminate|]. apply in_app_or in J. destruct J as [J|[J|[]]]; [auto|discriminate]. }
    unfold read_doc_id_to_file_map. unfold Io.read_all in R. rewrite R. cbn [bind]. unfold write_doc_id_to_file_map. fold r. now apply read_lines_ok.
Qed.
(** Reading succeeds exactly when every line has exactly one tab, and gives the two fields of each line without white
    space at their ends; otherwise IOError. *)
Definition one_tab (l : str) : Prop := exists a b, l = a ++ [TAB] ++ b /\ ~ In TAB a /\ ~ In TAB b.
Lemma parse_line_spec l : (forall a b, parse_map_line l = Ok (a, b) -> exists x y, l = x ++ [TAB] ++ y /\ ~ In TAB x /\ ~ In TAB y /\ stripped is_space x a /\ stripped is_space y b) /\
  (forall e, parse_map_line l = Raise e -> e = IOError /\ ~ one_tab l) /\ (one_tab l -> exists a b, parse_map_line l = Ok (a, b)).
Proof.
  unfold parse_map_line. assert (J := py_split_join TAB l). assert (K := py_split_parts TAB l).
  assert (O : one_tab l -> exists x y, py_split TAB l = [x; y]). { intros (a & b & -> & Na & Nb). exists a, b. simpl. rewrite py_split_app by assumption. now rewrite py_split_no. }
  destruct (py_split TAB l) as [|x [|y [|z r]]] eqn:E; (split; [|split]); try discriminate;
    try (intros e X; injection X as <-; split; [reflexivity|]; intros O'; destruct (O O') as (? & ? & ?); discriminate);
    try (intros O'; destruct (O O') as (? & ? & ?); discriminate).
  - intros a b X. injection X as <- <-. exists x, y. simpl in J. split; [symmetry; exact J|]. split; [apply K; simpl; auto|]. split; [apply K; simpl; auto|]. split; apply strip_spec.
  - intros _. eauto.
Qed.
Theorem C67_read : forall w c t, read_all w c = Ok t ->
  (forall r, read_doc_id_to_file_map ZC gunzip untar w c = Ok r <-> exists ls, lines_of t ls /\
     Forall2 (fun l ab => exists x y, l = x ++ [TAB] ++ y /\ ~ In TAB x /\ ~ In TAB y /\ stripped is_space x (fst ab) /\ stripped is_space y (snd ab)) ls r) /\
  (forall e, read_doc_id_to_file_map ZC gunzip untar w c = Raise e <-> e = IOError /\ exists ls l, lines_of t ls /\ In l ls /\ ~ one_tab l).
Proof.
  assert (Sp : forall s a, stripped is_space (s ++ [LF]) a -> stripped is_space s a).
  { intros s a H. assert (stripped is_space (s ++ [LF]) (py_strip s)) as K.
    { destruct (strip_spec s) as (x & y & E & X & Y & H1 & H2). exists x, (y ++ [LF]). split; [rewrite E at 1; now rewrite <- !app_assoc|]. split; [assumption|]. split; [|split; assumption]. intros c I. apply in_app_or in I. destruct I as [I|[<-|[]]]; [auto|reflexivity]. }
    rewrite (stripped_unique _ _ _ _ H K). apply strip_spec. }
  assert (Sp' : forall s a, stripped is_space s a -> stripped is_space (s ++ [LF]) a).
  { intros s a (x & y & E & X & Y & H1 & H2). exists x, (y ++ [LF]). split; [rewrite E at 1; now rewrite <- !app_assoc|]. split; [assumption|]. split; [|split; assumption]. intros c I. apply in_app_or in I. destruct I as [I|[<-|[]]]; [auto|reflexivity]. }
  assert (PL : forall l, ~ In LF l -> parse_map_line (l ++ [LF]) = parse_map_line l).
  { intros l NL. destruct (parse_line_spec l) as (A1 & A2 & A3). destruct (parse_line_spec (l ++ [LF])) as (B1 & B2 & B3).
    assert (OT : one_tab l <-> one_tab (l ++ [LF])).
    { split.
      - intros (a & b & -> & Na & Nb). exists a, (b ++ [LF]). split; [now rewrite <- !app_assoc|]. split; [assumption|]. intros I. apply in_app_or in I. destruct I as [I|[I|[]]]; [auto|discriminate].
      - intros (a & b & E & Na & Nb). destruct (rev b) as [|c r] eqn:R.
        + apply (f_equal (@rev N)) in R. rewrite rev_involutive in R. subst b. simpl in E. apply app_inj_tail in E. destruct E as [_ E]. discriminate.
        + assert (b = rev r ++ [c]) as -> by (rewrite <- (rev_involutive b), R; reflexivity). rewrite !app_assoc in E. apply app_inj_tail in E. destruct E as [-> _]. exists a, (rev r). split; [now rewrite <- app_assoc|]. split; [assumption|]. intros I. apply Nb. apply in_or_app. auto. }
    destruct (parse_map_line l) as [[a b]|e] eqn:P1.
    - destruct (A1 a b eq_refl) as (x & y & -> & Nx & Ny & Sx & Sy). assert (O1 : one_tab ((x ++ [TAB] ++ y) ++ [LF])) by (apply OT; exists x, y; auto).
      destruct (B3 O1) as (a' & b' & P2). rewrite P2. destruct (B1 a' b' P2) as (x' & y' & E & Nx' & Ny' & Sx' & Sy').
      assert (x = x' /\ y ++ [LF] = y') as [-> <-].
      { assert (py_split TAB ((x ++ [TAB] ++ y) ++ [LF]) = [x; y ++ [LF]]) as Q1. { rewrite <- !app_assoc. simpl. rewrite py_split_app by assumption. rewrite py_split_no; [reflexivity|]. intros I. apply in_app_or in I. destruct I as [I|[I|[]]]; [auto|discriminate]. }
        rewrite E in Q1. simpl in Q1. rewrite py_split_app in Q1 by assumption. rewrite (py_split_no TAB y') in Q1 by assumption. injection Q1 as -> ->. auto. }
      rewrite (stripped_unique _ _ _ _ Sx' Sx), (stripped_unique _ _ _ _ (Sp _ _ Sy') Sy). reflexivity.
    - destruct (A2 e eq_refl) as (-> & NO). destruct (parse_map_line (l ++ [LF])) as [[a b]|e'] eqn:P2; [|destruct (B2 e' eq_refl) as (-> & _); reflexivity].
      exfalso. apply NO. apply OT. destruct (B1 a b eq_refl) as (x & y & E & Nx & Ny & _). exists x, y. auto. }
  intros w c t R. unfold read_doc_id_to_file_map. unfold Io.read_all in R. rewrite R. cbn [bind].
  assert (M : mapM parse_map_line (text_lines t) = mapM parse_map_line (map rstrip_lf (text_lines t))).
  { destruct (text_lines_shape t) as (ls & r & -> & Hr & H). assert (map rstrip_lf (map (fun l => l ++ [LF]) ls ++ r) = ls ++ r) as ->.
    { rewrite map_app, map_map. f_equal; [rewrite <- (map_id ls) at 2; apply map_ext_in; intros l I; apply rstrip_lf_line; auto|]. destruct Hr as [->|(l & -> & _ & N)]; [reflexivity|]. simpl. now rewrite rstrip_lf_last. }
    clear -H PL. induction ls as [|l ls IH]; [reflexivity|]. cbn [map app mapM]. rewrite PL by (apply H; simpl; auto). rewrite IH; [reflexivity|]. intros; apply H; simpl; auto. }
  rewrite M. assert (L := rstripped_lines_of t). set (ls := map rstrip_lf (text_lines t)) in *. clearbody ls. clear M R.
  assert (Ex : forall e, mapM parse_map_line ls = Raise e -> exists l, In l ls /\ parse_map_line l = Raise e).
  { clear. induction ls as [|l ls IH]; intros e E; [discriminate|]. cbn [mapM] in E. destruct (parse_map_line l) as [ab|e'] eqn:P; cbn [bind] in E.
    - destruct (mapM parse_map_line ls) as [r|e']; cbn [bind] in E; [discriminate|]. injection E as <-. destruct (IH e' eq_refl) as (l' & I & Q). exists l'. simpl. auto.
    - injection E as <-. exists l. simpl. auto. }
  split.
  - intros r. rewrite mapM_ok. split.
    + intros F. exists ls. split; [assumption|]. clear -F. induction F as [|l [a b] ls r P F IH]; constructor; [|assumption]. simpl. now apply (proj1 (parse_line_spec l)).
    + intros (ls' & L' & F). rewrite (lines_of_unique t _ _ L' L) in F. clear -F. induction F as [|l [a b] ls r P F IH]; constructor; [|assumption].
      destruct P as (x & y & E & Nx & Ny & Sx & Sy). destruct (parse_line_spec l) as (P1 & _ & P3). assert (one_tab l) as O by (exists x, y; auto). destruct (P3 O) as (a' & b' & P). rewrite P. destruct (P1 a' b' P) as (x' & y' & E' & Nx' & Ny' & Sx' & Sy').
      assert (x = x' /\ y = y') as [-> ->]. { assert (py_split TAB l = [x; y]) as Q by (rewrite E; simpl; rewrite py_split_app by assumption; now rewrite py_split_no). rewrite E' in Q. simpl in Q. rewrite py_split_app in Q by assumption. rewrite (py_split_no TAB y') in Q by assumption. injection Q as -> ->. auto. }
      simpl in *. now rewrite (stripped_unique _ _ _ _ Sx Sx'), (stripped_unique _ _ _ _ Sy Sy').
  - intros e. split.
    + intros E. destruct (Ex e E) as (l & I & P). destruct (proj1 (proj2 (parse_line_spec l)) e P) as (-> & NO). split; [reflexivity|]. exists ls, l. auto.
    + intros (-> & ls' & l & L' & I & NO). rewrite (lines_of_unique t _ _ L' L) in I. destruct (mapM parse_map_line ls) as [r|e] eqn:E.
      * exfalso. apply mapM_ok in E. clear -E I NO. induction E as [|l' [a b] ls r P F IH]; [destruct I|]. destruct I as [->|I]; [|auto]. apply NO. destruct (proj1 (parse_line_spec l) a b P) as (x & y & E & Nx & Ny & _). exists x, y. auto.
      * destruct (Ex e eq_refl) as (l' & _ & P). now destruct (proj1 (proj2 (parse_line_spec l')) e P) as (-> & _).
Qed.
(** In particular a blank line in the file - which the code means to skip - is an error. *)
Theorem C67_blank_line_refuted : forall w s1 s2, (s1 = [] \/ exists r, s1 = r ++ [LF]) ->
  read_doc_id_to_file_map ZC gunzip untar w (CString (s1 ++ LF :: s2)) = Raise IOError.
Proof.
  intros w s1 s2 H. apply (proj2 (C67_read w (CString (s1 ++ LF :: s2)) _ eq_refl)). split; [reflexivity|].
  assert (NT : ~ one_tab []) by (intros (a & b & E & _); destruct a; discriminate).
  assert (forall s1 : str, s1 = [] \/ (exists r, s1 = r ++ [LF]) -> map rstrip_lf (text_lines (s1 ++ LF :: s2)) = map rstrip_lf (text_lines s1) ++ [] :: map rstrip_lf (text_lines s2)) as T.
  { clear. intros s1 H. assert (text_lines (s1 ++ LF :: s2) = text_lines s1 ++ [LF] :: text_lines s2) as E.
    { destruct H as [->|(r & ->)]; [reflexivity|]. induction r as [|c r IH]; [reflexivity|]. simpl in *. destruct (c =? LF)%N; [simpl; now rewrite IH|]. rewrite IH. destruct (text_lines (r ++ [LF])) as [|l ls] eqn:X; [|reflexivity].
      exfalso. assert (C := text_lines_concat (r ++ [LF])). rewrite X in C. destruct r; discriminate. }
    rewrite E, map_app. reflexivity. }
  eexists _, []. split; [apply rstripped_lines_of|]. split; [|assumption]. rewrite T by assumption. apply in_or_app. simpl. auto.
Qed.
End Props.

(** ** Non-trivial instances *)
Example C65_witness :
  let w : world := fun _ => None in let w1 := fst (char_file_write (fun _ _ => None) w !!"a" (!!"x" ++ [CR; LF; 233%N])) in
  w1 !!"a" = Some [120; 13; 10; 195; 169]%N /\ read_all toy_zip (fun _ => Raise IOError) (fun _ => Raise IOError) w1 (CFile !!"a") = Ok [120; 10; 233]%N /\
  readlines toy_zip (fun _ => Raise IOError) (fun _ => Raise IOError) w1 (CFile !!"a") = Ok [!!"x"; [233%N]].
Proof. repeat split. Qed.
Example C65_zip_witness :
  let w : world := fun _ => None in
  let w1 := fst (zip_entry_write (fun _ _ => None) toy_zip w !!"z" !!"a" !!"one") in
  let w2 := fst (zip_entry_write (fun _ _ => None) toy_zip w1 !!"z" !!"b" !!"two") in
  let w3 := fst (zip_entry_write (fun _ _ => None) toy_zip w2 !!"z" !!"a" !!"three") in
  name_ok !!"a" /\ byte_content toy_zip w3 (BZip !!"z" !!"a") = Ok !!"three" /\ byte_content toy_zip w3 (BZip !!"z" !!"b") = Ok !!"two".
Proof. repeat split; try reflexivity; [intros [X|[]]; discriminate|exists !!"a"; reflexivity]. Qed.
Example C67_witness :
  let m := [(!!"doc2", !!"/data/b"); (!!"doc1", !!"/data/a")] in
  NoDup (map fst m) /\ write_doc_id_to_file_map m = !!"doc1" ++ [TAB] ++ !!"/data/a" ++ [LF] ++ !!"doc2" ++ [TAB] ++ !!"/data/b" ++ [LF] /\ field_ok !!"doc2" /\
  read_doc_id_to_file_map toy_zip (fun _ => Raise IOError) (fun _ => Raise IOError) (fun _ => None) (CString (write_doc_id_to_file_map m)) = Ok [(!!"doc1", !!"/data/a"); (!!"doc2", !!"/data/b")].
Proof.
  split; [repeat constructor; simpl; intuition discriminate|]. split; [reflexivity|]. split; [|reflexivity]. split; [split|].
  - intros c r E. vm_compute in E. injection E as <- _. reflexivity.
  - intros c r E. change !!"doc2" with (!!"doc" ++ !!"2") in E. apply app_inj_tail in E. destruct E as [_ <-]. reflexivity.
  - repeat split; try (vm_compute; intuition discriminate). repeat constructor; vm_compute; intuition discriminate.
Qed.
Print Assumptions C65_char_file.
Print Assumptions C65_zip_entry.
Print Assumptions C65_is_empty.
Print Assumptions C66_readlines.
Print Assumptions C66_file_lines_to_set.
Print Assumptions C67_round_trip.
Print Assumptions C67_read.
Print Assumptions C67_blank_line_refuted.
