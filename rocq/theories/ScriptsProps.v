(** * The scripts: theorems (C61 - C64, C75, C79) *)
From Verif Require Import Prelude PyStr SortLib TextLib Utf8 Io IoProps KeyValue KeyValueProps AnnotatedTextProofs Scripts.

(** ** Specification *)
(** Keys that zip stores can handle (see C55). *)
Definition plain_key (k : str) : Prop := k <> [] /\ ~ In LF k /\ ~ In 0%N k /\ encodable k /\ k <> keys_entry.
(** A source with keys [ks], giving value [val k] for each. *)
Definition serves (src : source bytes) (ks : list str) (val : str -> bytes) : Prop :=
  src_keys src = Ok (Some ks) /\ NoDup ks /\ forall k, In k ks -> src_item src k = Ok (val k).
(** A file holding exactly the pairs (k, val k) for the keys [ks]: opened as a zip byte source it has these keys in some order, gives their
    values, and raises KeyError / returns the default for any other key. *)
Definition contains (d : disk) (ks : list str) (val : str -> bytes) : Prop :=
  exists z, source_enter d = Ok z /\ let src := zip_source same_name bytes_value z in
    (exists ks', src_keys src = Ok (Some ks') /\ NoDup ks' /\ Permutation ks' ks) /\
    (forall k, In k ks -> src_item src k = Ok (val k) /\ src_get src k = Ok (Some (val k))) /\
    (forall k, plain_key k -> ~ In k ks -> src_item src k = Raise KeyError /\ src_get src k = Ok None).
Definition pairs (val : str -> bytes) (ks : list str) : list (str * value) := map (fun k => (k, VBytes (val k))) ks.
(** The keys of slice j: those at positions j, j + n, j + 2n, ... *)
Definition in_slice (n j : nat) (l : list str) (k : str) : Prop := exists i, nth_error l i = Some k /\ i mod n = j.

(** (name, contents) of a file in the tree, at any depth *)
Inductive file_in : node -> str -> bytes -> Prop :=
| here n b es : In (n, FileNode b) es -> file_in (DirNode es) n b
| deeper n b m t es : In (m, t) es -> file_in t n b -> file_in (DirNode es) n b.
(** Dropping the last extension of a file name: "a.b.c" gives "a.b", ".a", "a." and "a" are unchanged. *)
Inductive drops_extension : str -> str -> Prop :=
| drop_ext base ext : base <> [] -> ext <> [] -> ~ In DOT ext -> drops_extension (base ++ [DOT] ++ ext) base
| drop_none name : (forall base ext, name = base ++ [DOT] ++ ext -> ~ In DOT ext -> base = [] \/ ext = []) -> drops_extension name name.

Lemma nth_error_seq_ n : forall s j, j < n -> nth_error (seq s n) j = Some (s + j).
Proof.
  induction n as [|n IH]; intros s j L; [lia|]. destruct j as [|j]; simpl; [now rewrite Nat.add_0_r|]. rewrite IH by lia. f_equal. lia.
Qed.
Lemma forall_iff_ex {A} (P Q : A -> Prop) : (forall k, P k <-> Q k) -> (forall k, P k) <-> (forall k, Q k).
Proof. intros H. split; intros G k; apply H; auto. Qed.
Section Props.
Variable set_order : list str -> list str.
Hypothesis set_order_perm : forall l, Permutation (set_order l) l.
Notation write_stream := (write_stream set_order).
Notation session := (session same_name set_order).

Lemma plain_good : good_keys same_name plain_key.
Proof. exact C55_default_keys. Qed.
Lemma contains_perm d ks ks' val : contains d ks val -> Permutation ks ks' -> contains d ks' val.
Proof.
  intros (z & E & (l & K & N & P) & I & O) Q. exists z. split; [assumption|]. split; [exists l; split; [assumption|]; split; [assumption|]; now rewrite P|]. split.
  - intros k Hk. apply I. apply (Permutation_in _ (Permutation_sym Q)). assumption.
  - intros k Pk N'. apply O; [assumption|]. intros Hk. apply N'. now apply (Permutation_in _ Q).
Qed.
Lemma contains_nodup d ks val : contains d ks val -> NoDup ks.
Proof. intros (z & _ & (l & _ & N & P) & _). now apply (Permutation_NoDup P). Qed.
Lemma contains_ext d ks val val' : contains d ks val -> (forall k, In k ks -> val k = val' k) -> contains d ks val'.
Proof. intros (z & E & K & I & O) H. exists z. split; [assumption|]. split; [assumption|]. split; [|assumption]. intros k Hk. rewrite <- (H k Hk). auto. Qed.
Lemma contains_serves d ks val : contains d ks val -> exists z ks', source_enter d = Ok z /\ Permutation ks' ks /\ serves (zip_source same_name bytes_value z) ks' val.
Proof.
  intros (z & E & (l & K & N & P) & I & O). exists z, l. split; [assumption|]. split; [assumption|]. split; [assumption|]. split; [assumption|]. intros k Hk. apply I. now apply (Permutation_in _ P).
Qed.
Lemma pairs_keys val ks : map fst (pairs val ks) = ks.
Proof. unfold pairs. rewrite map_map. apply map_id. Qed.
Lemma pairs_app val a b : pairs val (a ++ b) = pairs val a ++ pairs val b.
Proof. apply map_app. Qed.
Lemma pairs_in val ks k v : In (k, v) (pairs val ks) -> v = VBytes (val k) /\ In k ks.
Proof. intros I. apply in_map_iff in I. destruct I as (k' & E & I). injection E as <- <-. auto. Qed.

(** A session writing distinct keys. *)
Lemma session_pairs d ks val : NoDup ks -> (forall k, In k ks -> plain_key k) ->
  exists a s', session true d new_sink (pairs val ks) = (Zip a, s', (Ok tt, map (fun _ => Ok tt) (pairs val ks), Ok tt)) /\ contains (Zip a) ks val.
Proof using set_order_perm.
  intros ND H. destruct (C55_round_trip same_name set_order plain_key d (pairs val ks) bytes bytes_value val set_order_perm plain_good) as (a & s' & E & z & Ez & (l & K & P & _) & I & O).
  - now rewrite pairs_keys.
  - intros k v Ikv. apply pairs_in in Ikv. destruct Ikv as (-> & Hk). split; [auto|]. exists (val k). split; [now left|reflexivity].
  - rewrite pairs_keys in *. exists a, s'. split; [assumption|]. exists z. split; [assumption|]. split; [exists l; split; [assumption|]; split; [apply (Permutation_NoDup (Permutation_sym P)); assumption|assumption]|]. split; [|assumption].
    intros k Hk. apply (I k (VBytes (val k))). apply in_map_iff. eauto.
Qed.
(** ... followed by a key already written. *)
Lemma session_dup d ks val k v : NoDup ks -> (forall k, In k ks -> plain_key k) -> In k ks ->
  exists a s', session true d new_sink (pairs val ks ++ [(k, VBytes v)]) = (Zip a, s', (Ok tt, map (fun _ => Ok tt) (pairs val ks) ++ [Raise ValueError], Ok tt)) /\ contains (Zip a) ks val.
Proof using set_order_perm.
  intros ND H Ik. destruct (session_pairs d ks val ND H) as (a & s' & E & C). exists a, s'. split; [|assumption].
  unfold KeyValue.session in *. destruct (sink_enter true d new_sink) as [[d1 s1] e] eqn:En. destruct e as [[]|x]; [|congruence].
  destruct (puts same_name d1 s1 (pairs val ks)) as [[d2 s2] os] eqn:P. destruct (sink_exit set_order d2 s2) as [[d3 s3] x] eqn:X. inversion E; subst; clear E.
  assert (A : forall l d1 s1 d2 s2 os x, puts same_name d1 s1 l = (d2, s2, os) -> put same_name d2 s2 (fst x) (snd x) = (d2, s2, Raise ValueError) -> puts same_name d1 s1 (l ++ [x]) = (d2, s2, os ++ [Raise ValueError])).
  { clear. induction l as [|[k v] l IH]; intros d1 s1 d2 s2 os [k' v'] P D; cbn [puts app] in *.
    - injection P as -> -> <-. simpl in D. rewrite D. reflexivity.
    - destruct (put same_name d1 s1 k v) as [[d3 s3] o]. destruct (puts same_name d3 s3 l) as [[d4 s4] os'] eqn:P'. injection P as <- <- <-. rewrite (IH d3 s3 d4 s4 os' (k', v') P' D). reflexivity. }
  rewrite (A _ _ _ _ _ _ (k, VBytes v) P); [now rewrite X|]. simpl fst. simpl snd. apply C56_duplicate.
  - intros N. unfold sink_exit in X. rewrite N in X. congruence.
  - (* the key was recorded *)
    assert (Kp : forall l d1 s1 d2 s2 os, puts same_name d1 s1 l = (d2, s2, os) -> (forall k, In k (s_keys s1) -> In k (s_keys s2)) /\ (s_state s1 <> NotOpened -> s_state s2 <> NotOpened) /\ (s_state s1 <> NotOpened -> forall k b, In (k, VBytes b) l -> In k (s_keys s2))).
    { clear. induction l as [|[k v] l IH]; intros d1 s1 d2 s2 os P; cbn [puts] in P; [injection P as <- <- <-; repeat split; auto; intros _ ? ? []|].
      destruct (put same_name d1 s1 k v) as [[d3 s3] o] eqn:Pu. destruct (puts same_name d3 s3 l) as [[d4 s4] os'] eqn:P'. injection P as <- <- <-. destruct (IH _ _ _ _ _ P') as (I1 & I2 & I3).
      assert (Q : (forall x, In x (s_keys s1) -> In x (s_keys s3)) /\ (s_state s1 <> NotOpened -> s_state s3 <> NotOpened) /\ (s_state s1 <> NotOpened -> forall b, v = VBytes b -> In k (s_keys s3))).
      { clear -Pu. unfold put in Pu. destruct (in_keys k (s_keys s1)) eqn:IK.
        - apply in_keys_iff in IK. destruct (s_state s1) eqn:St; [inversion Pu; subst; clear Pu; rewrite St; repeat split; auto; congruence| |]; (destruct v; inversion Pu; subst; clear Pu; rewrite St; repeat split; auto; discriminate).
        - assert (L : forall x, In x (s_keys s1) -> In x (s_keys s1 ++ [k])) by (intros; apply in_or_app; auto). assert (L' : In k (s_keys s1 ++ [k])) by (apply in_or_app; simpl; auto).
          destruct (s_state s1) eqn:St; [inversion Pu; subst; clear Pu; rewrite St; repeat split; auto; congruence| |]; destruct v as [|t|b|]; try destruct (encode t); try destruct (writestr _ _ _); inversion Pu; subst; clear Pu; rewrite ?St; simpl; repeat split; auto; discriminate. }
      destruct Q as (Q1 & Q2 & Q3). split; [auto|]. split; [auto|]. intros N x b [E|I]; [injection E as <- ->; apply I1; now apply (Q3 N b)|]. apply (I3 (Q2 N) x b I). }
    destruct (Kp _ _ _ _ _ _ P) as (_ & _ & K3). apply (K3 ltac:(unfold sink_enter in En; destruct (read_keys _); inversion En; subst; simpl; discriminate) k (val k)). apply in_map_iff. eauto.
Qed.
Lemma puts_until_ok l : forall d1 s1 d2 s2, puts same_name d1 s1 l = (d2, s2, map (fun _ => Ok tt) l) -> put_until d1 s1 l = (d2, s2, None).
Proof.
  induction l as [|[k v] l IH]; intros d1 s1 d2 s2 P; cbn [puts put_until map] in *; [congruence|]. destruct (put same_name d1 s1 k v) as [[d3 s3] o]. destruct (puts same_name d3 s3 l) as [[d4 s4] os] eqn:P'. inversion P; subst; clear P. now apply IH.
Qed.
Lemma puts_until_stop l x r e : forall d1 s1 d2 s2, puts same_name d1 s1 (l ++ [x]) = (d2, s2, map (fun _ => Ok tt) l ++ [Raise e]) -> put_until d1 s1 (l ++ x :: r) = (d2, s2, Some e).
Proof.
  induction l as [|[k v] l IH]; intros d1 s1 d2 s2 P; cbn [app map] in *.
  - destruct x as [k v]. cbn [puts put_until] in *. destruct (put same_name d1 s1 k v) as [[d3 s3] o]. injection P as <- <- ->. reflexivity.
  - cbn [puts put_until] in *. destruct (put same_name d1 s1 k v) as [[d3 s3] o]. destruct (puts same_name d3 s3 (l ++ [x])) as [[d4 s4] os] eqn:P'. inversion P; subst; clear P. now apply IH.
Qed.
Lemma write_stream_pairs d ks val e : NoDup ks -> (forall k, In k ks -> plain_key k) ->
  exists d', write_stream d (pairs val ks, e) = (d', e) /\ contains d' ks val.
Proof using set_order_perm.
  intros ND H. destruct (session_pairs d ks val ND H) as (a & s' & E & C). exists (Zip a). split; [|assumption]. unfold Scripts.write_stream. unfold KeyValue.session in E.
  destruct (sink_enter true d new_sink) as [[d1 s1] x]. destruct x as [[]|x]; [|congruence]. destruct (puts same_name d1 s1 (pairs val ks)) as [[d2 s2] os] eqn:P. destruct (sink_exit set_order d2 s2) as [[d3 s3] y] eqn:X. inversion E; subst; clear E.
  cbn [fst snd]. rewrite (puts_until_ok _ _ _ _ _ P), X. now destruct e.
Qed.
Lemma write_stream_dup d ks val k v r e : NoDup ks -> (forall k, In k ks -> plain_key k) -> In k ks ->
  exists d', write_stream d (pairs val ks ++ (k, VBytes v) :: r, e) = (d', Some ValueError) /\ contains d' ks val.
Proof using set_order_perm.
  intros ND H Ik. destruct (session_dup d ks val k v ND H Ik) as (a & s' & E & C). exists (Zip a). split; [|assumption]. unfold Scripts.write_stream. unfold KeyValue.session in E.
  destruct (sink_enter true d new_sink) as [[d1 s1] x]. destruct x as [[]|x]; [|congruence]. destruct (puts same_name d1 s1 (pairs val ks ++ [(k, VBytes v)])) as [[d2 s2] os] eqn:P. destruct (sink_exit set_order d2 s2) as [[d3 s3] y] eqn:X. inversion E; subst; clear E.
  cbn [fst snd]. rewrite (puts_until_stop _ _ _ _ _ _ _ _ P), X. reflexivity.
Qed.

(** ** C64: downsampling *)
(** Whatever the shuffle, the output holds exactly min(num_to_sample, number of keys) distinct items of the input, unchanged: those whose keys come first in the shuffled list of keys. *)
Theorem C64_downsample : forall shuffle num src ks val d, (forall l, Permutation (shuffle l) l) -> serves src ks val -> (forall k, In k ks -> plain_key k) ->
  exists d' kept, downsample set_order shuffle num src d = (d', None) /\ contains d' kept val /\ NoDup kept /\ incl kept ks /\ length kept = Nat.min num (length ks) /\ kept = firstn num (shuffle ks).
Proof using set_order_perm.
  intros shuffle num src ks val d PS (K & ND & I) PK. unfold downsample. rewrite K. set (n := Nat.min num (length ks)). set (kept := firstn n (shuffle ks)).
  assert (IN : incl kept ks). { intros k Hk. apply (Permutation_in _ (PS ks)). rewrite <- (firstn_skipn n (shuffle ks)). apply in_or_app. auto. }
  assert (NK : NoDup kept). { assert (NoDup (shuffle ks)) as N by (apply (Permutation_NoDup (Permutation_sym (PS ks))); assumption). rewrite <- (firstn_skipn n (shuffle ks)) in N. clear -N. fold kept in N. induction kept as [|x l IH]; [constructor|]. inversion N as [|? ? N1 N2]; subst. constructor; [intros J; apply N1; apply in_or_app; auto|auto]. }
  assert (yield_all (fun k => let* b := src_item src k in Ok (Some (k, VBytes b))) kept = (pairs val kept, None)) as ->.
  { clear -IN I. induction kept as [|k l IH]; [reflexivity|]. cbn [yield_all]. rewrite (I k) by (apply IN; simpl; auto). cbn [bind]. rewrite IH; [reflexivity|]. intros x Hx. apply IN. simpl; auto. }
  destruct (write_stream_pairs d kept val None NK) as (d' & W & C); [intros k Hk; apply PK; now apply IN|]. exists d', kept. split; [assumption|]. split; [assumption|]. split; [assumption|]. split; [assumption|].
  assert (Ln := Permutation_length (PS ks)). split.
  - unfold kept. rewrite firstn_length, Ln. unfold n. clear. lia.
  - unfold kept, n. destruct (Nat.min_spec num (length ks)) as [(_ & ->)|(H & ->)]; [reflexivity|]. rewrite <- Ln. rewrite firstn_all. symmetry. apply firstn_all2. rewrite Ln. exact H.
Qed.
(** In particular asking for at least as many items as there are copies the store. *)
Theorem C64_all : forall shuffle num src ks val d, (forall l, Permutation (shuffle l) l) -> serves src ks val -> (forall k, In k ks -> plain_key k) -> length ks <= num ->
  exists d', downsample set_order shuffle num src d = (d', None) /\ contains d' ks val.
Proof using set_order_perm.
  intros shuffle num src ks val d PS Sv PK L. destruct (C64_downsample shuffle num src ks val d PS Sv PK) as (d' & kept & E & C & N & I & Len & _). exists d'. split; [assumption|]. apply (contains_perm d' kept); [assumption|].
  apply NoDup_Permutation_bis; [assumption|lia|assumption].
Qed.

(** ** C63: joining *)
Lemma join_keys_new src val : forall ks written, NoDup ks -> (forall k, In k ks -> src_item src k = Ok (val k)) -> (forall k, In k ks -> ~ In k written) ->
  exists w, join_keys src written ks = (pairs val ks, w, None) /\ forall k, In k w <-> In k ks \/ In k written.
Proof.
  induction ks as [|k ks IH]; intros written ND I N; [exists written; split; [reflexivity|simpl; tauto]|]. inversion ND as [|? ? N1 N2]; subst. cbn [join_keys].
  rewrite (proj2 (existsb_str_false k written)) by (apply N; simpl; auto). rewrite (I k) by (simpl; auto). destruct (IH (k :: written) N2) as (w & E & W).
  - intros; apply I; simpl; auto.
  - intros x Hx [->|H]; [contradiction|]. apply (N x); simpl; auto.
  - exists w. rewrite E. split; [reflexivity|]. intros x. rewrite W. simpl. tauto.
Qed.
Lemma join_keys_dup src val : forall ks written, (forall k, In k ks -> src_item src k = Ok (val k)) -> NoDup ks -> (exists k, In k ks /\ In k written) ->
  exists ys w, join_keys src written ks = (ys, w, Some RuntimeError) /\ exists l r, ks = l ++ r /\ ys = pairs val l /\ (forall k, In k l -> ~ In k written).
Proof.
  induction ks as [|k ks IH]; intros written I ND (x & Hx & Hw); [destruct Hx|]. inversion ND as [|? ? N1 N2]; subst. cbn [join_keys]. destruct (existsb (str_eqb k) written) eqn:X.
  - exists [], written. split; [reflexivity|]. exists [], (k :: ks). repeat split. intros ? [].
  - apply existsb_str_false in X. destruct Hx as [->|Hx]; [contradiction|]. rewrite (I k) by (simpl; auto). destruct (IH (k :: written)) as (ys & w & E & l & r & -> & -> & L); [intros; apply I; simpl; auto|assumption|exists x; simpl; auto|].
    rewrite E. eexists _, _. split; [reflexivity|]. exists (k :: l), r. split; [reflexivity|]. split; [reflexivity|]. intros y [<-|J]; [assumption|]. intros Hy. apply (L y J). simpl; auto.
Qed.
(** The inputs: files with their keys and values. *)
Definition inputs_ok (xs : list (disk * list str * (str -> bytes))) : Prop := forall d ks val, In (d, ks, val) xs -> contains d ks val /\ forall k, In k ks -> plain_key k.
Definition all_keys (xs : list (disk * list str * (str -> bytes))) : list str := flat_map (fun x => snd (fst x)) xs.
(** [val] gives every key the value it has in its input. *)
Definition union_val (xs : list (disk * list str * (str -> bytes))) (val : str -> bytes) : Prop := forall d ks v k, In (d, ks, v) xs -> In k ks -> val k = v k.
Lemma union_val_exists xs : NoDup (all_keys xs) -> exists val, union_val xs val.
Proof.
  induction xs as [|[[d ks] v] xs IH]; intros N; [exists (fun _ => []); intros ? ? ? ? []|]. unfold all_keys in N. cbn [flat_map fst snd] in N. fold (all_keys xs) in N.
  assert (N2 : NoDup (all_keys xs)) by (clear -N; induction ks as [|k ks IH]; [assumption|]; inversion N; auto). destruct (IH N2) as (val & U).
  exists (fun k => if existsb (str_eqb k) ks then v k else val k). intros d' ks' v' k [E|I] Hk.
  - injection E as <- <- <-. now rewrite (proj2 (existsb_str k ks) Hk).
  - rewrite (proj2 (existsb_str_false k ks)); [now apply (U d' ks')|]. intros Hk'. clear -N I Hk Hk'. assert (In k (all_keys xs)) as J by (apply in_flat_map; exists (d', ks', v'); auto). induction ks as [|x ks IH]; [destruct Hk'|]. inversion N as [|? ? N1 N2]; subst. destruct Hk' as [->|Hk']; [apply N1; apply in_or_app; auto|auto].
Qed.
(** Without a shared key the output is the union of the inputs. *)
Lemma join_inputs_ok val : forall xs written, inputs_ok xs -> NoDup (all_keys xs) -> (forall k, In k (all_keys xs) -> ~ In k written) -> union_val xs val ->
  exists ks, join_inputs written (map (fun x => fst (fst x)) xs) = (pairs val ks, None) /\ Permutation ks (all_keys xs).
Proof.
  induction xs as [|[[d ks] v] xs IH]; intros written Ok_ N D U; [exists []; split; reflexivity|]. unfold all_keys in N, D |- *. cbn [flat_map fst snd map] in *. fold (all_keys xs) in *.
  destruct (Ok_ d ks v) as (C & PK); [simpl; auto|]. destruct (contains_serves d ks v C) as (z & ks' & Ez & P & K & ND & I). cbn [join_inputs]. rewrite Ez. cbv zeta. rewrite K.
  destruct (join_keys_new (zip_source same_name bytes_value z) val ks' written ND) as (w & E & W).
  { intros k Hk. rewrite (I k Hk). f_equal. symmetry. apply (U d ks v); [simpl; auto|now apply (Permutation_in _ P)]. }
  { intros k Hk. apply D. apply in_or_app. left. now apply (Permutation_in _ P). }
  rewrite E. assert (N1 : NoDup (all_keys xs) /\ forall k, In k ks -> ~ In k (all_keys xs)). { clear -N. induction ks as [|x ks IH]; [split; [assumption|intros ? []]|]. inversion N as [|? ? A B]; subst. destruct (IH B) as (X & Y). split; [assumption|]. intros k [<-|J]; [intros H; apply A; apply in_or_app; auto|auto]. }
  destruct N1 as (N1 & N2). destruct (IH w) as (ks2 & E2 & P2).
  - intros d' ks2 v' J. apply Ok_. simpl; auto.
  - assumption.
  - intros k Hk Hw. apply W in Hw. destruct Hw as [Hw|Hw]; [apply (N2 k); [now apply (Permutation_in _ P)|assumption]|]. apply (D k); [apply in_or_app; auto|assumption].
  - intros d' ks2 v' k J. apply (U d' ks2 v' k). simpl; auto.
  - rewrite E2. exists (ks' ++ ks2). rewrite pairs_app. split; [reflexivity|]. now apply Permutation_app.
Qed.
Theorem C63_join : forall xs d, inputs_ok xs -> NoDup (all_keys xs) ->
  exists d' val, join_stores set_order (map (fun x => fst (fst x)) xs) d = (d', None) /\ union_val xs val /\ contains d' (all_keys xs) val.
Proof using set_order_perm.
  intros xs d Ok_ N. destruct (union_val_exists xs N) as (val & U). destruct (join_inputs_ok val xs [] Ok_ N) as (ks & E & P); [intros ? ? []|assumption|].
  unfold join_stores. rewrite E. destruct (write_stream_pairs d ks val None) as (d' & W & C).
  - apply (Permutation_NoDup (Permutation_sym P)). assumption.
  - intros k Hk. apply (Permutation_in _ P) in Hk. apply in_flat_map in Hk. destruct Hk as ([[d0 ks0] v0] & I & Hk). now apply (Ok_ d0 ks0 v0).
  - exists d', val. split; [assumption|]. split; [assumption|]. now apply (contains_perm d' ks).
Qed.
(** If two inputs share a key, RuntimeError; what was written before it (pairs of the inputs) is in the output. *)
Lemma join_inputs_dup : forall xs written, inputs_ok xs -> NoDup written -> ~ NoDup (all_keys xs ++ written) ->
  exists ks val, join_inputs written (map (fun x => fst (fst x)) xs) = (pairs val ks, Some RuntimeError) /\ NoDup (ks ++ written) /\ incl ks (all_keys xs) /\ (forall k, In k ks -> exists d0 ks0 v0, In (d0, ks0, v0) xs /\ In k ks0 /\ val k = v0 k).
Proof.
  assert (NA : forall (a b : list str), NoDup a -> NoDup b -> (forall k, In k a -> ~ In k b) -> NoDup (a ++ b)).
  { clear. induction a as [|x a IH]; intros b A B D; [assumption|]. inversion A as [|? ? A1 A2]; subst. simpl. constructor; [|apply IH; auto; intros; apply D; simpl; auto]. intros H. apply in_app_or in H. destruct H as [H|H]; [auto|]. apply (D x); simpl; auto. }
  induction xs as [|[[d ks] v] xs IH]; intros written Ok_ NW N; [simpl in N; contradiction|]. cbn [map fst snd join_inputs].
  destruct (Ok_ d ks v) as (C & PK); [simpl; auto|]. destruct (contains_serves d ks v C) as (z & ks' & Ez & P & K & ND & I). rewrite Ez. cbv zeta. rewrite K.
  unfold all_keys in *. cbn [flat_map fst snd] in *. fold (all_keys xs) in *.
  destruct (existsb (fun k => existsb (str_eqb k) written) ks') eqn:X.
  - apply existsb_exists in X. destruct X as (k & Hk & Hw). apply existsb_str in Hw. destruct (join_keys_dup (zip_source same_name bytes_value z) v ks' written I ND) as (ys & w & E & l & r & Ks & -> & L); [eauto|].
    rewrite E. exists l, v. split; [reflexivity|]. assert (Il : incl l ks) by (intros x Hx; apply (Permutation_in _ P); rewrite Ks; apply in_or_app; auto). split; [|split; [intros x Hx; apply in_or_app; auto|]].
    + apply NA; [|assumption|assumption]. rewrite Ks in ND. clear -ND. induction l as [|x l IH]; [constructor|]. inversion ND as [|? ? A B]; subst. constructor; [intros H; apply A; apply in_or_app; auto|auto].
    + intros x Hx. exists d, ks, v. simpl. auto.
  - assert (Dj : forall k, In k ks' -> ~ In k written). { intros k Hk Hw. assert (existsb (fun k => existsb (str_eqb k) written) ks' = true) by (apply existsb_exists; exists k; split; [assumption|now apply existsb_str]). congruence. }
    destruct (join_keys_new (zip_source same_name bytes_value z) v ks' written ND I Dj) as (w & E & W). rewrite E.
    assert (NW' : NoDup (ks' ++ written)) by now apply NA.
    (* the keys written so far, as a list without repetition *)
    assert (exists w0, NoDup w0 /\ join_inputs w (map (fun x => fst (fst x)) xs) = join_inputs w0 (map (fun x => fst (fst x)) xs) /\ Permutation w0 (ks' ++ written)) as (w0 & Nw0 & Ew0 & Pw0).
    { exists w. assert (NoDup w /\ Permutation w (ks' ++ written)) as (A & B); [|auto]. clear -E NW' W.
      revert written w E NW' W. induction ks' as [|k ks' IH]; intros written w E N W; cbn [join_keys] in E; [injection E as <-; simpl in *; auto|].
      destruct (existsb (str_eqb k) written); [discriminate|]. destruct (src_item _ k) as [b|]; [|discriminate]. destruct (join_keys _ (k :: written) ks') as [[ys w'] e] eqn:E'. injection E as E1 E2 <- ->. inversion N as [|? ? N1 N2]; subst.
      destruct (IH (k :: written) w') as (A & B).
      - exact E'.
      - apply (Permutation_NoDup (l := k :: ks' ++ written)); [apply Permutation_middle|now constructor].
      - intros x. rewrite W. simpl. tauto.
      - split; [assumption|]. rewrite B. symmetry. apply Permutation_middle. }
    rewrite Ew0. destruct (IH w0) as (ks2 & val & E2 & N2 & I2 & V2).
    + intros d' ks2 v' J. apply Ok_. simpl; auto.
    + assumption.
    + intros H. apply N. assert (NoDup (all_keys xs ++ ks' ++ written)) as H1 by (apply (Permutation_NoDup (l := all_keys xs ++ w0)); [now apply Permutation_app_head|assumption]).
      apply (Permutation_NoDup (l := all_keys xs ++ ks' ++ written)); [|assumption]. rewrite <- !app_assoc. rewrite !app_assoc. apply Permutation_app_tail. rewrite P. apply Permutation_app_comm.
    + rewrite E2. assert (ND2 : forall k, In k ks' -> ~ In k ks2). { intros k Hk Hk2. clear -N2 Pw0 Hk Hk2. assert (In k w0) as J by (apply (Permutation_in _ (Permutation_sym Pw0)); apply in_or_app; auto). induction ks2 as [|x l IHl]; [destruct Hk2|]. inversion N2 as [|? ? A B]; subst. destruct Hk2 as [->|H]; [apply A; apply in_or_app; auto|auto]. }
      exists (ks' ++ ks2), (fun k => if existsb (str_eqb k) ks' then v k else val k). split; [|split; [|split]].
      * rewrite pairs_app. f_equal. f_equal; apply map_ext_in; intros k Hk; [now rewrite (proj2 (existsb_str k ks') Hk)|]. rewrite (proj2 (existsb_str_false k ks')); [reflexivity|]. intros Hk'. now apply (ND2 k).
      * rewrite <- app_assoc. apply (Permutation_NoDup (l := ks2 ++ ks' ++ written)); [rewrite !app_assoc; apply Permutation_app_tail; apply Permutation_app_comm|]. apply (Permutation_NoDup (l := ks2 ++ w0)); [now apply Permutation_app_head|assumption].
      * intros k Hk. apply in_app_or in Hk. apply in_or_app. destruct Hk as [Hk|Hk]; [left; now apply (Permutation_in _ P)|right; auto].
      * intros k Hk. apply in_app_or in Hk. destruct (existsb (str_eqb k) ks') eqn:Y.
        -- apply existsb_str in Y. exists d, ks, v. split; [simpl; auto|]. split; [now apply (Permutation_in _ P)|reflexivity].
        -- apply existsb_str_false in Y. destruct Hk as [Hk|Hk]; [contradiction|]. destruct (V2 k Hk) as (d0 & ks0 & v0 & J & Jk & Jv). exists d0, ks0, v0. simpl. auto.
Qed.
Theorem C63_duplicate : forall xs d, inputs_ok xs -> ~ NoDup (all_keys xs) ->
  exists d' ks val, join_stores set_order (map (fun x => fst (fst x)) xs) d = (d', Some RuntimeError) /\ contains d' ks val /\ incl ks (all_keys xs) /\
    (forall k, In k ks -> exists d0 ks0 v0, In (d0, ks0, v0) xs /\ In k ks0 /\ val k = v0 k).
Proof using set_order_perm.
  intros xs d Ok_ N. destruct (join_inputs_dup xs [] Ok_ (NoDup_nil _)) as (ks & val & E & ND & I & V); [now rewrite app_nil_r|]. rewrite app_nil_r in ND. unfold join_stores. rewrite E.
  destruct (write_stream_pairs d ks val (Some RuntimeError) ND) as (d' & W & C).
  - intros k Hk. apply I in Hk. apply in_flat_map in Hk. destruct Hk as ([[d0 ks0] v0] & J & Hk). now apply (Ok_ d0 ks0 v0).
  - exists d', ks, val. auto.
Qed.
(** An input that cannot be opened ends the joining with its error; the output then holds exactly the pairs of the inputs before it. *)
Lemma join_inputs_then val rest : forall xs written, inputs_ok xs -> NoDup (all_keys xs) -> (forall k, In k (all_keys xs) -> ~ In k written) -> union_val xs val ->
  exists ks w, join_inputs written (map (fun x => fst (fst x)) xs ++ rest) = (let '(zs, e) := join_inputs w rest in (pairs val ks ++ zs, e)) /\ Permutation ks (all_keys xs) /\ forall k, In k w <-> In k (all_keys xs) \/ In k written.
Proof.
  induction xs as [|[[d ks] v] xs IH]; intros written Ok_ N D U; [exists [], written; cbn [map app pairs]; destruct (join_inputs written rest); split; [reflexivity|split; [reflexivity|simpl; tauto]]|]. unfold all_keys in N, D |- *. cbn [flat_map fst snd map app] in *. fold (all_keys xs) in *.
  destruct (Ok_ d ks v) as (C & PK); [simpl; auto|]. destruct (contains_serves d ks v C) as (z & ks' & Ez & P & K & ND & I). cbn [join_inputs]. rewrite Ez. cbv zeta. rewrite K.
  destruct (join_keys_new (zip_source same_name bytes_value z) val ks' written ND) as (w & E & W).
  { intros k Hk. rewrite (I k Hk). f_equal. symmetry. apply (U d ks v); [simpl; auto|now apply (Permutation_in _ P)]. }
  { intros k Hk. apply D. apply in_or_app. left. now apply (Permutation_in _ P). }
  rewrite E. assert (N1 : NoDup (all_keys xs) /\ forall k, In k ks -> ~ In k (all_keys xs)). { clear -N. induction ks as [|x ks IH]; [split; [assumption|intros ? []]|]. inversion N as [|? ? A B]; subst. destruct (IH B) as (X & Y). split; [assumption|]. intros k [<-|J]; [intros H; apply A; apply in_or_app; auto|auto]. }
  destruct N1 as (N1 & N2). destruct (IH w) as (ks2 & w2 & E2 & P2 & W2).
  - intros d' ks2 v' J. apply Ok_. simpl; auto.
  - assumption.
  - intros k Hk Hw. apply W in Hw. destruct Hw as [Hw|Hw]; [apply (N2 k); [now apply (Permutation_in _ P)|assumption]|]. apply (D k); [apply in_or_app; auto|assumption].
  - intros d' ks2 v' k J. apply (U d' ks2 v' k). simpl; auto.
  - rewrite E2. exists (ks' ++ ks2), w2. destruct (join_inputs w2 rest) as [zs e]. rewrite pairs_app, <- app_assoc. split; [reflexivity|]. split; [now apply Permutation_app|].
    intros k. rewrite W2, W, in_app_iff. assert (In k ks' <-> In k ks) as -> by (split; apply Permutation_in; [exact P|symmetry; exact P]). tauto.
Qed.
Theorem C63_bad_input : forall xs d e rest out, inputs_ok xs -> NoDup (all_keys xs) -> source_enter d = Raise e ->
  exists d' val, join_stores set_order (map (fun x => fst (fst x)) xs ++ d :: rest) out = (d', Some e) /\ union_val xs val /\ contains d' (all_keys xs) val.
Proof using set_order_perm.
  intros xs d e rest out Ok_ N E. destruct (union_val_exists xs N) as (val & U). destruct (join_inputs_then val (d :: rest) xs [] Ok_ N) as (ks & w & J & P & _); [intros ? ? []|assumption|].
  unfold join_stores. cbn [join_inputs] in J. rewrite E, app_nil_r in J. rewrite J. destruct (write_stream_pairs out ks val (Some e)) as (d' & W & C).
  - apply (Permutation_NoDup (Permutation_sym P)). assumption.
  - intros k Hk. apply (Permutation_in _ P) in Hk. apply in_flat_map in Hk. destruct Hk as ([[d0 ks0] v0] & I & Hk). now apply (Ok_ d0 ks0 v0).
  - exists d', val. split; [assumption|]. split; [assumption|]. now apply (contains_perm d' ks).
Qed.
(** Where the joining stops: the inputs before the first one with a key seen already are there completely, of that one some of its new keys, and
    nothing of the inputs after it (whatever those files are). *)
Theorem C63_first_duplicate : forall before d ks v rest out, inputs_ok (before ++ [(d, ks, v)]) -> NoDup (all_keys before) ->
  (exists k, In k ks /\ In k (all_keys before)) ->
  exists d' part val, join_stores set_order (map (fun x => fst (fst x)) before ++ d :: rest) out = (d', Some RuntimeError) /\
    contains d' (all_keys before ++ part) val /\ union_val before val /\
    (forall k, In k part -> In k ks /\ ~ In k (all_keys before) /\ val k = v k).
Proof using set_order_perm.
  intros before d ks v rest out Ok_ N (k0 & H1 & H2). destruct (union_val_exists before N) as (val0 & U0).
  set (val := fun k => if existsb (str_eqb k) (all_keys before) then val0 k else v k).
  assert (U : union_val before val).
  { intros d0 ks0 v0 k I Hk. unfold val. rewrite (proj2 (existsb_str k (all_keys before))); [now apply (U0 d0 ks0)|]. apply in_flat_map. exists (d0, ks0, v0). auto. }
  destruct (join_inputs_then val (d :: rest) before [] ) as (ks1 & w & J & P & W).
  { intros d0 ks0 v0 I. apply Ok_. apply in_or_app. auto. } { exact N. } { intros ? ? []. } { exact U. }
  destruct (Ok_ d ks v) as (C & PK); [apply in_or_app; simpl; auto|]. destruct (contains_serves d ks v C) as (z & ks' & Ez & P' & K & ND & I).
  destruct (join_keys_dup (zip_source same_name bytes_value z) v ks' w I ND) as (ys & w' & E & l & r & Ks & Ys & L).
  { exists k0. split; [apply (Permutation_in _ (Permutation_sym P')); assumption|]. apply W. auto. }
  cbn [join_inputs] in J. rewrite Ez in J. cbv zeta in J. rewrite K, E in J.
  assert (PL : forall k, In k l -> In k ks /\ ~ In k (all_keys before)).
  { intros k Hk. split; [apply (Permutation_in _ P'); rewrite Ks; apply in_or_app; auto|]. intros H. apply (L k Hk). apply W. auto. }
  assert (Yl : ys = pairs val l).
  { subst ys. apply map_ext_in. intros k Hk. unfold val. rewrite (proj2 (existsb_str_false k (all_keys before))); [reflexivity|]. apply (PL k Hk). }
  rewrite Yl, <- pairs_app in J. unfold join_stores. rewrite J.
  assert (ND1 : NoDup (all_keys before ++ l)).
  { assert (NL : NoDup l). { rewrite Ks in ND. clear -ND. induction l as [|x l IH]; [constructor|]. inversion ND as [|? ? A B]; subst. constructor; [intros H; apply A; apply in_or_app; auto|auto]. }
    clear -N NL PL. induction (all_keys before) as [|x a IH]; [assumption|]. inversion N as [|? ? A B]; subst. simpl. constructor.
    - intros H. apply in_app_or in H. destruct H as [H|H]; [auto|]. apply (PL x H). simpl. auto.
    - apply IH; [assumption|]. intros k Hk. split; [apply (PL k Hk)|]. intros H. apply (PL k Hk). simpl. auto. }
  assert (PP : Permutation (ks1 ++ l) (all_keys before ++ l)) by now apply Permutation_app_tail.
  destruct (write_stream_pairs out (ks1 ++ l) val (Some RuntimeError)) as (d' & Wr & Co).
  - apply (Permutation_NoDup (Permutation_sym PP)). exact ND1.
  - intros k Hk. apply (Permutation_in _ PP) in Hk. apply in_app_or in Hk. destruct Hk as [Hk|Hk]; [|now apply PK, PL].
    apply in_flat_map in Hk. destruct Hk as ([[d0 ks0] v0] & J0 & Hk). apply (Ok_ d0 ks0 v0); [apply in_or_app; auto|exact Hk].
  - exists d', l, val. split; [exact Wr|]. split; [now apply (contains_perm d' (ks1 ++ l))|]. split; [exact U|]. intros k Hk. destruct (PL k Hk) as (A & B). split; [exact A|]. split; [exact B|].
    unfold val. now rewrite (proj2 (existsb_str_false k (all_keys before))).
Qed.

(** ** C61: even slices *)
Fixpoint sel (n j i : nat) (ks : list str) : list str :=
  match ks with [] => [] | k :: r => if (i mod n =? j)%nat then k :: sel n j (S i) r else sel n j (S i) r end.
Lemma sel_in n j : forall ks i k, In k (sel n j i ks) <-> exists p, nth_error ks p = Some k /\ (i + p) mod n = j.
Proof.
  induction ks as [|x ks IH]; intros i k; simpl; [split; [intros []|intros (p & E & _); destruct p; discriminate]|].
  assert (A : (exists p, nth_error (x :: ks) p = Some k /\ (i + p) mod n = j) <-> (x = k /\ i mod n = j) \/ exists p, nth_error ks p = Some k /\ (S i + p) mod n = j).
  { split.
    - intros ([|p] & E & M); [left; simpl in E; rewrite Nat.add_0_r in M; split; [congruence|assumption]|right]. exists p. split; [assumption|]. now rewrite <- Nat.add_succ_comm in M.
    - intros [(-> & M)|(p & E & M)]; [exists 0; split; [reflexivity|now rewrite Nat.add_0_r]|]. exists (S p). split; [assumption|]. now rewrite <- Nat.add_succ_comm. }
  rewrite A. destruct (Nat.eqb_spec (i mod n) j) as [E|NE]; simpl; rewrite IH; tauto.
Qed.
Lemma sel_sub n j : forall ks i, incl (sel n j i ks) ks.
Proof. intros ks i k H. apply sel_in in H. destruct H as (p & E & _). now apply nth_error_In in E. Qed.
Lemma sel_nodup n j : forall ks i, NoDup ks -> NoDup (sel n j i ks).
Proof.
  induction ks as [|x ks IH]; intros i N; simpl; [constructor|]. inversion N as [|? ? N1 N2]; subst. destruct (i mod n =? j)%nat; [|auto]. constructor; [|auto]. intros H. apply N1. now apply (sel_sub n j ks (S i)).
Qed.
Lemma sel_length n j : n <> 0 -> j < n -> forall ks, length (sel n j 0 ks) = (length ks + n - 1 - j) / n.
Proof.
  intros Hn Hj. assert (G : forall ks i, length (sel n j i ks) + (i + n - 1 - j) / n = (i + length ks + n - 1 - j) / n).
  { induction ks as [|k ks IH]; intros i; simpl; [now rewrite Nat.add_0_r|].
    specialize (IH (S i)). replace (S i + length ks + n - 1 - j) with (i + S (length ks) + n - 1 - j) in IH by lia. rewrite <- IH. clear IH.
    assert (D : (S i + n - 1 - j) / n = (i + n - 1 - j) / n + (if (i mod n =? j)%nat then 1 else 0)).
    { assert (E := Nat.div_mod i n Hn). assert (M := Nat.mod_upper_bound i n Hn). set (q := i / n) in *. set (r := i mod n) in *.
      destruct (Nat.eqb_spec r j) as [Er|Nr].
      - rewrite E, Er. replace (S (n * q + j) + n - 1 - j) with (0 + (q + 1) * n) by nia. replace (n * q + j + n - 1 - j) with ((n - 1) + q * n) by nia. rewrite !Nat.div_add by assumption. rewrite Nat.div_0_l, Nat.div_small by lia. lia.
      - destruct (Nat.lt_ge_cases r j) as [L|L].
        + rewrite E. replace (S (n * q + r) + n - 1 - j) with ((r + n - j) + q * n) by nia. replace (n * q + r + n - 1 - j) with ((r + n - 1 - j) + q * n) by nia. rewrite !Nat.div_add by assumption. rewrite !Nat.div_small by lia. lia.
        + rewrite E. replace (S (n * q + r) + n - 1 - j) with ((r - j) + (q + 1) * n) by nia. replace (n * q + r + n - 1 - j) with ((r - j - 1) + (q + 1) * n) by nia. rewrite !Nat.div_add by assumption. rewrite !Nat.div_small by lia. lia. }
    rewrite D. destruct (i mod n =? j)%nat; simpl; lia. }
  intros ks. specialize (G ks 0). rewrite (Nat.div_small (0 + n - 1 - j)) in G by lia. simpl in G. lia.
Qed.
Lemma split_loop_ok src n val : n <> 0 -> forall ks i st, (forall k, In k ks -> src_item src k = Ok (val k)) ->
  (forall j, j < n -> exists d s, put_until (fst (st j)) (snd (st j)) (pairs val (sel n j i ks)) = (d, s, None)) ->
  exists st', split_loop src n i ks st = (st', None) /\ (forall j, j < n -> put_until (fst (st j)) (snd (st j)) (pairs val (sel n j i ks)) = (fst (st' j), snd (st' j), None)).
Proof.
  intros Hn. induction ks as [|k ks IH]; intros i st I P.
  - exists st. split; [reflexivity|]. intros j Hj. reflexivity.
  - cbn [split_loop]. rewrite (I k) by (simpl; auto). cbv zeta. set (j0 := i mod n). assert (Hj0 : j0 < n) by (apply Nat.mod_upper_bound; assumption).
    destruct (P j0 Hj0) as (d & s & E). cbn [sel] in E. fold j0 in E. rewrite Nat.eqb_refl in E. cbn [pairs map put_until] in E.
    destruct (put same_name (fst (st j0)) (snd (st j0)) k (VBytes (val k))) as [[d1 s1] o] eqn:Pu. destruct o as [[]|e]; [|discriminate].
    destruct (IH (S i) (upd st j0 (d1, s1))) as (st' & E' & H').
    + intros; apply I; simpl; auto.
    + intros j Hj. unfold upd. destruct (Nat.eqb_spec j j0) as [->|N]; [exists d, s; exact E|]. destruct (P j Hj) as (d' & s' & Ej). cbn [sel] in Ej. fold j0 in Ej. destruct (Nat.eqb_spec j0 j); [congruence|]. exists d', s'. exact Ej.
    + exists st'. split; [assumption|]. intros j Hj. specialize (H' j Hj). unfold upd in H'. cbn [sel]. fold j0. revert H'. destruct (Nat.eqb_spec j j0) as [Ej|N]; intros H'.
      * rewrite Ej, Nat.eqb_refl. rewrite Ej in H'. cbn [pairs map put_until]. rewrite Pu. exact H'.
      * destruct (Nat.eqb_spec j0 j); [congruence|]. exact H'.
Qed.
Lemma concat_map_app {A B} (f g : A -> list B) l : Permutation (concat (map (fun j => f j ++ g j) l)) (concat (map f l) ++ concat (map g l)).
Proof.
  induction l as [|x l IH]; [constructor|]. simpl. rewrite IH. rewrite <- !app_assoc. apply Permutation_app_head. rewrite !app_assoc. apply Permutation_app_tail. apply Permutation_app_comm.
Qed.
Lemma concat_once (k : str) m : forall n s, s <= m < s + n -> concat (map (fun j => if (m =? j)%nat then [k] else []) (seq s n)) = [k].
Proof.
  assert (Z : forall n s, m < s -> concat (map (fun j => if (m =? j)%nat then [k] else []) (seq s n)) = []).
  { induction n as [|n IH]; intros s L; [reflexivity|]. simpl. destruct (Nat.eqb_spec m s); [lia|]. apply IH. lia. }
  induction n as [|n IH]; intros s L; [lia|]. simpl. destruct (Nat.eqb_spec m s) as [->|N]; [rewrite Z by lia; reflexivity|]. apply IH. lia.
Qed.
Lemma sel_partition n : n <> 0 -> forall ks i, Permutation (concat (map (fun j => sel n j i ks) (seq 0 n))) ks.
Proof.
  intros Hn. induction ks as [|k ks IH]; intros i.
  - simpl. induction (seq 0 n); simpl; auto.
  - rewrite (map_ext _ (fun j => (if (i mod n =? j)%nat then [k] else []) ++ sel n j (S i) ks)) by (intros j; simpl; now destruct (i mod n =? j)%nat).
    rewrite concat_map_app, concat_once by (assert (M := Nat.mod_upper_bound i n Hn); lia). simpl. constructor. apply IH.
Qed.
(** The split succeeds, and slice j holds exactly the keys at positions j, j+n, ... of the (sorted or shuffled) key list with their values;
    files of other names are untouched. *)
Theorem C61_split : forall reorder n src ks val ds, (forall l, Permutation (reorder l) l) -> n <> 0 -> serves src ks val -> (forall k, In k ks -> plain_key k) ->
  exists ds' parts, split_even set_order reorder n src ds = (ds', None) /\ length parts = n /\ Permutation (concat parts) ks /\
    (forall j part, nth_error parts j = Some part -> contains (ds' j) part val /\ length part = (length ks + n - 1 - j) / n /\ forall k, In k part <-> in_slice n j (reorder ks) k) /\
    (forall j, n <= j -> ds' j = ds j).
Proof using set_order_perm.
  intros reorder n src ks val ds PR Hn (K & ND & I) PK. assert (ND' : NoDup (reorder ks)) by (apply (Permutation_NoDup (Permutation_sym (PR ks))); assumption).
  assert (In' : forall k, In k (reorder ks) -> In k ks) by (intros k; apply Permutation_in; apply PR).
  (* each slice on its own is a session *)
  assert (S : forall j, exists a d2 s2 s3, put_until (fst (fst (sink_enter true (ds j) new_sink))) (snd (fst (sink_enter true (ds j) new_sink))) (pairs val (sel n j 0 (reorder ks))) = (d2, s2, None) /\ sink_exit set_order d2 s2 = (Zip a, s3, Ok tt) /\ contains (Zip a) (sel n j 0 (reorder ks)) val).
  { intros j. destruct (session_pairs (ds j) (sel n j 0 (reorder ks)) val) as (a & s' & E & C); [now apply sel_nodup|intros k Hk; apply PK, In'; now apply sel_sub in Hk|].
    unfold KeyValue.session in E. destruct (sink_enter true (ds j) new_sink) as [[d1 s1] x]. destruct x as [[]|x]; [|congruence]. destruct (puts same_name d1 s1 _) as [[d2 s2] os] eqn:P. destruct (sink_exit set_order d2 s2) as [[d3 s3] y] eqn:X. inversion E; subst; clear E.
    exists a, d2, s2, s'. split; [cbn [fst snd]; now apply puts_until_ok|]. auto. }
  unfold split_even. rewrite K. destruct (split_loop_ok src n val Hn (reorder ks) 0 (fun j => fst (sink_enter true (ds j) new_sink))) as (st & E & H).
  { intros k Hk. apply I. auto. }
  { intros j Hj. destruct (S j) as (a & d2 & s2 & s3 & P & _). eauto. }
  rewrite E.
  assert (X : forall j, j < n -> exists a s3, sink_exit set_order (fst (st j)) (snd (st j)) = (Zip a, s3, Ok tt) /\ contains (Zip a) (sel n j 0 (reorder ks)) val).
  { intros j Hj. destruct (S j) as (a & d2 & s2 & s3 & P & Ex & C). rewrite (H j Hj) in P. injection P as -> ->. exists a, s3. auto. }
  eexists _, (map (fun j => sel n j 0 (reorder ks)) (seq 0 n)). split; [apply f_equal2; [reflexivity|]|].
  - assert (G : forall l, (forall j, In j l -> j < n) -> fold_left (fun acc j => match acc with Some x => Some x | None => match snd (sink_exit set_order (fst (st j)) (snd (st j))) with Raise x => Some x | Ok _ => None end end) l None = None).
    { induction l as [|j l IHl]; intros Hl; [reflexivity|]. cbn [fold_left]. destruct (X j) as (a & s3 & Ex & _); [apply Hl; simpl; auto|]. rewrite Ex. cbn [snd]. apply IHl. intros; apply Hl; simpl; auto. }
    apply G. intros j Hj. apply in_seq in Hj. lia.
  - split; [now rewrite map_length, seq_length|]. split; [rewrite sel_partition by assumption; apply PR|]. split.
    + intros j part Hp. assert (j < n) as Hj. { assert (nth_error (map (fun j => sel n j 0 (reorder ks)) (seq 0 n)) j <> None) as Q by congruence. apply nth_error_Some in Q. now rewrite map_length, seq_length in Q. }
      rewrite nth_error_map in Hp. rewrite nth_error_seq_ in Hp by assumption. injection Hp as <-. simpl. assert (j <? n = true)%nat as -> by now apply Nat.ltb_lt. destruct (X j Hj) as (a & s3 & Ex & C). rewrite Ex. cbn [fst]. split; [assumption|]. split; [rewrite sel_length by assumption; now rewrite (Permutation_length (PR ks))|].
      intros k. unfold in_slice. apply sel_in.
    + intros j Hj. assert (j <? n = false)%nat as -> by now apply Nat.ltb_ge. reflexivity.
Qed.
(** The slices are as equal as possible. *)
Theorem C61_balanced : forall reorder n src ks val ds, (forall l, Permutation (reorder l) l) -> n <> 0 -> serves src ks val -> (forall k, In k ks -> plain_key k) ->
  exists ds' parts, split_even set_order reorder n src ds = (ds', None) /\ length parts = n /\ Permutation (concat parts) ks /\
    (forall j part, nth_error parts j = Some part -> contains (ds' j) part val) /\ forall p q, In p parts -> In q parts -> length p <= length q + 1.
Proof using set_order_perm.
  intros reorder n src ks val ds PR Hn Sv PK. destruct (C61_split reorder n src ks val ds PR Hn Sv PK) as (ds' & parts & E & L & P & H & _). exists ds', parts. split; [assumption|]. split; [assumption|]. split; [assumption|]. split; [intros j part Hj; now apply H|].
  intros p q Hp Hq. apply In_nth_error in Hp, Hq. destruct Hp as (j & Hp). destruct Hq as (j' & Hq). destruct (H j p Hp) as (_ & -> & _). destruct (H j' q Hq) as (_ & -> & _).
  assert (j < n) by (rewrite <- L; apply nth_error_Some; congruence). assert (j' < n) by (rewrite <- L; apply nth_error_Some; congruence).
  rewrite <- Nat.div_add by assumption. apply Nat.div_le_mono; lia.
Qed.
(** Joining the slices again gives a store with the contents of the original one. *)
Theorem C61_join_split : forall reorder n src ks val ds d, (forall l, Permutation (reorder l) l) -> n <> 0 -> serves src ks val -> (forall k, In k ks -> plain_key k) ->
  exists ds' d', split_even set_order reorder n src ds = (ds', None) /\ join_stores set_order (map ds' (seq 0 n)) d = (d', None) /\ contains d' ks val.
Proof using set_order_perm.
  intros reorder n src ks val ds d PR Hn Sv PK. destruct (C61_split reorder n src ks val ds PR Hn Sv PK) as (ds' & parts & E & L & P & H & _). exists ds'.
  set (xs := map (fun j => (ds' j, nth j parts [], val)) (seq 0 n)).
  assert (A : all_keys xs = concat parts). { unfold all_keys, xs. rewrite flat_map_concat_map, map_map. simpl. f_equal. rewrite <- L. clear. induction parts as [|p parts IH]; [reflexivity|]. simpl. f_equal. rewrite <- seq_shift, map_map. exact IH. }
  destruct (C63_join xs d) as (d' & v & J & U & C).
  - intros d0 ks0 v0 I. apply in_map_iff in I. destruct I as (j & X & I). injection X as <- <- <-. apply in_seq in I. assert (j < length parts) as Lj by lia.
    assert (nth_error parts j = Some (nth j parts [])) as Hj by now apply nth_error_nth'. split; [now apply H|]. intros k Hk. apply PK. apply (Permutation_in _ P). apply in_concat. exists (nth j parts []). split; [now apply nth_In|assumption].
  - rewrite A. apply (Permutation_NoDup (Permutation_sym P)). apply Sv.
  - exists d'. split; [assumption|]. unfold xs in J. rewrite map_map in J. simpl in J. split; [assumption|]. rewrite A in C. apply (contains_perm d' (concat parts)); [|assumption]. apply (contains_ext d' _ v); [assumption|].
    intros k Hk. apply in_concat in Hk. destruct Hk as (p & Hp & Hk). apply In_nth_error in Hp. destruct Hp as (j & Hj). apply (U (ds' j) p val k); [|assumption]. apply in_map_iff. exists j. split; [f_equal; f_equal; now apply nth_error_nth|]. apply in_seq. assert (j < length parts) by (apply nth_error_Some; congruence). lia.
Qed.
(** ** C62: explicit splits *)
Lemma explicit_keys_ok src val : forall ks, (forall k, In k ks -> src_get src k = Ok (Some (val k))) -> explicit_keys src ks = (pairs val ks, None).
Proof.
  induction ks as [|k ks IH]; intros H; [reflexivity|]. cbn [explicit_keys]. rewrite (H k) by (simpl; auto). rewrite IH by (intros; apply H; simpl; auto). reflexivity.
Qed.
Lemma explicit_keys_missing src val : forall ks k r, (forall k, In k ks -> src_get src k = Ok (Some (val k))) -> src_get src k = Ok None -> explicit_keys src (ks ++ k :: r) = (pairs val ks, Some RuntimeError).
Proof.
  induction ks as [|x ks IH]; intros k r H M; cbn [app explicit_keys]; [rewrite M; reflexivity|]. rewrite (H x) by (simpl; auto). rewrite (IH k r) by (auto; intros; apply H; simpl; auto). reflexivity.
Qed.
(** Each key file is a set of keys that zip stores can handle. *)
Definition splits_ok (splits : list (list str * disk)) : Prop := forall ks d, In (ks, d) splits -> NoDup ks /\ forall k, In k ks -> plain_key k.
Definition gets (src : source bytes) (ks : list str) (val : str -> bytes) : Prop := forall k, In k ks -> src_get src k = Ok (Some (val k)).
Lemma explicit_loop_ok src val : forall splits copied, splits_ok splits -> (forall ks d, In (ks, d) splits -> gets src ks val) ->
  exists ds, explicit_loop set_order src splits copied = (ds, copied ++ concat (map fst splits), None) /\ Forall2 (fun s d' => contains d' (fst s) val) splits ds.
Proof using set_order_perm.
  induction splits as [|[ks d] splits IH]; intros copied OK G; [exists []; rewrite app_nil_r; split; [reflexivity|constructor]|].
  cbn [explicit_loop]. rewrite (explicit_keys_ok src val ks) by (apply (G ks d); simpl; auto). destruct (OK ks d) as (ND & PK); [simpl; auto|].
  destruct (write_stream_pairs d ks val None ND PK) as (d' & W & C). rewrite W. cbn [fst]. rewrite pairs_keys. destruct (IH (copied ++ ks)) as (ds & E & F); [intros ? ? ?; apply (OK _ d0); simpl; auto|intros ? ? ?; apply (G _ d0); simpl; auto|].
  rewrite E. exists (d' :: ds). cbn [map fst concat]. rewrite app_assoc. split; [reflexivity|]. constructor; assumption.
Qed.
(** If all listed keys are in the source, each output holds exactly the listed keys with their values.  With the exhaustiveness check, the
    result is an error iff a key of the source is in no list. *)
Theorem C62_split : forall exhaustive src all val splits, src_keys src = Ok (Some all) -> splits_ok splits -> (forall ks d, In (ks, d) splits -> gets src ks val) ->
  exists ds e, explicit_split set_order exhaustive src splits = (ds, e) /\ Forall2 (fun s d' => contains d' (fst s) val) splits ds /\
    (e = None \/ e = Some RuntimeError) /\
    (e = None <-> (exhaustive = true -> forall k, In k all -> exists ks d, In (ks, d) splits /\ In k ks)).
Proof using set_order_perm.
  intros exhaustive src all val splits K OK G. unfold explicit_split. destruct (explicit_loop_ok src val splits [] OK G) as (ds & E & F). rewrite E. cbn [app].
  destruct exhaustive; [|exists ds, None; repeat split; auto; discriminate]. rewrite K.
  assert (A : forallb (fun k => existsb (str_eqb k) (concat (map fst splits))) all = true <-> forall k, In k all -> exists ks d, In (ks, d) splits /\ In k ks).
  { rewrite forallb_forall. apply forall_iff_ex. intros k. assert (In k (concat (map fst splits)) <-> exists ks d, In (ks, d) splits /\ In k ks) as Q.
    { rewrite in_concat. split; [intros (ks & J & Hk); apply in_map_iff in J; destruct J as ([ks' d] & <- & J); eauto|intros (ks & d & J & Hk); exists ks; split; [apply in_map_iff; exists (ks, d); auto|assumption]]. }
    rewrite existsb_str. split; intros H Hk; apply Q; auto. }
  destruct (forallb _ all) eqn:X; (eexists ds, _; split; [reflexivity|]; split; [assumption|]); (split; [auto|]).
  - split; auto. intros _ _. now apply A.
  - split; [discriminate|]. intros H. exfalso. assert (false = true) as Q by (apply A; auto). discriminate.
Qed.
(** A listed key that the source does not have: RuntimeError.  The splits before are complete, this one has the keys before it, the others are
    not touched. *)
Theorem C62_missing : forall exhaustive src val before d l k r after, splits_ok (before ++ [(l ++ k :: r, d)]) ->
  (forall ks d, In (ks, d) before -> gets src ks val) -> gets src l val -> src_get src k = Ok None ->
  exists ds d', explicit_split set_order exhaustive src (before ++ (l ++ k :: r, d) :: after) = (ds ++ d' :: map snd after, Some RuntimeError) /\
    Forall2 (fun s d' => contains d' (fst s) val) before ds /\ contains d' l val.
Proof using set_order_perm.
  intros exhaustive src val before d l k r after OK G Gl M. unfold explicit_split.
  assert (A : forall copied, exists ds d' c, explicit_loop set_order src (before ++ (l ++ k :: r, d) :: after) copied = (ds ++ d' :: map snd after, c, Some RuntimeError) /\ Forall2 (fun s d' => contains d' (fst s) val) before ds /\ contains d' l val).
  { induction before as [|[ks d0] before IH]; intros copied; cbn [app explicit_loop].
    - rewrite (explicit_keys_missing src val l k r Gl M). destruct (OK (l ++ k :: r) d) as (ND & PK); [simpl; auto|]. destruct (write_stream_pairs d l val (Some RuntimeError)) as (d' & W & C).
      + clear -ND. induction l as [|x l IH]; [constructor|]. inversion ND as [|? ? A B]; subst. constructor; [intros H; apply A; apply in_or_app; auto|auto].
      + intros x Hx. apply PK. apply in_or_app; auto.
      + rewrite W. exists [], d', copied. auto.
    - rewrite (explicit_keys_ok src val ks) by (apply (G ks d0); simpl; auto). destruct (OK ks d0) as (ND & PK); [simpl; auto|]. destruct (write_stream_pairs d0 ks val None ND PK) as (d1 & W & C). rewrite W. cbn [fst].
      destruct (IH ltac:(intros ? dx ?; apply (OK _ dx); simpl; auto) ltac:(intros ? dx ?; apply (G _ dx); simpl; auto) (copied ++ map fst (pairs val ks))) as (ds & d' & c & E & F & Cl). rewrite E. exists (d1 :: ds), d', c. cbn [app fst snd]. split; [reflexivity|]. split; [constructor; assumption|assumption]. }
  destruct (A []) as (ds & d' & c & E & F & C). rewrite E. exists ds, d'. auto.
Qed.

(** ** C75: directories and tar files *)
Section NodeInd.
Variable P : node -> Prop.
Hypothesis PF : forall b, P (FileNode b).
Hypothesis PD : forall es, (forall n t, In (n, t) es -> P t) -> P (DirNode es).
Fixpoint node_ind2 (t : node) : P t :=
  match t with
  | FileNode b => PF b
  | DirNode es => PD es ((fix go (es : list (str * node)) : forall n t, In (n, t) es -> P t :=
      match es with
      | [] => fun n t (H : In (n, t) []) => match H with end
      | (m, u) :: r => fun n t H => match H with
                                    | or_introl E => eq_ind u P (node_ind2 u) t (f_equal snd E)
                                    | or_intror H' => go r n t H'
                                    end
      end) es)
  end.
End NodeInd.
Theorem C75_files : forall t n b, In (n, b) (files_below t) <-> file_in t n b.
Proof using.
  induction t as [b0|es IH] using node_ind2; intros n b; [split; [intros []|intros H; inversion H]|]. cbn [files_below]. rewrite in_flat_map. split.
  - intros ([m t] & J & H). destruct t as [b1|es'].
    + destruct H as [E|[]]. injection E as -> ->. now apply here.
    + apply (deeper n b m (DirNode es')); [assumption|]. apply (IH m); assumption.
  - intros H. inversion H as [? ? ? J|? ? m t ? J F]; subst; [exists (n, FileNode b); simpl; auto|]. exists (m, t). split; [assumption|]. apply (IH m t J) in F. destruct t; [destruct F|assumption].
Qed.
Lemma last_dot_spec s : match last_dot s with Some i => exists a b, s = a ++ [DOT] ++ b /\ length a = i /\ ~ In DOT b | None => ~ In DOT s end.
Proof using.
  induction s as [|c s IH]; [intros []|]. simpl. destruct (last_dot s) as [i|].
  - destruct IH as (a & b & -> & <- & N). exists (c :: a), b. auto.
  - destruct (N.eqb_spec c DOT) as [->|D]; [exists [], s; auto|]. simpl. intuition.
Qed.
Theorem C75_stem : forall name, drops_extension name (stem name).
Proof using.
  intros name. unfold stem. assert (H := last_dot_spec name). assert (U : forall a b a' b' : str, a ++ [DOT] ++ b = a' ++ [DOT] ++ b' -> ~ In DOT b -> ~ In DOT b' -> a = a' /\ b = b').
  { clear. induction a as [|x a IH]; intros b [|y a'] b' E N N'; simpl in E.
    - injection E as ->. auto.
    - injection E as <- ->. exfalso. apply N. apply in_or_app. simpl. auto.
    - injection E as -> <-. exfalso. apply N'. apply in_or_app. simpl. auto.
    - injection E as <- E. destruct (IH b a' b' E N N') as (-> & ->). auto. }
  destruct (last_dot name) as [i|].
  - destruct H as (a & b & -> & <- & N). destruct a as [|x a]; [|destruct b as [|y b]].
    + simpl. apply drop_none. intros base ext E N'. destruct (U [] b base ext) as (<- & _); auto.
    + assert ((length (x :: a) <? length ((x :: a) ++ [DOT] ++ []) - 1)%nat = false) as -> by (apply Nat.ltb_ge; rewrite app_length; simpl; lia). rewrite Bool.andb_false_r. apply drop_none. intros base ext E N'. destruct (U (x :: a) [] base ext) as (_ & <-); auto.
    + assert (((0 <? length (x :: a)) && (length (x :: a) <? length ((x :: a) ++ [DOT] ++ y :: b) - 1))%nat = true) as -> by (apply andb_true_intro; split; apply Nat.ltb_lt; rewrite ?app_length; simpl; lia).
      rewrite firstn_app, firstn_all, Nat.sub_diag. simpl firstn. rewrite app_nil_r. apply drop_ext; congruence.
  - apply drop_none. intros base ext -> _. exfalso. apply H. apply in_or_app. simpl. auto.
Qed.
(** The drop_extension relation is a function, so [stem] is determined by it. *)
Theorem C75_stem_unique : forall name a b, drops_extension name a -> drops_extension name b -> a = b.
Proof using.
  assert (U : forall a b a' b' : str, a ++ [DOT] ++ b = a' ++ [DOT] ++ b' -> ~ In DOT b -> ~ In DOT b' -> a = a' /\ b = b').
  { clear. induction a as [|x a IH]; intros b [|y a'] b' E N N'; simpl in E.
    - injection E as ->. auto.
    - injection E as <- ->. exfalso. apply N. apply in_or_app. simpl. auto.
    - injection E as -> <-. exfalso. apply N'. apply in_or_app. simpl. auto.
    - injection E as <- E. destruct (IH b a' b' E N N') as (-> & ->). auto. }
  assert (G : forall name a, drops_extension name a -> (exists ext, name = a ++ [DOT] ++ ext /\ a <> [] /\ ext <> [] /\ ~ In DOT ext) \/ (a = name /\ forall base ext, name = base ++ [DOT] ++ ext -> ~ In DOT ext -> base = [] \/ ext = [])).
  { intros name a [base ext B X N|name0 H]; [left; exists ext; auto|right; auto]. }
  intros name a b A B. apply G in A, B. destruct A as [(e & -> & A1 & A2 & A3)|(-> & A)]; destruct B as [(e' & E & B1 & B2 & B3)|(-> & B)].
  - exact (proj1 (U _ _ _ _ E A3 B3)).
  - destruct (B a e); auto; contradiction.
  - destruct (A b e'); auto; contradiction.
  - reflexivity.
Qed.
Definition key_of (strip : bool) (n : str) : str := if strip then stem n else n.
(** If the keys of the files below the directory are distinct, the store has exactly one entry for each, with the contents of the file. *)
Theorem C75_directory : forall glob_order strip t d, (forall l, Permutation (glob_order l) l) ->
  let ks := map (fun f => key_of strip (fst f)) (files_below t) in NoDup ks -> (forall k, In k ks -> plain_key k) ->
  exists d' val, directory_to_store set_order glob_order strip t d = (d', None) /\ contains d' ks val /\ forall n b, file_in t n b -> val (key_of strip n) = b.
Proof using set_order_perm.
  intros go strip t d PG ks ND PK. set (fs := files_below t) in *.
  assert (exists val, forall n b, In (n, b) fs -> val (key_of strip n) = b) as (val & V).
  { clear -ND. unfold ks in ND. clear ks. induction fs as [|[n b] fs IH]; [exists (fun _ => []); intros ? ? []|]. cbn [map fst] in ND. inversion ND as [|? ? A B]; subst. destruct (IH B) as (val & V). exists (fun k => if str_eqb k (key_of strip n) then b else val k).
    intros n' b' [E|J]; [injection E as <- <-; now rewrite str_eqb_refl|]. destruct (str_eqb (key_of strip n') (key_of strip n)) eqn:E; [|auto]. apply str_eqb_eq in E. exfalso. apply A. rewrite <- E. apply in_map_iff. exists (n', b'). auto. }
  assert (map (fun f => (key_of strip (fst f), VBytes (snd f))) (go fs) = pairs val (map (fun f => key_of strip (fst f)) (go fs))) as Ep.
  { unfold pairs. rewrite map_map. apply map_ext_in. intros [n b] J. cbn [fst snd]. rewrite (V n b); [reflexivity|]. now apply (Permutation_in _ (PG fs)). }
  assert (Permutation (map (fun f => key_of strip (fst f)) (go fs)) ks) as Pk by (unfold ks; apply Permutation_map; apply PG).
  destruct (write_stream_pairs d (map (fun f => key_of strip (fst f)) (go fs)) val None) as (d' & W & C).
  - now apply (Permutation_NoDup (Permutation_sym Pk)).
  - intros k Hk. apply PK. now apply (Permutation_in _ Pk).
  - exists d', val. split; [|split; [now apply (contains_perm d' _ _ _ C)|]].
    + unfold directory_to_store. fold fs. unfold key_of in Ep at 1. rewrite Ep. exact W.
    + intros n b F. apply V. now apply C75_files.
Qed.
(** Two files with the same key (in different subdirectories, or with different extensions): ValueError at the second one found; the files found before are in the store. *)
Theorem C75_duplicate : forall glob_order strip t d l n b r,
  glob_order (files_below t) = l ++ (n, b) :: r -> let ks := map (fun f => key_of strip (fst f)) l in NoDup ks -> (forall k, In k ks -> plain_key k) -> In (key_of strip n) ks ->
  exists d' val, directory_to_store set_order glob_order strip t d = (d', Some ValueError) /\ contains d' ks val /\ forall n b, In (n, b) l -> val (key_of strip n) = b.
Proof using set_order_perm.
  intros go strip t d l n b r G ks ND PK Ik.
  assert (exists val, forall n b, In (n, b) l -> val (key_of strip n) = b) as (val & V).
  { clear -ND. unfold ks in ND. clear ks. induction l as [|[n b] fs IH]; [exists (fun _ => []); intros ? ? []|]. cbn [map fst] in ND. inversion ND as [|? ? A B]; subst. destruct (IH B) as (val & V). exists (fun k => if str_eqb k (key_of strip n) then b else val k).
    intros n' b' [E|J]; [injection E as <- <-; now rewrite str_eqb_refl|]. destruct (str_eqb (key_of strip n') (key_of strip n)) eqn:E; [|auto]. apply str_eqb_eq in E. exfalso. apply A. rewrite <- E. apply in_map_iff. exists (n', b'). auto. }
  destruct (write_stream_dup d ks val (key_of strip n) b (map (fun f => (key_of strip (fst f), VBytes (snd f))) r) None ND PK Ik) as (d' & W & C).
  exists d', val. split; [|auto]. unfold directory_to_store. rewrite G. rewrite map_app. cbn [map fst snd].
  replace (map (fun f => (if strip then stem (fst f) else fst f, VBytes (snd f))) l) with (pairs val ks); [exact W|]. unfold pairs, ks. rewrite map_map. apply map_ext_in. intros [n' b'] J. cbn [fst snd]. now rewrite (V n' b').
Qed.
(** tar_gz_to_zip (streaming): the zip file has exactly the file members of the tar file that are not too large, in the same order. *)
Definition kept (cutoff : option N) (m : member) (b : bytes) : Prop := m_isfile m = true /\ m_data m = Some b /\ forall c, cutoff = Some c -> (N.of_nat (length b) <= c)%N.
Inductive copies (cutoff : option N) : list member -> archive -> Prop :=
| copies_nil : copies cutoff [] []
| copies_keep m b ms a : kept cutoff m b -> copies cutoff ms a -> copies cutoff (m :: ms) ((m_name m, b) :: a)
| copies_skip m ms a : (forall b, ~ kept cutoff m b) -> copies cutoff ms a -> copies cutoff (m :: ms) a.
Theorem C75_tar : forall cutoff ms, (forall m, In m ms -> m_isfile m = true -> (exists b, m_data m = Some b) /\ m_name m <> [] /\ name_ok (m_name m)) ->
  exists a, tar_to_zip cutoff ms = (a, None) /\ copies cutoff ms a.
Proof using.
  intros cutoff ms H. unfold tar_to_zip. match goal with |- exists a, ?f ms [] = _ /\ _ => set (loop := f) end.
  assert (G : forall ms a, (forall m, In m ms -> m_isfile m = true -> (exists b, m_data m = Some b) /\ m_name m <> [] /\ name_ok (m_name m)) -> exists a', loop ms a = (a ++ a', None) /\ copies cutoff ms a').
  { clear ms H. induction ms as [|m ms IH]; intros a H; [exists []; rewrite app_nil_r; split; [reflexivity|constructor]|].
    assert (H' : forall m, In m ms -> m_isfile m = true -> (exists b, m_data m = Some b) /\ m_name m <> [] /\ name_ok (m_name m)) by (intros; apply H; simpl; auto).
    change (loop (m :: ms) a) with (match m_isfile m, m_data m with
        | true, Some b =>
            if match cutoff with Some c => (c <? N.of_nat (length b))%N | None => false end then loop ms a
            else match writestr a (m_name m) b with Ok a' => loop ms a' | Raise e => (a, Some e) end
        | true, None => (a, Some AttributeError)
        | false, _ => loop ms a
        end). destruct (m_isfile m) eqn:F.
    - destruct (H m) as ((b & D) & NE & NO); [simpl; auto|assumption|]. rewrite D. destruct (match cutoff with Some c => (c <? N.of_nat (length b))%N | None => false end) eqn:X.
      + destruct (IH a H') as (a' & E & C). exists a'. split; [assumption|]. apply copies_skip; [|assumption]. intros b' (_ & D' & L). rewrite D in D'. injection D' as <-. destruct cutoff as [c|]; [|discriminate]. apply N.ltb_lt in X. specialize (L c eq_refl). lia.
      + assert (writestr a (m_name m) b = Ok (a ++ [(m_name m, b)])) as ->. { unfold writestr. rewrite zip_name_id by apply NO. destruct (m_name m) as [|x nm]; [congruence|]. apply zappend_ok. exact NO. }
        destruct (IH (a ++ [(m_name m, b)]) H') as (a' & E & C). exists ((m_name m, b) :: a'). rewrite E, <- app_assoc. split; [reflexivity|]. apply copies_keep; [|assumption]. split; [assumption|]. split; [assumption|]. intros c ->. apply N.ltb_ge in X. assumption.
    - destruct (IH a H') as (a' & E & C). exists a'. split; [assumption|]. apply copies_skip; [|assumption]. intros b' (F' & _). congruence. }
  apply (G ms [] H).
Qed.
Lemma ends_with_spec s suf : ends_with s suf = true <-> exists a, s = a ++ suf.
Proof using.
  unfold ends_with. rewrite str_eqb_eq. split.
  - intros E. exists (firstn (length s - length suf) s). rewrite <- E at 2. now rewrite firstn_skipn.
  - intros (a & ->). rewrite app_length. replace (length a + length suf - length suf) with (length a) by lia. rewrite skipn_app, skipn_all, Nat.sub_diag. reflexivity.
Qed.
Lemma cut_app (a suf : str) : firstn (length (a ++ suf) - length suf) (a ++ suf) = a.
Proof using. rewrite app_length. replace (length a + length suf - length suf) with (length a) by lia. rewrite firstn_app, Nat.sub_diag, firstn_all. simpl. apply app_nil_r. Qed.
Theorem C75_output_name : forall base, output_name (base ++ !!".tar") = base ++ !!".zip" /\ output_name (base ++ !!".tgz") = base ++ !!".zip" /\
  (forall name, (forall b, name <> b ++ !!".tar") -> (forall b, name <> b ++ !!".tgz") -> (forall b, name <> b ++ !!"tar.gz") -> output_name name = name ++ !!".zip").
Proof using.
  assert (NE : forall s suf, (forall b, s <> b ++ suf) -> ends_with s suf = false). { intros s suf H. destruct (ends_with s suf) eqn:E; [|reflexivity]. apply ends_with_spec in E. destruct E as (a & E). now apply H in E. }
  intros base. unfold output_name. split; [|split].
  - rewrite (proj2 (ends_with_spec _ !!".tar")) by eauto. now rewrite cut_app.
  - assert (ends_with (base ++ !!".tgz") !!".tar" = false) as ->. { apply NE. intros b E. change !!".tgz" with (!!".tg" ++ !!"z") in E. change !!".tar" with (!!".ta" ++ !!"r") in E. rewrite !app_assoc in E. apply app_inj_tail in E. destruct E as (_ & E). discriminate. }
    rewrite (proj2 (ends_with_spec _ !!".tgz")) by eauto. now rewrite cut_app.
  - intros name A B C. now rewrite !NE by assumption.
Qed.
(** USAGE says ".tar.gz" is stripped: only "tar.gz" is, the dot before it stays. *)
Theorem C75_tar_gz_name_refuted : forall base, output_name (base ++ !!".tar.gz") = base ++ !!"..zip".
Proof using.
  assert (NE : forall s suf, (forall b, s <> b ++ suf) -> ends_with s suf = false). { intros s suf H. destruct (ends_with s suf) eqn:E; [|reflexivity]. apply ends_with_spec in E. destruct E as (a & E). now apply H in E. }
  intros base. unfold output_name.
  assert (ends_with (base ++ !!".tar.gz") !!".tar" = false) as ->. { apply NE. intros b E. change !!".tar.gz" with (!!".tar.g" ++ !!"z") in E. change !!".tar" with (!!".ta" ++ !!"r") in E. rewrite !app_assoc in E. apply app_inj_tail in E. destruct E as (_ & E). discriminate. }
  assert (ends_with (base ++ !!".tar.gz") !!".tgz" = false) as ->. { apply NE. intros b E. change !!".tar.gz" with (!!".tar" ++ !!"." ++ !!"gz") in E. change !!".tgz" with (!!".t" ++ !!"gz") in E. rewrite !app_assoc in E. apply app_inv_tail in E. change !!".t" with (!!"." ++ !!"t") in E. rewrite !app_assoc in E. apply app_inj_tail in E. destruct E as (_ & E). discriminate. }
  change (base ++ !!".tar.gz") with (base ++ !!"." ++ !!"tar.gz"). rewrite app_assoc. rewrite (proj2 (ends_with_spec _ !!"tar.gz")) by eauto. rewrite cut_app. rewrite <- app_assoc. reflexivity.
Qed.

(** ** C79: text_at_offsets *)
(** Offsets in bounds: exactly the characters from start (inclusive) to stop (exclusive) are printed, without a warning. *)
Theorem C79_in_bounds : forall text i j, i < j <= length text ->
  exists a s b, text = a ++ s ++ b /\ length a = i /\ length (a ++ s) = j /\ text_at_offsets text (Z.of_nat i) (Z.of_nat j) = [Text s].
Proof using.
  intros text i j L. exists (firstn i text), (firstn (j - i) (skipn i text)), (skipn (j - i) (skipn i text)). rewrite !firstn_skipn. split; [reflexivity|]. split; [rewrite firstn_length; lia|]. split; [rewrite app_length, !firstn_length, skipn_length; lia|].
  unfold text_at_offsets. assert ((Z.of_nat i <? 0) || (Z.of_nat (length text) <=? Z.of_nat i) = false)%Z as -> by (apply orb_false_iff; split; [apply Z.ltb_ge|apply Z.leb_gt]; lia).
  assert ((Z.of_nat j <=? Z.of_nat i) || (Z.of_nat (length text) <? Z.of_nat j) = false)%Z as -> by (apply orb_false_iff; split; [apply Z.leb_gt|apply Z.ltb_ge]; lia).
  rewrite py_slice_nat by lia. reflexivity.
Qed.
(** Otherwise at least one warning is printed; some text is printed nevertheless. *)
Theorem C79_out_of_bounds : forall text i j, ~ (0 <= i < j /\ j <= Z.of_nat (length text))%Z ->
  exists ws s, text_at_offsets text i j = ws ++ [Text s] /\ ws <> [] /\ (forall w, In w ws -> w = StartOutOfBounds \/ w = EndOutOfBounds) /\
    (In StartOutOfBounds ws <-> (i < 0 \/ Z.of_nat (length text) <= i)%Z) /\ (In EndOutOfBounds ws <-> (j <= i \/ Z.of_nat (length text) < j)%Z).
Proof using.
  intros text i j L. unfold text_at_offsets. set (n := Z.of_nat (length text)) in *. rewrite app_assoc. eexists _, _. split; [reflexivity|].
  destruct ((i <? 0) || (n <=? i))%Z eqn:A; destruct ((j <=? i) || (n <? j))%Z eqn:B; rewrite ?orb_true_iff, ?orb_false_iff, ?Z.ltb_lt, ?Z.leb_le, ?Z.ltb_ge, ?Z.leb_gt in A, B; simpl;
    (split; [try discriminate; try (exfalso; lia)|]); (split; [intros w; intuition|]); split; (split; [intros C|intros C]); try (exfalso; lia); try (intuition; fail); repeat (destruct C as [C|C]); try discriminate; try contradiction; auto; lia.
Qed.
(** Even for offsets reported to be out of bounds the text printed need not be empty. *)
Theorem C79_negative_refuted : text_at_offsets !!"abc" (-2) 3 = [StartOutOfBounds; Text !!"bc"].
Proof using. reflexivity. Qed.
End Props.

(** ** Claims of the documentation that do not hold *)
(** directory_to_key_value_store: "if any sub-directories of the input directory are encountered, an error will be raised". *)
Theorem C75_subdirectory_error_refuted : exists t n b, file_in t n b /\ (exists m es, In (m, DirNode es) (match t with DirNode l => l | _ => [] end)) /\
  forall d, exists d', directory_to_store (fun l => l) (fun l => l) false t d = (d', None) /\ contains d' [!!"x"; !!"y"] (fun k => if str_eqb k !!"x" then !!"1" else !!"2").
Proof.
  set (t := DirNode [(!!"x", FileNode !!"1"); (!!"sub", DirNode [(!!"y", FileNode !!"2")])]). exists t, !!"y", !!"2".
  split; [apply (deeper _ _ !!"sub" (DirNode [(!!"y", FileNode !!"2")])); [simpl; auto|]; apply here; simpl; auto|]. split; [eexists _, _; simpl; eauto|].
  intros d. destruct (C75_directory (fun l => l) (fun l => Permutation_refl l) (fun l => l) false t d (fun l => Permutation_refl l)) as (d' & val & E & C & V).
  - repeat constructor; simpl; intuition discriminate.
  - intros k [<-|[<-|[]]]; (split; [discriminate|]); repeat split; try (simpl; intuition discriminate); repeat constructor; vm_compute; intuition discriminate.
  - exists d'. split; [exact E|]. apply (contains_ext d' _ val _ C). intros k [<-|[<-|[]]]; [apply (V !!"x" !!"1")|apply (V !!"y" !!"2")]; [apply here; simpl; auto|apply (deeper _ _ !!"sub" (DirNode [(!!"y", FileNode !!"2")])); [simpl; auto|]; apply here; simpl; auto].
Qed.
(** The explicit split is not checked to be a partition: a key in two lists is copied to both outputs, without an error. *)
Theorem C62_partition_refuted : forall set_order src k b d1 d2, (forall l, Permutation (set_order l) l) -> src_keys src = Ok (Some [k]) -> src_get src k = Ok (Some b) -> plain_key k ->
  exists e1 e2, explicit_split set_order true src [([k], d1); ([k], d2)] = ([e1; e2], None) /\ contains e1 [k] (fun _ => b) /\ contains e2 [k] (fun _ => b).
Proof.
  intros so src k b d1 d2 PS K G PK. destruct (C62_split so PS true src [k] (fun _ => b) [([k], d1); ([k], d2)] K) as (ds & e & E & F & O & X).
  - intros ks d [H|[H|[]]]; injection H as <- <-; (split; [repeat constructor; intros []|]); intros x [<-|[]]; assumption.
  - intros ks d [H|[H|[]]]; injection H as <- <-; intros x [<-|[]]; assumption.
  - assert (e = None) as -> by (apply X; intros _ x [<-|[]]; exists [k], d1; simpl; auto).
    inversion F as [|? e1 ? ? C1 F1]; subst. inversion F1 as [|? e2 ? ? C2 F2]; subst. inversion F2; subst. exists e1, e2. auto.
Qed.

(** ** Non-trivial instances *)
Definition ex_source : source bytes := path_source [(!!"b", !!"2"); (!!"a", !!"1"); (!!"c", !!"3")] (fun p => Ok p).
Definition ex_val (k : str) : bytes := if str_eqb k !!"a" then !!"1" else if str_eqb k !!"b" then !!"2" else !!"3".
Example ex_serves : serves ex_source [!!"b"; !!"a"; !!"c"] ex_val /\ forall k, In k [!!"b"; !!"a"; !!"c"] -> plain_key k.
Proof.
  split; [split; [reflexivity|split; [repeat constructor; simpl; intuition discriminate|intros k [<-|[<-|[<-|[]]]]; reflexivity]]|].
  intros k [<-|[<-|[<-|[]]]]; (split; [discriminate|]); repeat split; try (simpl; intuition discriminate); repeat constructor; vm_compute; intuition discriminate.
Qed.
Example C61_witness : let '(ds, e) := split_even (fun l => l) (fun l => rev l) 2 ex_source (fun _ => Absent) in
  e = None /\ ds 0%nat = Zip [(!!"c", !!"3"); (!!"b", !!"2"); (!!"__keys", !!"c" ++ [LF] ++ !!"b")] /\ ds 1%nat = Zip [(!!"a", !!"1"); (!!"__keys", !!"a")] /\
  join_stores (fun l => l) [ds 0%nat; ds 1%nat] Absent = (Zip [(!!"c", !!"3"); (!!"b", !!"2"); (!!"a", !!"1"); (!!"__keys", !!"c" ++ [LF] ++ !!"b" ++ [LF] ++ !!"a")], None) /\
  snd (join_stores (fun l => l) [ds 0%nat; ds 0%nat] Absent) = Some RuntimeError.
Proof. vm_compute. repeat split. Qed.
Example C62_witness : explicit_split (fun l => l) true ex_source [([!!"a"], Absent); ([!!"b"; !!"c"], Zip [(!!"old", [])])] =
  ([Zip [(!!"a", !!"1"); (!!"__keys", !!"a")]; Zip [(!!"b", !!"2"); (!!"c", !!"3"); (!!"__keys", !!"b" ++ [LF] ++ !!"c")]], None) /\
  snd (explicit_split (fun l => l) true ex_source [([!!"a"], Absent); ([!!"b"], Absent)]) = Some RuntimeError /\
  snd (explicit_split (fun l => l) false ex_source [([!!"a"], Absent); ([!!"b"], Absent)]) = None /\
  explicit_split (fun l => l) true ex_source [([!!"a"; !!"z"; !!"b"], Absent); ([!!"b"; !!"c"], Absent)] = ([Zip [(!!"a", !!"1"); (!!"__keys", !!"a")]; Absent], Some RuntimeError).
Proof. vm_compute. repeat split. Qed.
(** Joining a store of "a" and one of "b" with one of "c" and "a": "a", "b" and "c" are written, then the joining stops; the fourth input is not even opened. *)
Example C63_witness : let one k v := Zip [(k, v); (!!"__keys", k)] in
  let before := [(one !!"a" !!"1", [!!"a"], fun _ => !!"1"); (one !!"b" !!"2", [!!"b"], fun _ => !!"2")] in
  let last := Zip [(!!"c", !!"3"); (!!"a", !!"4"); (!!"__keys", !!"c" ++ [LF] ++ !!"a")] in
  NoDup (all_keys before) /\ (exists k, In k [!!"c"; !!"a"] /\ In k (all_keys before)) /\
  join_stores (fun l => l) (map (fun x => fst (fst x)) before ++ last :: [Partial]) Absent =
    (Zip [(!!"a", !!"1"); (!!"b", !!"2"); (!!"c", !!"3"); (!!"__keys", !!"a" ++ [LF] ++ !!"b" ++ [LF] ++ !!"c")], Some RuntimeError).
Proof. vm_compute. split; [repeat constructor; simpl; intuition discriminate|]. split; [exists !!"a"; simpl; auto|reflexivity]. Qed.
Example C64_witness : downsample (fun l => l) (@rev str) 2 ex_source Absent = (Zip [(!!"c", !!"3"); (!!"a", !!"1"); (!!"__keys", !!"c" ++ [LF] ++ !!"a")], None).
Proof. reflexivity. Qed.
Example C75_witness : let f n b := {| m_name := n; m_isfile := true; m_data := Some b |} in
  tar_to_zip (Some 2%N) [f !!"x" !!"12"; {| m_name := !!"d"; m_isfile := false; m_data := None |}; f !!"y" !!"123"; f !!"x" []] = ([(!!"x", !!"12"); (!!"x", [])], None) /\
  stem !!"a.tar.gz" = !!"a.tar" /\ stem !!".bashrc" = !!".bashrc" /\ stem !!"a." = !!"a." /\
  snd (directory_to_store (fun l => l) (fun l => l) true (DirNode [(!!"a.x", FileNode !!"1"); (!!"a.y", FileNode !!"2")]) Absent) = Some ValueError.
Proof. vm_compute. repeat split. Qed.
Example C79_witness : text_at_offsets !!"hello world" 6 11 = [Text !!"world"] /\ text_at_offsets !!"abc" 2 9 = [EndOutOfBounds; Text !!"c"].
Proof. split; reflexivity. Qed.

Print Assumptions C61_split.
Print Assumptions C61_balanced.
Print Assumptions C61_join_split.
Print Assumptions C62_split.
Print Assumptions C62_missing.
Print Assumptions C63_join.
Print Assumptions C63_duplicate.
Print Assumptions C63_first_duplicate.
Print Assumptions C64_downsample.
Print Assumptions C75_directory.
Print Assumptions C75_duplicate.
Print Assumptions C75_tar.
Print Assumptions C79_in_bounds.
Print Assumptions C79_out_of_bounds.
