(** * UTF-8 as Python's str.encode("utf-8") / bytes.decode("utf-8") (errors="strict")

    Used by key_value.py:51, 60, 512-513, 680-681 and all text files of io_utils.py.  A str is a
    list of code points (below 0x110000), bytes a list of numbers below 256. *)
From Verif Require Import Prelude PyStr.

Local Open Scope N_scope.
(** code points that UTF-8 cannot encode *)
Definition is_surrogate (c : N) : bool := (55296 <=? c) && (c <=? 57343).
(** UTF-8 of one code point *)
Definition encode1 (c : N) : res (list N) :=
  if c <? 128 then Ok [c]
  else if c <? 2048 then Ok [192 + c / 64; 128 + c mod 64]
  else if c <? 65536 then
    if is_surrogate c then Raise UnicodeEncodeError
    else Ok [224 + c / 4096; 128 + (c / 64) mod 64; 128 + c mod 64]
  else if c <? 1114112 then Ok [240 + c / 262144; 128 + (c / 4096) mod 64; 128 + (c / 64) mod 64; 128 + c mod 64]
  else Raise UnicodeEncodeError.
(** str.encode("utf-8") (key_value.py:60, 512-513) *)
Fixpoint encode (s : str) : res (list N) :=
  match s with
  | [] => Ok []
  | c :: r => let* b := encode1 c in let* bs := encode r in Ok (b ++ bs)
  end.

(** The decoder reads one sequence at a time; overlong forms, surrogates and values above
    0x10FFFF are errors. *)
Definition cont (b : N) : bool := (128 <=? b) && (b <=? 191).
(** value of a two-byte sequence *)
Definition val2 (a b : N) : N := (a - 192) * 64 + (b - 128).
(** value of a three-byte sequence *)
Definition val3 (a b c : N) : N := ((a - 224) * 64 + (b - 128)) * 64 + (c - 128).
(** value of a four-byte sequence *)
Definition val4 (a b c d : N) : N := (((a - 240) * 64 + (b - 128)) * 64 + (c - 128)) * 64 + (d - 128).
(** bytes.decode("utf-8") (key_value.py:51, 680-681) *)
Fixpoint decode (bs : list N) : res str :=
  match bs with
  | [] => Ok []
  | a :: r =>
      if a <? 128 then let* s := decode r in Ok (a :: s)
      else if (194 <=? a) && (a <=? 223) then
        match r with
        | b :: r1 => if cont b then let* s := decode r1 in Ok (val2 a b :: s) else Raise UnicodeDecodeError
        | _ => Raise UnicodeDecodeError
        end
      else if (224 <=? a) && (a <=? 239) then
        match r with
        | b :: c :: r1 =>
            if cont b && cont c && (2048 <=? val3 a b c) && negb (is_surrogate (val3 a b c))
            then let* s := decode r1 in Ok (val3 a b c :: s) else Raise UnicodeDecodeError
        | _ => Raise UnicodeDecodeError
        end
      else if (240 <=? a) && (a <=? 244) then
        match r with
        | b :: c :: d :: r1 =>
            if cont b && cont c && cont d && (65536 <=? val4 a b c d) && (val4 a b c d <? 1114112)
            then let* s := decode r1 in Ok (val4 a b c d :: s) else Raise UnicodeDecodeError
        | _ => Raise UnicodeDecodeError
        end
      else Raise UnicodeDecodeError
  end.

(** A code point that can be encoded (a Unicode scalar value). *)
Definition scalar (c : N) : Prop := c < 1114112 /\ ~ (55296 <= c <= 57343).
Lemma is_surrogate_spec c : is_surrogate c = true <-> 55296 <= c <= 57343.
Proof. unfold is_surrogate. rewrite andb_true_iff, !N.leb_le. reflexivity. Qed.
Lemma cont_spec b : cont b = true <-> 128 <= b <= 191.
Proof. unfold cont. rewrite andb_true_iff, !N.leb_le. reflexivity. Qed.
Ltac dm x d := pose proof (N.div_mod' x d); pose proof (N.mod_lt x d ltac:(discriminate)).
Lemma encode1_total c : scalar c -> exists bs, encode1 c = Ok bs /\ bs <> [] /\ Forall (fun b => b < 256) bs.
Proof.
  intros [L S]. unfold encode1. destruct (N.ltb_spec c 128); [eexists; split; [reflexivity|]; split; [discriminate|]; repeat constructor; lia|].
  dm c 64. dm (c / 64) 64. dm c 4096. dm (c / 4096) 64. dm c 262144.
  destruct (N.ltb_spec c 2048); [eexists; split; [reflexivity|]; split; [discriminate|]; repeat constructor; lia|].
  destruct (N.ltb_spec c 65536).
  - destruct (is_surrogate c) eqn:E; [apply is_surrogate_spec in E; tauto|]. eexists; split; [reflexivity|]. split; [discriminate|]. repeat constructor; lia.
  - destruct (N.ltb_spec c 1114112); [|lia]. eexists; split; [reflexivity|]. split; [discriminate|]. repeat constructor; lia.
Qed.
Lemma encode1_fail c : ~ scalar c -> encode1 c = Raise UnicodeEncodeError.
Proof.
  intros N. unfold encode1, scalar in *. destruct (N.ltb_spec c 128); [exfalso; apply N; lia|]. destruct (N.ltb_spec c 2048); [exfalso; apply N; lia|].
  destruct (N.ltb_spec c 65536).
  - destruct (is_surrogate c) eqn:E; [reflexivity|]. exfalso. apply N. split; [lia|]. rewrite <- is_surrogate_spec. congruence.
  - destruct (N.ltb_spec c 1114112); [exfalso; apply N; lia|reflexivity].
Qed.
Lemma ltb_f a b : b <= a -> (a <? b) = false. Proof. intros; apply N.ltb_ge; lia. Qed.
Lemma leb_t a b : a <= b -> (a <=? b) = true. Proof. intros; apply N.leb_le; lia. Qed.
Lemma leb_f a b : b < a -> (a <=? b) = false. Proof. intros; apply N.leb_gt; lia. Qed.
Lemma decode2 a b r : 194 <= a <= 223 -> 128 <= b <= 191 -> decode (a :: b :: r) = let* s := decode r in Ok (val2 a b :: s).
Proof. intros A B. cbn [decode]. rewrite ltb_f by lia. rewrite (leb_t 194), (leb_t _ 223) by lia. cbn [andb]. now rewrite (proj2 (cont_spec _)) by lia. Qed.
Lemma decode3 a b c r : 224 <= a <= 239 -> 128 <= b <= 191 -> 128 <= c <= 191 -> 2048 <= val3 a b c -> is_surrogate (val3 a b c) = false ->
  decode (a :: b :: c :: r) = let* s := decode r in Ok (val3 a b c :: s).
Proof.
  intros A B C V S. cbn [decode]. rewrite ltb_f by lia. rewrite (leb_f _ 223) by lia. rewrite andb_false_r. rewrite (leb_t 224), (leb_t _ 239) by lia. cbn [andb].
  rewrite !(proj2 (cont_spec _)) by lia. now rewrite S, (leb_t 2048) by lia.
Qed.
Lemma decode4 a b c d r : 240 <= a <= 244 -> 128 <= b <= 191 -> 128 <= c <= 191 -> 128 <= d <= 191 -> 65536 <= val4 a b c d -> val4 a b c d < 1114112 ->
  decode (a :: b :: c :: d :: r) = let* s := decode r in Ok (val4 a b c d :: s).
Proof.
  intros A B C D V U. cbn [decode]. rewrite ltb_f by lia. rewrite (leb_f _ 223) by lia. rewrite andb_false_r. rewrite (leb_f _ 239) by lia. rewrite andb_false_r. rewrite (leb_t 240), (leb_t _ 244) by lia. cbn [andb].
  rewrite !(proj2 (cont_spec _)) by lia. rewrite (leb_t 65536) by lia. now rewrite (proj2 (N.ltb_lt _ _) U).
Qed.
Lemma decode_encode1 c bs rest : encode1 c = Ok bs -> decode (bs ++ rest) = let* s := decode rest in Ok (c :: s).
Proof.
  unfold encode1. destruct (N.ltb_spec c 128) as [L|L]; [intros E; injection E as <-; simpl; apply N.ltb_lt in L; now rewrite L|].
  destruct (N.ltb_spec c 2048) as [L2|L2].
  - intros E. assert (bs = [192 + c / 64; 128 + c mod 64]) as -> by congruence. clear E. dm c 64. cbn [app].
    assert (val2 (192 + c / 64) (128 + c mod 64) = c) as V by (unfold val2; lia). rewrite decode2; [now rewrite V|clear V; lia|clear V; lia].
  - destruct (N.ltb_spec c 65536) as [L3|L3].
    + destruct (is_surrogate c) eqn:S; [discriminate|]. intros E. assert (bs = [224 + c / 4096; 128 + (c / 64) mod 64; 128 + c mod 64]) as -> by congruence. clear E. dm c 4096. dm c 64. dm (c / 64) 64.
      assert (c / 4096 = c / 64 / 64) as Q by (rewrite N.div_div by discriminate; reflexivity). cbn [app].
      assert (val3 (224 + c / 4096) (128 + (c / 64) mod 64) (128 + c mod 64) = c) as V.
      { unfold val3. rewrite Q in *. clear Q. set (x := c / 64) in *. set (y := x / 64) in *. set (z := x mod 64) in *. set (w := c mod 64) in *. clearbody x y z w. lia. }
      rewrite decode3; rewrite ?V; auto; clear V; lia.
    + destruct (N.ltb_spec c 1114112) as [L4|L4]; [|discriminate]. intros E. assert (bs = [240 + c / 262144; 128 + (c / 4096) mod 64; 128 + (c / 64) mod 64; 128 + c mod 64]) as -> by congruence. clear E. dm c 262144. dm c 4096. dm c 64. dm (c / 64) 64. dm (c / 4096) 64.
      assert (c / 4096 = c / 64 / 64) as Q by (rewrite N.div_div by discriminate; reflexivity). assert (c / 262144 = c / 4096 / 64) as Q2 by (rewrite N.div_div by discriminate; reflexivity).
      cbn [app]. assert (val4 (240 + c / 262144) (128 + (c / 4096) mod 64) (128 + (c / 64) mod 64) (128 + c mod 64) = c) as V.
      { unfold val4. rewrite Q2 in *. rewrite Q in *. clear Q Q2. set (x := c / 64) in *. set (y := x / 64) in *. set (z := x mod 64) in *. set (w := c mod 64) in *. set (u := y / 64) in *. set (v := y mod 64) in *. clearbody x y z w u v. lia. }
      rewrite decode4; rewrite ?V; auto; clear V; lia.
Qed.
Lemma decode_encode s bs : encode s = Ok bs -> forall rest, decode (bs ++ rest) = let* t := decode rest in Ok (s ++ t).
Proof.
  revert bs. induction s as [|c s IH]; intros bs E rest; simpl in E.
  - injection E as <-. simpl. now destruct (decode rest).
  - apply bind_ok in E. destruct E as (b & E1 & E). apply bind_ok in E. destruct E as (bs' & E2 & E). injection E as <-.
    rewrite <- app_assoc, (decode_encode1 c b _ E1), (IH _ E2 rest). now destruct (decode rest).
Qed.

Ltac two v := eexists; split; [|reflexivity]; f_equal; repeat f_equal.
Lemma encode1_val2 a b : 194 <= a <= 223 -> 128 <= b <= 191 -> encode1 (val2 a b) = Ok [a; b].
Proof.
  intros A B. assert (val2 a b = b - 128 + (a - 192) * 64) as E by (unfold val2; lia). unfold encode1. rewrite E.
  rewrite ltb_f by lia. rewrite (proj2 (N.ltb_lt _ _)) by lia. rewrite N.div_add, N.mod_add, (N.div_small (b - 128)), (N.mod_small (b - 128)) by lia. do 2 f_equal; [lia|]. f_equal. lia.
Qed.
Lemma split64 h l : l < 64 -> (h * 64 + l) / 64 = h /\ (h * 64 + l) mod 64 = l.
Proof. intros L. rewrite (N.add_comm (h * 64)). rewrite N.div_add, N.mod_add, (N.div_small l), (N.mod_small l) by lia. split; lia. Qed.
Lemma encode1_val3 a b c : 224 <= a <= 239 -> 128 <= b <= 191 -> 128 <= c <= 191 -> 2048 <= val3 a b c -> is_surrogate (val3 a b c) = false ->
  encode1 (val3 a b c) = Ok [a; b; c].
Proof.
  intros A B C L S. unfold encode1. rewrite !ltb_f by lia. assert (val3 a b c < 65536) by (unfold val3; lia). rewrite (proj2 (N.ltb_lt _ _)) by assumption. rewrite S.
  assert (val3 a b c / 4096 = val3 a b c / 64 / 64) as -> by (rewrite N.div_div by discriminate; reflexivity). unfold val3.
  destruct (split64 ((a - 224) * 64 + (b - 128)) (c - 128)) as [-> ->]; [lia|]. destruct (split64 (a - 224) (b - 128)) as [-> ->]; [lia|].
  do 2 f_equal; [lia|]. f_equal; [lia|]. f_equal. lia.
Qed.
Lemma encode1_val4 a b c d : 240 <= a <= 244 -> 128 <= b <= 191 -> 128 <= c <= 191 -> 128 <= d <= 191 -> 65536 <= val4 a b c d -> val4 a b c d < 1114112 ->
  encode1 (val4 a b c d) = Ok [a; b; c; d].
Proof.
  intros A B C D L U. unfold encode1. rewrite !ltb_f by lia. rewrite (proj2 (N.ltb_lt _ _)) by assumption.
  assert (val4 a b c d / 262144 = val4 a b c d / 64 / 64 / 64) as -> by (rewrite !N.div_div by discriminate; reflexivity).
  assert (val4 a b c d / 4096 = val4 a b c d / 64 / 64) as -> by (rewrite !N.div_div by discriminate; reflexivity). unfold val4.
  destruct (split64 (((a - 240) * 64 + (b - 128)) * 64 + (c - 128)) (d - 128)) as [-> ->]; [lia|]. destruct (split64 ((a - 240) * 64 + (b - 128)) (c - 128)) as [-> ->]; [lia|].
  destruct (split64 (a - 240) (b - 128)) as [-> ->]; [lia|]. do 2 f_equal; [lia|]. f_equal; [lia|]. f_equal; [lia|]. f_equal. lia.
Qed.
Lemma encode_cons c b s bs : encode1 c = Ok b -> encode s = Ok bs -> encode (c :: s) = Ok (b ++ bs).
Proof. intros E1 E2. simpl. now rewrite E1, E2. Qed.
Lemma and4 a b c d : (a && b && c && d)%bool = true -> a = true /\ b = true /\ c = true /\ d = true.
Proof. rewrite !andb_true_iff. tauto. Qed.
Lemma encode_decode n : forall bs s, (length bs <= n)%nat -> decode bs = Ok s -> encode s = Ok bs.
Proof.
  induction n as [|n IH]; intros bs s L E; (destruct bs as [|a r]; [injection E as <-; reflexivity|]); [simpl in L; lia|]. simpl in L. cbn [decode] in E.
  destruct (N.ltb_spec a 128) as [A|A].
  - apply bind_ok in E. destruct E as (t & E & X). injection X as <-. apply (encode_cons a [a]); [unfold encode1; now rewrite (proj2 (N.ltb_lt _ _) A)|]. apply IH; [lia|assumption].
  - destruct ((194 <=? a) && (a <=? 223)) eqn:A2.
    + destruct r as [|b r]; [discriminate|]. destruct (cont b) eqn:B; [|discriminate]. apply bind_ok in E. destruct E as (t & E & X). injection X as <-. apply cont_spec in B.
      apply andb_true_iff in A2. rewrite !N.leb_le in A2. apply (encode_cons _ [a; b]); [now apply encode1_val2|]. simpl in L. apply IH; [lia|assumption].
    + destruct ((224 <=? a) && (a <=? 239)) eqn:A3.
      * destruct r as [|b [|c r]]; try discriminate. destruct (cont b && cont c && (2048 <=? val3 a b c) && negb (is_surrogate (val3 a b c)))%bool eqn:B; [|discriminate].
        apply bind_ok in E. destruct E as (t & E & X). injection X as <-. apply and4 in B. destruct B as (B & C & V & S). apply cont_spec in B. apply cont_spec in C. apply N.leb_le in V. apply negb_true_iff in S.
        apply andb_true_iff in A3. rewrite !N.leb_le in A3. apply (encode_cons _ [a; b; c]); [now apply encode1_val3|]. simpl in L. apply IH; [lia|assumption].
      * destruct ((240 <=? a) && (a <=? 244)) eqn:A4; [|discriminate]. destruct r as [|b [|c [|d r]]]; try discriminate.
        destruct (cont b && cont c && cont d && (65536 <=? val4 a b c d) && (val4 a b c d <? 1114112))%bool eqn:B; [|discriminate].
        apply bind_ok in E. destruct E as (t & E & X). injection X as <-. apply andb_true_iff in B. destruct B as (B & U). apply and4 in B. destruct B as (B & C & D & V).
        apply cont_spec in B. apply cont_spec in C. apply cont_spec in D. apply N.leb_le in V. apply N.ltb_lt in U. apply andb_true_iff in A4. rewrite !N.leb_le in A4.
        apply (encode_cons _ [a; b; c; d]); [now apply encode1_val4|]. simpl in L. apply IH; [lia|assumption].
Qed.

(** C68: a string can be encoded exactly when it has no lone surrogate (all its code points are Unicode scalar
    values), the only error being UnicodeEncodeError. *)
Theorem C68_encodable : forall s,
  (Forall scalar s -> exists bs, encode s = Ok bs /\ Forall (fun b => b < 256) bs) /\
  (~ Forall scalar s -> encode s = Raise UnicodeEncodeError).
Proof.
  induction s as [|c s [IH1 IH2]]; [split; [intros _; exists []; split; [reflexivity|constructor]|intros N; destruct N; constructor]|].
  assert (D : scalar c \/ ~ scalar c). { unfold scalar. lia. } split.
  - intros F. inversion F as [|? ? Hc Hs]; subst. destruct (encode1_total c Hc) as (b & Eb & _ & Bb). destruct (IH1 Hs) as (bs & Es & Bs). exists (b ++ bs). split; [now apply encode_cons|]. now apply Forall_app.
  - intros N. simpl. destruct D as [D|D]; [|now rewrite (encode1_fail c D)]. destruct (encode1_total c D) as (b & -> & _). cbn [bind]. rewrite IH2; [reflexivity|]. intros F. apply N. now constructor.
Qed.
(** Decoding and encoding are inverse: bytes decode to [s] exactly if they are the encoding of [s]. *)
Theorem C68_round_trip : forall s bs, decode bs = Ok s <-> encode s = Ok bs.
Proof.
  intros s bs. split; [apply (encode_decode (length bs)); lia|]. intros E. rewrite <- (app_nil_r bs), (decode_encode s bs E []). simpl. now rewrite app_nil_r.
Qed.
(** Encoding does not identify different strings; concatenation is respected; the only decoding error is
    UnicodeDecodeError. *)
Theorem C68_injective : forall s t bs, encode s = Ok bs -> encode t = Ok bs -> s = t.
Proof. intros s t bs E1 E2. apply C68_round_trip in E1. apply C68_round_trip in E2. congruence. Qed.
Theorem C68_concat : forall s t a b, encode s = Ok a -> encode t = Ok b -> encode (s ++ t) = Ok (a ++ b).
Proof.
  intros s t a b E1 E2. apply C68_round_trip. rewrite (decode_encode s a E1 b). rewrite (proj2 (C68_round_trip t b) E2). reflexivity.
Qed.
Theorem C68_decode_error : forall bs e, decode bs = Raise e -> e = UnicodeDecodeError.
Proof.
  intros bs. remember (length bs) as n eqn:L. assert (length bs <= n)%nat as Ln by lia. clear L. revert bs Ln. induction n as [|n IH]; intros bs L e E; (destruct bs as [|a r]; [discriminate|]); [simpl in L; lia|].
  simpl in L. cbn [decode] in E. repeat match type of E with
  | (if ?b then _ else _) = _ => destruct b
  | match ?r with [] => _ | _ => _ end = _ => destruct r; simpl in L
  | bind (decode ?r) _ = _ => destruct (decode r) eqn:D; cbn [bind] in E; [discriminate|]; injection E as <-; apply (IH r); [lia|exact D]
  end; congruence.
Qed.
Example C68_witness : encode [65; 233; 8364; 128512] = Ok [65; 195; 169; 226; 130; 172; 240; 159; 152; 128] /\
  Forall scalar [65; 233; 8364; 128512] /\ encode [65; 55357] = Raise UnicodeEncodeError /\
  decode [192; 128] = Raise UnicodeDecodeError /\ decode [237; 160; 128] = Raise UnicodeDecodeError.
Proof. repeat split; try (vm_compute; reflexivity). repeat constructor; vm_compute; intuition discriminate. Qed.
Print Assumptions C68_encodable.
Print Assumptions C68_round_trip.
Print Assumptions C68_concat.
