(** * C109: equality and order of the value classes: Span, MemoryAmount, WithId, Scored, AnnotatedSpan *)
From Coq Require Import Sorted.
From Verif Require Import Prelude PyStr SortLib Order Range Span SpanProofs AnnotatedText Memory.

(** ** Model *)
(** The comparison operators <, <=, >, >= *)
Inductive cmp := Lt_ | Le_ | Gt_ | Ge_.
(** What a class provides: ==, and the order, which may raise *)
Record ops (A : Type) := MkOps { o_eq : A -> A -> bool; o_cmp : cmp -> A -> A -> res bool }.
Arguments MkOps {A}. Arguments o_eq {A}. Arguments o_cmp {A}.
(** Python compares tuples by the first components that are not equal; if there are none, <= and >= hold.  attrs (library, 19.2.0: eq and order are on unless switched off) gives a class
    the comparisons of the tuples of its attributes: span.py:18, memory_amount.py:53, misc_utils.py:117, 136, annotated_text_utils.py:25.
    (Identical components count as equal without being asked, which matters for NaN only; objects of another class are NotImplemented; neither is modelled.) *)
Definition pair_ops {A B} (a : ops A) (b : ops B) : ops (A * B) :=
  {| o_eq x y := o_eq a (fst x) (fst y) && o_eq b (snd x) (snd y);
     o_cmp c x y := if o_eq a (fst x) (fst y) then
                      if o_eq b (snd x) (snd y) then Ok (match c with Le_ | Ge_ => true | Lt_ | Gt_ => false end)
                      else o_cmp b c (snd x) (snd y)
                    else o_cmp a c (fst x) (fst y) |}.
(** A class whose attributes are [f] of its objects *)
Definition attrs_ops {A B} (f : A -> B) (b : ops B) : ops A := {| o_eq x y := o_eq b (f x) (f y); o_cmp c x y := o_cmp b c (f x) (f y) |}.
(** A total order given by <, such as that of int or str *)
Definition total_ops {A} (eqb ltb : A -> A -> bool) : ops A :=
  {| o_eq := eqb; o_cmp c x y := Ok (match c with Lt_ => ltb x y | Le_ => negb (ltb y x) | Gt_ => ltb y x | Ge_ => negb (ltb x y) end) |}.
(** A class with == but no order, such as an Enum (memory_amount.py:12-22) or a mapping: comparing is a TypeError *)
Definition unordered_ops {A} (eqb : A -> A -> bool) : ops A := {| o_eq := eqb; o_cmp _ _ _ := Raise TypeError |}.
(** int *)
Definition int_ops : ops Z := total_ops Z.eqb Z.ltb.
(** Span, span.py:18-31 *)
Definition span_ops : ops span := attrs_ops (fun s => (start s, end_ s)) (pair_ops int_ops int_ops).
(** MemoryUnit ==: members of an Enum are equal when they are the same *)
Definition unit_eqb (u v : memory_unit) : bool :=
  match u, v with KILOBYTES, KILOBYTES | MEGABYTES, MEGABYTES | GIGABYTES, GIGABYTES | TERABYTES, TERABYTES => true | _, _ => false end.
(** MemoryAmount, memory_amount.py:53-62 *)
Definition memory_ops : ops (N * memory_unit) := pair_ops (total_ops N.eqb N.ltb) (unordered_ops unit_eqb).
(** WithId, misc_utils.py:117-128: id, item *)
Definition with_id_ops {V} (item : ops V) : ops (str * V) := pair_ops (total_ops str_eqb str_ltb) item.
(** Scored, misc_utils.py:136-143: item, score *)
Definition scored_ops {V F} (item : ops V) (score : ops F) : ops (V * F) := pair_ops item score.
(** AnnotatedSpan, annotated_text_utils.py:25-41: label, span, attributes; immutabledicts (library) are not ordered, and equal as dicts are *)
Definition attributes_eqb (a b : list (str * str)) : bool :=
  (length a =? length b)%nat && forallb (fun kv => existsb (fun kv' => str_eqb (fst kv) (fst kv') && str_eqb (snd kv) (snd kv')) b) a.
(** annotated_text_utils.py:25-41 *)
Definition annotation_ops : ops annotation := attrs_ops (fun a => (label a, (ann_span a, attributes a))) (pair_ops (total_ops str_eqb str_ltb) (pair_ops span_ops (unordered_ops attributes_eqb))).

(** ** Specification *)
(** How many bytes an amount is (memory_amount.py says "KILOBYTES" and so on). *)
Definition bytes_per (u : memory_unit) : N := match u with KILOBYTES => 1024 | MEGABYTES => 1024 * 1024 | GIGABYTES => 1024 * 1024 * 1024 | TERABYTES => 1024 * 1024 * 1024 * 1024 end.
(** specification *)
Definition memory_bytes (m : N * memory_unit) : N := fst m * bytes_per (snd m).
(** The spans are in the order of the text: each ends before the next begins. *)
Definition in_text_order : list span -> Prop := StronglySorted (fun a b => end_ a <= start b)%Z.

(** ** Spans *)
Local Open Scope Z_scope.
(** specification: earlier start, or the same and an earlier end *)
Definition span_lt (a b : span) : Prop := start a < start b \/ start a = start b /\ end_ a < end_ b.
(** C109: <, <=, >, >= of spans are a total order, consistent with ==. *)
Theorem C109_span_order : forall a b c : span,
  (o_eq span_ops a b = true <-> a = b) /\
  (exists r, o_cmp span_ops Lt_ a b = Ok r /\ (r = true <-> span_lt a b)) /\
  (exists r, o_cmp span_ops Le_ a b = Ok r /\ (r = true <-> span_lt a b \/ a = b)) /\
  o_cmp span_ops Gt_ a b = o_cmp span_ops Lt_ b a /\ o_cmp span_ops Ge_ a b = o_cmp span_ops Le_ b a /\
  (span_lt a b \/ a = b \/ span_lt b a) /\ ~ span_lt a a /\ (span_lt a b -> span_lt b c -> span_lt a c).
Proof.
  intros [s e] [s' e'] [s2 e2]. unfold span_lt. cbn [start end_]. assert (E : MkSpan s e = MkSpan s' e' <-> s = s' /\ e = e') by (split; [intros Q; now inversion Q|now intros (-> & ->)]).
  split; [cbn; rewrite andb_true_iff, !Z.eqb_eq; tauto|]. cbn. rewrite (Z.eqb_sym s' s), (Z.eqb_sym e' e).
  destruct (Z.eqb_spec s s'), (Z.eqb_spec e e'), (Z.ltb_spec s s'), (Z.ltb_spec s' s), (Z.ltb_spec e e'), (Z.ltb_spec e' e); try lia;
    (split; [eexists; split; [reflexivity|]; split; [|]; intros; (lia || congruence)|]); (split; [eexists; split; [reflexivity|]; rewrite E; cbn; split; intros; (lia || congruence)|]); (split; [reflexivity|]); (split; [reflexivity|]); rewrite E; lia.
Qed.
(** A span that precedes another is less than it; so sorting spans of which no two overlap puts them in the order of the text, as the key earliest_then_longest_first_key does. *)
Theorem C109_span_sorted : forall l : list span, Forall is_span l -> ForallOrdPairs (fun a b => overlaps a b = false) l ->
  let lt a b := match o_cmp span_ops Lt_ a b with Ok r => r | Raise _ => false end in
  let s := sorted_by lt (fun x => x) l in
  Permutation s l /\ in_text_order s /\ s = sorted_by key_ltb earliest_then_longest_first_key l.
Proof.
  intros l Sp Ov lt. cbv zeta. set (s := sorted_by lt (fun x => x) l). set (s' := sorted_by key_ltb earliest_then_longest_first_key l).
  assert (Ps : Permutation s l) by apply sorted_perm. assert (Ps' : Permutation s' l) by apply sorted_perm.
  assert (LT : forall a b, lt a b = true <-> span_lt a b). { intros a b. unfold lt. destruct (C109_span_order a b a) as (_ & (r & -> & H) & _). exact H. }
  rewrite Forall_forall in Sp.
  assert (Ap : forall a b, In a l -> In b l -> a <> b -> end_ a <= start b \/ end_ b <= start a).
  { clear s s' Ps Ps' LT lt Sp. induction Ov as [|x l F Ov IH]; intros a b Ia Ib N; [destruct Ia|]. rewrite Forall_forall in F.
    assert (G : forall y, In y l -> end_ x <= start y \/ end_ y <= start x). { intros y Iy. specialize (F y Iy). unfold overlaps, precedes in F. apply negb_false_iff, orb_true_iff in F. rewrite !Z.leb_le in F. exact F. }
    destruct Ia as [<-|Ia], Ib as [<-|Ib]; [congruence|auto|destruct (G a Ia); auto|auto]. }
  assert (ND : NoDup l).
  { clear s s' Ps Ps' LT lt Ap. induction Ov as [|x l F Ov IH]; [constructor|]. constructor; [|apply IH; intros; apply Sp; now right]. intros I. rewrite Forall_forall in F. specialize (F x I). assert (Sx := Sp x (or_introl eq_refl)). apply is_span_iff in Sx.
    unfold overlaps, precedes in F. apply negb_false_iff, orb_true_iff in F. rewrite !Z.leb_le in F. lia. }
  (* either order, without ties, is the order of the text *)
  set (R := fun a b => is_span a /\ is_span b /\ end_ a <= start b).
  assert (Gen : forall m, Permutation m l -> StronglySorted (fun a b => start a <= start b) m -> StronglySorted R m).
  { intros m P So. assert (NDm : NoDup m) by (eapply Permutation_NoDup; [symmetry; exact P|exact ND]). assert (Im : forall x, In x m -> In x l) by (intros x; apply Permutation_in; exact P). clear P.
    induction So as [|a m So IH F]; [constructor|]. inversion NDm as [|? ? N1 N2]; subst. constructor; [apply IH; [assumption|intros; apply Im; now right]|]. rewrite Forall_forall in F |- *. intros b Ib.
    assert (Sa := Sp a (Im a (or_introl eq_refl))). assert (Sb := Sp b (Im b (or_intror Ib))). split; [assumption|]. split; [assumption|]. assert (a <> b) by congruence. specialize (F b Ib). apply is_span_iff in Sa, Sb.
    destruct (Ap a b (Im a (or_introl eq_refl)) (Im b (or_intror Ib)) H); lia. }
  assert (Weak : forall (P Q : span -> span -> Prop) m, (forall a b, P a b -> Q a b) -> StronglySorted P m -> StronglySorted Q m).
  { intros P Q m H So. induction So as [|a m So IH F]; constructor; [assumption|]. rewrite Forall_forall in F |- *. auto. }
  assert (S1 : StronglySorted R s).
  { apply Gen; [assumption|]. apply (Weak (fun a b => lt b a = false)); [|apply (sorted_sorted lt (fun x => x))].
    - intros a b H. destruct (Z.le_gt_cases (start a) (start b)) as [|G]; [assumption|]. exfalso. assert (lt b a = true) by (apply LT; left; lia). congruence.
    - intros x y H. destruct (lt y x) eqn:E; [|reflexivity]. apply LT in H, E. unfold span_lt in *. lia.
    - intros x y z H1 H2. destruct (lt z x) eqn:E; [|reflexivity]. exfalso. apply LT in E. assert (~ span_lt y x) by (rewrite <- LT; congruence). assert (~ span_lt z y) by (rewrite <- LT; congruence). unfold span_lt in *. lia. }
  assert (S2 : StronglySorted R s').
  { assert (KT : forall a b, key_ltb a b = true <-> fst a < fst b \/ fst a = fst b /\ snd a < snd b) by (intros a b; unfold key_ltb; rewrite orb_true_iff, andb_true_iff, !Z.ltb_lt, Z.eqb_eq; tauto).
    apply Gen; [assumption|]. apply (Weak (fun a b => key_ltb (earliest_then_longest_first_key b) (earliest_then_longest_first_key a) = false)); [|apply (sorted_sorted key_ltb earliest_then_longest_first_key)].
    - intros a b H. destruct (Z.le_gt_cases (start a) (start b)) as [|G]; [assumption|]. exfalso. assert (key_ltb (earliest_then_longest_first_key b) (earliest_then_longest_first_key a) = true) by (apply KT; left; cbn; lia). congruence.
    - intros x y H. destruct (key_ltb y x) eqn:E; [|reflexivity]. apply KT in H, E. lia.
    - intros x y z H1 H2. destruct (key_ltb z x) eqn:E; [|reflexivity]. exfalso. apply KT in E. assert (~ (key_ltb y x = true)) as A by congruence. assert (~ (key_ltb z y = true)) as B by congruence. rewrite KT in A, B. lia. }
  split; [exact Ps|]. split; [apply (Weak R); [now intros a b (_ & _ & H)|exact S1]|].
  apply (strict_sorted_unique R); [| |exact S1|exact S2|].
  - intros a (A & _ & H). apply is_span_iff in A. lia.
  - intros a b (A & B & H) (_ & _ & H'). apply is_span_iff in A, B. lia.
  - intros x. split; apply Permutation_in; [transitivity l; [exact Ps|now symmetry]|transitivity l; [exact Ps'|now symmetry]].
Qed.
(** Refuted, if < was meant to be the order earliest_then_longest_first_key gives: of spans that begin together the shorter comes first. *)
Theorem C109_longest_first_refuted : forall a b : span, start a = start b -> end_ a < end_ b ->
  o_cmp span_ops Lt_ a b = Ok true /\ key_ltb (earliest_then_longest_first_key b) (earliest_then_longest_first_key a) = true.
Proof.
  intros a b E L. split; [destruct (C109_span_order a b a) as (_ & (r & -> & H) & _); f_equal; apply H; now right|]. unfold key_ltb, earliest_then_longest_first_key. cbn [fst snd]. rewrite E, Z.ltb_irrefl, Z.eqb_refl. apply Z.ltb_lt. lia.
Qed.
Local Close Scope Z_scope.

(** ** Amounts of memory *)
Lemma unit_eqb_iff u v : unit_eqb u v = true <-> u = v.
Proof. destruct u, v; cbn; split; (discriminate || reflexivity). Qed.
(** C109: amounts are compared first, by number; if they are equal, the units, which cannot be compared unless they are equal. *)
Theorem C109_memory : forall (n n' : N) (u u' : memory_unit) (c : cmp),
  (o_eq memory_ops (n, u) (n', u') = true <-> n = n' /\ u = u') /\
  (n <> n' -> o_cmp memory_ops c (n, u) (n', u') = Ok (match c with Lt_ | Le_ => (n <? n')%N | Gt_ | Ge_ => (n' <? n)%N end)) /\
  (n = n' -> u <> u' -> o_cmp memory_ops c (n, u) (n', u') = Raise TypeError) /\
  (n = n' -> u = u' -> o_cmp memory_ops c (n, u) (n', u') = Ok (match c with Le_ | Ge_ => true | _ => false end)).
Proof.
  intros n n' u u' c. split; [cbn; now rewrite andb_true_iff, N.eqb_eq, unit_eqb_iff|]. cbn [memory_ops pair_ops o_cmp o_eq total_ops unordered_ops fst snd]. split; [|split].
  - intros H. rewrite (proj2 (N.eqb_neq n n') H). destruct c; try reflexivity; f_equal; rewrite <- N.leb_antisym; [destruct (N.leb_spec n n'), (N.ltb_spec n n')|destruct (N.leb_spec n' n), (N.ltb_spec n' n)]; (reflexivity || lia).
  - intros -> H. rewrite N.eqb_refl. destruct (unit_eqb u u') eqn:E; [apply unit_eqb_iff in E; contradiction|reflexivity].
  - intros -> ->. rewrite N.eqb_refl, (proj2 (unit_eqb_iff u' u') eq_refl). reflexivity.
Qed.
(** Refuted: equal amounts of memory are equal.  1024 of a unit are never equal to one of the next. *)
Theorem C109_memory_equal_refuted : forall (n : N) u u', (1 <= n)%N -> bytes_per u' = (1024 * bytes_per u)%N ->
  memory_amount (1024 * n) u = Ok (1024 * n, u)%N /\ memory_amount n u' = Ok (n, u') /\ memory_bytes (1024 * n, u)%N = memory_bytes (n, u') /\ o_eq memory_ops (1024 * n, u)%N (n, u') = false.
Proof.
  intros n u u' L B. unfold memory_amount. rewrite !(proj2 (N.leb_le _ _)) by lia. split; [reflexivity|]. split; [reflexivity|]. split; [unfold memory_bytes; cbn [fst snd]; lia|].
  destruct (o_eq memory_ops ((1024 * n)%N, u) (n, u')) eqn:E; [|reflexivity]. apply (C109_memory _ _ _ _ Lt_) in E. lia.
Qed.
(** Refuted: < compares amounts of memory.  One of the larger unit is less than two of the smaller. *)
Theorem C109_memory_order_refuted : forall (n : N) u u', (1 <= n)%N -> (bytes_per u' < bytes_per u)%N -> (n < 1023)%N ->
  (memory_bytes (n + 1, u') < memory_bytes (n, u))%N /\ forall c, o_cmp memory_ops c (n, u) (n + 1, u')%N = Ok (match c with Lt_ | Le_ => true | _ => false end).
Proof.
  intros n u u' L B U. split.
  - unfold memory_bytes. cbn [fst snd]. assert (K : (1024 * bytes_per u' <= bytes_per u)%N) by (destruct u, u'; cbn in *; lia). assert (P : (1 <= bytes_per u')%N) by (destruct u'; cbn; lia). nia.
  - intros c. destruct (C109_memory n (n + 1) u u' c) as (_ & H & _). rewrite H by lia. destruct c; f_equal; (apply N.ltb_lt || apply N.ltb_ge); lia.
Qed.

(** ** Items with an id or a score, and annotations *)
(** The second attribute counts only between objects whose first ones are equal. *)
Lemma first_attribute_first : forall (A B : Type) (a : ops A) (b : ops B) c x x' y y',
  (o_eq (pair_ops a b) (x, y) (x', y') = true <-> o_eq a x x' = true /\ o_eq b y y' = true) /\
  (o_eq a x x' = false -> o_cmp (pair_ops a b) c (x, y) (x', y') = o_cmp a c x x') /\
  (o_eq a x x' = true -> o_eq b y y' = false -> o_cmp (pair_ops a b) c (x, y) (x', y') = o_cmp b c y y') /\
  (o_eq a x x' = true -> o_eq b y y' = true -> o_cmp (pair_ops a b) c (x, y) (x', y') = Ok (match c with Le_ | Ge_ => true | _ => false end)).
Proof. intros A B a b c x x' y y'. cbn [pair_ops o_eq o_cmp fst snd]. split; [apply andb_true_iff|]. split; [now intros ->|]. split; [now intros -> ->|now intros -> ->]. Qed.
(** Refuted: scored items are ordered by their scores.  The items are compared first; the scores, whatever they are, count only when the items are equal, and when the items cannot be
    compared it is a TypeError. *)
Theorem C109_scored_refuted : forall (V F : Type) (item : ops V) (score : ops F) x x' s s',
  (o_eq item x x' = false -> forall r, o_cmp item Lt_ x x' = r -> o_cmp (scored_ops item score) Lt_ (x, s) (x', s') = r) /\
  (o_eq item x x' = true -> o_eq score s s' = false -> o_cmp (scored_ops item score) Lt_ (x, s) (x', s') = o_cmp score Lt_ s s').
Proof. intros V F item score x x' s s'. destruct (first_attribute_first V F item score Lt_ x x' s s') as (_ & A & B & _). split; [intros N r <-; exact (A N)|exact B]. Qed.
(** Items with ids are ordered by their ids; two with the same id can be compared only if the items can. *)
Theorem C109_with_id : forall (V : Type) (item : ops V) c (i i' : str) x x',
  (i <> i' -> o_cmp (with_id_ops item) c (i, x) (i', x') = o_cmp (total_ops str_eqb str_ltb) c i i') /\
  (i = i' -> o_eq item x x' = false -> o_cmp (with_id_ops item) c (i, x) (i', x') = o_cmp item c x x') /\
  (o_eq (with_id_ops item) (i, x) (i', x') = true <-> i = i' /\ o_eq item x x' = true).
Proof.
  intros V item c i i' x x'. destruct (first_attribute_first str V (total_ops str_eqb str_ltb) item c i i' x x') as (E & A & B & _). split; [|split].
  - intros N. apply A. destruct (str_eqb i i') eqn:Q; [apply str_eqb_eq in Q; contradiction|exact Q].
  - intros -> N. apply B; [apply str_eqb_refl|exact N].
  - etransitivity; [exact E|]. cbn [total_ops o_eq]. split; intros (P & Q); (split; [|exact Q]); [now apply str_eqb_eq|subst; apply str_eqb_refl].
Qed.
Lemma attributes_eqb_spec (a b : list (str * str)) : NoDup (map fst a) -> NoDup (map fst b) ->
  (attributes_eqb a b = true <-> forall kv : str * str, In kv a <-> In kv b).
Proof.
  intros Na Nb. pose proof (NoDup_map_inv fst a Na) as Ma. pose proof (NoDup_map_inv fst b Nb) as Mb.
  unfold attributes_eqb. rewrite andb_true_iff, Nat.eqb_eq, forallb_forall. 
  assert (E : forall kv : str * str, existsb (fun kv' : str * str => str_eqb (fst kv) (fst kv') && str_eqb (snd kv) (snd kv')) b = true <-> In kv b).
  { intros [k v]. rewrite existsb_exists. cbn [fst snd]. split.
    - intros ([k' v'] & J & Q). cbn [fst snd] in Q. apply andb_true_iff in Q. destruct Q as [Q R]. apply str_eqb_eq in Q, R. subst. exact J.
    - intro J. exists (k, v). split; [exact J|]. cbn [fst snd]. now rewrite !str_eqb_refl. }
  split.
  - intros [L F]. assert (J : incl a b) by (intros kv J; apply E, F, J).
    intro kv. split; [apply J|]. apply (NoDup_length_incl Ma); [rewrite L; apply Nat.le_refl|exact J].
  - intros H. split.
    + apply Nat.le_antisymm; apply NoDup_incl_length; auto; intros kv J; apply H, J.
    + intros kv J. apply E, H, J.
Qed.
(** Two annotations are equal exactly if they have the same label, the same span and the same attributes, in any order. *)
Theorem C109_annotation_equal : forall (l l' : str) (s s' : span) (at1 at2 : list (str * str)), NoDup (map fst at1) -> NoDup (map fst at2) ->
  (o_eq annotation_ops (MkAnn l s at1) (MkAnn l' s' at2) = true <-> l = l' /\ s = s' /\ (forall kv : str * str, In kv at1 <-> In kv at2)).
Proof.
  intros l l' s s' at1 at2 N1 N2. unfold annotation_ops. cbn [attrs_ops o_eq label ann_span attributes pair_ops total_ops unordered_ops fst snd].
  rewrite !andb_true_iff. rewrite (attributes_eqb_spec at1 at2 N1 N2).
  assert (S : o_eq span_ops s s' = true <-> s = s') by apply (C109_span_order s s' s).
  assert (L : str_eqb l l' = true <-> l = l') by (split; [apply str_eqb_eq|intros ->; apply str_eqb_refl]).
  rewrite L. change (o_eq int_ops (start s) (start s') && o_eq int_ops (end_ s) (end_ s')) with (o_eq span_ops s s') in *. rewrite <- S. unfold span_ops. cbn [attrs_ops o_eq pair_ops fst snd]. rewrite andb_true_iff. tauto.
Qed.
(** Annotations are ordered by label, then span; two that differ in their attributes only cannot be compared. *)
Theorem C109_annotation : forall c (l l' : str) (s s' : span) (at1 at2 : list (str * str)), NoDup (map fst at1) -> NoDup (map fst at2) ->
  (l <> l' -> o_cmp annotation_ops c (MkAnn l s at1) (MkAnn l' s' at2) = o_cmp (total_ops str_eqb str_ltb) c l l') /\
  (l = l' -> s <> s' -> o_cmp annotation_ops c (MkAnn l s at1) (MkAnn l' s' at2) = o_cmp span_ops c s s') /\
  (l = l' -> s = s' -> ~ (forall kv : str * str, In kv at1 <-> In kv at2) -> o_cmp annotation_ops c (MkAnn l s at1) (MkAnn l' s' at2) = Raise TypeError).
Proof.
  intros c l l' s s' at1 at2 N1 N2. unfold annotation_ops. cbn [attrs_ops o_cmp label ann_span attributes].
  destruct (first_attribute_first str (span * list (str * str)) (total_ops str_eqb str_ltb) (pair_ops span_ops (unordered_ops attributes_eqb)) c l l' (s, at1) (s', at2)) as (_ & A & B & _).
  destruct (first_attribute_first span (list (str * str)) span_ops (unordered_ops attributes_eqb) c s s' at1 at2) as (E2 & A2 & B2 & _). split; [|split].
  - intros N. apply A. destruct (str_eqb l l') eqn:Q; [apply str_eqb_eq in Q; contradiction|exact Q].
  - intros -> N. assert (Q : o_eq span_ops s s' = false). { destruct (o_eq span_ops s s') eqn:Q; [apply (C109_span_order s s' s) in Q; contradiction|reflexivity]. }
    rewrite B; [exact (A2 Q)|apply str_eqb_refl|]. cbn [pair_ops o_eq fst snd]. now rewrite Q.
  - intros -> -> N0. assert (N : attributes_eqb at1 at2 = false) by (destruct (attributes_eqb at1 at2) eqn:X; [exfalso; exact (N0 (proj1 (attributes_eqb_spec _ _ N1 N2) X))|reflexivity]).
    assert (Q : o_eq span_ops s' s' = true) by now apply (C109_span_order s' s' s'). rewrite B; [now rewrite (B2 Q N)|apply str_eqb_refl|]. cbn [pair_ops o_eq fst snd unordered_ops]. now rewrite Q, N.
Qed.
Print Assumptions C109_span_order.
Print Assumptions C109_span_sorted.
Print Assumptions C109_longest_first_refuted.
Print Assumptions C109_memory.
Print Assumptions C109_memory_equal_refuted.
Print Assumptions C109_memory_order_refuted.
Print Assumptions C109_scored_refuted.
Print Assumptions C109_with_id.
Print Assumptions C109_annotation.
Print Assumptions C109_annotation_equal.

(** The hypotheses are met. *)
Example C109_span_witness : let l := [MkSpan 7 9; MkSpan 0 2; MkSpan 2 5] in Forall is_span l /\ ForallOrdPairs (fun a b => overlaps a b = false) l /\
  sorted_by key_ltb earliest_then_longest_first_key l = [MkSpan 0 2; MkSpan 2 5; MkSpan 7 9] /\ o_cmp span_ops Lt_ (MkSpan 0 2) (MkSpan 0 5) = Ok true.
Proof. cbv zeta. split; [repeat constructor|]. split; [repeat constructor|]. split; reflexivity. Qed.
Example C109_memory_witness : o_eq memory_ops (1024%N, KILOBYTES) (1%N, MEGABYTES) = false /\ o_cmp memory_ops Lt_ (1%N, TERABYTES) (2%N, KILOBYTES) = Ok true /\
  o_cmp memory_ops Lt_ (1%N, TERABYTES) (1%N, KILOBYTES) = Raise TypeError /\ bytes_per MEGABYTES = (1024 * bytes_per KILOBYTES)%N.
Proof. repeat split. Qed.
(** The better scored item is the lesser. *)
Example C109_scored_witness : let o := scored_ops (total_ops str_eqb str_ltb) int_ops in o_cmp o Lt_ (!!"a", 9%Z) (!!"b", 1%Z) = Ok true /\ o_cmp o Lt_ (!!"a", 9%Z) (!!"a", 1%Z) = Ok false.
Proof. split; reflexivity. Qed.
Example C109_annotation_witness : let a := MkAnn !!"div" (MkSpan 0 2) [(!!"class", !!"x")] in let b := MkAnn !!"div" (MkSpan 0 2) [(!!"class", !!"y")] in attributes_eqb (attributes a) (attributes b) = false /\ o_cmp annotation_ops Lt_ a b = Raise TypeError /\ NoDup (map fst (attributes a)) /\
  o_eq annotation_ops (MkAnn !!"p" (MkSpan 0 2) [(!!"a", !!"x"); (!!"b", !!"y")]) (MkAnn !!"p" (MkSpan 0 2) [(!!"b", !!"y"); (!!"a", !!"x")]) = true.
Proof. repeat split; try reflexivity. constructor; [cbn; tauto|constructor]. Qed.
