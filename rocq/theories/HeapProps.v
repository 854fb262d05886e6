(** * C104: which dictionaries and lists Parameters objects share with others *)
From Verif Require Import Prelude PyStr Order Range Params ParamsSpec ParamsProofs Heap.

(** ** Specification *)
(** The object [o] has, at this moment, the value [t] (as in Params.v). *)
Inductive reads (h : list cell) : obj -> pv -> Prop :=
| rd_leaf v : immutable v = true -> reads h (Leaf v) v
| rd_list l items vs : nth_error h l = Some (CList items) -> Forall2 (reads h) items vs -> reads h (Ref l) (PList vs)
| rd_dict l items m : nth_error h l = Some (CDict items) -> Forall2 (fun a b => fst a = fst b /\ reads h (snd a) (snd b)) items m -> reads h (Ref l) (PMap m)
| rd_params l pre items m : nth_error h l = Some (CParams pre items) -> Forall2 (fun a b => fst a = fst b /\ reads h (snd a) (snd b)) items m -> reads h (Ref l) (PParams pre m).
(** What is found by following names through dictionaries and Parameters objects: an immutable value, a certain list, or a dictionary or Parameters object
    with certain keys. *)
Inductive seen := SLeaf (v : pv) | SList (l : nat) | SKeys (ks : list str).
Fixpoint find_obj (h : list cell) (o : obj) (path : list str) : option obj :=
  match path with
  | [] => Some o
  | k :: r => match deref h o with
              | Some (CDict i) | Some (CParams _ i) => match dfind i k with Some o' => find_obj h o' r | None => None end
              | _ => None
              end
  end.
Definition look_at (h : list cell) (o : obj) : option seen :=
  match o with
  | Leaf v => Some (SLeaf v)
  | Ref l => match nth_error h l with Some (CList _) => Some (SList l) | Some (CDict i) | Some (CParams _ i) => Some (SKeys (map fst i)) | None => None end
  end.
Definition sees (h : list cell) (o : obj) (path : list str) : option seen := match find_obj h o path with Some x => look_at h x | None => None end.
(** A value without lists. *)
Fixpoint listless (t : pv) : Prop :=
  match t with
  | PList _ => False
  | PMap m | PParams _ m => (fix all (m : list (str * pv)) : Prop := match m with [] => True | kv :: r => listless (snd kv) /\ all r end) m
  | _ => True
  end.
(** The heaps of programs which make Parameters objects with from_mapping, from_key_value_pairs and unify only: all objects exist, and no Parameters object has a
    dictionary as a value (it has been converted) or a name with a dot. *)
Definition is_dict (h : list cell) (o : obj) : Prop := exists i, deref h o = Some (CDict i).
Definition is_parameters (h : list cell) (o : obj) : Prop := exists pre i, deref h o = Some (CParams pre i).
Definition objs (c : cell) : list obj := match c with CDict i | CParams _ i => map snd i | CList i => i end.
Record ok_heap (h : list cell) : Prop := {
  ok_objs : forall l c o, nth_error h l = Some c -> In o (objs c) -> exists_obj h o = true;
  ok_clean : forall l pre i k o, nth_error h l = Some (CParams pre i) -> In (k, o) i -> ~ is_dict h o;
  ok_names : forall l pre i k o, nth_error h l = Some (CParams pre i) -> In (k, o) i -> has_dot k = false }.

(** ** Lemmas *)
Definition ext (h h' : list cell) : Prop := exists t, h' = h ++ t.
Lemma ext_refl h : ext h h. Proof. exists []. now rewrite app_nil_r. Qed.
Lemma ext_trans a b c : ext a b -> ext b c -> ext a c.
Proof. intros (x & ->) (y & ->). exists (x ++ y). now rewrite app_assoc. Qed.
Lemma ext_app h t : ext h (h ++ t). Proof. now exists t. Qed.
Lemma ext_nth h h' l c : ext h h' -> nth_error h l = Some c -> nth_error h' l = Some c.
Proof. intros (t & ->) N. rewrite nth_error_app1; [assumption|]. apply nth_error_Some. congruence. Qed.
Lemma ext_length h h' : ext h h' -> length h <= length h'.
Proof. intros (t & ->). rewrite app_length. lia. Qed.
Lemma ext_obj h h' o : ext h h' -> exists_obj h o = true -> exists_obj h' o = true.
Proof. intros E H. destruct o as [v|l]; [assumption|]. simpl in *. apply Nat.ltb_lt in H. apply Nat.ltb_lt. apply ext_length in E. lia. Qed.
Lemma obj_cell h l : exists_obj h (Ref l) = true -> exists c, nth_error h l = Some c.
Proof. intros H. simpl in H. apply Nat.ltb_lt in H. destruct (nth_error h l) eqn:N; [eauto|]. apply nth_error_None in N. lia. Qed.
Lemma ext_deref h h' o : ext h h' -> exists_obj h o = true -> deref h' o = deref h o.
Proof. intros E H. destruct o as [v|l]; [reflexivity|]. destruct (obj_cell h l H) as (c & N). simpl. rewrite N. eapply ext_nth; eassumption. Qed.
Lemma new_cell (h : list cell) c : nth_error (h ++ [c]) (length h) = Some c.
Proof. rewrite nth_error_app2, Nat.sub_diag by lia. reflexivity. Qed.
Lemma ok_add h c : ok_heap h -> (forall o, In o (objs c) -> exists_obj h o = true) -> (forall pre i k o, c = CParams pre i -> In (k, o) i -> ~ is_dict h o /\ has_dot k = false) -> ok_heap (h ++ [c]).
Proof.
  intros K O C. assert (Cs : forall l x, nth_error (h ++ [c]) l = Some x -> nth_error h l = Some x \/ x = c /\ l = length h).
  { intros l x N. destruct (Nat.lt_ge_cases l (length h)) as [L|L]; [rewrite nth_error_app1 in N by assumption; auto|]. rewrite nth_error_app2 in N by assumption. destruct (l - length h) as [|n] eqn:D; [injection N as <-; right; split; [reflexivity|lia]|destruct n; discriminate]. }
  split.
  - intros l x o N I. apply (ext_obj h); [apply ext_app|]. destruct (Cs l x N) as [N'|(-> & _)]; [eapply ok_objs; eassumption|auto].
  - intros l pre i k o N I (j & D). assert (Ho : exists_obj h o = true) by (destruct (Cs l _ N) as [N'|(<- & _)]; [apply (ok_objs h K l _ o N')|apply O]; simpl; apply in_map_iff; exists (k, o); auto).
    rewrite (ext_deref h) in D by (apply ext_app || assumption). destruct (Cs l _ N) as [N'|(E & _)]; [apply (ok_clean h K l pre i k o N' I)|apply (proj1 (C pre i k o (eq_sym E) I))]; eexists; eassumption.
  - intros l pre i k o N I. destruct (Cs l _ N) as [N'|(E & _)]; [exact (ok_names h K l pre i k o N' I)|exact (proj2 (C pre i k o (eq_sym E) I))].
Qed.

Lemma find_obj_ok h path : ok_heap h -> forall o x, exists_obj h o = true -> find_obj h o path = Some x -> exists_obj h x = true.
Proof.
  intros K. induction path as [|k r IH]; intros o x O F; [now injection F as <-|]. cbn [find_obj] in F. destruct o as [v|l]; [discriminate|]. simpl in F.
  destruct (nth_error h l) as [[i|i|pre i]|] eqn:N; try discriminate; (destruct (dfind i k) as [o'|] eqn:D; [|discriminate]); apply dfind_in in D; (eapply IH; [|exact F]; eapply (ok_objs h K); [exact N|]; simpl; apply in_map_iff; exists (k, o'); auto).
Qed.
Lemma find_obj_ext h h' path : ok_heap h -> ext h h' -> forall o, exists_obj h o = true -> find_obj h' o path = find_obj h o path.
Proof.
  intros K E. induction path as [|k r IH]; intros o O; [reflexivity|]. cbn [find_obj]. rewrite (ext_deref h h' o E O). destruct o as [v|l]; [reflexivity|]. cbn [deref].
  destruct (nth_error h l) as [[i|i|pre i]|] eqn:N; try reflexivity; (destruct (dfind i k) as [o'|] eqn:D; [|reflexivity]); apply dfind_in in D; apply IH; (eapply (ok_objs h K); [exact N|]; simpl; apply in_map_iff; exists (k, o'); auto).
Qed.
Lemma look_at_ext h h' o : ext h h' -> exists_obj h o = true -> look_at h' o = look_at h o.
Proof. intros E O. destruct o as [v|l]; [reflexivity|]. destruct (obj_cell h l O) as (c & N). simpl. now rewrite N, (ext_nth _ _ _ _ E N). Qed.
Lemma sees_ext h h' o path : ok_heap h -> ext h h' -> exists_obj h o = true -> sees h' o path = sees h o path.
Proof.
  intros K E O. unfold sees. rewrite (find_obj_ext h h' path K E o O). destruct (find_obj h o path) as [x|] eqn:F; [|reflexivity]. apply look_at_ext; [assumption|]. eapply find_obj_ok; eassumption.
Qed.
Lemma each_spec (Pre : list cell -> obj -> Prop) (f : list cell -> str -> obj -> list cell * res obj) (R : list cell -> str -> obj -> obj -> Prop) :
  (forall h v, Pre h v -> exists_obj h v = true) -> (forall h h' v, ext h h' -> Pre h v -> Pre h' v) ->
  (forall h h' k v v', ok_heap h -> ext h h' -> exists_obj h v = true -> exists_obj h v' = true -> R h k v v' -> R h' k v v') ->
  (forall h k v h' r, ok_heap h -> Pre h v -> f h k v = (h', r) -> ext h h' /\ ok_heap h' /\ forall v', r = Ok v' -> exists_obj h' v' = true /\ R h' k v v') ->
  forall items h h' r, ok_heap h -> (forall o, In o (map snd items) -> Pre h o) -> h_each f h items = (h', r) ->
  ext h h' /\ ok_heap h' /\ forall d, r = Ok d -> Forall2 (fun a b => fst a = fst b /\ exists_obj h' (snd b) = true /\ R h' (fst a) (snd a) (snd b)) items d.
Proof.
  intros Pe Ps St Hf. induction items as [|[k v] items IH]; intros h h' r K O E; cbn [h_each] in E.
  - injection E as <- <-. split; [apply ext_refl|]. split; [assumption|]. intros d H. injection H as <-. constructor.
  - assert (Ov : Pre h v) by (apply O; now left). destruct (f h k v) as [h1 r1] eqn:F. destruct (Hf _ _ _ _ _ K Ov F) as (E1 & K1 & R1).
    destruct r1 as [v'|e]; [|injection E as <- <-; split; [assumption|]; split; [assumption|]; discriminate]. destruct (R1 v' eq_refl) as (O1 & Rv).
    assert (Ot : forall o, In o (map snd items) -> Pre h1 o) by (intros o Ho; apply (Ps h); [assumption|apply O; now right]).
    destruct (h_each f h1 items) as [h2 r2] eqn:G. destruct (IH h1 h2 r2 K1 Ot G) as (E2 & K2 & R2). destruct r2 as [r'|e]; injection E as <- <-; (split; [eapply ext_trans; eassumption|]; split; [assumption|]); [|discriminate].
    intros d H. injection H as <-. constructor; [|now apply R2]. simpl. split; [reflexivity|]. split; [eapply ext_obj; eassumption|]. apply (St h1); auto. eapply ext_obj; [eassumption|]. now apply Pe.
Qed.

Lemma keys_same {A B C} (P : str * B -> str * C -> Prop) (f : A) items d : Forall2 (fun a b => fst a = fst b /\ P a b) items d -> map fst d = map fst items.
Proof. intros F. induction F as [|a b l r (E & _) _ IH]; [reflexivity|]. simpl. now rewrite E, IH. Qed.
Lemma find_same {B C} (P : str -> B -> C -> Prop) (items : list (str * B)) (d : list (str * C)) k : Forall2 (fun a b => fst a = fst b /\ P (fst a) (snd a) (snd b)) items d ->
  match dfind items k, dfind d k with Some x, Some y => P k x y | None, None => True | _, _ => False end.
Proof.
  intros F. induction F as [|[a x] [b y] l r (E & H) _ IH]; [exact I|]. simpl in *. subst b. destruct (str_eqb a k) eqn:K; [|exact IH]. apply str_eqb_eq in K. now subst.
Qed.
(** Two objects with the same items, up to objects in which the same is seen. *)
Lemma sees_items h o i o' i' path : (deref h o = Some (CDict i) \/ exists p, deref h o = Some (CParams p i)) -> (deref h o' = Some (CDict i') \/ exists p, deref h o' = Some (CParams p i')) ->
  Forall2 (fun a b => fst a = fst b /\ forall q, sees h (snd b) q = sees h (snd a) q) i i' -> sees h o' path = sees h o path.
Proof.
  intros D D' F. destruct path as [|k r].
  - assert (E : map fst i' = map fst i) by (clear - F; induction F as [|a b l r (E & _) _ IH]; [reflexivity|]; simpl; now rewrite E, IH).
    unfold sees. cbn [find_obj]. destruct o as [v|l]; [destruct D as [D|(p & D)]; discriminate|]. destruct o' as [v|l']; [destruct D' as [D'|(p & D')]; discriminate|]. simpl in *.
    destruct D as [-> |(p & ->)], D' as [-> |(p' & ->)]; now rewrite E.
  - unfold sees. cbn [find_obj]. assert (S := find_same (fun _ x y => forall q, sees h y q = sees h x q) i i' k F).
    destruct D as [-> |(p & ->)], D' as [-> |(p' & ->)]; (destruct (dfind i k) as [x|], (dfind i' k) as [y|]; try contradiction; [exact (S r)|reflexivity]).
Qed.

(** ** Single calls *)
(** from_mapping changes no object; what it returns is a new Parameters object in which the same is seen as in the mapping: the same immutable values, the same
    lists, the same keys in the same order. *)
Lemma from_mapping_spec fuel : forall h prefix o h' r, ok_heap h -> exists_obj h o = true -> h_from_mapping fuel h prefix o = (h', r) ->
  ext h h' /\ ok_heap h' /\ forall o', r = Ok o' -> exists_obj h' o' = true /\ (is_parameters h' o' /\ (forall l, o' = Ref l -> length h <= l) /\ forall path, sees h' o' path = sees h o path).
Proof.
  induction fuel as [|n IH]; intros h prefix o h' r K O E; cbn [h_from_mapping] in E; [injection E as <- <-; split; [apply ext_refl|]; split; [assumption|discriminate]|].
  destruct (deref h o) as [[items|items|pre items]|] eqn:D; try (injection E as <- <-; split; [apply ext_refl|]; split; [assumption|discriminate]).
  set (f := fun h k v => match deref h v with Some (CDict _) => h_from_mapping n h (prefix ++ [k]) v | _ => (h, Ok v) end) in *.
  set (R := fun (h : list cell) (_ : str) v v' => exists_obj h v = true /\ ~ is_dict h v' /\ forall path, sees h v' path = sees h v path).
  destruct (h_each f h items) as [h1 r1] eqn:G.
  assert (H : ext h h1 /\ ok_heap h1 /\ forall d, r1 = Ok d -> Forall2 (fun a b => fst a = fst b /\ exists_obj h1 (snd b) = true /\ R h1 (fst a) (snd a) (snd b)) items d).
  { apply (each_spec (fun g v => exists_obj g v = true) f R) with (7 := G); [auto|intros; eapply ext_obj; eassumption| | |assumption|].
    - intros g g' k v v' Kg Eg Ov Ov' (_ & Nd & S). split; [eapply ext_obj; eassumption|]. split; [intros (i & Di); apply Nd; rewrite (ext_deref g) in Di by assumption; eexists; eassumption|].
      intros path. rewrite !(sees_ext g g') by assumption. apply S.
    - intros g k v g' r0 Kg Ov F. unfold f in F. destruct (deref g v) as [[i|i|p i]|] eqn:Dv.
      + destruct (IH _ _ _ _ _ Kg Ov F) as (Eg & Kg' & S). split; [assumption|]. split; [assumption|]. intros v' ->. destruct (S v' eq_refl) as (O' & (p & j & Dp) & _ & S'). split; [assumption|].
        split; [eapply ext_obj; eassumption|]. split; [intros (x & Dx); congruence|]. intros path. rewrite S'. symmetry. now apply sees_ext.
      + injection F as <- <-. split; [apply ext_refl|]. split; [assumption|]. intros v' X. injection X as <-. split; [assumption|]. split; [assumption|]. split; [intros (x & Dx); congruence|reflexivity].
      + injection F as <- <-. split; [apply ext_refl|]. split; [assumption|]. intros v' X. injection X as <-. split; [assumption|]. split; [assumption|]. split; [intros (x & Dx); congruence|reflexivity].
      + injection F as <- <-. split; [apply ext_refl|]. split; [assumption|]. intros v' X. injection X as <-. split; [assumption|]. split; [assumption|]. split; [intros (x & Dx); congruence|reflexivity].
    - intros x Hx. destruct o as [v|l]; [discriminate|]. eapply (ok_objs h K); [exact D|exact Hx]. }
  destruct H as (E1 & K1 & F). destruct r1 as [d|e]; [|injection E as <- <-; split; [assumption|]; split; [assumption|discriminate]]. specialize (F d eq_refl).
  destruct (existsb (fun kv => has_dot (fst kv)) d) eqn:Dots; injection E as <- <-; [split; [assumption|]; split; [assumption|discriminate]|].
  assert (K2 : ok_heap (h1 ++ [CParams prefix d])).
  { apply ok_add; [assumption| |].
    - intros x Hx. simpl in Hx. apply in_map_iff in Hx. destruct Hx as ([k y] & <- & Hx). simpl. clear - F Hx. induction F as [|a b l r (_ & H & _) _ IH]; [destruct Hx|]. destruct Hx as [-> |Hx]; auto.
    - intros pre i k x X Hx. injection X as <- <-. split; [|destruct (has_dot k) eqn:Hk; [|reflexivity]; rewrite (proj2 (existsb_exists _ d)) in Dots; [discriminate|]; now exists (k, x)]. clear - F Hx. induction F as [|a b l r (_ & _ & _ & H & _) _ IH]; [destruct Hx|]. destruct Hx as [-> |Hx]; auto. }
  split; [eapply ext_trans; [exact E1|apply ext_app]|]. split; [assumption|]. intros o' X. injection X as <-. assert (N := new_cell h1 (CParams prefix d)). split; [simpl; rewrite app_length; simpl; apply Nat.ltb_lt; lia|].
  split; [exists prefix, d; exact N|]. split; [intros l X; injection X as <-; now apply ext_length|].
  intros path. rewrite <- (sees_ext h (h1 ++ [CParams prefix d]) o path K) by (assumption || (eapply ext_trans; [exact E1|apply ext_app])).
  apply (sees_items _ o items (Ref (length h1)) d).
  - left. rewrite (ext_deref h) by (assumption || (eapply ext_trans; [exact E1|apply ext_app])). exact D.
  - right. exists prefix. exact N.
  - assert (Ex : ext h1 (h1 ++ [CParams prefix d])) by apply ext_app. clear - F K1 Ex. revert Ex. generalize (h1 ++ [CParams prefix d]) as g. intros g Ex.
    induction F as [|a b l r (E & O & Oa & _ & S) _ IH]; constructor; [|assumption]. split; [assumption|]. intros q. rewrite !(sees_ext h1 g) by assumption. apply S.
Qed.

(** as_nested_dicts changes no object; what it returns is a new dictionary in which the same is seen; every dictionary in it, down to the lists, is new. *)
Definition all_new (n : nat) (h : list cell) (o : obj) : Prop :=
  forall path x, find_obj h o path = Some x -> ~ is_parameters h x /\ forall i, deref h x = Some (CDict i) -> exists l, x = Ref l /\ n <= l.
Lemma all_new_ext n h h' o : ok_heap h -> ext h h' -> exists_obj h o = true -> all_new n h o -> all_new n h' o.
Proof.
  intros K E O A path x F. rewrite (find_obj_ext h h') in F by assumption. assert (Ox := find_obj_ok h path K o x O F). destruct (A path x F) as (P & D). unfold is_parameters. rewrite (ext_deref h h' x E Ox). auto.
Qed.
Lemma all_new_le n m h o : n <= m -> all_new m h o -> all_new n h o.
Proof. intros L A path x F. destruct (A path x F) as (P & D). split; [assumption|]. intros i Di. destruct (D i Di) as (l & -> & Hl). exists l. split; [reflexivity|lia]. Qed.
Lemma dictify_spec fuel : forall h o h' r, ok_heap h -> exists_obj h o = true -> ~ is_dict h o -> h_dictify fuel h o = (h', r) ->
  ext h h' /\ ok_heap h' /\ forall o', r = Ok o' -> exists_obj h' o' = true /\ ((is_parameters h o -> is_dict h' o') /\ all_new (length h) h' o' /\ forall path, sees h' o' path = sees h o path).
Proof.
  induction fuel as [|n IH]; intros h o h' r K O Nd E; cbn [h_dictify] in E; [injection E as <- <-; split; [apply ext_refl|]; split; [assumption|discriminate]|].
  assert (Same : ~ is_parameters h o -> (h, Ok o) = (h', r) -> ext h h' /\ ok_heap h' /\ forall o', r = Ok o' -> exists_obj h' o' = true /\ ((is_parameters h o -> is_dict h' o') /\ all_new (length h) h' o' /\ forall path, sees h' o' path = sees h o path)).
  { intros Np X. injection X as <- <-. split; [apply ext_refl|]. split; [assumption|]. intros o' X. injection X as <-. split; [assumption|]. split; [tauto|]. split; [|reflexivity].
    intros path x F. destruct path as [|k p]; [injection F as <-; split; [assumption|]; intros i D; exfalso; apply Nd; now exists i|]. cbn [find_obj] in F. exfalso.
    destruct (deref h o) as [[i|i|pre i]|] eqn:D; try discriminate; [apply Nd; now exists i|apply Np; now exists pre, i]. }
  destruct (deref h o) as [[items|items|pre items]|] eqn:D; try (apply Same; [intros (p & i & X); congruence|exact E]). clear Same.
  set (f := fun (h : list cell) (_ : str) v => h_dictify n h v) in *.
  set (Pre := fun g v => exists_obj g v = true /\ ~ is_dict g v /\ length h <= length g).
  set (R := fun (g : list cell) (_ : str) v v' => exists_obj g v = true /\ all_new (length h) g v' /\ forall path, sees g v' path = sees g v path).
  destruct (h_each f h items) as [h1 r1] eqn:G.
  assert (H : ext h h1 /\ ok_heap h1 /\ forall d, r1 = Ok d -> Forall2 (fun a b => fst a = fst b /\ exists_obj h1 (snd b) = true /\ R h1 (fst a) (snd a) (snd b)) items d).
  { apply (each_spec Pre f R) with (7 := G); [now intros g v (X & _)| | | |assumption|].
    - intros g g' v Eg (Ov & Nv & L). split; [eapply ext_obj; eassumption|]. split; [intros (i & Di); apply Nv; rewrite (ext_deref g) in Di by assumption; now exists i|]. apply ext_length in Eg. lia.
    - intros g g' k v v' Kg Eg Ov Ov' (_ & An & S). split; [eapply ext_obj; eassumption|]. split; [eapply all_new_ext; eassumption|]. intros path. rewrite !(sees_ext g g') by assumption. apply S.
    - intros g k v g' r0 Kg (Ov & Nv & L) F. destruct (IH _ _ _ _ Kg Ov Nv F) as (Eg & Kg' & S). split; [assumption|]. split; [assumption|]. intros v' ->. destruct (S v' eq_refl) as (O' & _ & An & S'). split; [assumption|].
      split; [eapply ext_obj; eassumption|]. split; [eapply all_new_le; eassumption|]. intros path. rewrite S'. symmetry. now apply sees_ext.
    - intros x Hx. destruct o as [v|l]; [discriminate|]. split; [eapply (ok_objs h K); [exact D|exact Hx]|]. split; [|lia]. apply in_map_iff in Hx. destruct Hx as ([k y] & <- & Hx). exact (ok_clean h K l pre items k y D Hx). }
  destruct H as (E1 & K1 & F). destruct r1 as [d|e]; [|injection E as <- <-; split; [assumption|]; split; [assumption|discriminate]]. specialize (F d eq_refl). injection E as <- <-.
  assert (Od : forall k y, In (k, y) d -> exists_obj h1 y = true /\ all_new (length h) h1 y).
  { intros k y Hy. clear - F Hy. induction F as [|a b l r (_ & H & _ & H' & _) _ IH]; [destruct Hy|]. destruct Hy as [-> |Hy]; auto. }
  assert (Ex : ext h1 (h1 ++ [CDict d])) by apply ext_app.
  split; [eapply ext_trans; [exact E1|assumption]|]. split.
  { apply ok_add; [assumption| |discriminate]. intros x Hx. simpl in Hx. apply in_map_iff in Hx. destruct Hx as ([k y] & <- & Hx). exact (proj1 (Od k y Hx)). }
  intros o' X. injection X as <-. assert (N := new_cell h1 (CDict d)). split; [simpl; rewrite app_length; simpl; apply Nat.ltb_lt; lia|].
  split; [intros _; exists d; exact N|]. split.
  { intros path x Fx. destruct path as [|k p]; [injection Fx as <-; split; [intros (q & j & Dq); cbn [deref] in Dq; congruence|]; intros i _; exists (length h1); split; [reflexivity|]; now apply ext_length|].
    cbn [find_obj deref] in Fx. rewrite N in Fx. destruct (dfind d k) as [y|] eqn:Dk; [|discriminate]. apply dfind_in in Dk. destruct (Od k y Dk) as (Oy & Ay). exact (all_new_ext _ _ _ y K1 Ex Oy Ay p x Fx). }
  intros path. rewrite <- (sees_ext h (h1 ++ [CDict d]) o path K) by (assumption || (eapply ext_trans; [exact E1|assumption])).
  apply (sees_items _ o items (Ref (length h1)) d).
  - right. exists pre. rewrite (ext_deref h) by (assumption || (eapply ext_trans; [exact E1|assumption])). exact D.
  - left. exact N.
  - clear - F K1 Ex. revert Ex. generalize (h1 ++ [CDict d]) as g. intros g Ex.
    induction F as [|a b l r (E & O & Oa & _ & S) _ IH]; constructor; [|assumption]. split; [assumption|]. intros q. rewrite !(sees_ext h1 g) by assumption. apply S.
Qed.

Lemma forall2_objs (P : str * obj -> str * obj -> Prop) h items (d : list (str * obj)) : Forall2 (fun a b => fst a = fst b /\ exists_obj h (snd b) = true /\ P a b) items d -> forall o, In o (map snd d) -> exists_obj h o = true.
Proof. intros F o Ho. induction F as [|a b l r (_ & H & _) _ IH]; [destruct Ho|]. destruct Ho as [<- |Ho]; auto. Qed.
Lemma dput_in {A} (d : list (str * A)) k v o : In o (map snd (dput d k v)) -> o = v \/ In o (map snd d).
Proof. induction d as [|[a x] d IH]; simpl; [intuition|]. destruct (str_eqb a k); simpl; intuition. Qed.
Lemma fold_puts_in {A} (c : str -> bool) (db r : list (str * A)) o :
  In o (map snd (fold_left (fun ret kv => if c (fst kv) then ret else dput ret (fst kv) (snd kv)) db r)) -> In o (map snd r) \/ In o (map snd db).
Proof.
  revert r. induction db as [|[k v] db IH]; intros r H; [now left|]. simpl in H. apply IH in H. simpl. destruct H as [H|H]; [|auto]. destruct (c k); [auto|]. apply dput_in in H. destruct H as [-> |H]; auto.
Qed.
(** unify changes no object; what it returns is a new Parameters object. *)
Lemma unify_spec fuel : forall h a b prefix h' r, ok_heap h -> exists_obj h a = true -> exists_obj h b = true -> h_unify fuel h a b prefix = (h', r) ->
  ext h h' /\ ok_heap h' /\ forall o', r = Ok o' -> exists_obj h' o' = true /\ is_parameters h' o' /\ forall l, o' = Ref l -> length h <= l.
Proof.
  induction fuel as [|n IH]; intros h a b prefix h' r K Oa Ob E; cbn [h_unify] in E; [injection E as <- <-; split; [apply ext_refl|]; split; [assumption|discriminate]|].
  assert (Bad : forall e, (h, @Raise obj e) = (h', r) -> ext h h' /\ ok_heap h' /\ forall o', r = Ok o' -> exists_obj h' o' = true /\ is_parameters h' o' /\ forall l, o' = Ref l -> length h <= l).
  { intros e X. injection X as <- <-. split; [apply ext_refl|]. split; [assumption|discriminate]. }
  destruct (deref h a) as [[da|da|pa da]|] eqn:Da; try exact (Bad _ E). destruct (deref h b) as [[db|db|pb db]|] eqn:Db; try exact (Bad _ E). clear Bad.
  match type of E with match h_each ?g _ _ with _ => _ end = _ => set (f := g) in * end.
  set (Pre := fun g v => exists_obj g v = true /\ forall o, In o (map snd db) -> exists_obj g o = true).
  set (R := fun (_ : list cell) (_ : str) (_ _ : obj) => True).
  assert (Oda : forall o, In o (map snd da) -> exists_obj h o = true) by (intros o Ho; destruct a as [v|l]; [discriminate|]; eapply (ok_objs h K); [exact Da|exact Ho]).
  assert (Odb : forall o, In o (map snd db) -> exists_obj h o = true) by (intros o Ho; destruct b as [v|l]; [discriminate|]; eapply (ok_objs h K); [exact Db|exact Ho]).
  destruct (h_each f h da) as [h1 r1] eqn:G.
  assert (H : ext h h1 /\ ok_heap h1 /\ forall d, r1 = Ok d -> Forall2 (fun a b => fst a = fst b /\ exists_obj h1 (snd b) = true /\ R h1 (fst a) (snd a) (snd b)) da d).
  { apply (each_spec Pre f R) with (7 := G); [now intros g v (X & _)| |intros; exact I| |assumption|].
    - intros g g' v Eg (Ov & Ox). split; [eapply ext_obj; eassumption|]. intros o Ho. eapply ext_obj; eauto.
    - intros g k v g' r0 Kg (Ov & Ox) F. assert (Same : forall x, exists_obj g x = true \/ False -> (g, Ok x) = (g', r0) -> ext g g' /\ ok_heap g' /\ forall v', r0 = Ok v' -> exists_obj g' v' = true /\ R g' k v v').
      { intros x [Hx|[]] X. injection X as <- <-. split; [apply ext_refl|]. split; [assumption|]. intros v' X. injection X as <-. split; [assumption|exact I]. }
      assert (Bad : forall e, (g, @Raise obj e) = (g', r0) -> ext g g' /\ ok_heap g' /\ forall v', r0 = Ok v' -> exists_obj g' v' = true /\ R g' k v v').
      { intros e X. injection X as <- <-. split; [apply ext_refl|]. split; [assumption|discriminate]. }
      unfold f in F. destruct (h_contains db k); [|apply (Same v); [now left|exact F]]. destruct (dfind db k) as [new|] eqn:Dk; [|exact (Bad _ F)].
      assert (On : exists_obj g new = true) by (apply Ox; apply in_map_iff; exists (k, new); split; [reflexivity|]; now apply dfind_in).
      destruct (negb _); [exact (Bad _ F)|]. destruct (h_is_params g v); [|apply (Same new); [now left|exact F]].
      destruct (IH _ _ _ _ _ _ Kg Ov On F) as (Eg & Kg' & S). split; [assumption|]. split; [assumption|]. intros v' Hv. split; [exact (proj1 (S v' Hv))|exact I].
    - intros x Hx. split; auto. }
  destruct H as (E1 & K1 & F). destruct r1 as [d|e]; [|injection E as <- <-; split; [assumption|]; split; [assumption|discriminate]]. specialize (F d eq_refl). cbv zeta in E.
  match type of E with context [h1 ++ [CDict ?x]] => set (ret := x) in * end.
  assert (K2 : ok_heap (h1 ++ [CDict ret])).
  { apply ok_add; [assumption| |discriminate]. intros x Hx. simpl in Hx. apply fold_puts_in in Hx. destruct Hx as [Hx|Hx]; [exact (forall2_objs _ _ _ _ F x Hx)|]. eapply ext_obj; eauto. }
  assert (On : exists_obj (h1 ++ [CDict ret]) (Ref (length h1)) = true) by (simpl; rewrite app_length; simpl; apply Nat.ltb_lt; lia).
  destruct (from_mapping_spec _ _ _ _ _ _ K2 On E) as (E2 & K3 & S). assert (E3 : ext h (h1 ++ [CDict ret])) by (eapply ext_trans; [exact E1|apply ext_app]).
  split; [eapply ext_trans; eassumption|]. split; [assumption|]. intros o' Ho. destruct (S o' Ho) as (O' & P' & L' & _). split; [assumption|]. split; [assumption|]. intros l Hl. specialize (L' l Hl). apply ext_length in E3. lia.
Qed.
Lemma unify_with_spec fuel h a b prefix h' r : ok_heap h -> exists_obj h a = true -> exists_obj h b = true -> h_unify_with fuel h a b prefix = (h', r) ->
  ext h h' /\ ok_heap h' /\ forall o', r = Ok o' -> exists_obj h' o' = true /\ is_parameters h' o' /\ forall l, o' = Ref l -> length h <= l.
Proof.
  intros K Oa Ob E. unfold h_unify_with in E. destruct (h_is_params h b); [exact (unify_spec _ _ _ _ _ _ _ K Oa Ob E)|]. destruct (h_from_mapping fuel h [] b) as [h1 r1] eqn:G.
  destruct (from_mapping_spec _ _ _ _ _ _ K Ob G) as (E1 & K1 & S). destruct r1 as [b'|e]; [|injection E as <- <-; split; [assumption|]; split; [assumption|discriminate]]. destruct (S b' eq_refl) as (O' & _).
  destruct (unify_spec _ _ _ _ _ _ _ K1 (ext_obj _ _ _ E1 Oa) O' E) as (E2 & K2 & S2). split; [eapply ext_trans; eassumption|]. split; [assumption|]. intros o' Ho. destruct (S2 o' Ho) as (O2 & P2 & L2).
  split; [assumption|]. split; [assumption|]. intros l Hl. specialize (L2 l Hl). apply ext_length in E1. lia.
Qed.

(** ** Setting items *)
(** No Parameters object changes; dictionaries stay dictionaries, lists stay lists. *)
Definition keeps (h h' : list cell) : Prop := forall l c, nth_error h l = Some c ->
  match c with CParams _ _ => nth_error h' l = Some c | CDict _ => exists i, nth_error h' l = Some (CDict i) | CList _ => exists i, nth_error h' l = Some (CList i) end.
Lemma keeps_refl h : keeps h h.
Proof. intros l c N. destruct c; eauto. Qed.
Lemma keeps_trans a b c : keeps a b -> keeps b c -> keeps a c.
Proof. intros A B l x N. specialize (A l x N). destruct x; [destruct A as (i & A); apply B in A; exact A|destruct A as (i & A); apply B in A; exact A|apply B in A; exact A]. Qed.
Lemma ext_keeps h h' : ext h h' -> keeps h h'.
Proof. intros E l c N. apply (ext_nth h h') in N; [|assumption]. destruct c; eauto. Qed.
Lemma put_length h : forall l c, length (put_cell h l c) = length h.
Proof. induction h as [|x h IH]; intros [|l] c; simpl; auto. Qed.
Lemma put_same h : forall l c, l < length h -> nth_error (put_cell h l c) l = Some c.
Proof. induction h as [|x h IH]; intros [|l] c L; simpl in *; try lia; [reflexivity|]. apply IH. lia. Qed.
Lemma put_other h : forall l c j, j <> l -> nth_error (put_cell h l c) j = nth_error h j.
Proof. induction h as [|x h IH]; intros [|l] c [|j] N; simpl; try reflexivity; try congruence. apply IH. congruence. Qed.
Lemma keeps_length h h' : keeps h h' -> length h <= length h'.
Proof.
  intros K. destruct (Nat.le_gt_cases (length h) (length h')) as [L|L]; [assumption|]. exfalso. destruct (nth_error h (length h')) as [c|] eqn:N; [|apply nth_error_None in N; lia].
  assert (H := K _ _ N). assert (Q : nth_error h' (length h') = None) by (apply nth_error_None; lia). destruct c; [destruct H as (i & H)|destruct H as (i & H)|]; congruence.
Qed.
Lemma keeps_obj h h' o : keeps h h' -> exists_obj h o = true -> exists_obj h' o = true.
Proof. intros K H. destruct o as [v|l]; [assumption|]. simpl in *. apply Nat.ltb_lt in H. apply Nat.ltb_lt. apply keeps_length in K. lia. Qed.
Lemma keeps_dict h h' o : keeps h h' -> exists_obj h o = true -> is_dict h' o -> is_dict h o.
Proof.
  intros K H (i & D). destruct o as [v|l]; [discriminate|]. destruct (obj_cell h l H) as (c & N). assert (X := K l c N). cbn [deref] in D. destruct c as [j|j|p j]; [now exists j| |]; [destruct X as (y & X)|]; congruence.
Qed.
Definition same_kind (c c' : cell) : Prop := match c, c' with CDict _, CDict _ | CList _, CList _ => True | _, _ => False end.
Lemma put_ok h l c c' : ok_heap h -> nth_error h l = Some c -> same_kind c c' -> (forall o, In o (objs c') -> exists_obj h o = true) -> ok_heap (put_cell h l c') /\ keeps h (put_cell h l c').
Proof.
  intros K N S O. assert (L : l < length h) by (apply nth_error_Some; congruence).
  assert (Kp : keeps h (put_cell h l c')).
  { intros j x Nj. destruct (Nat.eq_dec j l) as [-> |D]; [|rewrite put_other by assumption; destruct x; eauto]. rewrite put_same by assumption. assert (x = c) as -> by congruence. destruct c, c'; try contradiction; eauto. }
  assert (Cs : forall j x, nth_error (put_cell h l c') j = Some x -> nth_error h j = Some x \/ j = l /\ x = c').
  { intros j x Nj. destruct (Nat.eq_dec j l) as [-> |D]; [rewrite put_same in Nj by assumption; right; split; congruence|rewrite put_other in Nj by assumption; auto]. }
  split; [|assumption]. split.
  - intros j x o Nj I. apply (keeps_obj h); [assumption|]. destruct (Cs j x Nj) as [Nj'|(-> & ->)]; [eapply ok_objs; eassumption|auto].
  - intros j pre i k o Nj I D. destruct (Cs j _ Nj) as [Nj'|(-> & E)]; [|subst c'; destruct c; contradiction]. apply (ok_clean h K j pre i k o Nj' I). eapply keeps_dict; [eassumption| |eassumption]. eapply (ok_objs h K); [exact Nj'|]. simpl. apply in_map_iff. exists (k, o); auto.
  - intros j pre i k o Nj I. destruct (Cs j _ Nj) as [Nj'|(-> & E)]; [|subst c'; destruct c; contradiction]. exact (ok_names h K j pre i k o Nj' I).
Qed.
Lemma insert_ok parts : forall h d v h' r, ok_heap h -> exists_obj h v = true -> h_insert h d parts v = (h', r) -> ok_heap h' /\ keeps h h'.
Proof.
  induction parts as [|k rest IH]; intros h d v h' r K O E; cbn [h_insert] in E; [injection E as <- <-; split; [assumption|apply keeps_refl]|].
  destruct (nth_error h d) as [[items|items|pre items]|] eqn:N; try (injection E as <- <-; split; [assumption|apply keeps_refl]).
  assert (Oi : forall k' o x, exists_obj h x = true -> In o (map snd (dput items k' x)) -> exists_obj h o = true) by (intros k' o x Hx Ho; apply dput_in in Ho; destruct Ho as [-> |Ho]; [assumption|]; eapply (ok_objs h K); [exact N|exact Ho]).
  destruct rest as [|k2 rest].
  - injection E as <- <-. apply (put_ok h d (CDict items)); [assumption|assumption|exact I|]. intros o Ho. exact (Oi k o v O Ho).
  - destruct (dfind items k) as [[x|l]|] eqn:Dk.
    + injection E as <- <-. split; [assumption|apply keeps_refl].
    + eapply IH; eassumption.
    + assert (Eq : put_cell h d (CDict (dput items k (Ref (length h)))) ++ [CDict []] = put_cell (h ++ [CDict []]) d (CDict (dput items k (Ref (length h))))).
      { assert (L : d < length h) by (apply nth_error_Some; congruence). clear - L. generalize (CDict (dput items k (Ref (length h)))) as c. intros c. revert d L. induction h as [|x h IH]; intros [|d] L; simpl in *; try lia; [reflexivity|]. now rewrite IH by lia. }
      rewrite Eq in E. clear Eq. assert (K1 : ok_heap (h ++ [CDict []])) by (apply ok_add; [assumption|intros o []|discriminate]).
      assert (X : ext h (h ++ [CDict []])) by apply ext_app.
      destruct (put_ok (h ++ [CDict []]) d (CDict items) (CDict (dput items k (Ref (length h)))) K1 (ext_nth _ _ _ _ X N) I) as (K2 & P2).
      { intros o Ho. simpl in Ho. apply dput_in in Ho. destruct Ho as [-> |Ho]; [simpl; rewrite app_length; simpl; apply Nat.ltb_lt; lia|]. apply (ext_obj h); [assumption|]. eapply (ok_objs h K); [exact N|exact Ho]. }
      assert (P3 : keeps h (put_cell (h ++ [CDict []]) d (CDict (dput items k (Ref (length h)))))) by (eapply keeps_trans; [apply ext_keeps; exact X|exact P2]).
      destruct (IH _ _ _ _ _ K2 (keeps_obj _ _ _ P3 O) E) as (K4 & P4). split; [assumption|]. eapply keeps_trans; eassumption.
Qed.
Lemma insert_all_ok kvs sep : forall h d h' r, ok_heap h -> (forall o, In o (map snd kvs) -> exists_obj h o = true) -> h_insert_all h d kvs sep = (h', r) -> ok_heap h' /\ keeps h h'.
Proof.
  induction kvs as [|[k v] kvs IH]; intros h d h' r K O E; cbn [h_insert_all] in E; [injection E as <- <-; split; [assumption|apply keeps_refl]|].
  destruct k as [|c k]; [injection E as <- <-; split; [assumption|apply keeps_refl]|]. destruct (h_insert h d (py_split sep (c :: k)) v) as [h1 r1] eqn:G.
  destruct (insert_ok _ _ _ _ _ _ K (O v (or_introl eq_refl)) G) as (K1 & P1). destruct r1 as [u|e]; [|injection E as <- <-; auto].
  assert (O1 : forall o, In o (map snd kvs) -> exists_obj h1 o = true) by (intros o Ho; apply (keeps_obj h); [assumption|]; apply O; now right).
  destruct (IH _ _ _ _ K1 O1 E) as (K2 & P2). split; [assumption|]. eapply keeps_trans; eassumption.
Qed.
Lemma from_pairs_ok fuel h kvs sep h' r : ok_heap h -> (forall o, In o (map snd kvs) -> exists_obj h o = true) -> h_from_pairs fuel h kvs sep = (h', r) ->
  ok_heap h' /\ keeps h h' /\ forall o', r = Ok o' -> is_parameters h' o' /\ forall l, o' = Ref l -> length h <= l.
Proof.
  intros K O E. unfold h_from_pairs in E. assert (K0 : ok_heap (h ++ [CDict []])) by (apply ok_add; [assumption|intros o []|discriminate]). assert (X : ext h (h ++ [CDict []])) by apply ext_app.
  destruct (h_insert_all _ _ kvs sep) as [h1 r1] eqn:G. destruct (insert_all_ok _ _ _ _ _ _ K0 (fun o Ho => ext_obj _ _ o X (O o Ho)) G) as (K1 & P1). assert (P : keeps h h1) by (eapply keeps_trans; [apply ext_keeps; exact X|exact P1]).
  destruct r1 as [u|e]; [|injection E as <- <-; split; [assumption|]; split; [assumption|discriminate]].
  assert (L := keeps_length _ _ P1). rewrite app_length in L. simpl in L. assert (On : exists_obj h1 (Ref (length h)) = true) by (simpl; apply Nat.ltb_lt; lia).
  destruct (from_mapping_spec _ _ _ _ _ _ K1 On E) as (E2 & K2 & S). split; [assumption|]. split; [eapply keeps_trans; [exact P|now apply ext_keeps]|]. intros o' Ho. destruct (S o' Ho) as (_ & P' & L' & _). split; [assumption|]. intros l Hl. specialize (L' l Hl). lia.
Qed.
(** Every event keeps the Parameters objects. *)
Lemma happen_ok limit h e : ok_heap h -> ok_heap (happen limit h e) /\ keeps h (happen limit h e).
Proof.
  intros K. unfold happen. destruct (forallb (exists_obj h) (uses e)) eqn:U; [|split; [assumption|apply keeps_refl]]. rewrite forallb_forall in U.
  assert (St : ok_heap h /\ keeps h h) by (split; [assumption|apply keeps_refl]).
  destruct e as [i|i|l i|l i|o prefix|kvs sep|o|a b prefix]; cbn [uses] in U.
  - split; [|apply ext_keeps, ext_app]. apply ok_add; [assumption|exact U|discriminate].
  - split; [|apply ext_keeps, ext_app]. apply ok_add; [assumption|exact U|discriminate].
  - destruct (nth_error h l) as [[j|j|p j]|] eqn:N; try exact St. apply (put_ok h l (CDict j)); [assumption|assumption|exact I|exact U].
  - destruct (nth_error h l) as [[j|j|p j]|] eqn:N; try exact St. apply (put_ok h l (CList j)); [assumption|assumption|exact I|exact U].
  - destruct (h_from_mapping limit h prefix o) as [h' r] eqn:E. destruct (from_mapping_spec _ _ _ _ _ _ K (U o (or_introl eq_refl)) E) as (E' & K' & _). split; [exact K'|now apply ext_keeps].
  - destruct (h_from_pairs limit h kvs sep) as [h' r] eqn:E. destruct (from_pairs_ok _ _ _ _ _ _ K U E) as (K' & P & _). split; assumption.
  - destruct (h_dictify limit h o) as [h' r] eqn:E. assert (O := U o (or_introl eq_refl)).
    destruct (deref h o) as [[j|j|p j]|] eqn:D.
    + destruct limit; cbn [h_dictify] in E; [|rewrite D in E]; injection E as <- <-; exact St.
    + destruct limit; cbn [h_dictify] in E; [|rewrite D in E]; injection E as <- <-; exact St.
    + destruct (dictify_spec _ _ _ _ _ K O (fun '(ex_intro _ x X) => ltac:(congruence)) E) as (E' & K' & _). split; [exact K'|now apply ext_keeps].
    + destruct limit; cbn [h_dictify] in E; [|rewrite D in E]; injection E as <- <-; exact St.
  - destruct (h_unify_with limit h a b prefix) as [h' r] eqn:E. destruct (unify_with_spec _ _ _ _ _ _ _ K (U a (or_introl eq_refl)) (U b (or_intror (or_introl eq_refl))) E) as (E' & K' & _). split; [exact K'|now apply ext_keeps].
Qed.
Lemma history_ok limit es : forall h, ok_heap h -> ok_heap (history limit h es) /\ keeps h (history limit h es).
Proof.
  induction es as [|e es IH]; intros h K; [split; [assumption|apply keeps_refl]|]. destruct (happen_ok limit h e K) as (K1 & P1). destruct (IH _ K1) as (K2 & P2). split; [exact K2|]. eapply keeps_trans; [exact P1|exact P2].
Qed.
Lemma ok_empty : ok_heap [].
Proof. split; intros [|l]; discriminate. Qed.
