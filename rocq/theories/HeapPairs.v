(** * C104: from_key_value_pairs, when no dictionary is among the values *)
From Verif Require Import Prelude PyStr Order Range Params ParamsSpec ParamsProofs ParamsPairs Heap HeapProps HeapValues.

(** All objects of [h0] are unchanged in [h]. *)
Definition unchanged (h0 h : list cell) : Prop := forall l c, nth_error h0 l = Some c -> nth_error h l = Some c.

Lemma insert_unfold d k k2 rest v : insert_path d (k :: k2 :: rest) v = match dfind d k with
  | None => let* sub := insert_path [] (k2 :: rest) v in Ok (dput d k (PMap sub))
  | Some (PMap sub) => let* sub' := insert_path sub (k2 :: rest) v in Ok (dput d k (PMap sub'))
  | Some _ => Raise TypeError
  end.
Proof. reflexivity. Qed.
Section Own.
  Variable h0 : list cell.
  (** what the values given are *)
  Variable V : obj -> pv -> Prop.
  (** The object has the value, and its dictionaries are those at the given places, all different and none of them in [h0]. *)
  Inductive own (h : list cell) : obj -> pv -> list nat -> Prop :=
  | own_val o x : V o x -> own h o x []
  | own_dict d items m ls : length h0 <= d -> nth_error h d = Some (CDict items) -> own_all h items m ls -> ~ In d ls -> own h (Ref d) (PMap m) (d :: ls)
  with own_all (h : list cell) : list (str * obj) -> data_t -> list nat -> Prop :=
  | oa_nil : own_all h [] [] []
  | oa_cons k o x items m l1 l2 : own h o x l1 -> own_all h items m l2 -> (forall l, In l l1 -> ~ In l l2) -> own_all h ((k, o) :: items) ((k, x) :: m) (l1 ++ l2).
  Scheme own_ind2 := Minimality for own Sort Prop with own_all_ind2 := Minimality for own_all Sort Prop.
  Combined Scheme own_mut from own_ind2, own_all_ind2.

  Lemma own_frame h h' : (forall o x ls, own h o x ls -> (forall l, In l ls -> nth_error h' l = nth_error h l) -> own h' o x ls) /\
    (forall items m ls, own_all h items m ls -> (forall l, In l ls -> nth_error h' l = nth_error h l) -> own_all h' items m ls).
  Proof.
    apply own_mut.
    - intros o x Hv _. now constructor.
    - intros d items m ls L N _ IH Nd H. econstructor; [assumption|rewrite H by (now left); exact N|apply IH; intros l Hl; apply H; now right|assumption].
    - constructor.
    - intros k o x items m l1 l2 _ IH1 _ IH2 D H. constructor; [apply IH1|apply IH2|assumption]; intros l Hl; apply H; apply in_or_app; auto.
  Qed.
  Lemma own_lt h : (forall o x ls, own h o x ls -> forall l, In l ls -> l < length h /\ length h0 <= l) /\ (forall items m ls, own_all h items m ls -> forall l, In l ls -> l < length h /\ length h0 <= l).
  Proof.
    apply own_mut.
    - intros o x _ l [].
    - intros d items m ls L N _ IH _ l [<- |Hl]; [|auto]. split; [|assumption]. apply nth_error_Some. congruence.
    - intros l [].
    - intros k o x items m l1 l2 _ IH1 _ IH2 _ l Hl. apply in_app_or in Hl. destruct Hl; auto.
  Qed.
  Lemma own_none h items m ls k : own_all h items m ls -> (dfind m k = None <-> dfind items k = None).
  Proof. intros A. induction A as [|k' o x items m l1 l2 _ _ IH _]; [tauto|]. simpl. destruct (str_eqb k' k); [split; discriminate|exact IH]. Qed.
  Lemma own_at h items m ls k x : own_all h items m ls -> dfind m k = Some x -> exists o lk, dfind items k = Some o /\ own h o x lk /\ incl lk ls /\
    forall h' o' x' lk' n, (forall l, In l ls -> ~ In l lk -> nth_error h' l = nth_error h l) -> own h' o' x' lk' -> (forall l, In l lk' -> In l lk \/ n <= l) -> (forall l, In l ls -> l < n) ->
      exists ls', own_all h' (dput items k o') (dput m k x') ls' /\ forall l, In l ls' -> In l ls \/ n <= l.
  Proof.
    intros A. induction A as [|k' o y items m l1 l2 Oy A IH D]; intros F; [discriminate|]. cbn [dfind dput] in *. destruct (str_eqb k' k).
    - injection F as ->. exists o, l1. split; [reflexivity|]. split; [assumption|]. split; [intros l Hl; apply in_or_app; now left|]. intros h' o' x' lk' n Hs Ho Hl Hn. exists (lk' ++ l2). split.
      + constructor; [assumption| |].
        * apply (proj2 (own_frame h h')) with (1 := A). intros l H. apply Hs; [apply in_or_app; now right|]. intros X. exact (D l X H).
        * intros l H H2. destruct (Hl l H) as [X|X]; [exact (D l X H2)|]. assert (l < n) by (apply Hn; apply in_or_app; now right). lia.
      + intros l H. apply in_app_or in H. destruct H as [H|H]; [destruct (Hl l H) as [X|X]; [left; apply in_or_app; now left|now right]|left; apply in_or_app; now right].
    - destruct (IH F) as (o2 & lk & E & Ok2 & I2 & U). exists o2, lk. split; [assumption|]. split; [assumption|]. split; [intros l Hl; apply in_or_app; right; now apply I2|]. intros h' o' x' lk' n Hs Ho Hl Hn.
      destruct (U h' o' x' lk' n) as (ls2 & A2 & S2); [intros l H; apply Hs; apply in_or_app; now right|assumption|assumption|intros l H; apply Hn; apply in_or_app; now right|].
      exists (l1 ++ ls2). split.
      + constructor; [|assumption|].
        * apply (proj1 (own_frame h h')) with (1 := Oy). intros l H. apply Hs; [apply in_or_app; now left|]. intros X. exact (D l H (I2 l X)).
        * intros l H H2. destruct (S2 l H2) as [X|X]; [exact (D l H X)|]. assert (l < n) by (apply Hn; apply in_or_app; now left). lia.
      + intros l H. apply in_app_or in H. destruct H as [H|H]; [left; apply in_or_app; now left|]. destruct (S2 l H) as [X|X]; [left; apply in_or_app; now right|now right].
  Qed.
  Lemma own_fresh h items m ls k h' o' x' lk' n : own_all h items m ls -> dfind m k = None -> (forall l, In l ls -> nth_error h' l = nth_error h l) -> own h' o' x' lk' -> (forall l, In l lk' -> n <= l) -> (forall l, In l ls -> l < n) ->
    exists ls', own_all h' (dput items k o') (dput m k x') ls' /\ forall l, In l ls' -> In l ls \/ n <= l.
  Proof.
    intros A. induction A as [|k' o y items m l1 l2 Oy A IH D]; intros F Hs Ho Hl Hn; cbn [dfind dput] in *.
    - exists (lk' ++ []). split; [constructor; [assumption|constructor|intros l _ []]|]. intros l H. rewrite app_nil_r in H. auto.
    - destruct (str_eqb k' k); [discriminate|]. destruct IH as (ls2 & A2 & S2); try assumption; [intros l H; apply Hs; apply in_or_app; now right|intros l H; apply Hn; apply in_or_app; now right|].
      exists (l1 ++ ls2). split.
      + constructor; [|assumption|].
        * apply (proj1 (own_frame h h')) with (1 := Oy). intros l H. apply Hs. apply in_or_app. now left.
        * intros l H H2. destruct (S2 l H2) as [X|X]; [exact (D l H X)|]. assert (l < n) by (apply Hn; apply in_or_app; now left). lia.
      + intros l H. apply in_app_or in H. destruct H as [H|H]; [left; apply in_or_app; now left|]. destruct (S2 l H) as [X|X]; [left; apply in_or_app; now right|now right].
  Qed.

  Hypothesis V_ok : forall o x, V o x -> exists_obj h0 o = true /\ ~ is_dict h0 o /\ ~ exists m, x = PMap m.
  Lemma dput_same {A} (d : list (str * A)) k v : dfind d k = Some v -> dput d k v = d.
  Proof using. induction d as [|[a x] d IH]; simpl; [discriminate|]. destruct (str_eqb a k); intros E; [now injection E as ->|]. now rewrite IH. Qed.
  Lemma insert_own parts : forall h d m ls v x h' r, unchanged h0 h -> parts <> [] -> own h (Ref d) (PMap m) ls -> V v x -> h_insert h d parts v = (h', r) ->
    (forall l, ~ In l ls -> l < length h -> nth_error h' l = nth_error h l) /\ length h <= length h' /\
    match insert_path m parts x with
    | Ok m' => r = Ok tt /\ exists ls', own h' (Ref d) (PMap m') ls' /\ forall l, In l ls' -> In l ls \/ length h <= l
    | Raise e => r = Raise e
    end.
  Proof using V_ok.
    induction parts as [|k rest IH]; intros h d m ls v x h' r U Np O Hv E; [congruence|]. clear Np. inversion O as [? ? Bad|? items ? ls0 Ld N A Nd]; subst; [exfalso; destruct (V_ok _ _ Bad) as (_ & _ & B); apply B; eauto|]. rename ls0 into ls.
    cbn [h_insert] in E. rewrite N in E. assert (Lt : d < length h) by (apply nth_error_Some; congruence).
    assert (Lts : forall l, In l ls -> l < length h) by (intros l Hl; exact (proj1 (proj2 (own_lt h) _ _ _ A l Hl))).
    destruct rest as [|k2 rest].
    - injection E as <- <-. rewrite put_length. split; [intros l Hl _; apply put_other; intros ->; apply Hl; now left|]. split; [lia|]. cbn [insert_path]. split; [reflexivity|].
      assert (exists ls', own_all (put_cell h d (CDict (dput items k v))) (dput items k v) (dput m k x) ls' /\ forall l, In l ls' -> In l ls \/ length h <= l) as (ls' & A' & S').
      { assert (Fr : forall l, In l ls -> nth_error (put_cell h d (CDict (dput items k v))) l = nth_error h l) by (intros l Hl; apply put_other; intros ->; exact (Nd Hl)).
        destruct (dfind m k) as [y|] eqn:F.
        - destruct (own_at h items m ls k y A F) as (o & lk & _ & _ & _ & Up). apply (Up _ v x [] (length h)); [intros l Hl _; now apply Fr|now constructor|intros l []|assumption].
        - apply (own_fresh h items m ls k _ v x [] (length h) A F); [assumption|now constructor|intros l []|assumption]. }
      exists (d :: ls'). split.
      + econstructor; [assumption|now apply put_same|exact A'|]. intros X. destruct (S' d X) as [Y|Y]; [exact (Nd Y)|lia].
      + intros l [<- |Hl]; [left; now left|]. destruct (S' l Hl) as [Y|Y]; [left; now right|now right].
    - rewrite insert_unfold. destruct (dfind m k) as [y|] eqn:F.
      + destruct (own_at h items m ls k y A F) as (o & lk & Fi & Oy & Il & Up). rewrite Fi in E. destruct o as [w|l].
        * injection E as <- <-. split; [auto|]. split; [lia|]. inversion Oy as [? ? Vy|]; subst. destruct (V_ok _ _ Vy) as (_ & _ & Ny). destruct y; try reflexivity. exfalso. apply Ny. eauto.
        * inversion Oy as [? ? Vy|? j m' ls1 L1 N1 A1 Nd1]; subst.
          -- destruct (V_ok _ _ Vy) as (Oo & Ndy & Ny). destruct (obj_cell h0 l Oo) as (c & Nc). cbn [h_insert] in E. rewrite (U l c Nc) in E. assert (Er : (h, Raise TypeError) = (h', r)) by (destruct c; [exfalso; apply Ndy; eexists; exact Nc|exact E|exact E]). injection Er as <- <-.
             split; [auto|]. split; [lia|]. destruct y; try reflexivity. exfalso. apply Ny. eauto.
          -- destruct (IH h l m' (l :: ls1) v x h' r U ltac:(discriminate) Oy Hv E) as (Fr & Le & S). split.
             ++ intros j0 Hj. apply Fr. intros X. apply Hj. right. now apply Il.
             ++ split; [assumption|]. destruct (insert_path m' (k2 :: rest) x) as [m2|e]; cbn [bind]; [|exact S]. destruct S as (-> & ls2 & O2 & S2). split; [reflexivity|].
                destruct (Up h' (Ref l) (PMap m2) ls2 (length h)) as (ls' & A' & S'); [intros j0 Hj Hn; apply Fr; [assumption|now apply Lts]|assumption|assumption|assumption|].
                rewrite (dput_same items k (Ref l) Fi) in A'. exists (d :: ls'). split.
                ** econstructor; [assumption| |exact A'|].
                   --- rewrite Fr; [exact N| |assumption]. intros X. apply Nd. now apply Il.
                   --- intros X. destruct (S' d X) as [Y|Y]; [exact (Nd Y)|lia].
                ** intros j0 [<- |Hj]; [left; now left|]. destruct (S' j0 Hj) as [Y|Y]; [left; now right|now right].
      + assert (Fi := proj1 (own_none h items m ls k A) F). rewrite Fi in E. set (c := CDict (dput items k (Ref (length h)))) in *. set (h1 := put_cell h d c ++ [CDict []]) in *.
        assert (L1 : length h1 = S (length h)) by (unfold h1; rewrite app_length, put_length; simpl; lia).
        assert (H1 : forall l, l <> d -> l < length h -> nth_error h1 l = nth_error h l) by (intros l D L; unfold h1; rewrite nth_error_app1 by (rewrite put_length; assumption); now apply put_other).
        assert (H2 : nth_error h1 d = Some c) by (unfold h1; rewrite nth_error_app1 by (rewrite put_length; assumption); now apply put_same).
        assert (H3 : nth_error h1 (length h) = Some (CDict [])) by (unfold h1; rewrite <- (put_length h d c); apply new_cell).
        assert (U1 : unchanged h0 h1) by (intros l c0 Nl; assert (l < length h0) by (apply nth_error_Some; congruence); rewrite H1; [now apply U|lia|lia]).
        assert (O1 : own h1 (Ref (length h)) (PMap []) [length h]) by (econstructor; [lia|exact H3|constructor|intros []]).
        destruct (IH h1 (length h) [] [length h] v x h' r U1 ltac:(discriminate) O1 Hv E) as (Fr & Le & S). assert (Fr' : forall l, l <> d -> l < length h -> nth_error h' l = nth_error h l) by (intros l D L; rewrite Fr; [now apply H1|intros [X|[]]; lia|lia]).
        split; [intros l Hl L; apply Fr'; [intros ->; apply Hl; now left|assumption]|]. split; [lia|]. destruct (insert_path [] (k2 :: rest) x) as [m2|e]; cbn [bind]; [|exact S]. destruct S as (-> & ls2 & O2 & S2). split; [reflexivity|].
        destruct (own_fresh h items m ls k h' (Ref (length h)) (PMap m2) ls2 (length h) A F) as (ls' & A' & S'); [intros l Hl; apply Fr'; [intros ->; exact (Nd Hl)|now apply Lts]|assumption|intros l Hl; destruct (S2 l Hl) as [[<- |[]]|Y]; lia|assumption|].
        exists (d :: ls'). split.
        * econstructor; [assumption| |exact A'|]; [rewrite Fr; [exact H2|intros [X|[]]; lia|lia]|]. intros X. destruct (S' d X) as [Y|Y]; [exact (Nd Y)|lia].
        * intros l [<- |Hl]; [left; now left|]. destruct (S' l Hl) as [Y|Y]; [left; now right|now right].
  Qed.
  Lemma insert_unchanged h d m ls h' : unchanged h0 h -> own h (Ref d) (PMap m) ls -> (forall l, ~ In l ls -> l < length h -> nth_error h' l = nth_error h l) -> unchanged h0 h'.
  Proof using.
    clear. intros U O Fr l c N. assert (L : l < length h0) by (apply nth_error_Some; congruence). assert (Nh := U l c N). rewrite Fr; [exact Nh| |apply nth_error_Some; congruence]. intros X. apply (proj1 (own_lt h) _ _ _ O) in X. lia.
  Qed.
  Lemma insert_all_own sep kvs tkvs : Forall2 (fun a b => fst a = fst b /\ V (snd a) (snd b)) kvs tkvs -> forall h d m ls h' r, unchanged h0 h -> own h (Ref d) (PMap m) ls -> h_insert_all h d kvs sep = (h', r) ->
    unchanged h0 h' /\ match foldM (fun d kv => match fst kv with [] => Raise RuntimeError | _ => insert_path d (py_split sep (fst kv)) (snd kv) end) tkvs m with
                       | Ok m' => r = Ok tt /\ exists ls', own h' (Ref d) (PMap m') ls'
                       | Raise e => r = Raise e
                       end.
  Proof using V_ok.
    intros F. induction F as [|[k v] [k' x] kvs tkvs (Ek & Hv) F IH]; intros h d m ls h' r U O E; cbn [h_insert_all] in E.
    - injection E as <- <-. split; [assumption|]. simpl. eauto.
    - simpl in Ek, Hv. subst k'. cbn [foldM fst snd]. destruct k as [|c k]; [injection E as <- <-; split; [assumption|reflexivity]|].
      destruct (h_insert h d (py_split sep (c :: k)) v) as [h1 r1] eqn:G. destruct (insert_own _ _ _ _ _ _ _ _ _ U (py_split_nonnil _ _) O Hv G) as (Fr & Le & S). assert (U1 := insert_unchanged h d m ls h1 U O Fr).
      destruct (insert_path m (py_split sep (c :: k)) x) as [m2|e]; cbn [bind].
      + destruct S as (-> & ls2 & O2 & _). exact (IH h1 d m2 ls2 h' r U1 O2 E).
      + subst r1. injection E as <- <-. split; [assumption|reflexivity].
  Qed.
End Own.

Lemma own_reads h0 (V : obj -> pv -> Prop) h : (forall o x, V o x -> reads h o x) -> (forall o x ls, own h0 V h o x ls -> reads h o x) /\ (forall items m ls, own_all h0 V h items m ls -> items_read h items m).
Proof.
  intros HV. apply own_mut.
  - intros o x. apply HV.
  - intros d items m ls L N _ IH _. econstructor; [exact N|exact IH].
  - constructor.
  - intros k o x items m l1 l2 _ R _ IH _. constructor; [split; [reflexivity|exact R]|exact IH].
Qed.
Lemma reads_unchanged h h' o t : unchanged h h' -> reads h o t -> reads h' o t.
Proof. intros E. apply (reads_imp h h' (fun _ => True)); [|exact Logic.I]. intros l c _ N. split; [now apply E|auto]. Qed.
Lemma unchanged_app h t : unchanged h (h ++ t).
Proof. intros l c N. apply (ext_nth h); [apply ext_app|assumption]. Qed.
Lemma ext_unchanged h h' : ext h h' -> unchanged h h'.
Proof. intros E l c N. eapply ext_nth; eassumption. Qed.
Lemma pairs_unchanged fuel h kvs sep h' r : ok_heap h -> (forall o, In o (map snd kvs) -> exists_obj h o = true /\ ~ is_dict h o) -> h_from_pairs fuel h kvs sep = (h', r) -> unchanged h h'.
Proof.
  intros K O E. unfold h_from_pairs in E. destruct (h_insert_all _ _ kvs sep) as [h1 r1] eqn:G.
  set (V := fun o x => exists_obj h o = true /\ ~ is_dict h o /\ x = PNone).
  destruct (insert_all_own h V) with (5 := G) (tkvs := map (fun kv => (fst kv, PNone)) kvs) (m := @nil (str * pv)) (ls := [length h]) as (U & S).
  - intros o x (A & B & ->). split; [assumption|]. split; [assumption|]. intros (m & X). discriminate.
  - clear - O. induction kvs as [|[k v] kvs IH]; constructor; [|apply IH; intros o Ho; apply O; now right]. split; [reflexivity|]. destruct (O v (or_introl eq_refl)). split; [assumption|]. split; [assumption|reflexivity].
  - apply unchanged_app.
  - econstructor; [lia|apply new_cell|constructor|intros []].
  - destruct r1 as [u|e]; [|injection E as <- <-; exact U]. destruct (insert_all_ok _ _ _ _ _ _ (ok_add h (CDict []) K ltac:(intros o []) ltac:(discriminate)) (fun o Ho => ext_obj _ _ o (ext_app _ _) (proj1 (O o Ho))) G) as (K1 & P1).
    assert (L := keeps_length _ _ P1). rewrite app_length in L. simpl in L. assert (On : exists_obj h1 (Ref (length h)) = true) by (simpl; apply Nat.ltb_lt; lia).
    destruct (from_mapping_spec _ _ _ _ _ _ K1 On E) as (E2 & _). intros l c N. eapply ext_nth; [exact E2|]. now apply U.
Qed.
(** [enough] is a limit of nested calls that suffices. *)
Lemma pairs_agrees h kvs tkvs sep : ok_heap h -> Forall2 (fun a b => fst a = fst b /\ reads h (snd a) (snd b)) kvs tkvs -> (forall o, In o (map snd kvs) -> ~ is_dict h o) ->
  exists enough, forall fuel h' r, h_from_pairs fuel h kvs sep = (h', r) -> fuel <= enough /\ r = Raise RecursionError \/ agrees h' r (from_key_value_pairs tkvs sep).
Proof.
  intros K F Nd. unfold h_from_pairs. destruct (h_insert_all _ _ kvs sep) as [h1 r1] eqn:G.
  set (V := fun o x => reads h o x /\ ~ is_dict h o).
  assert (Ov : forall o, In o (map snd kvs) -> exists_obj h o = true) by (clear - F; intros o Ho; induction F as [|a b l r (_ & R) _ IH]; [destruct Ho|]; destruct Ho as [<- |Ho]; [exact (reads_exists _ _ _ R)|auto]).
  destruct (insert_all_own h V) with (5 := G) (tkvs := tkvs) (m := @nil (str * pv)) (ls := [length h]) as (U & S).
  - intros o x (A & B). split; [exact (reads_exists _ _ _ A)|]. split; [assumption|]. now rewrite <- (reads_dict _ _ _ A).
  - clear - F Nd. induction F as [|a b l r (E & R) _ IH]; constructor; [|apply IH; intros o Ho; apply Nd; now right]. split; [assumption|]. split; [assumption|]. apply Nd. now left.
  - apply unchanged_app.
  - econstructor; [lia|apply new_cell|constructor|intros []].
  - rewrite fkvp_eq. unfold fold_pairs.
    destruct (insert_all_ok _ _ _ _ _ _ (ok_add h (CDict []) K ltac:(intros o []) ltac:(discriminate)) (fun o Ho => ext_obj _ _ o (ext_app _ _) (Ov o Ho)) G) as (K1 & P1).
    match type of S with match ?t with _ => _ end => destruct t as [m|e] eqn:Em end.
    + destruct S as (-> & ls & O). exists (mdepth (PMap m)). intros fuel h' r E. assert (R : reads h1 (Ref (length h)) (PMap m)) by (apply (proj1 (own_reads h V h1 (fun o x Hx => reads_unchanged _ _ _ _ U (proj1 Hx)))) with (1 := O)).
      destruct (from_mapping_agrees _ _ _ _ _ _ _ K1 R E) as [X|X]; [now left|right]. match goal with |- agrees _ _ (bind ?t _) => assert (t = Ok m) as -> by exact Em end. exact X.
    + subst r1. exists 0. intros fuel h' r E. injection E as <- <-. right. match goal with |- agrees _ _ (bind ?t _) => assert (t = Raise e) as -> by exact Em end. reflexivity.
Qed.
