(** Lemmas on Modifier.set_attributes and Modifier.merge. *)
From Verif Require Import Base BaseFacts StoreModel StoreSpec StoreProofs ModifyProofs CopyProofs
  AddDeleteProofs.
Local Open Scope string_scope.
Local Open Scope nat_scope.
Local Open Scope list_scope.

(** ** Attribute writes *)

Lemma nth_upd h o ob x :
  nth_error (upd h o ob) x = if x =? o then option_map (fun _ => ob) (nth_error h x) else nth_error h x.
Proof.
  revert o x; induction h as [|y t IH]; intros [|o] [|x]; simpl; try reflexivity.
  - destruct (x =? o); reflexivity.
  - apply IH.
Qed.

Lemma nth_set_attr h o a v x :
  nth_error (set_attr h o a v) x =
  if x =? o then option_map (fun ob => mkObj (cls ob) (dset (attrs ob) a v)) (nth_error h x)
  else nth_error h x.
Proof.
  unfold set_attr. destruct (nth_error h o) as [ob|] eqn:E.
  - rewrite nth_upd. destruct (Nat.eqb_spec x o) as [->|]; [rewrite E|]; reflexivity.
  - destruct (Nat.eqb_spec x o) as [->|]; [rewrite E|]; reflexivity.
Qed.

Lemma In_dset {V} (l : list (string * V)) a v b w : In (b, w) (dset l a v) -> In (b, w) l \/ (b = a /\ w = v).
Proof.
  induction l as [|[k x] t IH]; cbn [dset].
  - intros [H|[]]. injection H as <- <-. auto.
  - destruct (String.eqb_spec k a) as [->|Hn].
    + intros [H|H]; [injection H as <- <-; auto|simpl; auto].
    + intros [H|H]; [simpl; auto|]. destruct (IH H); simpl; auto.
Qed.

Lemma get_set_attr h o a v x b :
  get_attr (set_attr h o a v) x b =
  if (x =? o) && String.eqb a b then
    match nth_error h x with Some _ => Some v | None => None end
  else get_attr h x b.
Proof.
  unfold get_attr. rewrite nth_set_attr. destruct (Nat.eqb_spec x o) as [->|Hn]; simpl; [|reflexivity].
  destruct (nth_error h o) as [ob|]; simpl; [|destruct (String.eqb a b); reflexivity].
  destruct (String.eqb_spec a b) as [->|Hab].
  - rewrite dget_dset_same. reflexivity.
  - rewrite dget_dset_other by congruence. reflexivity.
Qed.

Lemma get_attr_In h o a v : get_attr h o a = Some v -> exists ob, nth_error h o = Some ob /\ In (a, v) (attrs ob).
Proof.
  unfold get_attr. destruct (nth_error h o) as [ob|]; [|discriminate].
  intros H. exists ob. split; [reflexivity|]. apply dget_In, H.
Qed.

Lemma named_get h o k : named h o k <-> get_attr h o "name" = Some (Scal k).
Proof.
  unfold named, get_attr. destruct (nth_error h o) as [ob|]; split.
  - intros (? & E & H). congruence.
  - eauto.
  - intros (? & E & H). discriminate.
  - discriminate.
Qed.

Lemma has_attr_get h o a v : has_attr h o a v <-> get_attr h o a = Some v.
Proof.
  unfold has_attr, get_attr. destruct (nth_error h o) as [ob|]; split.
  - intros (? & E & H). congruence.
  - eauto.
  - intros (? & E & H). discriminate.
  - discriminate.
Qed.

Lemma nth_get h h' o : nth_error h' o = nth_error h o -> forall a, get_attr h' o a = get_attr h o a.
Proof. intros E a. unfold get_attr. rewrite E. reflexivity. Qed.

Definition reg (h : heap) (s : store) (h' : heap) (s' : store) : Prop :=
  names s' = names s /\ length h <= length h' /\
  elems s' = elems s ++ seq (length h) (length h' - length h).

Lemma reg_same h s h' s' : length h' = length h -> names s' = names s -> elems s' = elems s -> reg h s h' s'.
Proof. intros L N E. split; [exact N|]. split; [lia|]. rewrite L, Nat.sub_diag, E, app_nil_r. reflexivity. Qed.

Lemma reg_refl h s : reg h s h s.
Proof. apply reg_same; reflexivity. Qed.

Lemma reg_trans h s h1 s1 h2 s2 : reg h s h1 s1 -> reg h1 s1 h2 s2 -> reg h s h2 s2.
Proof.
  intros (N1 & L1 & E1) (N2 & L2 & E2). split; [congruence|]. split; [lia|].
  rewrite E2, E1, <- app_assoc. f_equal.
  replace (length h2 - length h) with ((length h1 - length h) + (length h2 - length h1)) by lia.
  rewrite seq_app. f_equal. f_equal. lia.
Qed.

Section Frame.
  (** [E]: objects that may occur as list elements; [D]: the list attributes that are
      tracked. *)
  Variables (D : oid -> string -> Prop) (E : oid -> Prop) (L : nat) (NM : Prop).
  Hypothesis HED : forall x a, E x -> D x a.
  Hypothesis Hfresh : forall x, L <= x -> E x.

  Definition good (h : heap) : Prop :=
    L <= length h /\
    (forall o ob a l e, D o a -> nth_error h o = Some ob -> In (a, Lst (Some l)) (attrs ob) ->
                        In (EObj e) l -> E e) /\
    (NM -> forall x k, E x -> ~ named h x k) /\
    unique_attrs h.

  Definition elts_in (l : list elt) : Prop := forall e, In (EObj e) l -> E e.

  Lemma good_set_attr h o a v :
    good h -> (forall l, v = Lst (Some l) -> elts_in l) ->
    (forall k, a = "name" -> v = Scal k -> NM -> ~ E o) -> good (set_attr h o a v).
  Proof.
    intros (Hl & Hc & Hn & Hq) Hv Ha. split; [rewrite set_attr_length; exact Hl|]. split; [|split].
    - intros x ob b l e Dx Hx Hin He. rewrite nth_set_attr in Hx.
      destruct (Nat.eqb_spec x o) as [->|Hne].
      + destruct (nth_error h o) as [ob0|] eqn:E0; [|discriminate]. injection Hx as <-. simpl in Hin.
        apply In_dset in Hin as [Hin|[-> <-]].
        * eapply Hc; eauto.
        * eapply Hv; eauto.
      + eapply Hc; eauto.
    - intros nm x k Ex Hnx. apply named_get in Hnx. rewrite get_set_attr in Hnx.
      destruct (Nat.eqb_spec x o) as [->|Hne]; simpl in Hnx.
      + destruct (String.eqb_spec a "name") as [->|Hna].
        * destruct (nth_error h o); [|discriminate]. injection Hnx as ->.
          exact (Ha k eq_refl eq_refl nm Ex).
        * apply named_get in Hnx. exact (Hn nm o k Ex Hnx).
      + apply named_get in Hnx. exact (Hn nm x k Ex Hnx).
    - intros x ob Hx. rewrite nth_set_attr in Hx.
      destruct (Nat.eqb_spec x o) as [->|Hne]; [|exact (Hq _ _ Hx)].
      destruct (nth_error h o) as [ob0|] eqn:E0; [|discriminate]. injection Hx as <-. simpl.
      exact (dset_NoDup _ _ _ (Hq _ _ E0)).
  Qed.

  Definition copy_good_at (cp : heap -> store -> oid -> res (heap * store * oid)) : Prop :=
    forall h s o h' s' o', good h -> E o -> cp h s o = Ok (h', s', o') ->
      good h' /\ extends h h' /\ reg h s h' s' /\ o' = length h.

  Lemma copy_elts_good cp : copy_good_at cp ->
    forall l h s h' s' l', good h -> elts_in l -> copy_elts cp h s l = Ok (h', s', l') ->
      good h' /\ extends h h' /\ reg h s h' s' /\ elts_in l'.
  Proof.
    intros Hcp. induction l as [|[o|] t IH]; intros h s h' s' l' Hg Hl H; simpl in H.
    - injection H as <- <- <-. split; [exact Hg|]. split; [apply extends_refl|].
      split; [apply reg_refl|intros e []].
    - destruct (cp h s o) as [[[h1 s1] o1]|] eqn:E1; [|discriminate].
      destruct (copy_elts cp h1 s1 t) as [[[h2 s2] t2]|] eqn:E2; [|discriminate].
      injection H as <- <- <-.
      destruct (Hcp _ _ _ _ _ _ Hg (Hl o (or_introl eq_refl)) E1) as (G1 & X1 & R1 & ->).
      destruct (IH _ _ _ _ _ G1 (fun e H => Hl e (or_intror H)) E2) as (G2 & X2 & R2 & I2).
      split; [exact G2|]. split; [eapply extends_trans; eauto|]. split; [eapply reg_trans; eauto|].
      intros e [He|He]; [injection He as <-; apply Hfresh, Hg|auto].
    - discriminate.
  Qed.

  Lemma copy_attrs_good cp : copy_good_at cp ->
    forall l h s h' s' l', good h -> (forall a m, In (a, Lst (Some m)) l -> elts_in m) ->
      copy_attrs cp h s l = Ok (h', s', l') ->
      good h' /\ extends h h' /\ reg h s h' s' /\
      (forall a m, In (a, Lst (Some m)) l' -> elts_in m) /\
      (forall k, dget l' "name" = Some (Scal k) -> dget l "name" = Some (Scal k)) /\
      map fst l' = map fst l.
  Proof.
    intros Hcp. induction l as [|[a v] t IH]; intros h s h' s' l' Hg Hl H; cbn [copy_attrs] in H.
    - injection H as <- <- <-. split; [exact Hg|]. split; [apply extends_refl|].
      split; [apply reg_refl|]. split; [intros a m []|]. split; [auto|reflexivity].
    - match type of H with (match ?m with _ => _ end = _) =>
        destruct m as [[[h1 s1] v1]|] eqn:E1; [|discriminate] end.
      destruct (copy_attrs cp h1 s1 t) as [[[h2 s2] t2]|] eqn:E2; [|discriminate].
      injection H as <- <- <-.
      assert (S : good h1 /\ extends h h1 /\ reg h s h1 s1 /\
                  (forall m, v1 = Lst (Some m) -> elts_in m) /\ (forall k, v1 = Scal k -> v = Scal k)).
      { assert (Triv : h1 = h -> s1 = s -> v1 = v -> good h1 /\ extends h h1 /\ reg h s h1 s1 /\
                  (forall m, v1 = Lst (Some m) -> elts_in m) /\ (forall k, v1 = Scal k -> v = Scal k)).
        { intros -> -> ->. split; [exact Hg|]. split; [apply extends_refl|]. split; [apply reg_refl|].
          split; [|auto]. intros m ->. apply (Hl a). left; reflexivity. }
        destruct v as [v|[[|e m]|]]; try (injection E1 as <- <- <-; apply Triv; reflexivity).
        destruct (special_attr a); [injection E1 as <- <- <-; apply Triv; reflexivity|].
        destruct (copy_elts cp h s (e :: m)) as [[[h3 s3] l3]|] eqn:E3; [|discriminate].
        injection E1 as <- <- <-.
        destruct (copy_elts_good cp Hcp _ _ _ _ _ _ Hg (Hl a _ (or_introl eq_refl)) E3) as (G & X & R & I).
        split; [exact G|]. split; [exact X|]. split; [exact R|].
        split; [intros m0 Hm; injection Hm as <-; exact I|discriminate]. }
      destruct S as (G1 & X1 & R1 & I1 & K1).
      destruct (IH _ _ _ _ _ G1 (fun a m H => Hl a m (or_intror H)) E2) as (G2 & X2 & R2 & I2 & K2 & M2).
      split; [exact G2|]. split; [eapply extends_trans; eauto|]. split; [eapply reg_trans; eauto|].
      split; [|split].
      + intros b m [Hb|Hb]; [injection Hb as <- Hv; apply I1; exact Hv|eapply I2; eauto].
      + intros k. cbn [dget]. destruct (String.eqb a "name"); [|apply K2].
        intros Hk. injection Hk as ->. rewrite (K1 k eq_refl). reflexivity.
      + simpl. rewrite M2. reflexivity.
  Qed.

  Lemma dget_blank ob k :
    dget (attrs (blank ob)) "name" = Some (Scal k) -> exists k', dget (attrs ob) "name" = Some (Scal k').
  Proof.
    unfold blank; cbn [attrs]. induction (attrs ob) as [|[a v] t IH]; cbn [map fst snd dget]; [discriminate|].
    destruct (String.eqb a "name"); [|exact IH]. destruct v as [v|v]; [eauto|discriminate].
  Qed.

  Lemma copy_good fuel : copy_good_at (copy fuel).
  Proof.
    induction fuel as [|fuel IH]; intros h s o h' s' o' Hg Eo H; [discriminate|].
    cbn [copy create] in H. destruct (nth_error h o) as [ob|] eqn:Ho; [|discriminate].
    destruct (copy_attrs (copy fuel) (h ++ [blank ob]) (mkStore (elems s ++ [length h]) (names s)) (attrs ob))
      as [[[h1 s1] at1]|] eqn:E1; [|discriminate].
    injection H as <- <- <-.
    assert (Hg0 : good (h ++ [blank ob])).
    { destruct Hg as (Hl & Hc & Hn & Hq). split; [rewrite app_length; lia|]. split; [|split].
      - intros x obx a l e Dx Hx Hin He.
        destruct (lt_dec x (length h)) as [Hlt|Hge].
        + rewrite nth_error_app1 in Hx by exact Hlt. eapply Hc; eauto.
        + rewrite nth_error_app2 in Hx by lia. destruct (x - length h) as [|n]; simpl in Hx.
          * injection Hx as <-. unfold blank in Hin; cbn [attrs] in Hin. apply in_map_iff in Hin as ([b v] & Hb & _).
            cbn [fst snd] in Hb. destruct v; [discriminate|]. injection Hb as _ <-. destruct He.
          * destruct n; discriminate.
      - intros nm x k Ex Hnx. apply named_get in Hnx. unfold get_attr in Hnx.
        destruct (lt_dec x (length h)) as [Hlt|Hge].
        + rewrite nth_error_app1 in Hnx by exact Hlt. apply (Hn nm x k Ex). apply named_get. exact Hnx.
        + rewrite nth_error_app2 in Hnx by lia. destruct (x - length h) as [|n]; simpl in Hnx.
          * apply dget_blank in Hnx as (k' & Hk'). apply (Hn nm o k' Eo). exists ob. auto.
          * destruct n; discriminate.
      - intros x obx Hx. destruct (lt_dec x (length h)) as [Hlt|Hge].
        + rewrite nth_error_app1 in Hx by exact Hlt. exact (Hq _ _ Hx).
        + rewrite nth_error_app2 in Hx by lia. destruct (x - length h) as [|n]; simpl in Hx.
          * injection Hx as <-. unfold blank; cbn [attrs]. rewrite map_map. cbn [fst]. exact (Hq _ _ Ho).
          * destruct n; discriminate. }
    assert (Hel : forall a m, In (a, Lst (Some m)) (attrs ob) -> elts_in m).
    { intros a m Hin e He. destruct Hg as (_ & Hc & _). eapply Hc; eauto. }
    destruct (copy_attrs_good (copy fuel) IH (attrs ob) _ _ _ _ _ Hg0 Hel E1)
      as (G1 & X1 & R1 & I1 & K1 & M1).
    destruct X1 as (new & ->).
    assert (Hu : extends h (upd ((h ++ [blank ob]) ++ new) (length h) (mkObj (cls ob) at1)))
      by apply extends_upd, extends_refl.
    split; [|split; [exact Hu|split; [|reflexivity]]].
    - destruct G1 as (Hl1 & Hc1 & Hn1 & Hq1). split; [rewrite upd_length; exact Hl1|]. split; [|split].
      + intros x obx a l e Dx Hx Hin He. rewrite nth_upd in Hx.
        destruct (Nat.eqb_spec x (length h)) as [->|Hne]; [|eapply Hc1; eauto].
        destruct (nth_error ((h ++ [blank ob]) ++ new) (length h)); [|discriminate].
        injection Hx as <-. eapply I1; eauto.
      + intros nm x k Ex Hnx. destruct Hnx as (obx & Hx & Hk). rewrite nth_upd in Hx.
        destruct (Nat.eqb_spec x (length h)) as [->|Hne].
        * destruct (nth_error ((h ++ [blank ob]) ++ new) (length h)); [|discriminate].
          injection Hx as <-. apply K1 in Hk. destruct Hg as (_ & _ & Hn & _).
          apply (Hn nm o k Eo). exists ob. auto.
        * apply (Hn1 nm x k Ex). exists obx. auto.
      + intros x obx Hx. rewrite nth_upd in Hx.
        destruct (Nat.eqb_spec x (length h)) as [->|Hne]; [|exact (Hq1 _ _ Hx)].
        destruct (nth_error ((h ++ [blank ob]) ++ new) (length h)); [|discriminate].
        injection Hx as <-. cbn [attrs]. rewrite M1. destruct Hg as (_ & _ & _ & Hq). exact (Hq _ _ Ho).
    - destruct R1 as (N1 & L1 & El1). split; [exact N1|]. cbn [elems names] in *.
      rewrite upd_length. rewrite !app_length in *. simpl in *. split; [lia|].
      rewrite El1, <- app_assoc. f_equal. simpl.
      replace (length h + 1 + length new - length h) with (S (length new)) by lia.
      simpl. f_equal. replace (length h + 1 + length new - (length h + 1)) with (length new) by lia.
      f_equal. lia.
  Qed.

  (** [rec] is a well-behaved recursive call on two list elements. *)
  Definition rec_good (rec : pair_state -> elt -> elt -> res pair_state) : Prop :=
    forall h s x y h' s', good h -> elts_in [x] -> elts_in [y] -> rec (h, s) x y = Ok (h', s') ->
      good h' /\ reg h s h' s' /\ forall o, ~ E o -> nth_error h' o = nth_error h o.

  (** The effect on [o1]: the object changes only in its list attribute [a], which stays a list. *)
  Definition only_list (a : string) (h h' : heap) (o : oid) : Prop :=
    (forall b, b <> a -> get_attr h' o b = get_attr h o b) /\
    (forall l, get_attr h o a = Some (Lst l) -> exists l', get_attr h' o a = Some (Lst l')) /\
    (forall ob, nth_error h o = Some ob -> exists ob', nth_error h' o = Some ob' /\ cls ob' = cls ob).

  Lemma only_list_refl a h o : only_list a h h o.
  Proof. split; [auto|]. split; eauto. Qed.

  Lemma only_list_eq a h h' o : nth_error h' o = nth_error h o -> only_list a h h' o.
  Proof.
    intros Eq. split; [intros; apply nth_get, Eq|]. split.
    - intros l Hl. exists l. rewrite (nth_get _ _ _ Eq). exact Hl.
    - intros ob Hob. exists ob. rewrite Eq. auto.
  Qed.

  Lemma only_list_trans a h h1 h2 o : only_list a h h1 o -> only_list a h1 h2 o -> only_list a h h2 o.
  Proof.
    intros (A1 & B1 & C1) (A2 & B2 & C2). split; [intros b Hb; rewrite A2, A1; auto|]. split.
    - intros l Hl. destruct (B1 l Hl) as (l1 & Hl1). exact (B2 _ Hl1).
    - intros ob Hob. destruct (C1 _ Hob) as (ob1 & H1 & K1). destruct (C2 _ H1) as (ob2 & H2 & K2).
      exists ob2. split; [exact H2|congruence].
  Qed.

  Lemma only_list_set h o a l x : only_list a h (set_attr h o a (Lst l)) x.
  Proof.
    split; [|split].
    - intros b Hb. rewrite get_set_attr. destruct (Nat.eqb x o); simpl; [|reflexivity].
      destruct (String.eqb_spec a b); [congruence|reflexivity].
    - intros l0 H0. rewrite get_set_attr, String.eqb_refl, andb_true_r.
      destruct (Nat.eqb_spec x o) as [->|Hn]; [|eauto].
      unfold get_attr in H0. destruct (nth_error h o); [eauto|discriminate].
    - intros ob Hob. rewrite nth_set_attr. destruct (Nat.eqb_spec x o) as [->|Hn]; rewrite Hob; simpl; eauto.
  Qed.

  Lemma append_good h o a y :
    good h -> D o a -> elts_in [y] ->
    good (append_attr h o a y) /\ length (append_attr h o a y) = length h /\
    (forall x, x <> o -> nth_error (append_attr h o a y) x = nth_error h x) /\
    (forall x, only_list a h (append_attr h o a y) x).
  Proof.
    intros Hg Do Hy. unfold append_attr. destruct (get_attr h o a) as [[v|[l|]]|] eqn:Ea;
      try (split; [exact Hg|split; [reflexivity|split; [auto|intros; apply only_list_refl]]]).
    split; [|split; [|split]].
    - apply good_set_attr; [exact Hg| |discriminate].
      intros l0 H0. injection H0 as <-. intros e He. apply in_app_iff in He as [He|He]; [|auto].
      apply get_attr_In in Ea as (ob & Hob & Hin). destruct Hg as (_ & Hc & _). eapply Hc; eauto.
    - apply set_attr_length.
    - intros x Hx. rewrite nth_set_attr. apply Nat.eqb_neq in Hx. rewrite Hx. reflexivity.
    - intros x. apply only_list_set.
  Qed.

  Definition walk_post (o1 o2 : oid) (a : string) (h : heap) (s : store) (h' : heap) (s' : store) : Prop :=
    good h' /\ reg h s h' s' /\
    (forall o, ~ E o -> o <> o1 -> o <> o2 -> nth_error h' o = nth_error h o) /\
    (~ E o1 -> only_list a h h' o1) /\ (~ E o2 -> only_list a h h' o2).

  Lemma walk_post_refl o1 o2 a h s : good h -> walk_post o1 o2 a h s h s.
  Proof.
    intros Hg. split; [exact Hg|]. split; [apply reg_refl|]. split; [auto|].
    split; intros _; apply only_list_refl.
  Qed.

  Lemma walk_post_trans o1 o2 a h s h1 s1 h2 s2 :
    walk_post o1 o2 a h s h1 s1 -> walk_post o1 o2 a h1 s1 h2 s2 -> walk_post o1 o2 a h s h2 s2.
  Proof.
    intros (G1 & R1 & F1 & A1 & B1) (G2 & R2 & F2 & A2 & B2).
    split; [exact G2|]. split; [eapply reg_trans; eauto|].
    split; [intros o He Hn1 Hn2; rewrite F2, F1; auto|].
    split; intros He; eapply only_list_trans; eauto.
  Qed.

  Lemma rec_walk rec o1 o2 a h s x y h' s' :
    rec_good rec -> good h -> elts_in [x] -> elts_in [y] -> rec (h, s) x y = Ok (h', s') ->
    walk_post o1 o2 a h s h' s'.
  Proof.
    intros Hr Hg Hx Hy H. destruct (Hr _ _ _ _ _ _ Hg Hx Hy H) as (G & R & F).
    split; [exact G|]. split; [exact R|]. split; [auto|].
    split; intros He; apply only_list_eq, F, He.
  Qed.

  Lemma append_walk o1 o2 a h s y :
    good h -> D o1 a -> elts_in [y] -> walk_post o1 o2 a h s (append_attr h o1 a y) s.
  Proof.
    intros Hg Do Hy. destruct (append_good h o1 a y Hg Do Hy) as (G & Ln & F & O).
    split; [exact G|]. split; [apply reg_same; auto|]. split; [auto|]. split; auto.
  Qed.

  Lemma elts_in_cons x l : elts_in (x :: l) <-> elts_in [x] /\ elts_in l.
  Proof.
    unfold elts_in. simpl. split.
    - intros H. split; intros e He; apply H; tauto.
    - intros [H1 H2] e [He|He]; auto.
  Qed.

  Lemma phase_walk_good rec o1 o2 a : rec_good rec -> D o1 a ->
    forall rest2 rest1 h s h' s', good h -> elts_in rest1 -> elts_in rest2 ->
      phase_walk rec o1 a rest2 rest1 (h, s) = Ok (h', s') -> walk_post o1 o2 a h s h' s'.
  Proof.
    intros Hr D1. induction rest2 as [|y r2 IH2].
    - intros [|x r1] h s h' s' Hg _ _ H; simpl in H; injection H as <- <-; apply walk_post_refl, Hg.
    - induction rest1 as [|x r1 IH1]; intros h s h' s' Hg H1 H2 H; simpl in H.
      + injection H as <- <-. apply walk_post_refl, Hg.
      + destruct (elt_phase h x) as [px|]; [|discriminate].
        destruct (elt_phase h y) as [py|]; [|discriminate].
        assert (H1' := proj1 (elts_in_cons _ _) H1). assert (H2' := proj1 (elts_in_cons _ _) H2).
        destruct (px =? py).
        * destruct (rec (h, s) x y) as [[h1 s1]|] eqn:Er; [|discriminate].
          assert (W := rec_walk rec o1 o2 a h s x y h1 s1 Hr Hg (proj1 H1') (proj1 H2') Er).
          eapply walk_post_trans; [exact W|]. apply (IH2 r1 h1 s1 h' s'); [apply W|tauto|tauto|exact H].
        * destruct (px <? py).
          -- apply (IH1 h s h' s'); [exact Hg|tauto|exact H2|exact H].
          -- assert (W := append_walk o1 o2 a h s y Hg D1 (proj1 H2')).
             eapply walk_post_trans; [exact W|].
             apply (IH2 ((x :: r1) ++ [y]) _ _ h' s'); [apply W| |tauto|exact H].
             intros e He. apply in_app_iff in He as [He|He]; [apply H1, He|apply (proj1 H2'); exact He].
  Qed.

  Lemma zip_walk_good rec o1 o2 a : rec_good rec -> D o1 a ->
    forall l2 l1 h s h' s', good h -> elts_in l1 -> elts_in l2 ->
      zip_walk rec o1 a l1 l2 (h, s) = Ok (h', s') -> walk_post o1 o2 a h s h' s'.
  Proof.
    intros Hr D1. induction l2 as [|y r2 IH]; intros [|x r1] h s h' s' Hg H1 H2 H; simpl in H.
    - injection H as <- <-. apply walk_post_refl, Hg.
    - injection H as <- <-. apply walk_post_refl, Hg.
    - assert (H2' := proj1 (elts_in_cons _ _) H2).
      assert (W := append_walk o1 o2 a h s y Hg D1 (proj1 H2')).
      eapply walk_post_trans; [exact W|]. apply (IH [] _ _ h' s'); [apply W|exact H1|tauto|exact H].
    - destruct (rec (h, s) x y) as [[h1 s1]|] eqn:Er; [|discriminate].
      assert (H1' := proj1 (elts_in_cons _ _) H1). assert (H2' := proj1 (elts_in_cons _ _) H2).
      assert (W := rec_walk rec o1 o2 a h s x y h1 s1 Hr Hg (proj1 H1') (proj1 H2') Er).
      eapply walk_post_trans; [exact W|]. apply (IH r1 h1 s1 h' s'); [apply W|tauto|tauto|exact H].
  Qed.

  (** Sorting permutes. *)
  Lemma insert_by_In p e l x : In x (map snd (insert_by p e l)) <-> x = e \/ In x (map snd l).
  Proof.
    induction l as [|[q y] t IH]; simpl; [intuition|].
    destruct (p <=? q); simpl; [intuition|]. rewrite IH. intuition.
  Qed.

  Lemma sort_keyed_In l x : In x (map snd (sort_keyed l)) <-> In x (map snd l).
  Proof.
    induction l as [|[p e] t IH]; simpl; [tauto|]. rewrite insert_by_In, IH. simpl. intuition.
  Qed.

  Lemma combine_snd {A B} (l : list A) (m : list B) x : In x (map snd (combine l m)) -> In x m.
  Proof.
    intros H. apply in_map_iff in H as ([a b] & <- & Hin). exact (in_combine_r _ _ _ _ Hin).
  Qed.

  Lemma sort_phases_In h l l' : sort_phases h l = Ok l' -> forall x, In x l' -> In x l.
  Proof.
    unfold sort_phases. destruct (mapM (elt_phase h) l) as [ks|]; [|discriminate]. cbn [bind].
    intros H x Hx. injection H as <-. apply (proj1 (sort_keyed_In _ _)) in Hx. exact (combine_snd _ _ _ Hx).
  Qed.

  (** The outcome of processing one scalar attribute. *)
  Definition scalar_post (ow : bool) (o1 o2 : oid) (a : string) (h h' : heap) : Prop :=
    (forall b, b <> a -> get_attr h' o1 b = get_attr h o1 b) /\
    (forall c1 c2, get_attr h o1 a = Some (Scal c1) -> get_attr h o2 a = Some (Scal c2) ->
       get_attr h' o1 a = Some (Scal (merged_value ow c1 c2))) /\
    (forall ob, nth_error h o1 = Some ob -> exists ob', nth_error h' o1 = Some ob' /\ cls ob' = cls ob) /\
    (o2 <> o1 -> nth_error h' o2 = nth_error h o2).

  Lemma merge_attr_good fuel rec ow o1 o2 a (la : bool) h s h' s' :
    rec_good rec -> good h -> D o1 a -> D o2 a -> (NM -> E o1 -> E o2) ->
    merge_attr fuel rec ow o1 o2 a la (h, s) = Ok (h', s') ->
    good h' /\ reg h s h' s' /\
    (forall o, ~ E o -> o <> o1 -> o <> o2 -> nth_error h' o = nth_error h o) /\
    (la = true -> (~ E o1 -> only_list a h h' o1) /\ (~ E o2 -> only_list a h h' o2) /\
                  exists l1 l2, get_attr h o1 a = Some (Lst l1) /\ get_attr h o2 a = Some (Lst l2)) /\
    (la = false -> scalar_post ow o1 o2 a h h').
  Proof.
    intros Hr Hg D1 D2 Hnm H. unfold merge_attr in H. destruct la.
    - destruct (get_attr h o1 a) as [[|v1]|] eqn:E1; [discriminate| |discriminate].
      destruct (get_attr h o2 a) as [[|v2]|] eqn:E2; [discriminate| |discriminate].
      assert (W : walk_post o1 o2 a h s h' s').
      { assert (I1 : forall l, v1 = Some l -> elts_in l).
        { intros l -> e He. apply get_attr_In in E1 as (ob & Hob & Hin). destruct Hg as (_ & Hc & _). exact (Hc o1 ob a l e D1 Hob Hin He). }
        assert (I2 : forall l, v2 = Some l -> elts_in l).
        { intros l -> e He. apply get_attr_In in E2 as (ob & Hob & Hin). destruct Hg as (_ & Hc & _). exact (Hc o2 ob a l e D2 Hob Hin He). }
        assert (Copy : match v2 with
                  | None => Err EType
                  | Some l2 =>
                    match copy_elts (copy fuel) h s l2 with
                    | Ok (h1, s1, l') => Ok (set_attr h1 o1 a (Lst (Some l')), s1)
                    | Err e => Err e
                    end
                  end = Ok (h', s') -> walk_post o1 o2 a h s h' s').
        { destruct v2 as [l2|]; [|discriminate].
          destruct (copy_elts (copy fuel) h s l2) as [[[h1 s1] l']|] eqn:Ec; [|discriminate].
          intros H'. injection H' as <- <-.
          destruct (copy_elts_good _ (copy_good fuel) _ _ _ _ _ _ Hg (I2 _ eq_refl) Ec) as (G & X & R & I).
          assert (Same : forall o, ~ E o -> nth_error h1 o = nth_error h o).
          { intros o He. apply extends_nth; [exact X|].
            destruct (lt_dec o (length h)); [assumption|]. exfalso. apply He, Hfresh.
            destruct Hg as (Hl & _). lia. }
          split; [|split; [|split; [|split]]].
          - apply good_set_attr; [exact G| |discriminate]. intros l Hl. injection Hl as <-. exact I.
          - eapply reg_trans; [exact R|]. apply reg_same; [apply set_attr_length|reflexivity|reflexivity].
          - intros o He Hn1 Hn2. rewrite nth_set_attr. apply Nat.eqb_neq in Hn1. rewrite Hn1. apply Same, He.
          - intros He. eapply only_list_trans; [apply only_list_eq, Same, He|apply only_list_set].
          - intros He. eapply only_list_trans; [apply only_list_eq, Same, He|apply only_list_set]. }
        destruct v1 as [[|x1 l1]|]; [exact (Copy H)| |exact (Copy H)].
        destruct v2 as [[|x2 l2]|]; try (injection H as <- <-; apply walk_post_refl, Hg).
        destruct (elt_has_phase h x1 && elt_has_phase h x2).
        - destruct (sort_phases h (x1 :: l1)) as [l1'|] eqn:S1; [|discriminate]. cbn [bind] in H.
          destruct (sort_phases h (x2 :: l2)) as [l2'|] eqn:S2; [|discriminate]. cbn [bind] in H.
          assert (J1 : elts_in l1').
          { intros e He. apply (I1 _ eq_refl). exact (sort_phases_In _ _ _ S1 _ He). }
          assert (J2 : elts_in l2').
          { intros e He. apply (I2 _ eq_refl). exact (sort_phases_In _ _ _ S2 _ He). }
          set (h1 := set_attr h o1 a (Lst (Some l1'))) in *.
          set (h2 := set_attr h1 o2 a (Lst (Some l2'))) in *.
          assert (G2 : good h2).
          { apply good_set_attr; [apply good_set_attr; [exact Hg| |discriminate]| |discriminate];
            intros l Hl; injection Hl as <-; assumption. }
          assert (W0 : walk_post o1 o2 a h s h2 s).
          { split; [exact G2|]. split; [|split; [|split]].
            - apply reg_same; [unfold h2, h1; rewrite !set_attr_length|..]; reflexivity.
            - intros o He Hn1 Hn2. unfold h2, h1. rewrite !nth_set_attr.
              apply Nat.eqb_neq in Hn1. apply Nat.eqb_neq in Hn2. rewrite Hn1, Hn2. reflexivity.
            - intros _. eapply only_list_trans; apply only_list_set.
            - intros _. eapply only_list_trans; apply only_list_set. }
          eapply walk_post_trans; [exact W0|].
          exact (phase_walk_good rec o1 o2 a Hr D1 l2' l1' h2 s h' s' G2 J1 J2 H).
        - exact (zip_walk_good rec o1 o2 a Hr D1 _ _ h s h' s' Hg (I1 _ eq_refl) (I2 _ eq_refl) H). }
      destruct W as (G & R & F & A & B).
      split; [exact G|]. split; [exact R|]. split; [exact F|]. split; [|discriminate].
      intros _. split; [exact A|]. split; [exact B|]. eauto.
    - assert (Same : h' = h -> s' = s ->
                (forall c1 c2, get_attr h o1 a = Some (Scal c1) -> get_attr h o2 a = Some (Scal c2) ->
                   merged_value ow c1 c2 = c1) ->
                good h' /\ reg h s h' s' /\
                (forall o, ~ E o -> o <> o1 -> o <> o2 -> nth_error h' o = nth_error h o) /\
                (false = true -> (~ E o1 -> only_list a h h' o1) /\ (~ E o2 -> only_list a h h' o2) /\
                   exists l1 l2, get_attr h o1 a = Some (Lst l1) /\ get_attr h o2 a = Some (Lst l2)) /\
                (false = false -> scalar_post ow o1 o2 a h h')).
      { intros -> -> Hm. split; [exact Hg|]. split; [apply reg_refl|]. split; [auto|].
        split; [discriminate|]. intros _. split; [auto|]. split.
        - intros c1 c2 H1 H2. rewrite (Hm _ _ H1 H2). exact H1.
        - split; [eauto|auto]. }
      destruct (get_attr h o2 a) as [[[v|]|l2]|] eqn:E2; [| | |discriminate].
      + destruct (get_attr h o1 a) as [cur|] eqn:E1; [|discriminate].
        destruct ((match cur with Scal None | Lst None => false | _ => true end) && negb ow) eqn:Eb.
        * injection H as <- <-. apply Same; auto.
          intros c1 c2 Hc1 Hc2. injection Hc1 as ->. injection Hc2 as <-.
          apply andb_true_iff in Eb as [Eb1 Eb2]. apply negb_true_iff in Eb2. subst ow.
          destruct c1; [reflexivity|discriminate].
        * injection H as <- <-. split; [|split; [|split; [|split]]].
          -- apply good_set_attr; [exact Hg|discriminate|].
             intros k -> Hk nm Ee1. injection Hk as <-.
             destruct Hg as (_ & _ & Hn & _). apply (Hn nm o2 (Some v) (Hnm nm Ee1)). apply named_get, E2.
          -- apply reg_same; [apply set_attr_length|reflexivity|reflexivity].
          -- intros o He Hn1 Hn2. rewrite nth_set_attr. apply Nat.eqb_neq in Hn1. rewrite Hn1. reflexivity.
          -- discriminate.
          -- intros _. split; [|split; [|split]].
             ++ intros b Hb. rewrite get_set_attr. rewrite Nat.eqb_refl. simpl.
                destruct (String.eqb_spec a b); [congruence|reflexivity].
             ++ intros c1 c2 Hc1 Hc2. rewrite get_set_attr, Nat.eqb_refl, String.eqb_refl. simpl.
                assert (cur = Scal c1) as -> by congruence. assert (c2 = Some v) as -> by congruence.
                unfold get_attr in E1. destruct (nth_error h o1); [|discriminate].
                unfold merged_value. destruct c1 as [x|]; [|reflexivity].
                simpl in Eb. apply negb_false_iff in Eb. rewrite Eb. reflexivity.
             ++ intros ob Hob. rewrite nth_set_attr, Nat.eqb_refl, Hob. simpl. eauto.
             ++ intros Hne. rewrite nth_set_attr. apply Nat.eqb_neq in Hne. rewrite Hne. reflexivity.
      + injection H as <- <-. apply Same; auto.
        intros c1 c2 Hc1 Hc2. assert (c2 = None) as -> by congruence. reflexivity.
      + injection H as <- <-. apply Same; auto. intros c1 c2 Hc1 Hc2. congruence.
  Qed.

  Definition sa_rec (fuel : nat) (ow : bool) (st : pair_state) (x y : elt) : res pair_state :=
    match x, y with
    | EObj x', EObj y' => set_attributes fuel ow st x' y'
    | _, _ => Err EAttr
    end.

  Definition sa_step (fuel : nat) (ow : bool) (o1 o2 : oid) (st : pair_state) (p : string * attr) :=
    merge_attr fuel (sa_rec fuel ow) ow o1 o2 (fst p) (is_list_attr (snd p)) st.

  Lemma set_attributes_S fuel ow st o1 o2 :
    set_attributes (S fuel) ow st o1 o2 =
    match nth_error (fst st) o2 with
    | None => Err EAttr
    | Some ob2 => foldM (sa_step fuel ow o1 o2) (attrs ob2) st
    end.
  Proof. reflexivity. Qed.

  Lemma set_attributes_good fuel ow : forall h s o1 o2 h' s',
    good h -> (forall b, D o1 b) -> (forall b, D o2 b) -> (NM -> E o1 -> E o2) ->
    set_attributes fuel ow (h, s) o1 o2 = Ok (h', s') ->
    good h' /\ reg h s h' s' /\
    (forall o, ~ E o -> o <> o1 -> o <> o2 -> nth_error h' o = nth_error h o).
  Proof.
    induction fuel as [|fuel IH]; intros h s o1 o2 h' s' Hg D1 D2 Hnm H; [discriminate|].
    rewrite set_attributes_S in H. cbn [fst] in H.
    destruct (nth_error h o2) as [ob2|] eqn:Ho2; [|discriminate]. clear Ho2.
    assert (Hr : rec_good (sa_rec fuel ow)).
    { intros h1 s1 x y h2 s2 G1 Hx Hy Hrec. destruct x as [x|]; [|discriminate].
      destruct y as [y|]; [|discriminate]. cbn [sa_rec] in Hrec.
      assert (Ex : E x) by (apply Hx; left; reflexivity).
      assert (Ey : E y) by (apply Hy; left; reflexivity).
      destruct (IH h1 s1 x y h2 s2 G1 (fun b => HED _ b Ex) (fun b => HED _ b Ey) (fun _ _ => Ey) Hrec) as (G & R & F).
      split; [exact G|]. split; [exact R|]. intros o Ho. apply F; [exact Ho|congruence|congruence]. }
    revert h s Hg H. induction (attrs ob2) as [|p t IHt]; intros h s Hg H; cbn [foldM] in H.
    - injection H as <- <-. split; [exact Hg|]. split; [apply reg_refl|auto].
    - destruct (sa_step fuel ow o1 o2 (h, s) p) as [[h1 s1]|] eqn:Es; [|discriminate].
      cbn [bind] in H.
      destruct (merge_attr_good _ _ _ _ _ _ _ _ _ _ _ Hr Hg (D1 _) (D2 _) Hnm Es) as (G1 & R1 & F1 & _).
      destruct (IHt h1 s1 G1 H) as (G2 & R2 & F2).
      split; [exact G2|]. split; [eapply reg_trans; eauto|].
      intros o Ho H1 H2. rewrite F2, F1; auto.
  Qed.

  Lemma sa_rec_good fuel ow : rec_good (sa_rec fuel ow).
  Proof.
    intros h1 s1 x y h2 s2 G1 Hx Hy Hrec. destruct x as [x|]; [|discriminate].
    destruct y as [y|]; [|discriminate]. cbn [sa_rec] in Hrec.
    assert (Ex : E x) by (apply Hx; left; reflexivity).
    assert (Ey : E y) by (apply Hy; left; reflexivity).
    destruct (set_attributes_good fuel ow h1 s1 x y h2 s2 G1 (fun b => HED _ b Ex) (fun b => HED _ b Ey) (fun _ _ => Ey) Hrec)
      as (G & R & F).
    split; [exact G|]. split; [exact R|]. intros o Ho. apply F; [exact Ho|congruence|congruence].
  Qed.

  (** Scalars of a top-level pair. *)
  Lemma set_attributes_scalars fuel ow h s o1 o2 h' s' ob2 :
    good h -> (forall b, D o1 b) -> (forall b, D o2 b) -> ~ E o1 -> ~ E o2 -> o1 <> o2 ->
    nth_error h o2 = Some ob2 ->
    set_attributes fuel ow (h, s) o1 o2 = Ok (h', s') ->
    (forall a c1 c2, get_attr h o1 a = Some (Scal c1) -> get_attr h o2 a = Some (Scal c2) ->
       get_attr h' o1 a = Some (Scal (merged_value ow c1 c2))) /\
    (forall a, get_attr h o2 a = None -> get_attr h' o1 a = get_attr h o1 a /\ get_attr h' o2 a = None) /\
    (forall a c, get_attr h o2 a = Some (Scal c) -> get_attr h' o2 a = Some (Scal c)) /\
    (forall a l, get_attr h o2 a = Some (Lst l) ->
       exists l1 l1' l2', get_attr h o1 a = Some (Lst l1) /\ get_attr h' o1 a = Some (Lst l1') /\
                          get_attr h' o2 a = Some (Lst l2')).
  Proof.
    intros Hg D1 D2 N1 N2 Hne Ho2 H. assert (Hnd := proj2 (proj2 (proj2 Hg)) _ _ Ho2). destruct fuel as [|fuel]; [discriminate|].
    rewrite set_attributes_S in H. cbn [fst] in H. rewrite Ho2 in H.
    assert (Hr := sa_rec_good fuel ow).
    assert (Hnm : NM -> E o1 -> E o2) by tauto.
    assert (G : forall l h s h' s', NoDup (map fst l) -> good h ->
      foldM (sa_step fuel ow o1 o2) l (h, s) = Ok (h', s') ->
      (forall a, ~ In a (map fst l) -> get_attr h' o1 a = get_attr h o1 a /\ get_attr h' o2 a = get_attr h o2 a) /\
      (forall a c, In (a, Scal c) l ->
         get_attr h' o2 a = get_attr h o2 a /\
         forall c1 c2, get_attr h o1 a = Some (Scal c1) -> get_attr h o2 a = Some (Scal c2) ->
           get_attr h' o1 a = Some (Scal (merged_value ow c1 c2))) /\
      (forall a v, In (a, Lst v) l -> exists l1 l1' l2', get_attr h o1 a = Some (Lst l1) /\
           get_attr h' o1 a = Some (Lst l1') /\ get_attr h' o2 a = Some (Lst l2'))).
    { clear - Hr Hnm D1 D2 N1 N2 Hne HED Hfresh. induction l as [|[b v] t IH]; intros h s h' s' Hnd Hg H; cbn [foldM] in H.
      - injection H as <- <-. split; [auto|]. split; intros ? ? [].
      - destruct (sa_step fuel ow o1 o2 (h, s) (b, v)) as [[h1 s1]|] eqn:Es; [|discriminate].
        cbn [bind] in H. inversion Hnd as [|? ? Hni Hnd']; subst.
        destruct (merge_attr_good _ _ _ _ _ _ _ _ _ _ _ Hr Hg (D1 _) (D2 _) Hnm Es) as (G1 & R1 & F1 & LA & SA).
        cbn [fst snd] in *.
        destruct (IH h1 s1 h' s' Hnd' G1 H) as (K1 & K2 & K3).
        assert (Oth : forall a, a <> b -> get_attr h1 o1 a = get_attr h o1 a /\ get_attr h1 o2 a = get_attr h o2 a).
        { intros a Ha. destruct v as [c|l]; cbn [is_list_attr] in *.
          - destruct (SA eq_refl) as (S1 & _ & _ & S2). split; [apply S1, Ha|]. apply nth_get, S2. auto.
          - destruct (LA eq_refl) as (A1 & A2 & _). split; [apply A1|apply A2]; auto. }
        assert (Hb : ~ In b (map fst t)) by exact Hni.
        split; [|split].
        + intros a Ha. simpl in Ha. destruct (K1 a) as [Q1 Q2]; [tauto|]. destruct (Oth a) as [P1 P2]; [intros ->; tauto|].
          rewrite Q1, Q2. auto.
        + intros a c [Heq|Hin].
          * injection Heq as -> ->. destruct (K1 a Hb) as [Q1 Q2]. rewrite Q1, Q2.
            cbn [is_list_attr] in SA. destruct (SA eq_refl) as (_ & S2 & _ & S3).
            split; [apply nth_get, S3; auto|exact S2].
          * assert (Hab : a <> b) by (intros ->; apply Hb; apply (in_map fst) in Hin; exact Hin).
            destruct (Oth a Hab) as [P1 P2]. destruct (K2 a c Hin) as [Q1 Q2]. rewrite Q1, P2. split; [reflexivity|].
            intros c1 c2 Hc1 Hc2. apply Q2; congruence.
        + intros a w [Heq|Hin].
          * injection Heq as -> ->. destruct (K1 a Hb) as [Q1 Q2]. rewrite Q1, Q2.
            cbn [is_list_attr] in LA. destruct (LA eq_refl) as (A1 & A2 & l1 & l2 & L1 & L2).
            destruct (proj1 (proj2 (A1 N1)) _ L1) as (l1' & L1').
            destruct (proj1 (proj2 (A2 N2)) _ L2) as (l2' & L2'). eauto 8.
          * assert (Hab : a <> b) by (intros ->; apply Hb; apply (in_map fst) in Hin; exact Hin).
            destruct (Oth a Hab) as [P1 P2]. destruct (K3 a w Hin) as (l1 & l1' & l2' & Q1 & Q2 & Q3).
            rewrite P1 in Q1. eauto 8. }
    destruct (G _ _ _ _ _ Hnd Hg H) as (K1 & K2 & K3).
    assert (Hget : forall a, get_attr h o2 a = dget (attrs ob2) a) by (intros; unfold get_attr; rewrite Ho2; reflexivity).
    split; [|split; [|split]].
    - intros a c1 c2 H1 H2. assert (H2' := H2). rewrite Hget in H2'. apply dget_In in H2'.
      exact (proj2 (K2 _ _ H2') _ _ H1 H2).
    - intros a Ha. assert (Ha' := Ha). rewrite Hget in Ha'. apply dget_None in Ha'.
      destruct (K1 a Ha') as [-> ->]. auto.
    - intros a c Hc. assert (Hc' := Hc). rewrite Hget in Hc'. apply dget_In in Hc'.
      rewrite (proj1 (K2 _ _ Hc')). exact Hc.
    - intros a l Hl. rewrite Hget in Hl. apply dget_In in Hl. exact (K3 _ _ Hl).
  Qed.
End Frame.
