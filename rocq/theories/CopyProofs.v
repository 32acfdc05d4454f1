(** Lemmas on Modifier.copy. *)
From Verif Require Import Base BaseFacts StoreModel StoreSpec StoreProofs ModifyProofs.
Local Open Scope string_scope.
Local Open Scope nat_scope.
Local Open Scope list_scope.

(** [copy_of] restricted to copies whose objects all have identities at least [n]. *)
Inductive cfrom (n : nat) (h h' : heap) : oid -> oid -> Prop :=
| cf_obj o ob o' ob' :
    n <= o' -> nth_error h o = Some ob -> nth_error h' o' = Some ob' -> cls ob' = cls ob ->
    acfrom n h h' (attrs ob) (attrs ob') -> cfrom n h h' o o'
with acfrom (n : nat) (h h' : heap) : list (string * attr) -> list (string * attr) -> Prop :=
| acf_nil : acfrom n h h' [] []
| acf_scal a v t t' : acfrom n h h' t t' -> acfrom n h h' ((a, Scal v) :: t) ((a, Scal v) :: t')
| acf_none a t t' : acfrom n h h' t t' -> acfrom n h h' ((a, Lst None) :: t) ((a, Lst None) :: t')
| acf_plain a l t t' : plain_list a -> acfrom n h h' t t' ->
    acfrom n h h' ((a, Lst (Some l)) :: t) ((a, Lst (Some l)) :: t')
| acf_list a l l' t t' : ~ plain_list a -> ecfrom n h h' l l' -> acfrom n h h' t t' ->
    acfrom n h h' ((a, Lst (Some l)) :: t) ((a, Lst (Some l')) :: t')
with ecfrom (n : nat) (h h' : heap) : list elt -> list elt -> Prop :=
| ecf_nil : ecfrom n h h' [] []
| ecf_cons o o' t t' : cfrom n h h' o o' -> ecfrom n h h' t t' ->
    ecfrom n h h' (EObj o :: t) (EObj o' :: t').

Scheme cf_ind2 := Induction for cfrom Sort Prop
  with acf_ind2 := Induction for acfrom Sort Prop
  with ecf_ind2 := Induction for ecfrom Sort Prop.
Combined Scheme cf_mut from cf_ind2, acf_ind2, ecf_ind2.

Lemma cfrom_copy_of n h h' :
  (forall o o', cfrom n h h' o o' -> copy_of h h' o o') /\
  (forall l l', acfrom n h h' l l' -> attrs_copy h h' l l') /\
  (forall l l', ecfrom n h h' l l' -> elts_copy h h' l l').
Proof.
  apply (cf_mut n h h'
    (fun o o' _ => copy_of h h' o o')
    (fun l l' _ => attrs_copy h h' l l')
    (fun l l' _ => elts_copy h h' l l')); intros; try (econstructor; eauto; fail).
Qed.

Lemma cfrom_agree n n' h h1 h2 :
  (forall x, n <= x -> nth_error h2 x = nth_error h1 x \/ nth_error h1 x = None) -> n' <= n ->
  (forall o o', cfrom n h h1 o o' -> cfrom n' h h2 o o') /\
  (forall l l', acfrom n h h1 l l' -> acfrom n' h h2 l l') /\
  (forall l l', ecfrom n h h1 l l' -> ecfrom n' h h2 l l').
Proof.
  intros Ha Hn. apply (cf_mut n h h1
    (fun o o' _ => cfrom n' h h2 o o')
    (fun l l' _ => acfrom n' h h2 l l')
    (fun l l' _ => ecfrom n' h h2 l l')); intros; try (econstructor; eauto; fail).
  econstructor; eauto; [lia|].
  match goal with H : n <= ?x, E : nth_error h1 ?x = Some _ |- _ =>
    destruct (Ha x H) as [->|Hno]; [exact E|congruence] end.
Qed.

(** Parts of a copy are copies, hence fresh. *)
Lemma acfrom_In n h h' l l' a m :
  acfrom n h h' l l' -> In (a, Lst (Some m)) l' -> ~ plain_list a ->
  exists m0, ecfrom n h h' m0 m.
Proof.
  induction 1 as [|? ? ? ? _ IH|? ? ? _ IH|? ? ? ? Hp _ IH|? ? ? ? ? Hp He _ IH];
  simpl; intros Hin Hnp.
  - destruct Hin.
  - destruct Hin as [E|Hin]; [discriminate|auto].
  - destruct Hin as [E|Hin]; [discriminate|auto].
  - destruct Hin as [E|Hin]; [injection E as -> ->; contradiction|auto].
  - destruct Hin as [E|Hin]; [injection E as -> ->; eauto|auto].
Qed.

Lemma ecfrom_In n h h' l l' o' : ecfrom n h h' l l' -> In (EObj o') l' -> exists o, cfrom n h h' o o'.
Proof.
  induction 1 as [|? ? ? ? Hc He IH]; simpl; intros Hin; [destruct Hin|].
  destruct Hin as [E|Hin]; [injection E as <-; eauto|auto].
Qed.

Lemma cfrom_part n h h' c x : part_of h' c x -> forall o, cfrom n h h' o c -> exists o2, cfrom n h h' o2 x.
Proof.
  induction 1 as [c|c ob c' x Hc (a & l & Hin & Hnp & Hel) Hp IH]; intros o Ho; [eauto|].
  inversion Ho as [? ob0 ? ob1 Hle E0 E1 Hcl Hat]; subst.
  assert (ob1 = ob) by congruence. subst ob1.
  destruct (acfrom_In _ _ _ _ _ _ _ Hat Hin Hnp) as (m0 & Hm).
  destruct (ecfrom_In _ _ _ _ _ _ Hm Hel) as (o2 & Ho2). eapply IH; eauto.
Qed.

Lemma cfrom_bound n h h' o c : cfrom n h h' o c -> n <= c < length h'.
Proof.
  intros H. inversion H; subst. split; [assumption|].
  apply nth_error_Some. congruence.
Qed.

Lemma part_agree n h h1 h2 c x :
  (forall y, n <= y -> nth_error h2 y = nth_error h1 y \/ nth_error h1 y = None) ->
  part_of h1 c x -> forall o, cfrom n h h1 o c -> part_of h2 c x.
Proof.
  intros Ha. induction 1 as [c|c ob c' x Hc He Hp IH]; intros o Ho; [constructor|].
  assert (Hcf : exists o2, cfrom n h h1 o2 c').
  { eapply cfrom_part; [|exact Ho]. econstructor; eauto. constructor. }
  destruct Hcf as (o2 & Ho2).
  econstructor; [|exact He|eapply IH; eauto].
  destruct (cfrom_bound _ _ _ _ _ Ho) as [Hle _].
  destruct (Ha c Hle) as [->|Hno]; [exact Hc|congruence].
Qed.

Lemma upd_app_mid h x t ob : upd (h ++ x :: t) (length h) ob = h ++ ob :: t.
Proof. induction h as [|y h IH]; simpl; [reflexivity|]. f_equal. exact IH. Qed.

Lemma nth_error_app_ext {A} (l e : list A) n : n < length l -> nth_error (l ++ e) n = nth_error l n.
Proof. intros H. apply nth_error_app1. exact H. Qed.

Definition extends (h h' : heap) : Prop := exists e, h' = h ++ e.

Lemma extends_refl h : extends h h.
Proof. exists []. rewrite app_nil_r. reflexivity. Qed.

Lemma extends_trans a b c : extends a b -> extends b c -> extends a c.
Proof. intros (x & ->) (y & ->). exists (x ++ y). rewrite app_assoc. reflexivity. Qed.

Lemma extends_nth h h' o : extends h h' -> o < length h -> nth_error h' o = nth_error h o.
Proof. intros (e & ->) H. apply nth_error_app1, H. Qed.

Lemma extends_length h h' : extends h h' -> length h <= length h'.
Proof. intros (e & ->). rewrite app_length. lia. Qed.

(** [grown h s h' s']: the heap is extended and exactly the new objects are registered, in
    order of creation. *)
Definition grown (h : heap) (s : store) (h' : heap) (s' : store) : Prop :=
  exists new, h' = h ++ new /\ names s' = names s /\
              elems s' = elems s ++ seq (length h) (length new).

Lemma grown_refl h s : grown h s h s.
Proof. exists []. simpl. rewrite !app_nil_r. auto. Qed.

Lemma grown_trans h s h1 s1 h2 s2 : grown h s h1 s1 -> grown h1 s1 h2 s2 -> grown h s h2 s2.
Proof.
  intros (n1 & -> & N1 & E1) (n2 & -> & N2 & E2). exists (n1 ++ n2).
  split; [rewrite app_assoc; reflexivity|]. split; [congruence|].
  rewrite E2, E1, !app_length, seq_app, app_assoc. reflexivity.
Qed.

Lemma grown_extends h s h' s' : grown h s h' s' -> extends h h'.
Proof. intros (n & -> & _). exists n. reflexivity. Qed.

Section Sound.
  Variable h0 : heap.
  Hypothesis Hclosed : closed_heap h0.

  Definition CP (cp : heap -> store -> oid -> res (heap * store * oid)) : Prop :=
    forall hc s o h' s' o', extends h0 hc -> o < length h0 -> cp hc s o = Ok (h', s', o') ->
      grown hc s h' s' /\ o' = length hc /\ cfrom (length hc) h0 h' o o' /\
      (forall x, length hc <= x < length h' -> part_of h' o' x).

  Lemma copy_elts_sound cp : CP cp ->
    forall l hc s h' s' l', extends h0 hc -> (forall o, In (EObj o) l -> o < length h0) ->
      copy_elts cp hc s l = Ok (h', s', l') ->
      grown hc s h' s' /\ ecfrom (length hc) h0 h' l l' /\
      (forall x, length hc <= x < length h' -> exists e, In (EObj e) l' /\ part_of h' e x).
  Proof.
    intros Hcp. induction l as [|e t IH]; intros hc s h' s' l' Hx Hb H; simpl in H.
    - injection H as <- <- <-. split; [apply grown_refl|]. split; [constructor|].
      intros x Hx'. lia.
    - destruct e as [o|]; [|discriminate].
      destruct (cp hc s o) as [[[h1 s1] o1]|] eqn:E1; [|discriminate].
      destruct (copy_elts cp h1 s1 t) as [[[h2 s2] t2]|] eqn:E2; [|discriminate].
      injection H as <- <- <-.
      destruct (Hcp _ _ _ _ _ _ Hx (Hb o (or_introl eq_refl)) E1) as (G1 & -> & C1 & P1).
      assert (Hx1 : extends h0 h1) by (eapply extends_trans; [exact Hx|eapply grown_extends; eauto]).
      destruct (IH h1 s1 h2 s2 t2 Hx1) as (G2 & C2 & P2); [intros o' Ho'; apply Hb; simpl; auto|exact E2|].
      assert (X12 := grown_extends _ _ _ _ G2). assert (Xc1 := grown_extends _ _ _ _ G1).
      assert (L12 := extends_length _ _ X12). assert (Lc1 := extends_length _ _ Xc1).
      assert (Ag : forall y, length hc <= y -> nth_error h2 y = nth_error h1 y \/ nth_error h1 y = None).
      { intros y _. destruct (lt_dec y (length h1)) as [Hl|Hl].
        - left. apply extends_nth; assumption.
        - right. apply nth_error_None. lia. }
      split; [eapply grown_trans; eauto|]. split.
      + constructor.
        * eapply (proj1 (cfrom_agree _ _ _ _ _ Ag (Nat.le_refl _))). exact C1.
        * refine (proj2 (proj2 (cfrom_agree (length h1) (length hc) h0 h2 h2 _ Lc1)) _ _ C2).
          intros y _; left; reflexivity.
      + intros x Hxr. destruct (lt_dec x (length h1)) as [Hl|Hl].
        * exists (length hc). split; [simpl; auto|].
          eapply part_agree; [exact Ag|apply P1; lia|exact C1].
        * destruct (P2 x) as (e & Hin & Hp); [lia|]. exists e. simpl; auto.
  Qed.

  Lemma copy_attrs_sound cp : CP cp ->
    forall l hc s h' s' l', extends h0 hc ->
      (forall a m o, In (a, Lst (Some m)) l -> In (EObj o) m -> o < length h0) ->
      copy_attrs cp hc s l = Ok (h', s', l') ->
      grown hc s h' s' /\ acfrom (length hc) h0 h' l l' /\
      (forall x, length hc <= x < length h' ->
         exists a m e, In (a, Lst (Some m)) l' /\ ~ plain_list a /\ In (EObj e) m /\ part_of h' e x).
  Proof.
    intros Hcp. induction l as [|[a v] t IH]; intros hc s h' s' l' Hx Hb H; cbn [copy_attrs] in H.
    - injection H as <- <- <-. split; [apply grown_refl|]. split; [constructor|].
      intros x Hx'. lia.
    - assert (Hb' : forall a m o, In (a, Lst (Some m)) t -> In (EObj o) m -> o < length h0)
        by (intros; eapply Hb; simpl; eauto).
      assert (Simple : forall v', match copy_attrs cp hc s t with
                                  | Ok (h2, s2, t') => Ok (h2, s2, (a, v') :: t')
                                  | Err e => Err e
                                  end = Ok (h', s', l') ->
              (forall n h h'' u u', acfrom n h h'' u u' -> acfrom n h h'' ((a, v) :: u) ((a, v') :: u')) ->
              grown hc s h' s' /\ acfrom (length hc) h0 h' ((a, v) :: t) l' /\
              (forall x, length hc <= x < length h' ->
                exists a m e, In (a, Lst (Some m)) l' /\ ~ plain_list a /\ In (EObj e) m /\ part_of h' e x)).
      { intros v' H' Hac. destruct (copy_attrs cp hc s t) as [[[h2 s2] t2]|] eqn:E; [|discriminate].
        injection H' as <- <- <-. destruct (IH _ _ _ _ _ Hx Hb' E) as (G & A & P).
        split; [exact G|]. split; [apply Hac; exact A|].
        intros x Hxr. destruct (P x Hxr) as (a' & m & e & Hin & Hnp & Hel & Hp).
        exists a', m, e. simpl. auto. }
      destruct v as [v|[l|]].
      + apply (Simple (Scal v) H). intros; constructor; assumption.
      + destruct l as [|e0 l0].
        * apply (Simple (Lst (Some [])) H). intros.
          destruct (special_attr a) eqn:Es.
          -- apply acf_plain; [apply special_plain; exact Es|assumption].
          -- apply acf_list; [apply special_not_plain; exact Es|constructor|assumption].
        * remember (e0 :: l0) as l eqn:Hl.
          destruct (special_attr a) eqn:Es.
          -- apply (Simple (Lst (Some l)) H). intros.
             apply acf_plain; [apply special_plain; exact Es|assumption].
          -- destruct (copy_elts cp hc s l) as [[[h1 s1] l1]|] eqn:E1; [|discriminate].
             destruct (copy_attrs cp h1 s1 t) as [[[h2 s2] t2]|] eqn:E2; [|discriminate].
             injection H as <- <- <-.
             destruct (copy_elts_sound cp Hcp l hc s h1 s1 l1 Hx) as (G1 & C1 & P1);
               [intros o Ho; eapply Hb; [left; reflexivity|exact Ho]|exact E1|].
             assert (Hx1 : extends h0 h1) by (eapply extends_trans; [exact Hx|eapply grown_extends; eauto]).
             destruct (IH _ _ _ _ _ Hx1 Hb' E2) as (G2 & C2 & P2).
             assert (X12 := grown_extends _ _ _ _ G2). assert (Xc1 := grown_extends _ _ _ _ G1).
             assert (L12 := extends_length _ _ X12). assert (Lc1 := extends_length _ _ Xc1).
             assert (Ag : forall y, length hc <= y -> nth_error h2 y = nth_error h1 y \/ nth_error h1 y = None).
             { intros y _. destruct (lt_dec y (length h1)) as [Hlt|Hlt].
               - left. apply extends_nth; assumption.
               - right. apply nth_error_None. lia. }
             apply special_not_plain in Es.
             split; [eapply grown_trans; eauto|]. split.
             ++ apply acf_list; [exact Es| |].
                ** exact (proj2 (proj2 (cfrom_agree _ _ h0 _ _ Ag (Nat.le_refl _))) _ _ C1).
                ** refine (proj1 (proj2 (cfrom_agree (length h1) (length hc) h0 h2 h2 _ Lc1)) _ _ C2).
                   intros y _; left; reflexivity.
             ++ intros x Hxr. destruct (lt_dec x (length h1)) as [Hlt|Hlt].
                ** destruct (P1 x) as (e & Hin & Hp); [lia|].
                   destruct (ecfrom_In _ _ _ _ _ _ C1 Hin) as (oe & Hoe).
                   exists a, l1, e. split; [left; reflexivity|]. split; [exact Es|].
                   split; [exact Hin|]. eapply part_agree; [exact Ag|exact Hp|exact Hoe].
                ** destruct (P2 x) as (a' & m & e & Hin & Hnp & Hel & Hp); [lia|].
                   exists a', m, e. simpl. auto.
      + apply (Simple (Lst None) H). intros; constructor; assumption.
  Qed.

  Lemma copy_sound fuel : CP (copy fuel).
  Proof.
    induction fuel as [|fuel IH]; intros hc s o h' s' o' Hx Ho H; [discriminate|].
    cbn [copy] in H. destruct (nth_error hc o) as [ob|] eqn:Eo; [|discriminate].
    assert (Eo0 : nth_error h0 o = Some ob) by (rewrite <- (extends_nth _ _ _ Hx Ho); exact Eo).
    cbn [create] in H.
    destruct (copy_attrs (copy fuel) (hc ++ [blank ob]) (mkStore (elems s ++ [length hc]) (names s)) (attrs ob))
      as [[[h1 s1] at1]|] eqn:E1; [|discriminate].
    injection H as <- <- <-.
    destruct (copy_attrs_sound (copy fuel) IH (attrs ob) _ _ _ _ _
                (extends_trans _ _ _ Hx (ex_intro _ [blank ob] eq_refl))
                (fun a m o1 H1 H2 => Hclosed o ob a m o1 Eo0 H1 H2) E1) as (G1 & C1 & P1).
    destruct G1 as (new & -> & N1 & El1). rewrite app_length in *. simpl length in *.
    rewrite <- app_assoc. simpl app. rewrite upd_app_mid.
    assert (Ag : forall y, length hc + 1 <= y ->
       nth_error (hc ++ mkObj (cls ob) at1 :: new) y = nth_error ((hc ++ [blank ob]) ++ new) y \/
       nth_error ((hc ++ [blank ob]) ++ new) y = None).
    { intros y Hy. left. rewrite <- app_assoc. simpl.
      rewrite !nth_error_app2 by lia. destruct (y - length hc) as [|k] eqn:Ek; [lia|]. reflexivity. }
    assert (Ag2 : length hc <= length hc + 1) by lia.
    split; [|split; [reflexivity|split]].
    - exists (mkObj (cls ob) at1 :: new). split; [reflexivity|]. split; [exact N1|].
      rewrite El1. simpl. rewrite <- app_assoc. simpl. rewrite Nat.add_1_r. reflexivity.
    - apply cf_obj with (ob := ob) (ob' := mkObj (cls ob) at1).
      + lia.
      + exact Eo0.
      + rewrite nth_error_app2 by lia. rewrite Nat.sub_diag. reflexivity.
      + reflexivity.
      + simpl. exact (proj1 (proj2 (cfrom_agree _ _ h0 _ _ Ag Ag2)) _ _ C1).
    - intros x Hxr. rewrite app_length in Hxr. simpl in Hxr.
      destruct (Nat.eq_dec x (length hc)) as [->|Hne]; [constructor|].
      destruct (P1 x) as (a & m & e & Hin & Hnp & Hel & Hp).
      { rewrite !app_length. simpl. lia. }
      econstructor.
      + rewrite nth_error_app2 by lia. rewrite Nat.sub_diag. reflexivity.
      + exists a, m. simpl. split; [exact Hin|]. split; [exact Hnp|exact Hel].
      + assert (Hoe : exists oe, cfrom (length hc + 1) h0 ((hc ++ [blank ob]) ++ new) oe e).
        { destruct (acfrom_In _ _ _ _ _ _ _ C1 Hin Hnp) as (m0 & Hm).
          exact (ecfrom_In _ _ _ _ _ _ Hm Hel). }
        destruct Hoe as (oe & Hoe). eapply part_agree; [exact Ag|exact Hp|exact Hoe].
  Qed.
End Sound.

(** The effect of a successful copy. *)
Lemma copy_effect fuel h s o h' s' o' :
  closed_heap h -> o < length h -> copy fuel h s o = Ok (h', s', o') ->
  (exists new, h' = h ++ new /\ elems s' = elems s ++ seq (length h) (length new)) /\
  names s' = names s /\
  copy_of h h' o o' /\
  (forall x, part_of h' o' x <-> length h <= x < length h').
Proof.
  intros Hc Ho H.
  destruct (copy_sound h Hc fuel h s o h' s' o' (extends_refl h) Ho H) as ((new & E & N & El) & -> & C & P).
  split; [eauto|]. split; [exact N|]. split; [exact (proj1 (cfrom_copy_of _ _ _) _ _ C)|].
  intros x. split; [|apply P].
  intros Hp. destruct (cfrom_part _ _ _ _ _ Hp _ C) as (o2 & C2). exact (cfrom_bound _ _ _ _ _ C2).
Qed.

(** ** When copying succeeds *)

Lemma forest_app h l1 : forall l2 l,
  forest_of h (l1 ++ l2) l -> exists a b, forest_of h l1 a /\ forest_of h l2 b /\ l = a ++ b.
Proof.
  induction l1 as [|e t IH]; simpl; intros l2 l F.
  - exists [], l. split; [constructor|auto].
  - inversion F as [|o t' la lb T F']; subst. apply IH in F' as (a & b & Fa & Fb & ->).
    exists (la ++ a), b. split; [constructor; assumption|]. split; [assumption|].
    rewrite app_assoc. reflexivity.
Qed.

Definition total_cp (cp : heap -> store -> oid -> res (heap * store * oid)) h0 (l : list elt) : Prop :=
  forall hc s o, extends h0 hc -> In (EObj o) l ->
     exists h' s' o', cp hc s o = Ok (h', s', o') /\ extends h0 h'.

Lemma copy_elts_total h0 cp l :
  total_cp cp h0 l -> (forall e, In e l -> exists o, e = EObj o) ->
  forall hc s, extends h0 hc -> exists h' s' l', copy_elts cp hc s l = Ok (h', s', l') /\ extends h0 h'.
Proof.
  induction l as [|e t IH]; intros Ht Ho hc s Hx; simpl.
  - eexists; eexists; eexists; split; [reflexivity|exact Hx].
  - destruct (Ho e (or_introl eq_refl)) as (o & ->).
    destruct (Ht hc s o Hx (or_introl eq_refl)) as (h1 & s1 & o1 & -> & Hx1).
    destruct (IH (fun a b c d f => Ht a b c d (or_intror f)) (fun e0 H => Ho e0 (or_intror H)) h1 s1 Hx1)
      as (h2 & s2 & l2 & -> & Hx2).
    eexists; eexists; eexists; split; [reflexivity|exact Hx2].
Qed.

Lemma copy_attrs_total h0 cp l :
  (forall a m, In (a, Lst (Some m)) l -> ~ plain_list a ->
     total_cp cp h0 m /\ forall e, In e m -> exists o, e = EObj o) ->
  forall hc s, extends h0 hc -> exists h' s' l', copy_attrs cp hc s l = Ok (h', s', l') /\ extends h0 h'.
Proof.
  induction l as [|[a v] t IH]; intros Hl hc s Hx; cbn [copy_attrs].
  - eexists; eexists; eexists; split; [reflexivity|exact Hx].
  - assert (IH' := IH (fun a m H1 H2 => Hl a m (or_intror H1) H2)).
    assert (S : exists h1 s1 v1,
      (match v with
           | Scal x => Ok (hc, s, Scal x)
           | Lst None => Ok (hc, s, Lst None)
           | Lst (Some l) =>
             match l with
             | [] => Ok (hc, s, Lst (Some []))
             | _ => if special_attr a then Ok (hc, s, Lst (Some l))
                    else match copy_elts cp hc s l with
                         | Ok (h1, s1, l') => Ok (h1, s1, Lst (Some l'))
                         | Err e => Err e
                         end
             end
           end) = Ok (h1, s1, v1) /\ extends h0 h1).
    { destruct v as [v|[[|e m]|]]; try (eexists; eexists; eexists; split; [reflexivity|exact Hx]).
      destruct (special_attr a) eqn:Es; [eexists; eexists; eexists; split; [reflexivity|exact Hx]|].
      apply special_not_plain in Es.
      destruct (Hl a (e :: m) (or_introl eq_refl) Es) as [H1 H2].
      destruct (copy_elts_total h0 cp (e :: m) H1 H2 hc s Hx) as (h1 & s1 & l1 & -> & Hx1).
      eexists; eexists; eexists; split; [reflexivity|exact Hx1]. }
    destruct S as (h1 & s1 & v1 & -> & Hx1).
    destruct (IH' h1 s1 Hx1) as (h2 & s2 & l2 & -> & Hx2).
    eexists; eexists; eexists; split; [reflexivity|exact Hx2].
Qed.

Lemma extends_upd h0 hc ob new ob' :
  extends h0 hc -> extends h0 (upd ((hc ++ [ob]) ++ new) (length hc) ob').
Proof.
  intros (e & ->). rewrite <- app_assoc. simpl. rewrite upd_app_mid.
  rewrite <- app_assoc. eexists. reflexivity.
Qed.

Lemma copy_elts_extends cp l :
  (forall hc s o h' s' o', In (EObj o) l -> cp hc s o = Ok (h', s', o') -> extends hc h') ->
  forall hc s h' s' l', copy_elts cp hc s l = Ok (h', s', l') -> extends hc h'.
Proof.
  induction l as [|[o|] t IH]; intros Hcp hc s h' s' l' H; simpl in H.
  - injection H as <- _ _. apply extends_refl.
  - destruct (cp hc s o) as [[[h1 s1] o1]|] eqn:E1; [|discriminate].
    destruct (copy_elts cp h1 s1 t) as [[[h2 s2] t2]|] eqn:E2; [|discriminate].
    injection H as <- _ _. eapply extends_trans.
    + eapply Hcp; [left; reflexivity|exact E1].
    + eapply IH; [|exact E2]. intros; eapply Hcp; [right; eassumption|eassumption].
  - discriminate.
Qed.

Lemma copy_attrs_extends cp l :
  (forall hc s o h' s' o', cp hc s o = Ok (h', s', o') -> extends hc h') ->
  forall hc s h' s' l', copy_attrs cp hc s l = Ok (h', s', l') -> extends hc h'.
Proof.
  intros Hcp. induction l as [|[a v] t IH]; intros hc s h' s' l' H; cbn [copy_attrs] in H.
  - injection H as <- _ _. apply extends_refl.
  - match type of H with (match ?m with _ => _ end = _) => destruct m as [[[h1 s1] v1]|] eqn:E1; [|discriminate] end.
    destruct (copy_attrs cp h1 s1 t) as [[[h2 s2] t2]|] eqn:E2; [|discriminate].
    injection H as <- _ _. eapply extends_trans; [|eapply IH; exact E2].
    destruct v as [v|[[|e m]|]]; try (injection E1 as <- _ _; apply extends_refl).
    destruct (special_attr a); [injection E1 as <- _ _; apply extends_refl|].
    destruct (copy_elts cp hc s (e :: m)) as [[[h3 s3] l3]|] eqn:E3; [|discriminate].
    injection E1 as <- _ _. eapply copy_elts_extends; [|exact E3]. intros; eapply Hcp; eauto.
Qed.

Lemma copy_extends fuel : forall hc s o h' s' o', copy fuel hc s o = Ok (h', s', o') -> extends hc h'.
Proof.
  induction fuel as [|fuel IH]; intros hc s o h' s' o' H; [discriminate|].
  cbn [copy create] in H. destruct (nth_error hc o) as [ob|]; [|discriminate].
  destruct (copy_attrs (copy fuel) (hc ++ [blank ob]) (mkStore (elems s ++ [length hc]) (names s)) (attrs ob))
    as [[[h1 s1] at1]|] eqn:E1; [|discriminate].
  injection H as <- _ _.
  apply copy_attrs_extends in E1 as (new & ->); [|exact IH].
  apply extends_upd, extends_refl.
Qed.

Lemma copy_total h :
  closed_heap h ->
  (forall o l, tree_of h o l ->
     exists n, forall fuel hc s, n <= fuel -> extends h hc ->
       exists h' s' o', copy fuel hc s o = Ok (h', s', o')) /\
  (forall es l, forest_of h es l ->
     exists n, forall fuel hc s o, n <= fuel -> extends h hc -> In (EObj o) es ->
       exists h' s' o', copy fuel hc s o = Ok (h', s', o')).
Proof.
  intros Hc. apply (tree_forest_ind h
    (fun o l _ => exists n, forall fuel hc s, n <= fuel -> extends h hc ->
       exists h' s' o', copy fuel hc s o = Ok (h', s', o'))
    (fun es l _ => exists n, forall fuel hc s o, n <= fuel -> extends h hc -> In (EObj o) es ->
       exists h' s' o', copy fuel hc s o = Ok (h', s', o'))).
  - intros o ob l Ho F (n & Hn). exists (S n). intros [|fuel] hc s Hf Hx; [lia|].
    cbn [copy create].
    assert (Hlt : o < length h) by (apply nth_error_Some; congruence).
    rewrite (extends_nth _ _ _ Hx Hlt), Ho.
    destruct (copy_attrs_total h (copy fuel) (attrs ob)) with (hc := hc ++ [blank ob])
      (s := mkStore (elems s ++ [length hc]) (names s)) as (h1 & s1 & l1 & E & _).
    + intros a m Hin Hnp. split.
      * intros hc' s' o' Hx' Hin'. destruct (Hn fuel hc' s' o') as (h1 & s1 & o1 & E1).
        -- lia.
        -- exact Hx'.
        -- apply sub_elts_has_elt. exists a, m. auto.
        -- exists h1, s1, o1. split; [exact E1|].
           eapply extends_trans; [exact Hx'|eapply copy_extends; exact E1].
      * intros e He. apply (proj2 (proj2 (tree_parts h) _ _ F)).
        apply sub_elts_has_elt. exists a, m. auto.
    + eapply extends_trans; [exact Hx|]. exists [blank ob]. reflexivity.
    + rewrite E. eauto.
  - exists 0. intros fuel hc s o _ _ [].
  - intros o t l1 l2 T (n1 & H1) F (n2 & H2). exists (Nat.max n1 n2).
    intros fuel hc s o' Hf Hx [He|Hin].
    + injection He as <-. apply H1; [lia|exact Hx].
    + apply H2; [lia|exact Hx|exact Hin].
Qed.
