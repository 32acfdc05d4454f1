(** Lemmas on Modifier.add and Modifier.delete. *)
From Verif Require Import Base BaseFacts StoreModel StoreSpec StoreProofs ModifyProofs CopyProofs.
Local Open Scope string_scope.
Local Open Scope nat_scope.
Local Open Scope list_scope.

Definition add_step (fuel : nat) (st : pair_state) (p : key * oid) : res pair_state :=
  match copy fuel (fst st) (snd st) (snd p) with
  | Ok (h', s', _) => Ok (h', s')
  | Err e => Err e
  end.

Lemma add_loop h0 fuel : closed_heap h0 ->
  forall ns hc s h' s', extends h0 hc -> (forall k o, In (k, o) ns -> o < length h0) ->
  foldM (add_step fuel) ns (hc, s) = Ok (h', s') ->
  grown hc s h' s' /\
  (forall k o, In (k, o) ns -> exists c, length hc <= c < length h' /\ cfrom (length hc) h0 h' o c) /\
  (forall x, length hc <= x < length h' ->
     exists k o c, In (k, o) ns /\ cfrom (length hc) h0 h' o c /\ part_of h' c x).
Proof.
  intros Hc. induction ns as [|[k o] t IH]; intros hc s h' s' Hx Hb H; simpl in H.
  - injection H as <- <-. split; [apply grown_refl|]. split; [intros k o []|]. intros x Hxr; lia.
  - unfold add_step at 1 in H. simpl in H.
    destruct (copy fuel hc s o) as [[[h1 s1] o1]|] eqn:E1; [|discriminate]. simpl in H.
    destruct (copy_sound h0 Hc fuel hc s o h1 s1 o1 Hx (Hb k o (or_introl eq_refl)) E1)
      as (G1 & -> & C1 & P1).
    assert (Hx1 : extends h0 h1) by (eapply extends_trans; [exact Hx|eapply grown_extends; eauto]).
    destruct (IH h1 s1 h' s' Hx1 (fun k o H => Hb k o (or_intror H)) H) as (G2 & C2 & P2).
    assert (X12 := grown_extends _ _ _ _ G2). assert (Xc1 := grown_extends _ _ _ _ G1).
    assert (L12 := extends_length _ _ X12). assert (Lc1 := extends_length _ _ Xc1).
    assert (Ag : forall y, length hc <= y -> nth_error h' y = nth_error h1 y \/ nth_error h1 y = None).
    { intros y _. destruct (lt_dec y (length h1)) as [Hl|Hl].
      - left. apply extends_nth; assumption.
      - right. apply nth_error_None. lia. }
    assert (Up : forall a b, cfrom (length h1) h0 h' a b -> cfrom (length hc) h0 h' a b).
    { apply (proj1 (cfrom_agree (length h1) (length hc) h0 h' h' (fun y _ => or_introl eq_refl) Lc1)). }
    split; [eapply grown_trans; eauto|]. split.
    + intros k' o' [E|Hin].
      * injection E as <- <-. exists (length hc).
        assert (B := cfrom_bound _ _ _ _ _ C1). split; [lia|].
        exact (proj1 (cfrom_agree _ _ h0 _ _ Ag (Nat.le_refl _)) _ _ C1).
      * destruct (C2 k' o' Hin) as (c & Hr & Hcf). exists c. split; [lia|]. apply Up, Hcf.
    + intros x Hxr. destruct (lt_dec x (length h1)) as [Hl|Hl].
      * exists k, o, (length hc). split; [left; reflexivity|]. split.
        -- exact (proj1 (cfrom_agree _ _ h0 _ _ Ag (Nat.le_refl _)) _ _ C1).
        -- eapply part_agree; [exact Ag|apply P1; lia|exact C1].
      * destruct (P2 x) as (k' & o' & c & Hin & Hcf & Hp); [lia|].
        exists k', o', c. split; [right; exact Hin|]. split; [apply Up, Hcf|exact Hp].
Qed.

(** A copy has the same name as the original. *)
Lemma acfrom_name n h h' l l' k :
  acfrom n h h' l l' -> dget l "name" = Some (Scal k) <-> dget l' "name" = Some (Scal k).
Proof.
  induction 1 as [|a v t t' _ IH|a t t' _ IH|a l t t' Hp _ IH|a l l' t t' Hp He _ IH];
  unfold dget in *; fold (@dget attr) in *; cbn [dget fst snd] in *.
  - tauto.
  - destruct (String.eqb a "name"); [tauto|exact IH].
  - destruct (String.eqb a "name"); [tauto|exact IH].
  - destruct (String.eqb a "name"); [tauto|exact IH].
  - destruct (String.eqb a "name"); [split; discriminate|exact IH].
Qed.

Lemma cfrom_named n h h' o c k : cfrom n h h' o c -> (named h o k <-> named h' c k).
Proof.
  intros H. inversion H as [? ob ? ob' Hle E E' Hcl Hat]; subst. unfold named.
  assert (A := acfrom_name _ _ _ _ _ k Hat). split.
  - intros (ob1 & E1 & N). exists ob'. split; [exact E'|]. apply A. congruence.
  - intros (ob1 & E1 & N). exists ob. split; [exact E|]. apply A. congruence.
Qed.

Lemma acfrom_In_both n h h' l l' a m :
  acfrom n h h' l l' -> In (a, Lst (Some m)) l' -> ~ plain_list a ->
  exists m0, In (a, Lst (Some m0)) l /\ ecfrom n h h' m0 m.
Proof.
  induction 1 as [|? ? ? ? _ IH|? ? ? _ IH|? ? ? ? Hp _ IH|? ? ? ? ? Hp He _ IH];
  simpl; intros Hin Hnp.
  - destruct Hin.
  - destruct Hin as [E|Hin]; [discriminate|]. destruct (IH Hin Hnp) as (m0 & ? & ?); eauto.
  - destruct Hin as [E|Hin]; [discriminate|]. destruct (IH Hin Hnp) as (m0 & ? & ?); eauto.
  - destruct Hin as [E|Hin]; [injection E as -> ->; contradiction|].
    destruct (IH Hin Hnp) as (m0 & ? & ?); eauto.
  - destruct Hin as [E|Hin]; [injection E as -> ->; eauto|].
    destruct (IH Hin Hnp) as (m0 & ? & ?); eauto.
Qed.

Lemma ecfrom_In_both n h h' l l' o' :
  ecfrom n h h' l l' -> In (EObj o') l' -> exists o, In (EObj o) l /\ cfrom n h h' o o'.
Proof.
  induction 1 as [|? ? ? ? Hc He IH]; simpl; intros Hin; [destruct Hin|].
  destruct Hin as [E|Hin]; [injection E as <-; eauto|]. destruct (IH Hin) as (o2 & ? & ?); eauto.
Qed.

(** A part of a copy is the copy itself or a copy of a sub-object. *)
Lemma cfrom_part_sub n h h' c x : part_of h' c x -> forall o, cfrom n h h' o c ->
  x = c \/ exists p pb o2, nth_error h p = Some pb /\ has_elt pb (EObj o2) /\ cfrom n h h' o2 x.
Proof.
  induction 1 as [c|c ob c' x Hc (a & l & Hin & Hnp & Hel) Hp IH]; intros o Ho; [left; reflexivity|].
  right. inversion Ho as [? ob0 ? ob1 Hle E0 E1 Hcl Hat]; subst.
  assert (ob1 = ob) by congruence. subst ob1.
  destruct (acfrom_In_both _ _ _ _ _ _ _ Hat Hin Hnp) as (m0 & Hin0 & Hm).
  destruct (ecfrom_In_both _ _ _ _ _ _ Hm Hel) as (o2 & Hel2 & Ho2).
  destruct (IH _ Ho2) as [->|Hr]; [|exact Hr].
  exists o, ob0, o2. split; [exact E0|]. split; [exists a, m0; auto|exact Ho2].
Qed.

Lemma named_extends h h' o k : extends h h' -> o < length h -> (named h' o k <-> named h o k).
Proof. intros Hx Ho. unfold named. rewrite (extends_nth _ _ _ Hx Ho). tauto. Qed.

Lemma last_named_In h l k o : last_named h l k o -> In o l /\ named h o k.
Proof. intros (b & a & -> & N & _). split; [apply in_or_app; simpl; auto|exact N]. Qed.

Lemma last_named_app h l1 l2 k o :
  last_named h (l1 ++ l2) k o <->
  last_named h l2 k o \/ (last_named h l1 k o /\ forall y, In y l2 -> ~ named h y k).
Proof.
  assert (A := set_names_fold h (l1 ++ l2) [] k o).
  assert (B := set_names_fold h l1 [] k o).
  rewrite fold_left_app in A.
  assert (C := set_names_fold h l2 (fold_left (set_name h) l1 []) k o).
  simpl in *. intuition discriminate.
Qed.

Lemma last_named_ext h h' l k o :
  (forall y, In y l -> (named h y k <-> named h' y k)) ->
  last_named h l k o <-> last_named h' l k o.
Proof.
  assert (G : forall h h', (forall y, In y l -> (named h y k <-> named h' y k)) ->
    last_named h l k o -> last_named h' l k o).
  { clear. intros h h' H (b & a & -> & N & Ha). exists b, a. split; [reflexivity|]. split.
    - apply H; [apply in_or_app; simpl; auto|exact N].
    - intros y Hy N'. apply (Ha y Hy). apply H; [apply in_or_app; simpl; auto|exact N']. }
  intros H. split; apply G; [exact H|]. intros y Hy. symmetry. apply H, Hy.
Qed.

Lemma add_effect fuel w w' :
  closed_heap (hp w) -> unnamed_parts (hp w) ->
  registered (hp w) (m1 w) -> registered (hp w) (m2 w) ->
  add fuel w = Ok w' ->
  (exists new, hp w' = hp w ++ new /\
               elems (m1 w') = elems (m1 w) ++ seq (length (hp w)) (length new)) /\
  elems (m2 w') = elems (m2 w) /\
  (forall k o, last_named (hp w) (elems (m2 w)) k o ->
     exists c, getitem (m1 w') k = Ok c /\ length (hp w) <= c /\ copy_of (hp w) (hp w') o c) /\
  (forall k, (forall o, In o (elems (m2 w)) -> ~ named (hp w) o k) ->
     forall o, getitem (m1 w') k = Ok o <-> last_named (hp w) (elems (m1 w)) k o) /\
  (forall x, length (hp w) <= x < length (hp w') ->
     exists k o c, last_named (hp w) (elems (m2 w)) k o /\ copy_of (hp w) (hp w') o c /\
                   part_of (hp w') c x).
Proof.
  intros Hc Hu Hr1 Hr2 H. unfold add in H. fold (add_step fuel) in H.
  set (ns := names (set_names (hp w) (m2 w))) in *.
  change (foldM _ ns (hp w, set_names (hp w) (m1 w)))
    with (foldM (add_step fuel) ns (hp w, set_names (hp w) (m1 w))) in H.
  destruct (foldM (add_step fuel) ns (hp w, set_names (hp w) (m1 w))) as [[h' s']|] eqn:E; [|discriminate].
  cbn [bind] in H. injection H as <-. cbn [hp m1 m2].
  assert (Hns : forall k o, In (k, o) ns <-> last_named (hp w) (elems (m2 w)) k o)
    by (intros; apply set_names_In).
  destruct (add_loop (hp w) fuel Hc ns (hp w) (set_names (hp w) (m1 w)) h' s' (extends_refl _)) as (G & C & P); [|exact E|].
  { intros k o Hin. apply Hns, last_named_In in Hin. apply Hr2, Hin. }
  assert (X := grown_extends _ _ _ _ G). assert (L := extends_length _ _ X).
  destruct G as (new & Eh & En & Ee). cbn [set_names elems] in Ee.
  assert (Hnew : forall x k, length (hp w) <= x < length h' -> named h' x k ->
                 exists o, last_named (hp w) (elems (m2 w)) k o /\ cfrom (length (hp w)) (hp w) h' o x).
  { intros x k Hx Hn. destruct (P x Hx) as (k' & o & c & Hin & Hcf & Hp).
    destruct (cfrom_part_sub _ _ _ _ _ Hp _ Hcf) as [->|(p & pb & o2 & Hp1 & Hp2 & Hp3)].
    - apply Hns in Hin. apply (cfrom_named _ _ _ _ _ k Hcf) in Hn.
      destruct (last_named_In _ _ _ _ Hin) as [_ Hn']. rewrite (named_fun _ _ _ _ Hn Hn'). eauto.
    - exfalso. apply (cfrom_named _ _ _ _ _ k Hp3) in Hn. exact (Hu _ _ _ _ Hp1 Hp2 Hn). }
  split; [exists new; auto|]. split; [reflexivity|]. split; [|split].
  - intros k o Hl. destruct (C k o) as (c & Hcr & Hcf); [apply Hns, Hl|].
    assert (Hcn : named h' c k).
    { apply (cfrom_named _ _ _ _ _ k Hcf). apply (last_named_In _ _ _ _ Hl). }
    assert (Hex : exists o, In o (elems s') /\ named h' o k).
    { exists c. split; [|exact Hcn]. rewrite Ee. apply in_or_app. right. apply in_seq.
      subst h'. rewrite app_length in *. lia. }
    apply last_named_exists in Hex as (x & Hx).
    exists x. split; [apply set_names_lookup; exact Hx|].
    assert (Hxn : named h' x k) by (apply (last_named_In _ _ _ _ Hx)).
    assert (Hxr : length (hp w) <= x < length h').
    { rewrite Ee in Hx. apply last_named_app in Hx as [Hx|[_ Hx]].
      - apply last_named_In, proj1, in_seq in Hx. subst h'. rewrite app_length. lia.
      - exfalso. apply (Hx c); [|exact Hcn]. apply in_seq. subst h'. rewrite app_length in *. lia. }
    split; [lia|].
    destruct (Hnew x k Hxr Hxn) as (o' & Hl' & Hcf').
    rewrite (last_named_fun _ _ _ _ _ Hl Hl'). exact (proj1 (cfrom_copy_of _ _ _) _ _ Hcf').
  - intros k Hno o. rewrite set_names_lookup. rewrite Ee.
    assert (Hs : forall y, In y (seq (length (hp w)) (length new)) -> ~ named h' y k).
    { intros y Hy Hn. apply in_seq in Hy. destruct (Hnew y k) as (o' & Hl & _).
      - subst h'. rewrite app_length. lia.
      - exact Hn.
      - apply last_named_In in Hl. exact (Hno _ (proj1 Hl) (proj2 Hl)). }
    rewrite last_named_app, (last_named_ext (hp w) h').
    + split; [|tauto]. intros [Hl|[Hl _]]; [|exact Hl].
      apply last_named_In in Hl. exfalso. exact (Hs _ (proj1 Hl) (proj2 Hl)).
    + intros y Hy. symmetry. apply named_extends; [exact X|apply Hr1, Hy].
  - intros x Hx. destruct (P x Hx) as (k & o & c & Hin & Hcf & Hp).
    exists k, o, c. split; [apply Hns, Hin|]. split; [exact (proj1 (cfrom_copy_of _ _ _) _ _ Hcf)|exact Hp].
Qed.

Lemma add_succeeds w :
  closed_heap (hp w) -> registered (hp w) (m2 w) ->
  (forall k o, last_named (hp w) (elems (m2 w)) k o -> exists l, tree_of (hp w) o l) ->
  exists n, forall fuel, n <= fuel -> exists w', add fuel w = Ok w'.
Proof.
  intros Hc Hr Ht. unfold add.
  set (ns := names (set_names (hp w) (m2 w))).
  assert (Hns : forall k o, In (k, o) ns -> exists l, tree_of (hp w) o l).
  { intros k o Hin. apply set_names_In in Hin. eauto. }
  assert (G : exists n, forall fuel hc s, n <= fuel -> extends (hp w) hc ->
     exists r, foldM (add_step fuel) ns (hc, s) = Ok r).
  { clearbody ns. induction ns as [|[k o] t IH].
    - exists 0. intros. simpl. eauto.
    - destruct (Hns k o (or_introl eq_refl)) as (l & T).
      destruct (proj1 (copy_total (hp w) Hc) o l T) as (n1 & H1).
      destruct IH as (n2 & H2); [intros; eapply Hns; right; eassumption|].
      exists (Nat.max n1 n2). intros fuel hc s Hf Hx. simpl. unfold add_step at 1. simpl.
      destruct (H1 fuel hc s) as (h' & s' & o' & E); [lia|exact Hx|]. rewrite E. simpl.
      apply H2; [lia|]. eapply extends_trans; [exact Hx|eapply copy_extends; exact E]. }
  destruct G as (n & G). exists n. intros fuel Hf.
  destruct (G fuel (hp w) (set_names (hp w) (m1 w)) Hf (extends_refl _)) as ([h' s'] & E).
  fold (add_step fuel).
  change (foldM _ ns (hp w, set_names (hp w) (m1 w)))
    with (foldM (add_step fuel) ns (hp w, set_names (hp w) (m1 w))).
  rewrite E. simpl. eauto.
Qed.

(** ** Delete *)

Definition del_step (fuel : nat) (h : heap) (s : store) (p : key * oid) : res store :=
  match kget (names s) (fst p) with
  | None => Ok s
  | Some o1 =>
    if same_class h o1 (snd p) then delete_element fuel h s o1 else Err EType
  end.

Lemma same_class_spec h o1 o2 :
  same_class h o1 o2 = true <->
  exists b1 b2, nth_error h o1 = Some b1 /\ nth_error h o2 = Some b2 /\ cls b1 = cls b2.
Proof.
  unfold same_class, cls_of. destruct (nth_error h o1) as [b1|], (nth_error h o2) as [b2|]; simpl;
  split; try discriminate; try (intros (? & ? & ? & ? & ?); discriminate).
  - rewrite String.eqb_eq. eauto.
  - rewrite String.eqb_eq. intros (? & ? & E1 & E2 & ?). congruence.
Qed.

Lemma del_loop fuel h : forall ns s s',
  NoDup (elems s) -> foldM (del_step fuel h) ns s = Ok s' ->
  names s' = names s /\
  (forall k o1 o2, In (k, o2) ns -> kget (names s) k = Some o1 -> same_class h o1 o2 = true) /\
  exists L, elems s' = filter (not_in L) (elems s) /\
    forall x, In x L <-> exists k o1 o2, In (k, o2) ns /\ kget (names s) k = Some o1 /\ part_of h o1 x.
Proof.
  induction ns as [|[k o2] t IH]; intros s s' Hnd H; simpl in H.
  - injection H as <-. split; [reflexivity|]. split; [intros k o1 o2 []|].
    exists []. split; [symmetry; apply filter_all; reflexivity|].
    intros x. split; [intros []|]. intros (k & o1 & o2 & [] & _).
  - unfold del_step at 1 in H. simpl in H. destruct (kget (names s) k) as [o1|] eqn:Ek.
    + destruct (same_class h o1 o2) eqn:Ec; [|discriminate].
      destruct (delete_element fuel h s o1) as [s1|] eqn:E1; [|discriminate]. simpl in H.
      destruct (delete_element_effect _ _ _ _ _ Hnd E1) as (l & T & Hl & Hi & N & El).
      assert (Hnd1 : NoDup (elems s1)) by (rewrite El; apply NoDup_filter, Hnd).
      destruct (IH s1 s' Hnd1 H) as (N' & Hc & L & EL & HL).
      split; [congruence|]. split.
      * intros k' o1' o2' [E|Hin] Hk.
        -- injection E as <- <-. congruence.
        -- apply (Hc k'); [exact Hin|congruence].
      * exists (l ++ L). split.
        -- rewrite EL, El. clear. induction (elems s) as [|x e IH]; simpl; [reflexivity|].
           assert (Hx : not_in (l ++ L) x = not_in l x && not_in L x).
           { unfold not_in. rewrite existsb_app, negb_orb. reflexivity. }
           rewrite Hx. destruct (not_in l x); simpl; [|exact IH].
           destruct (not_in L x); simpl; [f_equal|]; exact IH.
        -- intros x. rewrite in_app_iff, (proj1 (tree_parts h) o1 l T x), HL. rewrite N. split.
           ++ intros [Hp|(k' & o1' & o2' & Hin & Hk & Hp)].
              ** exists k, o1, o2. simpl. auto.
              ** exists k', o1', o2'. simpl. auto.
           ++ intros (k' & o1' & o2' & [E|Hin] & Hk & Hp).
              ** injection E as <- <-. left. congruence.
              ** right. eauto 6.
    + simpl in H. destruct (IH s s' Hnd H) as (N' & Hc & L & EL & HL).
      split; [exact N'|]. split.
      * intros k' o1' o2' [E|Hin] Hk; [injection E as <- <-; congruence|eauto].
      * exists L. split; [exact EL|]. intros x. rewrite HL. split.
        -- intros (k' & o1' & o2' & Hin & Hk & Hp). exists k', o1', o2'. simpl. auto.
        -- intros (k' & o1' & o2' & [E|Hin] & Hk & Hp); [injection E as <- <-; congruence|eauto 6].
Qed.

Lemma delete_effect fuel w w' :
  NoDup (elems (m1 w)) -> delete fuel w = Ok w' ->
  hp w' = hp w /\ elems (m2 w') = elems (m2 w) /\
  (forall k o1 o2, common (hp w) (elems (m1 w)) (elems (m2 w)) k o1 o2 ->
     exists b1 b2, nth_error (hp w) o1 = Some b1 /\ nth_error (hp w) o2 = Some b2 /\ cls b1 = cls b2) /\
  (exists keep,
     elems (m1 w') = filter keep (elems (m1 w)) /\
     forall x, keep x = false <->
       exists k o1 o2, common (hp w) (elems (m1 w)) (elems (m2 w)) k o1 o2 /\ part_of (hp w) o1 x) /\
  (forall k o, getitem (m1 w') k = Ok o <-> last_named (hp w) (elems (m1 w')) k o).
Proof.
  intros Hnd H. unfold delete in H.
  set (ns := names (set_names (hp w) (m2 w))) in *.
  change (foldM _ ns (set_names (hp w) (m1 w)))
    with (foldM (del_step fuel (hp w)) ns (set_names (hp w) (m1 w))) in H.
  destruct (foldM (del_step fuel (hp w)) ns (set_names (hp w) (m1 w))) as [s'|] eqn:E; [|discriminate].
  cbn [bind] in H. injection H as <-. cbn [hp m1 m2].
  destruct (del_loop fuel (hp w) ns (set_names (hp w) (m1 w)) s' Hnd E) as (N & Hc & L & EL & HL).
  cbn [elems set_names] in EL.
  split; [reflexivity|]. split; [reflexivity|]. split; [|split].
  - intros k o1 o2 [H1 H2]. apply same_class_spec. apply (Hc k).
    + apply set_names_In, H2.
    + apply set_names_kget, H1.
  - exists (not_in L). split; [exact EL|]. intros x.
    assert (Hn := not_in_spec L x).
    assert (Hx : not_in L x = false <-> In x L).
    { destruct (not_in L x) eqn:En; split; intros; try discriminate.
      - exfalso. apply Hn; auto.
      - destruct (in_dec Nat.eq_dec x L); [assumption|]. apply Hn in n. congruence.
      - reflexivity. }
    rewrite Hx, HL. split.
    + intros (k & o1 & o2 & Hin & Hk & Hp). exists k, o1, o2. split; [|exact Hp].
      split; [apply set_names_kget, Hk|apply set_names_In, Hin].
    + intros (k & o1 & o2 & [H1 H2] & Hp). exists k, o1, o2.
      split; [apply set_names_In, H2|]. split; [apply set_names_kget, H1|exact Hp].
  - intros k o. rewrite set_names_lookup. cbn [set_names elems]. tauto.
Qed.

(** With unique names nothing named like an object of model 2 is left. *)
Lemma delete_names_gone fuel w w' :
  NoDup (elems (m1 w)) ->
  (forall k o o', In o (elems (m1 w)) -> In o' (elems (m1 w)) ->
     named (hp w) o k -> named (hp w) o' k -> o = o') ->
  delete fuel w = Ok w' ->
  forall k o2, In o2 (elems (m2 w)) -> named (hp w) o2 k ->
    (forall o, In o (elems (m1 w')) -> ~ named (hp w) o k) /\ getitem (m1 w') k = Err EKey.
Proof.
  intros Hnd Hun H k o2 Hin2 Hn2.
  destruct (delete_effect _ _ _ Hnd H) as (Eh & _ & _ & (keep & Ek & Hk) & Hg).
  assert (Hno : forall o, In o (elems (m1 w')) -> ~ named (hp w) o k).
  { intros o Ho Hn. rewrite Ek in Ho. apply filter_In in Ho as [Ho Hkeep].
    assert (keep o = false); [|congruence]. apply Hk.
    assert (He1 : exists o, In o (elems (m1 w)) /\ named (hp w) o k) by eauto.
    assert (He2 : exists o, In o (elems (m2 w)) /\ named (hp w) o k) by eauto.
    apply last_named_exists in He1 as (o1 & L1). apply last_named_exists in He2 as (o2' & L2).
    exists k, o1, o2'. split; [split; assumption|].
    destruct (last_named_In _ _ _ _ L1) as [Hi1 Hn1].
    rewrite (Hun k o1 o Hi1 Ho Hn1 Hn). constructor. }
  split; [exact Hno|].
  destruct (getitem (m1 w') k) as [o|e] eqn:E.
  - apply Hg, last_named_In in E. exfalso. exact (Hno _ (proj1 E) (proj2 E)).
  - unfold getitem, of_opt in E. destruct (kget (names (m1 w')) k); congruence.
Qed.

Lemma delete_succeeds w :
  NoDup (elems (m1 w)) ->
  (forall k o1 o2, common (hp w) (elems (m1 w)) (elems (m2 w)) k o1 o2 ->
     (exists b1 b2, nth_error (hp w) o1 = Some b1 /\ nth_error (hp w) o2 = Some b2 /\ cls b1 = cls b2) /\
     (exists l, tree_of (hp w) o1 l /\ NoDup l /\ incl l (elems (m1 w)))) ->
  (forall k o1 o2 k' o1' o2' x,
     common (hp w) (elems (m1 w)) (elems (m2 w)) k o1 o2 ->
     common (hp w) (elems (m1 w)) (elems (m2 w)) k' o1' o2' -> k <> k' ->
     part_of (hp w) o1 x -> ~ part_of (hp w) o1' x) ->
  exists n, forall fuel, n <= fuel -> exists w', delete fuel w = Ok w'.
Proof.
  intros Hnd Hok Hdis. unfold delete.
  set (ns := names (set_names (hp w) (m2 w))).
  assert (G : forall ns,
     NoDup (map fst ns) ->
     (forall k o1 o2, In (k, o2) ns -> kget (names (set_names (hp w) (m1 w))) k = Some o1 ->
        common (hp w) (elems (m1 w)) (elems (m2 w)) k o1 o2) ->
     exists n, forall fuel s, n <= fuel -> NoDup (elems s) ->
       names s = names (set_names (hp w) (m1 w)) ->
       (forall k o1 o2 x, In (k, o2) ns -> kget (names s) k = Some o1 -> part_of (hp w) o1 x ->
          In x (elems s)) ->
       exists s', foldM (del_step fuel (hp w)) ns s = Ok s').
  { clear ns. induction ns as [|[k o2] t IH]; intros Hk Hcom.
    - exists 0. intros. simpl. eauto.
    - inversion Hk as [|? ? Hni Hk']; subst.
      destruct IH as (n2 & H2); [exact Hk'|intros; eapply Hcom; [right; eassumption|assumption]|].
      destruct (kget (names (set_names (hp w) (m1 w))) k) as [o1|] eqn:Ek.
      + assert (Hcm := Hcom k o1 o2 (or_introl eq_refl) Ek).
        destruct (Hok _ _ _ Hcm) as (Hcl & l & T & Hl & Hi).
        destruct (proj1 (delete_complete (hp w)) o1 l T) as (n1 & H1).
        exists (Nat.max n1 n2). intros fuel s Hf Hnd' Hn Hin.
        simpl. unfold del_step at 1. simpl. rewrite Hn, Ek.
        rewrite (proj2 (same_class_spec (hp w) o1 o2) Hcl).
        rewrite H1 by lia.
        assert (Hil : incl l (elems s)).
        { intros x Hx. apply (Hin k o1 o2 x); [left; reflexivity|congruence|].
          apply (proj1 (tree_parts (hp w)) o1 l T), Hx. }
        rewrite (proj2 (remove_all_ok l (elems s) (filter (not_in l) (elems s)) Hnd')) by auto.
        simpl. apply H2.
        * lia.
        * simpl. apply NoDup_filter, Hnd'.
        * simpl. exact Hn.
        * simpl. intros k' o1' o2' x Hin' Hk1 Hp. apply filter_In. split.
          -- apply (Hin k' o1' o2' x); [right; exact Hin'|exact Hk1|exact Hp].
          -- apply not_in_spec. intros Hx. apply (proj1 (tree_parts (hp w)) o1 l T) in Hx.
             assert (Hne : k <> k') by (intros ->; apply Hni; apply (in_map fst) in Hin'; exact Hin').
             assert (Hcm' : common (hp w) (elems (m1 w)) (elems (m2 w)) k' o1' o2').
             { apply Hcom; [right; exact Hin'|congruence]. }
             exact (Hdis _ _ _ _ _ _ x Hcm Hcm' Hne Hx Hp).
      + exists n2. intros fuel s Hf Hnd' Hn Hin. simpl. unfold del_step at 1. simpl.
        rewrite Hn, Ek. simpl. apply H2; [lia|exact Hnd'|exact Hn|].
        intros; eapply Hin; [right; eassumption|eassumption|assumption]. }
  destruct (G ns) as (n & Hn).
  - apply set_names_keys_NoDup.
  - intros k o1 o2 Hin Hk. split; [apply set_names_kget, Hk|apply set_names_In, Hin].
  - exists n. intros fuel Hf.
    destruct (Hn fuel (set_names (hp w) (m1 w)) Hf Hnd eq_refl) as (s' & E).
    + intros k o1 o2 x Hin Hk Hp. simpl.
      assert (Hcm : common (hp w) (elems (m1 w)) (elems (m2 w)) k o1 o2)
        by (split; [apply set_names_kget, Hk|apply set_names_In, Hin]).
      destruct (Hok _ _ _ Hcm) as (_ & l & T & _ & Hi).
      apply Hi. apply (proj1 (tree_parts (hp w)) o1 l T), Hp.
    + change (foldM _ ns (set_names (hp w) (m1 w)))
        with (foldM (del_step fuel (hp w)) ns (set_names (hp w) (m1 w))).
      rewrite E. simpl. eauto.
Qed.

(** ** Small consequences and witnesses *)

Lemma copy_succeeds h o l :
  closed_heap h -> tree_of h o l ->
  exists n, forall fuel s, n <= fuel -> exists h' s' o', copy fuel h s o = Ok (h', s', o').
Proof.
  intros Hc T. destruct (proj1 (copy_total h Hc) o l T) as (n & Hn).
  exists n. intros fuel s Hf. apply Hn; [exact Hf|apply extends_refl].
Qed.

Lemma create_appends ops ob :
  models (snd (run (ops ++ [OCreate ob]))) = models (snd (run ops)) ++ [created ops] /\
  nth_error (fst (run (ops ++ [OCreate ob]))) (created ops) = Some ob.
Proof.
  rewrite run_snoc. assert (L := run_heap_length ops). destruct (run ops) as [h s]; simpl in *.
  rewrite <- L. split; [reflexivity|]. rewrite nth_error_app2 by lia.
  rewrite Nat.sub_diag. reflexivity.
Qed.

Lemma remove_exactly_one ops o : alive ops o ->
  snd (step (run ops) (ORemove o)) = None /\
  exists before after,
    models (snd (run ops)) = before ++ o :: after /\
    models (snd (run (ops ++ [ORemove o]))) = before ++ after.
Proof.
  intros H. split; [apply remove_step, H|].
  apply (proj2 (run_elems ops)) in H. rewrite run_snoc. destruct (run ops) as [h s]; simpl in *.
  destruct (list_remove_total o (elems s) H) as (l & E). unfold remove_element. rewrite E. simpl.
  apply list_remove_ok in E as (b & a & E & _ & ->). exists b, a. auto.
Qed.

Lemma other_ops_keep ops c : (forall ob, c <> OCreate ob) -> (forall o, c <> ORemove o) ->
  models (snd (run (ops ++ [c]))) = models (snd (run ops)).
Proof.
  intros H1 H2. rewrite run_snoc. destruct (run ops) as [h s].
  destruct c; simpl; try reflexivity.
  - exfalso. eapply H1; reflexivity.
  - exfalso. eapply H2; reflexivity.
Qed.

Definition wit_node (n : string) (v : Z) : obj :=
  mkObj "Node" [("name", Scal (Some (SStr n))); ("nominal_voltage", Scal (Some (SVal v)))].

Lemma add_shadowed :
  exists w w', add 5 w = Ok w' /\
    (exists o k, In o (elems (m2 w)) /\ named (hp w) o k /\
       forall x, In x (elems (m1 w')) -> nth_error (hp w') x <> nth_error (hp w) o).
Proof.
  exists (mkWorld [wit_node "n" 1; wit_node "n" 2] empty_store (mkStore [0; 1] [])).
  eexists. split; [reflexivity|].
  exists 0, (Some (SStr "n")). split; [simpl; auto|]. split.
  - exists (wit_node "n" 1). split; reflexivity.
  - intros x [<-|[]] H. discriminate H.
Qed.

Lemma delete_duplicates :
  exists w w' k o o2, NoDup (elems (m1 w)) /\ delete 5 w = Ok w' /\
    In o2 (elems (m2 w)) /\ named (hp w) o2 k /\
    In o (elems (m1 w')) /\ named (hp w) o k.
Proof.
  exists (mkWorld [wit_node "n" 1; wit_node "n" 2; wit_node "n" 3] (mkStore [0; 1] []) (mkStore [2] [])).
  eexists. exists (Some (SStr "n")), 0, 2.
  split; [repeat constructor; simpl; intuition discriminate|].
  split; [reflexivity|]. split; [simpl; auto|]. split.
  - exists (wit_node "n" 3). split; reflexivity.
  - split; [simpl; auto|]. exists (wit_node "n" 1). split; reflexivity.
Qed.
