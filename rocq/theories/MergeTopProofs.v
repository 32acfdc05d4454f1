(** Lemmas on Modifier.merge as a whole. *)
From Verif Require Import Base BaseFacts StoreModel StoreSpec StoreProofs ModifyProofs CopyProofs
  AddDeleteProofs MergeProofs.
Local Open Scope string_scope.
Local Open Scope nat_scope.
Local Open Scope list_scope.

Definition merge_step (fuel : nat) (ow : bool) (st : pair_state) (p : key * oid) : res pair_state :=
  match kget (names (snd st)) (fst p) with
  | None => Ok st
  | Some o1 =>
    if same_class (fst st) o1 (snd p) then set_attributes fuel ow st o1 (snd p) else Err EType
  end.

Section Loop.
  Variables (h0 : heap) (N : list (key * oid)).
  Hypothesis Hun : unnamed_elements h0.
  Hypothesis Huniq : unique_attrs h0.

  Definition E0 (x : oid) : Prop := forall k, ~ named h0 x k.
  Definition good0 := good (fun _ _ => True) E0 (length h0) True.

  Lemma good0_init : good0 h0.
  Proof.
    split; [lia|]. split; [|split].
    - intros o ob a l e _ Ho Hin He k. exact (Hun o ob a l e k Ho Hin He).
    - intros _ x k Hx. apply Hx.
    - exact Huniq.
  Qed.

  Lemma E0_fresh x : length h0 <= x -> E0 x.
  Proof. intros Hx k (ob & Ho & _). apply nth_error_None in Hx. congruence. Qed.

  Lemma named_not_E0 o k : named h0 o k -> ~ E0 o.
  Proof. intros H He. exact (He k H). Qed.

  (** [sel ns k o1 o2]: the pair is processed by the loop over [ns]. *)
  Definition sel (ns : list (key * oid)) (k : key) (o1 o2 : oid) : Prop :=
    In (k, o2) ns /\ kget N k = Some o1.

  Lemma merge_loop fuel ow : forall ns h s h' s',
    NoDup (map fst ns) ->
    (forall k o1 o2, sel ns k o1 o2 -> named h0 o1 k /\ named h0 o2 k /\ o1 <> o2) ->
    good0 h -> names s = N ->
    (forall k o1 o2, sel ns k o1 o2 -> nth_error h o1 = nth_error h0 o1 /\ nth_error h o2 = nth_error h0 o2) ->
    foldM (merge_step fuel ow) ns (h, s) = Ok (h', s') ->
    good0 h' /\ reg h s h' s' /\
    (forall o, ~ E0 o -> (forall k o1 o2, sel ns k o1 o2 -> o <> o1 /\ o <> o2) ->
       nth_error h' o = nth_error h o) /\
    (forall k o1 o2, sel ns k o1 o2 ->
       (exists h1 s1 h2 s2, good0 h1 /\ nth_error h1 o1 = nth_error h0 o1 /\ nth_error h1 o2 = nth_error h0 o2 /\
          set_attributes fuel ow (h1, s1) o1 o2 = Ok (h2, s2)) /\
       same_class h0 o1 o2 = true /\
       (forall a c1 c2, get_attr h0 o1 a = Some (Scal c1) -> get_attr h0 o2 a = Some (Scal c2) ->
          get_attr h' o1 a = Some (Scal (merged_value ow c1 c2))) /\
       (forall a, get_attr h0 o2 a = None -> get_attr h' o1 a = get_attr h0 o1 a /\ get_attr h' o2 a = None) /\
       (forall a c, get_attr h0 o2 a = Some (Scal c) -> get_attr h' o2 a = Some (Scal c)) /\
       (forall a l, get_attr h0 o2 a = Some (Lst l) ->
          exists l1 l1' l2', get_attr h0 o1 a = Some (Lst l1) /\ get_attr h' o1 a = Some (Lst l1') /\
                             get_attr h' o2 a = Some (Lst l2'))).
  Proof.
    induction ns as [|[k o2] t IH]; intros h s h' s' Hnd Hsel Hg HN Hsame H; cbn [foldM] in H.
    - injection H as <- <-. split; [exact Hg|]. split; [apply reg_refl|]. split; [auto|].
      intros k o1 o2 [[] _].
    - inversion Hnd as [|? ? Hni Hnd']; subst.
      assert (Hsel' : forall k o1 o2, sel t k o1 o2 -> named h0 o1 k /\ named h0 o2 k /\ o1 <> o2).
      { intros k' o1' o2' [Hi Hk]. apply (Hsel k'). split; [right; exact Hi|exact Hk]. }
      assert (Hsame' : forall k o1 o2, sel t k o1 o2 -> nth_error h o1 = nth_error h0 o1 /\ nth_error h o2 = nth_error h0 o2).
      { intros k' o1' o2' [Hi Hk]. apply (Hsame k'). split; [right; exact Hi|exact Hk]. }
      destruct (merge_step fuel ow (h, s) (k, o2)) as [[h1 s1]|] eqn:Es; [|discriminate].
      unfold merge_step in Es. cbn [fst snd] in Es.
      destruct (kget (names s) k) as [o1|] eqn:Ek.
      + destruct (same_class h o1 o2) eqn:Ec; [|discriminate].
        assert (S0 : sel ((k, o2) :: t) k o1 o2) by (split; [left; reflexivity|congruence]).
        destruct (Hsel _ _ _ S0) as (N1 & N2 & Hne).
        destruct (Hsame _ _ _ S0) as (Q1 & Q2).
        assert (Ne1 := named_not_E0 _ _ N1). assert (Ne2 := named_not_E0 _ _ N2).
        destruct (set_attributes_good (fun _ _ => True) E0 (length h0) True (fun _ _ _ => I) E0_fresh
                    fuel ow h s o1 o2 h1 s1 Hg (fun _ => I) (fun _ => I) (fun _ He => False_ind _ (Ne1 He)) Es) as (G1 & R1 & F1).
        assert (Hob : exists ob2, nth_error h0 o2 = Some ob2) by (destruct N2 as (ob2 & Hob & _); eauto).
        destruct Hob as (ob2 & Hob2).
        destruct (set_attributes_scalars (fun _ _ => True) E0 (length h0) True (fun _ _ _ => I) E0_fresh
                    fuel ow h s o1 o2 h1 s1 ob2 Hg (fun _ => I) (fun _ => I) Ne1 Ne2 Hne (eq_trans Q2 Hob2) Es)
          as (A1 & A2 & A3 & A4).
        assert (Apart : forall k' o1' o2', sel t k' o1' o2' ->
                   (o1' <> o1 /\ o1' <> o2) /\ (o2' <> o1 /\ o2' <> o2)).
        { intros k' o1' o2' S'. destruct (Hsel' _ _ _ S') as (N1' & N2' & _).
          assert (Hkk : k <> k').
          { intros ->. apply Hni. destruct S' as [Hi _]. apply (in_map fst) in Hi. exact Hi. }
          assert (J : forall x, named h0 x k' -> x <> o1 /\ x <> o2).
          { intros x Hx. split; intros ->; apply Hkk; [exact (named_fun _ _ _ _ N1 Hx)|exact (named_fun _ _ _ _ N2 Hx)]. }
          auto. }
        assert (Hsame1 : forall k o1 o2, sel t k o1 o2 -> nth_error h1 o1 = nth_error h0 o1 /\ nth_error h1 o2 = nth_error h0 o2).
        { intros k' o1' o2' S'. destruct (Hsel' _ _ _ S') as (N1' & N2' & _).
          destruct (Apart _ _ _ S') as ((P1 & P2) & (P3 & P4)). destruct (Hsame' _ _ _ S') as (T1 & T2).
          rewrite !F1 by (eauto using named_not_E0). auto. }
        assert (HN1 : names s1 = N) by (rewrite <- HN; apply R1).
        destruct (IH h1 s1 h' s' Hnd' Hsel' G1 HN1 Hsame1 H) as (G2 & R2 & F2 & K).
        assert (Keep : forall x, x = o1 \/ x = o2 -> nth_error h' x = nth_error h1 x).
        { intros x Hx. apply F2; [destruct Hx; subst; assumption|].
          intros k' o1' o2' S'. destruct (Apart _ _ _ S') as ((P1 & P2) & (P3 & P4)).
          destruct Hx; subst; split; congruence. }
        split; [exact G2|]. split; [eapply reg_trans; eauto|]. split.
        * intros o Ho Hns. destruct (Hns _ _ _ S0) as [U1 U2]. rewrite F2, F1; auto.
          intros k' o1' o2' [Hi Hk]. apply (Hns k'). split; [right; exact Hi|exact Hk].
        * intros k' o1' o2' [Hi Hk]. destruct Hi as [He|Hi].
          -- injection He as <- <-. assert (o1' = o1) by congruence. subst o1'.
             assert (B1 : forall a, get_attr h o1 a = get_attr h0 o1 a) by (apply nth_get; exact Q1).
             assert (B2 : forall a, get_attr h o2 a = get_attr h0 o2 a) by (apply nth_get; exact Q2).
             assert (C1 : forall a, get_attr h' o1 a = get_attr h1 o1 a) by (apply nth_get, Keep; auto).
             assert (C2 : forall a, get_attr h' o2 a = get_attr h1 o2 a) by (apply nth_get, Keep; auto).
             split; [exists h, s, h1, s1; auto|].
             split; [|split; [|split; [|split]]].
             ++ unfold same_class, cls_of in *. rewrite <- Q1, <- Q2. exact Ec.
             ++ intros a c1 c2 H1 H2. rewrite C1. apply A1; [rewrite B1|rewrite B2]; assumption.
             ++ intros a Ha. rewrite C1, C2. destruct (A2 a) as [-> ->]; [rewrite B2; exact Ha|]. rewrite B1. auto.
             ++ intros a c Ha. rewrite C2. apply A3. rewrite B2. exact Ha.
             ++ intros a l Ha. rewrite <- B2 in Ha. destruct (A4 a l Ha) as (l1 & l1' & l2' & T1 & T2 & T3).
                exists l1, l1', l2'. rewrite C1, C2, <- B1. auto.
          -- apply (K k'). split; assumption.
      + injection Es as <- <-.
        destruct (IH h s h' s' Hnd' Hsel' Hg HN Hsame' H) as (G2 & R2 & F2 & K).
        split; [exact G2|]. split; [exact R2|]. split.
        * intros o Ho Hns. apply F2; [exact Ho|]. intros k' o1' o2' [Hi Hk].
          apply (Hns k'). split; [right; exact Hi|exact Hk].
        * intros k' o1' o2' [[He|Hi] Hk]; [injection He as <- <-; congruence|]. apply (K k'). split; assumption.
  Qed.
End Loop.

Lemma merged_value_same ow c : merged_value ow c c = c.
Proof. destruct c, ow; reflexivity. Qed.

(** What a successful merge does; [named_same] and the rest are used for repeated merges. *)
Lemma merge_effect_get fuel ow w w' :
  unnamed_elements (hp w) -> unique_attrs (hp w) ->
  registered (hp w) (m1 w) ->
  separate (hp w) (elems (m1 w)) (elems (m2 w)) ->
  merge fuel ow w = Ok w' ->
  let h := hp w in let h' := hp w' in
  let C := common h (elems (m1 w)) (elems (m2 w)) in
  good0 h h' /\
  length h <= length h' /\
  elems (m1 w') = elems (m1 w) ++ seq (length h) (length h' - length h) /\
  elems (m2 w') = elems (m2 w) /\
  (forall o k, named h' o k <-> named h o k) /\
  (forall k o, getitem (m1 w') k = Ok o <-> last_named h (elems (m1 w)) k o) /\
  (forall o k0, named h o k0 -> (forall k o1 o2, C k o1 o2 -> o <> o1 /\ o <> o2) ->
     nth_error h' o = nth_error h o) /\
  (forall k o1 o2, C k o1 o2 ->
     same_class h o1 o2 = true /\
     (forall a c1 c2, get_attr h o1 a = Some (Scal c1) -> get_attr h o2 a = Some (Scal c2) ->
        get_attr h' o1 a = Some (Scal (merged_value ow c1 c2))) /\
     (forall a, get_attr h o2 a = None -> get_attr h' o1 a = get_attr h o1 a /\ get_attr h' o2 a = None) /\
     (forall a c, get_attr h o2 a = Some (Scal c) -> get_attr h' o2 a = Some (Scal c)) /\
     (forall a l, get_attr h o2 a = Some (Lst l) ->
        exists l1 l1' l2', get_attr h o1 a = Some (Lst l1) /\ get_attr h' o1 a = Some (Lst l1') /\
                           get_attr h' o2 a = Some (Lst l2'))).
Proof.
  intros Hun Huq Hr1 Hsep H. unfold merge in H.
  set (ns := names (set_names (hp w) (m2 w))) in *.
  set (s1 := set_names (hp w) (m1 w)) in *.
  change (foldM _ ns (hp w, s1)) with (foldM (merge_step fuel ow) ns (hp w, s1)) in H.
  destruct (foldM (merge_step fuel ow) ns (hp w, s1)) as [[h' s']|] eqn:E; [|discriminate].
  cbn [bind] in H. injection H as <-. cbn [hp m1 m2].
  assert (Hsel : forall k o1 o2, sel (names s1) ns k o1 o2 <->
                   common (hp w) (elems (m1 w)) (elems (m2 w)) k o1 o2).
  { intros k o1 o2. unfold sel, common. rewrite and_comm. unfold s1, ns.
    rewrite set_names_kget, set_names_In. tauto. }
  assert (Hnamed : forall k o1 o2, sel (names s1) ns k o1 o2 ->
             named (hp w) o1 k /\ named (hp w) o2 k /\ o1 <> o2).
  { intros k o1 o2 S. apply Hsel in S as [S1 S2].
    apply last_named_In in S1 as [I1 N1]. apply last_named_In in S2 as [I2 N2].
    split; [exact N1|]. split; [exact N2|]. intros ->. exact (Hsep _ _ I1 I2 N2). }
  destruct (merge_loop (hp w) (names s1) fuel ow ns (hp w) s1 h' s') as (G & R & F & K).
  - apply set_names_keys_NoDup.
  - exact Hnamed.
  - apply good0_init; assumption.
  - reflexivity.
  - auto.
  - exact E.
  - destruct R as (RN & RL & RE). cbn [set_names elems] in RE.
    assert (Nm : forall o k, named h' o k <-> named (hp w) o k).
    { intros o k. destruct (name_of (hp w) o) as [k0|] eqn:En.
      - apply name_of_named in En.
        assert (Ne := named_not_E0 _ _ _ En).
        assert (Hk0 : get_attr h' o "name" = Some (Scal k0)).
        { assert (Free : (forall o1 o2, sel (names s1) ns k0 o1 o2 -> o <> o1 /\ o <> o2) ->
                         get_attr h' o "name" = Some (Scal k0)).
          { intros Hfree. assert (FF : nth_error h' o = nth_error (hp w) o).
            { apply F; [exact Ne|]. intros k' o1' o2' S'.
              destruct (Hnamed _ _ _ S') as (N1' & N2' & _).
              split; intros <-.
              - rewrite (named_fun _ _ _ _ N1' En) in S'. destruct (Hfree _ _ S') as [Q _]. apply Q; reflexivity.
              - rewrite (named_fun _ _ _ _ N2' En) in S'. destruct (Hfree _ _ S') as [_ Q]. apply Q; reflexivity. }
            rewrite (nth_get _ _ _ FF). apply named_get, En. }
          destruct (kget (names s1) k0) as [o1|] eqn:Ek1;
            [|apply Free; intros o1 o2 [_ S']; congruence].
          destruct (kget ns k0) as [o2|] eqn:Ek2.
          - assert (S : sel (names s1) ns k0 o1 o2) by (split; [apply kget_In, Ek2|exact Ek1]).
            destruct (K _ _ _ S) as (_ & _ & A1 & _ & A3 & _).
            destruct (Hnamed _ _ _ S) as (N1 & N2 & _).
            apply named_get in N1. apply named_get in N2.
            destruct (Nat.eq_dec o o1) as [->|Hn1].
            + rewrite (A1 _ _ _ N1 N2), merged_value_same. reflexivity.
            + destruct (Nat.eq_dec o o2) as [->|Hn2]; [apply A3, N2|].
              apply Free. intros o1' o2' [S1 S2].
              apply kget_NoDup in S1; [|apply set_names_keys_NoDup]. split; congruence.
          - apply Free. intros o1' o2' [S1 _].
            apply kget_NoDup in S1; [congruence|apply set_names_keys_NoDup]. }
        split; intros Hn.
        + apply named_get in Hn. assert (k = k0) by congruence. subst. exact En.
        + apply named_get. rewrite (named_fun _ _ _ _ Hn En). exact Hk0.
      - assert (He : E0 (hp w) o).
        { intros k' Hk'. apply name_of_named in Hk'. congruence. }
        destruct G as (_ & _ & Hn & _). split; intros Hk; exfalso; [exact (Hn I o k He Hk)|exact (He k Hk)]. }
    split; [exact G|]. split; [exact RL|]. split; [exact RE|]. split; [reflexivity|].
    split; [exact Nm|]. split; [|split].
    + intros k o. rewrite set_names_lookup, RE, last_named_app.
      rewrite (last_named_ext h' (hp w)) by (intros; apply Nm). rewrite (last_named_ext h' (hp w)) by (intros; apply Nm).
      assert (Fr : forall y, In y (seq (length (hp w)) (length h' - length (hp w))) -> ~ named (hp w) y k).
      { intros y Hy. apply in_seq in Hy. apply E0_fresh. lia. }
      split.
      * intros [Hl|[Hl _]]; [|exact Hl]. apply last_named_In in Hl. exfalso. exact (Fr _ (proj1 Hl) (proj2 Hl)).
      * intros Hl. right. split; [exact Hl|]. intros y Hy Hn. apply Nm in Hn. exact (Fr y Hy Hn).
    + intros o k0 Ho Hc. apply F; [eapply named_not_E0; eauto|].
      intros k o1 o2 S. apply Hsel in S. exact (Hc _ _ _ S).
    + intros k o1 o2 Hc. apply Hsel in Hc. exact (proj2 (K _ _ _ Hc)).
Qed.

(** The statement for clients. *)
Lemma merge_effect fuel ow w w' :
  unnamed_elements (hp w) -> unique_attrs (hp w) -> registered (hp w) (m1 w) ->
  separate (hp w) (elems (m1 w)) (elems (m2 w)) ->
  merge fuel ow w = Ok w' ->
  (exists n, elems (m1 w') = elems (m1 w) ++ seq (length (hp w)) n /\ length (hp w') = length (hp w) + n) /\
  elems (m2 w') = elems (m2 w) /\
  (forall k o, getitem (m1 w') k = Ok o <-> last_named (hp w) (elems (m1 w)) k o) /\
  (forall k o1 o2, common (hp w) (elems (m1 w)) (elems (m2 w)) k o1 o2 ->
     (exists b1 b2, nth_error (hp w) o1 = Some b1 /\ nth_error (hp w) o2 = Some b2 /\ cls b1 = cls b2) /\
     (forall a c1 c2, has_attr (hp w) o1 a (Scal c1) -> has_attr (hp w) o2 a (Scal c2) ->
        has_attr (hp w') o1 a (Scal (merged_value ow c1 c2))) /\
     (forall a c1, has_attr (hp w) o1 a (Scal c1) -> (forall v, ~ has_attr (hp w) o2 a v) ->
        has_attr (hp w') o1 a (Scal c1)) /\
     (forall a c2, has_attr (hp w) o2 a (Scal c2) -> has_attr (hp w') o2 a (Scal c2))) /\
  (forall o k0, named (hp w) o k0 ->
     (forall k o1 o2, common (hp w) (elems (m1 w)) (elems (m2 w)) k o1 o2 -> o <> o1 /\ o <> o2) ->
     nth_error (hp w') o = nth_error (hp w) o).
Proof.
  intros H1 H2 H3 H4 H5.
  destruct (merge_effect_get _ _ _ _ H1 H2 H3 H4 H5) as (G & Ln & Em1 & Em2 & Nm & Lk & F & K).
  cbv zeta in *.
  split; [exists (length (hp w') - length (hp w)); split; [exact Em1|lia]|].
  split; [exact Em2|]. split; [exact Lk|]. split; [|exact F].
  intros k o1 o2 C. destruct (K _ _ _ C) as (Hcl & A1 & A2 & A3 & _).
  split; [apply same_class_spec, Hcl|]. split; [|split].
  - intros a c1 c2. rewrite !has_attr_get. apply A1.
  - intros a c1. rewrite !has_attr_get. intros Ha Hno. assert (Q : get_attr (hp w) o2 a = None); [|rewrite (proj1 (A2 a Q)); exact Ha].
    destruct (get_attr (hp w) o2 a) as [v|] eqn:E; [|reflexivity].
    exfalso. apply (Hno v). apply has_attr_get, E.
  - intros a c2. rewrite !has_attr_get. apply A3.
Qed.

(** The hypotheses survive a merge, so that merges can be iterated. *)
Lemma merge_keeps_hypotheses fuel ow w w' :
  unnamed_elements (hp w) -> unique_attrs (hp w) -> registered (hp w) (m1 w) -> registered (hp w) (m2 w) ->
  separate (hp w) (elems (m1 w)) (elems (m2 w)) ->
  merge fuel ow w = Ok w' ->
  unnamed_elements (hp w') /\ unique_attrs (hp w') /\ registered (hp w') (m1 w') /\ registered (hp w') (m2 w') /\
  separate (hp w') (elems (m1 w')) (elems (m2 w')) /\
  (forall k o1 o2, common (hp w') (elems (m1 w')) (elems (m2 w')) k o1 o2 <->
                   common (hp w) (elems (m1 w)) (elems (m2 w)) k o1 o2).
Proof.
  intros H1 H2 H3 H3' H4 H5.
  destruct (merge_effect_get _ _ _ _ H1 H2 H3 H4 H5) as (G & Ln & Em1 & Em2 & Nm & Lk & F & K).
  cbv zeta in *. destruct G as (_ & Gc & _ & Gq).
  assert (Fr : forall y k n, In y (seq (length (hp w)) n) -> ~ named (hp w') y k).
  { intros y k n Hy Hn. apply Nm in Hn. apply in_seq in Hy. apply (E0_fresh (hp w) y) in Hn; [destruct Hn|lia]. }
  split; [|split; [|split; [|split; [|split]]]].
  - intros o ob a l e k Ho Hin He Hn. apply Nm in Hn. exact (Gc o ob a l e I Ho Hin He k Hn).
  - exact Gq.
  - intros o Ho. rewrite Em1 in Ho. apply in_app_iff in Ho as [Ho|Ho].
    + specialize (H3 o Ho). lia.
    + apply in_seq in Ho. lia.
  - intros o Ho. rewrite Em2 in Ho. specialize (H3' o Ho). lia.
  - intros o k Hi1 Hi2 Hn. rewrite Em1 in Hi1. rewrite Em2 in Hi2.
    apply in_app_iff in Hi1 as [Hi1|Hi1]; [|exact (Fr _ _ _ Hi1 Hn)].
    apply Nm in Hn. exact (H4 o k Hi1 Hi2 Hn).
  - intros k o1 o2. unfold common. rewrite Em1, Em2, last_named_app.
    rewrite (last_named_ext (hp w') (hp w) (elems (m1 w))) by (intros; apply Nm).
    rewrite (last_named_ext (hp w') (hp w) (elems (m2 w))) by (intros; apply Nm).
    split.
    + intros [[Hl|[Hl _]] H2']; [|auto]. apply last_named_In in Hl. exfalso. exact (Fr _ _ _ (proj1 Hl) (proj2 Hl)).
    + intros [Hl H2']. split; [|exact H2']. right. split; [exact Hl|]. intros y Hy. apply (Fr _ _ _ Hy).
Qed.

Lemma merged_value_twice ow c1 c2 : merged_value ow (merged_value ow c1 c2) c2 = merged_value ow c1 c2.
Proof. destruct c1, c2, ow; reflexivity. Qed.

(** Merging the same model a second time changes no scalar attribute of a named object. *)
Lemma merge_twice fuel fuel' ow w w1 w2 :
  unnamed_elements (hp w) -> unique_attrs (hp w) -> registered (hp w) (m1 w) -> registered (hp w) (m2 w) ->
  separate (hp w) (elems (m1 w)) (elems (m2 w)) ->
  merge fuel ow w = Ok w1 -> merge fuel' ow w1 = Ok w2 ->
  forall o k a c0 c, named (hp w) o k -> has_attr (hp w) o a (Scal c0) ->
    has_attr (hp w1) o a (Scal c) -> has_attr (hp w2) o a (Scal c).
Proof.
  intros H1 H2 H3 H3' H4 M1 M2 o k a c0 c Hn H0 Ha.
  destruct (merge_effect_get _ _ _ _ H1 H2 H3 H4 M1) as (_ & _ & _ & _ & Nm & _ & F & K).
  destruct (merge_keeps_hypotheses _ _ _ _ H1 H2 H3 H3' H4 M1) as (H1' & H2' & H3a & H3b & H4' & HC).
  destruct (merge_effect_get _ _ _ _ H1' H2' H3a H4' M2) as (_ & _ & _ & _ & Nm2 & _ & F2 & K2).
  cbv zeta in *. rewrite has_attr_get in *.
  assert (Hn1 : named (hp w1) o k) by (apply Nm, Hn).
  assert (Untouched :
    (forall o1 o2, common (hp w) (elems (m1 w)) (elems (m2 w)) k o1 o2 -> o <> o1 /\ o <> o2) ->
    get_attr (hp w2) o a = Some (Scal c)).
  { intros Hu.
    assert (Hu' : forall k' o1 o2, common (hp w) (elems (m1 w)) (elems (m2 w)) k' o1 o2 -> o <> o1 /\ o <> o2).
    { intros k' o1 o2 C. destruct (key_dec k' k) as [->|Hne]; [eauto|].
      destruct C as [C1 C2]. apply last_named_In in C1 as [_ C1]. apply last_named_In in C2 as [_ C2].
      split; intros <-; apply Hne; [exact (named_fun _ _ _ _ C1 Hn)|exact (named_fun _ _ _ _ C2 Hn)]. }
    assert (F2o : nth_error (hp w2) o = nth_error (hp w1) o).
    { apply (F2 o k Hn1). intros k' o1 o2 C. apply HC in C. exact (Hu' _ _ _ C). }
    rewrite (nth_get _ _ _ F2o). exact Ha. }
  destruct (kget (names (set_names (hp w) (m1 w))) k) as [o1|] eqn:E1;
    [|apply Untouched; intros o1 o2 [C _]; apply set_names_kget in C; congruence].
  destruct (kget (names (set_names (hp w) (m2 w))) k) as [o2|] eqn:E2;
    [|apply Untouched; intros o1' o2 [_ C]; apply set_names_kget in C; congruence].
  assert (C : common (hp w) (elems (m1 w)) (elems (m2 w)) k o1 o2)
    by (split; apply set_names_kget; assumption).
  assert (C1 : common (hp w1) (elems (m1 w1)) (elems (m2 w1)) k o1 o2) by (apply HC, C).
  destruct (K _ _ _ C) as (_ & A1 & A2 & A3 & A4).
  destruct (K2 _ _ _ C1) as (_ & B1 & B2 & B3 & B4).
  destruct (Nat.eq_dec o o1) as [->|Hd1]; [|destruct (Nat.eq_dec o o2) as [->|Hd2]].
  - destruct (get_attr (hp w) o2 a) as [[c2|l2]|] eqn:Ea2.
    + rewrite (B1 _ _ _ Ha (A3 _ _ Ea2)). rewrite (A1 _ _ _ H0 Ea2) in Ha. injection Ha as <-.
      rewrite merged_value_twice. reflexivity.
    + exfalso. destruct (A4 _ _ Ea2) as (l1 & ? & ? & Q & _). congruence.
    + destruct (A2 _ Ea2) as [_ Q]. rewrite (proj1 (B2 _ Q)). exact Ha.
  - apply B3. exact Ha.
  - apply Untouched. intros o1' o2' [C1' C2']. apply set_names_kget in C1', C2'. split; congruence.
Qed.

(** An attribute list of non-objects in model 2 makes the merge fail. *)
Lemma merge_attr_raw fuel0 fuel ow o1 o2 a h s v t r :
  get_attr h o2 a = Some (Lst (Some (ERaw v :: t))) ->
  merge_attr fuel0 (sa_rec fuel ow) ow o1 o2 a true (h, s) = Ok r -> False.
Proof.
  intros E2. unfold merge_attr. rewrite E2.
  destruct (get_attr h o1 a) as [[|v1]|]; try discriminate.
  destruct v1 as [[|x1 l1]|]; simpl; try discriminate.
  destruct (elt_has_phase h x1); simpl; destruct x1; discriminate.
Qed.

Lemma set_attributes_raw (D : oid -> string -> Prop) (E : oid -> Prop) L (NM : Prop) fuel ow h s o1 o2 r ob2 a v t :
  (forall x b, E x -> D x b) -> (forall x, L <= x -> E x) ->
  good D E L NM h -> (forall b, D o1 b) -> (forall b, D o2 b) -> ~ E o1 -> ~ E o2 -> o1 <> o2 ->
  nth_error h o2 = Some ob2 -> dget (attrs ob2) a = Some (Lst (Some (ERaw v :: t))) ->
  set_attributes fuel ow (h, s) o1 o2 = Ok r -> False.
Proof.
  intros HED Hfr Hg D1 D2 N1 N2 Hne Ho2 Ha H.
  assert (Hnd := proj2 (proj2 (proj2 Hg)) _ _ Ho2).
  destruct fuel as [|fuel]; [discriminate|].
  rewrite set_attributes_S in H. cbn [fst] in H. rewrite Ho2 in H.
  assert (Hr := sa_rec_good D E L NM HED Hfr fuel ow).
  assert (Hga : get_attr h o2 a = Some (Lst (Some (ERaw v :: t)))) by (unfold get_attr; rewrite Ho2; exact Ha).
  apply dget_In in Ha. clear Ho2.
  revert h s Hg Hga H. induction (attrs ob2) as [|[b w] l IH]; intros h s Hg Hga H; [destruct Ha|].
  cbn [foldM] in H. destruct (sa_step fuel ow o1 o2 (h, s) (b, w)) as [[h1 s1]|] eqn:Es; [|discriminate].
  inversion Hnd as [|? ? Hni Hnd']; subst. destruct Ha as [He|Ha].
  - injection He as -> ->. unfold sa_step in Es. cbn [fst snd is_list_attr] in Es.
    exact (merge_attr_raw _ _ _ _ _ _ _ _ _ _ _ Hga Es).
  - assert (Hab : a <> b) by (intros ->; apply Hni; apply (in_map fst) in Ha; exact Ha).
    assert (Hnm : NM -> E o1 -> E o2) by tauto.
    destruct (merge_attr_good D E L NM HED Hfr _ _ _ _ _ _ _ _ _ _ _ Hr Hg (D1 _) (D2 _) Hnm Es) as (G1 & R1 & F1 & LA & SA).
    apply (IH Ha Hnd' h1 s1 G1); [|exact H].
    cbn [fst snd] in *. destruct w as [c|m]; cbn [is_list_attr] in *.
    + destruct (SA eq_refl) as (_ & _ & _ & S2). rewrite (nth_get _ _ _ (S2 (not_eq_sym Hne))). exact Hga.
    + destruct (LA eq_refl) as (_ & A2 & _). rewrite (proj1 (A2 N2) a Hab). exact Hga.
Qed.

Lemma merge_raw_fails fuel ow w w' k o1 o2 a v t :
  unnamed_elements (hp w) -> unique_attrs (hp w) -> registered (hp w) (m1 w) ->
  separate (hp w) (elems (m1 w)) (elems (m2 w)) ->
  common (hp w) (elems (m1 w)) (elems (m2 w)) k o1 o2 ->
  has_attr (hp w) o2 a (Lst (Some (ERaw v :: t))) ->
  merge fuel ow w <> Ok w'.
Proof.
  intros Hun Huq Hr1 Hsep HC Ha H. unfold merge in H.
  set (ns := names (set_names (hp w) (m2 w))) in *.
  set (s1 := set_names (hp w) (m1 w)) in *.
  change (foldM _ ns (hp w, s1)) with (foldM (merge_step fuel ow) ns (hp w, s1)) in H.
  destruct (foldM (merge_step fuel ow) ns (hp w, s1)) as [[h' s']|] eqn:E; [|discriminate].
  assert (Hsel : forall k o1 o2, sel (names s1) ns k o1 o2 <->
                   common (hp w) (elems (m1 w)) (elems (m2 w)) k o1 o2).
  { intros. unfold sel, common. rewrite and_comm. unfold s1, ns.
    rewrite set_names_kget, set_names_In. tauto. }
  assert (Hnamed : forall k o1 o2, sel (names s1) ns k o1 o2 ->
             named (hp w) o1 k /\ named (hp w) o2 k /\ o1 <> o2).
  { intros k' o1' o2' S. apply Hsel in S as [S1 S2].
    apply last_named_In in S1 as [I1 N1]. apply last_named_In in S2 as [I2 N2].
    split; [exact N1|]. split; [exact N2|]. intros ->. exact (Hsep _ _ I1 I2 N2). }
  destruct (merge_loop (hp w) (names s1) fuel ow ns (hp w) s1 h' s') as (G & R & F & K);
    [apply set_names_keys_NoDup|exact Hnamed|apply good0_init; assumption|reflexivity|auto|exact E|].
  apply Hsel in HC. destruct (Hnamed _ _ _ HC) as (N1 & N2 & Hne).
  destruct (K _ _ _ HC) as ((h1 & s2 & h2 & s3 & G1 & Q1 & Q2 & Sa) & _).
  destruct Ha as (ob2 & Ho2 & Hd).
  exact (set_attributes_raw (fun _ _ => True) (E0 (hp w)) (length (hp w)) True fuel ow h1 s2 o1 o2 _ ob2 a v t
           (fun _ _ _ => I) (E0_fresh (hp w)) G1 (fun _ => I) (fun _ => I) (named_not_E0 _ _ _ N1) (named_not_E0 _ _ _ N2) Hne
           (eq_trans Q2 Ho2) Hd Sa).
Qed.
