(** The phase-wise part of Modifier.set_attributes as a whole. *)
From Coq Require Import Sorted Permutation.
From Verif Require Import Base BaseFacts StoreModel StoreSpec StoreProofs ModifyProofs CopyProofs
  AddDeleteProofs MergeProofs MergeTopProofs PhaseMergeProofs.
Local Open Scope string_scope.
Local Open Scope nat_scope.
Local Open Scope list_scope.

Lemma within_snoc h y x ob b l z :
  within h y x -> nth_error h x = Some ob -> In (b, Lst (Some l)) (attrs ob) -> In (EObj z) l -> within h y z.
Proof.
  induction 1 as [y|y ob' b' l' w x Hy Hin Hw H IH]; intros Hx Hb Hz.
  - eapply within_step; [exact Hx|exact Hb|exact Hz|constructor].
  - eapply within_step; [exact Hy|exact Hin|exact Hw|auto].
Qed.

Section Fold.
  Variables (h0 : heap) (o1 o2 : oid) (a : string).
  Definition E1 (x : oid) : Prop :=
    length h0 <= x \/
    exists o ob b l z, (o = o1 \/ o = o2) /\ nth_error h0 o = Some ob /\ b <> a /\
      In (b, Lst (Some l)) (attrs ob) /\ In (EObj z) l /\ within h0 z x.
  Definition D1 (o : oid) (b : string) : Prop := E1 o \/ ((o = o1 \/ o = o2) /\ b <> a).
  Definition good1 := good D1 E1 (length h0) False.

  Lemma E1_D1 x b : E1 x -> D1 x b. Proof. left; assumption. Qed.
  Lemma E1_fresh x : length h0 <= x -> E1 x. Proof. left; assumption. Qed.

  Lemma good1_init : unique_attrs h0 -> good1 h0.
  Proof.
    intros Huq. split; [lia|]. split; [|split; [tauto|exact Huq]].
    intros o ob b l e [He|[Ho Hb]] Hn Hin Hl.
    - destruct He as [He|(o' & ob' & b' & l' & z & Ho' & Hn' & Hb' & Hin' & Hz & W)].
      + apply nth_error_None in He. congruence.
      + right. exists o', ob', b', l', z. repeat (split; [assumption|]). eapply within_snoc; eauto.
    - right. exists o, ob, b, l, e. repeat (split; [assumption|]). constructor.
  Qed.

  Hypothesis Hne : o1 <> o2.
  Hypothesis N1 : ~ E1 o1.
  Hypothesis N2 : ~ E1 o2.

  Lemma sa_fold fuel ow : forall l h s h' s',
    (forall b v, In (b, v) l -> b <> a) -> good1 h ->
    foldM (sa_step fuel ow o1 o2) l (h, s) = Ok (h', s') ->
    good1 h' /\ (forall o, ~ E1 o -> o <> o1 -> o <> o2 -> nth_error h' o = nth_error h o) /\
    get_attr h' o1 a = get_attr h o1 a /\ get_attr h' o2 a = get_attr h o2 a.
  Proof.
    assert (Hr := sa_rec_good D1 E1 (length h0) False E1_D1 E1_fresh fuel ow).
    induction l as [|[b v] t IH]; intros h s h' s' Hb Hg H.
    - injection H as <- <-. auto.
    - cbn [foldM] in H. destruct (sa_step fuel ow o1 o2 (h, s) (b, v)) as [[h1 s1]|] eqn:Es; [|discriminate].
      assert (Hba : b <> a) by (apply (Hb b v); left; reflexivity).
      destruct (merge_attr_good D1 E1 (length h0) False E1_D1 E1_fresh _ _ _ _ _ _ _ _ _ _ _ Hr Hg
                  (or_intror (conj (or_introl eq_refl) Hba)) (or_intror (conj (or_intror eq_refl) Hba))
                  (fun f _ => match f with end) Es) as (G1 & R1 & F1 & LA & SA).
      destruct (IH h1 s1 h' s') as (G2 & F2 & A2 & B2).
      { intros b' v' Hi. apply (Hb b' v'). right; exact Hi. }
      { exact G1. }
      { exact H. }
      assert (Q : get_attr h1 o1 a = get_attr h o1 a /\ get_attr h1 o2 a = get_attr h o2 a).
      { cbn [fst snd] in *. destruct v as [c|m]; cbn [is_list_attr] in *.
        - destruct (SA eq_refl) as (S1 & _ & _ & S2). split; [apply S1; congruence|].
          apply nth_get, S2. congruence.
        - destruct (LA eq_refl) as (A1 & B1 & _).
          split; [apply (proj1 (A1 N1))|apply (proj1 (B1 N2))]; congruence. }
      split; [exact G2|]. split; [|split; [rewrite A2; apply Q|rewrite B2; apply Q]].
      intros o Ho Ho1 Ho2. rewrite F2, F1 by assumption. reflexivity.
  Qed.
End Fold.

Lemma rank_order p n : rank p = Some n <-> phase_order (Some (SStr p)) = Ok n.
Proof.
  unfold phase_order.
  destruct (String.eqb_spec p "A") as [->|NA]; [simpl; split; congruence|].
  destruct (String.eqb_spec p "B") as [->|NB]; [simpl; split; congruence|].
  destruct (String.eqb_spec p "C") as [->|NC]; [simpl; split; congruence|].
  destruct (String.eqb_spec p "N") as [->|NN]; [simpl; split; congruence|].
  assert (E : rank p = None); [|rewrite E; split; discriminate].
  unfold rank. destruct p as [|[[] [] [] [] [] [] [] []] [|]]; try reflexivity; congruence.
Qed.

Lemma rank_inj p q n : rank p = Some n -> rank q = Some n -> p = q.
Proof.
  rewrite !rank_order. unfold phase_order.
  destruct (String.eqb_spec p "A"), (String.eqb_spec p "B"), (String.eqb_spec p "C"), (String.eqb_spec p "N"),
    (String.eqb_spec q "A"), (String.eqb_spec q "B"), (String.eqb_spec q "C"), (String.eqb_spec q "N");
    intros H1 H2; try congruence; subst; injection H1; injection H2; intros; subst; discriminate.
Qed.

Definition Kof (h : heap) (z : oid) : nat := match elt_phase h (EObj z) with Ok n => n | Err _ => 0 end.

Lemma phase_of_K h z p n : phase_of h z p -> rank p = Some n -> elt_phase h (EObj z) = Ok n /\ Kof h z = n.
Proof.
  intros H Hr. apply has_attr_get in H. apply rank_order in Hr.
  assert (E : elt_phase h (EObj z) = Ok n) by (unfold elt_phase; rewrite H; exact Hr).
  split; [exact E|]. unfold Kof. rewrite E. reflexivity.
Qed.

Lemma phase_of_fun h z p q : phase_of h z p -> phase_of h z q -> p = q.
Proof. unfold phase_of. rewrite !has_attr_get. congruence. Qed.

Lemma phase_list_K h l : phase_list h l ->
  (forall z, In z l -> elt_phase h (EObj z) = Ok (Kof h z)) /\ NoDup (map (Kof h) l).
Proof.
  intros (Hnd & Hp & Hu). split.
  - intros z Hz. destruct (Hp z Hz) as (_ & p & n & P & R).
    destruct (phase_of_K _ _ _ _ P R) as [E ->]. exact E.
  - assert (Hinj : forall x y, In x l -> In y l -> Kof h x = Kof h y -> x = y).
    { intros x y Hx Hy E. destruct (Hp x Hx) as (_ & p & n & P & R). destruct (Hp y Hy) as (_ & q & m & P' & R').
      destruct (phase_of_K _ _ _ _ P R) as [_ Ex]. destruct (phase_of_K _ _ _ _ P' R') as [_ Ey].
      assert (Enm : m = n) by congruence. rewrite Enm in R'. rewrite (rank_inj _ _ _ R' R) in P'. exact (Hu x y p Hx Hy P P'). }
    clear Hp Hu. induction Hnd as [|x t Hni Hnd IH]; [constructor|]. cbn [map]. constructor.
    + intros Q. apply in_map_iff in Q as (y & E & Hy). apply Hni.
      rewrite <- (Hinj y x (or_intror Hy) (or_introl eq_refl) E). exact Hy.
    + apply IH. intros u v Hu Hv. apply Hinj; right; assumption.
Qed.

Lemma added_In h l1 l2 : phase_list h l1 -> phase_list h l2 -> forall z,
  In z (added (Kof h) l1 l2) <->
  In z l2 /\ exists p, phase_of h z p /\ ~ has_phase h l1 p /\ has_later_phase h l1 p.
Proof.
  intros (_ & Hp1 & _) (_ & Hp2 & _) z. unfold added. rewrite filter_In, andb_true_iff, negb_true_iff.
  split; intros [Hz H]; (split; [exact Hz|]); destruct (Hp2 z Hz) as (_ & p & n & P & R);
    destruct (phase_of_K _ _ _ _ P R) as [_ Ez].
  - destruct H as [H1 H2]. exists p. split; [exact P|]. split.
    + intros (x & Hx & Px). destruct (phase_of_K _ _ _ _ Px R) as [_ Ex].
      apply not_true_iff_false in H1. apply H1, existsb_exists. exists x. split; [exact Hx|]. apply Nat.eqb_eq. congruence.
    + apply existsb_exists in H2 as (x & Hx & E). apply Nat.ltb_lt in E.
      destruct (Hp1 x Hx) as (_ & q & m & Q & Rq). destruct (phase_of_K _ _ _ _ Q Rq) as [_ Ex].
      exists x, q, n, m. repeat (split; [assumption|]). lia.
  - destruct H as (p' & P' & Hno & (x & q & i & j & Hx & Q & Ri & Rj & Hij)).
    rewrite (phase_of_fun _ _ _ _ P' P) in *. split.
    + apply not_true_iff_false. intros E. apply existsb_exists in E as (y & Hy & E). apply Nat.eqb_eq in E.
      apply Hno. exists y. split; [exact Hy|]. destruct (Hp1 y Hy) as (_ & r & m & Pr & Rr).
      destruct (phase_of_K _ _ _ _ Pr Rr) as [_ Ey]. assert (Emn : m = n) by congruence. rewrite Emn in Rr.
      rewrite <- (rank_inj _ _ _ Rr R). exact Pr.
    + apply existsb_exists. exists x. split; [exact Hx|]. apply Nat.ltb_lt.
      destruct (phase_of_K _ _ _ _ Q Rj) as [_ Ex]. assert (i = n) by congruence. lia.
Qed.

Lemma added_perm K l1 l1' l2 l2' : Permutation l1 l1' -> Permutation l2 l2' ->
  forall z, In z (added K l1 l2) <-> In z (added K l1' l2').
Proof.
  intros P1 P2 z. unfold added. rewrite !filter_In, !andb_true_iff, !negb_true_iff.
  assert (Ex : forall f : oid -> bool, existsb f l1 = existsb f l1').
  { intros f. clear -P1. induction P1; cbn [existsb]; [reflexivity|congruence| |congruence].
    destruct (f x), (f y); reflexivity. }
  rewrite (Ex (fun x => K x =? K z)), (Ex (fun x => K z <? K x)).
  split; intros [Hz H]; (split; [|exact H]); eapply Permutation_in; try exact Hz; [|symmetry]; assumption.
Qed.

Lemma NoDup_app2 {A} (l m : list A) : NoDup l -> NoDup m -> (forall x, In x l -> ~ In x m) -> NoDup (l ++ m).
Proof.
  induction 1 as [|x t Hni Hnd IH]; intros Hm Hd; [exact Hm|]. cbn [app]. constructor.
  - rewrite in_app_iff. intros [Q|Q]; [exact (Hni Q)|exact (Hd x (or_introl eq_refl) Q)].
  - apply IH; [exact Hm|]. intros y Hy. apply Hd. right; exact Hy.
Qed.

(** What set_attributes does to one list of per-phase sub-objects. *)
Lemma set_attributes_phases fuel ow h s o1 o2 a l1 l2 h' s' :
  unique_attrs h -> o1 <> o2 ->
  has_attr h o1 a (Lst (Some (map EObj l1))) -> has_attr h o2 a (Lst (Some (map EObj l2))) ->
  l1 <> [] -> l2 <> [] -> phase_list h l1 -> phase_list h l2 -> (forall x, In x l1 -> ~ In x l2) ->
  apart h o1 o2 a (o1 :: o2 :: l1 ++ l2) ->
  set_attributes fuel ow (h, s) o1 o2 = Ok (h', s') ->
  exists l',
    has_attr h' o1 a (Lst (Some (map EObj l'))) /\ NoDup l' /\
    (forall z, In z l' <->
       In z l1 \/ (In z l2 /\ exists p, phase_of h z p /\ ~ has_phase h l1 p /\ has_later_phase h l1 p)) /\
    (forall x y p, In x l1 -> In y l2 -> phase_of h x p -> phase_of h y p ->
       (forall b c1 c2, has_attr h x b (Scal c1) -> has_attr h y b (Scal c2) ->
          has_attr h' x b (Scal (merged_value ow c1 c2))) /\
       (forall b c1, has_attr h x b (Scal c1) -> (forall v, ~ has_attr h y b v) -> has_attr h' x b (Scal c1))) /\
    (forall x, In x l1 -> (forall p, phase_of h x p -> ~ has_phase h l2 p) -> nth_error h' x = nth_error h x) /\
    (forall y, In y l2 -> nth_error h' y = nth_error h y).
Proof.
  intros Huq Hne A1 A2 L1 L2 PL1 PL2 Hd Hap H.
  assert (A1' := A1). assert (A2' := A2). apply has_attr_get in A1', A2'.
  destruct A1 as (ob1 & Ho1 & Ha1). destruct A2 as (ob2 & Ho2 & Ha2).
  assert (Hleaf : forall o ob l, nth_error h o = Some ob -> dget (attrs ob) a = Some (Lst l) -> ~ leaf h o).
  { intros o ob l Ho Ha (ob' & Ho' & Hl). rewrite Ho in Ho'. injection Ho' as <-.
    apply dget_In in Ha. destruct (Hl _ _ Ha) as [c Hc]. discriminate. }
  assert (X1 : forall z, In z l1 \/ In z l2 -> z <> o1 /\ z <> o2 /\ leaf h z).
  { intros z Hz. assert (Lz : leaf h z) by (destruct Hz as [Hz|Hz]; [apply PL1, Hz|apply PL2, Hz]).
    split; [|split; [|exact Lz]]; intros ->; [exact (Hleaf _ _ _ Ho1 Ha1 Lz)|exact (Hleaf _ _ _ Ho2 Ha2 Lz)]. }
  assert (NE : forall z, In z (o1 :: o2 :: l1 ++ l2) -> ~ E1 h o1 o2 a z).
  { intros z Hz [Hl|(o & ob & b & l & w & Ho & Hn & Hb & Hin & Hw & W)].
    - apply nth_error_None in Hl. destruct Hz as [<-|[<-|Hz]]; [congruence|congruence|].
      apply in_app_iff in Hz. destruct (X1 z Hz) as (_ & _ & ob & Hob & _). congruence.
    - exact (Hap o ob b l w z Ho Hn Hb Hin Hw Hz W). }
  assert (N1 : ~ E1 h o1 o2 a o1) by (apply NE; left; reflexivity).
  assert (N2 : ~ E1 h o1 o2 a o2) by (apply NE; right; left; reflexivity).
  assert (NL : forall z, In z l1 \/ In z l2 -> ~ E1 h o1 o2 a z).
  { intros z Hz. apply NE. right. right. apply in_app_iff. exact Hz. }
  destruct (phase_list_K _ _ PL1) as [K1 ND1]. destruct (phase_list_K _ _ PL2) as [K2 ND2].
  set (K := Kof h) in *.
  assert (KK : forall z, In z l1 \/ In z l2 -> elt_phase h (EObj z) = Ok (K z)) by (intros z [Hz|Hz]; auto).
  destruct fuel as [|fuel]; [discriminate|]. rewrite set_attributes_S in H. cbn [fst] in H. rewrite Ho2 in H.
  assert (Hnd := Huq _ _ Ho2). assert (Hina := dget_In _ _ _ Ha2).
  apply in_split in Hina as (pre & post & Hsp). rewrite Hsp in H, Hnd.
  rewrite map_app in Hnd. cbn [map fst] in Hnd. apply NoDup_remove_2 in Hnd. rewrite in_app_iff in Hnd.
  assert (Hpre : forall b v, In (b, v) pre -> b <> a).
  { intros b v Hb ->. apply Hnd. left. apply (in_map fst) in Hb. exact Hb. }
  assert (Hpost : forall b v, In (b, v) post -> b <> a).
  { intros b v Hb ->. apply Hnd. right. apply (in_map fst) in Hb. exact Hb. }
  rewrite foldM_app in H.
  destruct (foldM (sa_step fuel ow o1 o2) pre (h, s)) as [[h1 s1]|] eqn:Ep; cbn [bind] in H; [|discriminate].
  destruct (sa_fold h o1 o2 a Hne N1 N2 fuel ow pre h s h1 s1 Hpre (good1_init h o1 o2 a Huq) Ep)
    as (G1 & F1 & B1 & C1).
  cbn [foldM] in H.
  destruct (sa_step fuel ow o1 o2 (h1, s1) (a, Lst (Some (map EObj l2)))) as [[h3 s3]|] eqn:Es; [|discriminate].
  unfold sa_step in Es. cbn [fst snd is_list_attr] in Es.
  assert (Same1 : forall z, In z l1 \/ In z l2 -> nth_error h1 z = nth_error h z).
  { intros z Hz. destruct (X1 z Hz) as (Z1 & Z2 & _). apply F1; auto. }
  destruct (merge_attr_phases fuel fuel ow K o1 o2 a h1 s1 h3 s3 l1 l2) as (-> & r1 & r2 & h2 & P1 & P2 & W & Ln & F2 & O1 & O2).
  { apply G1. }
  { exact Hne. }
  { rewrite B1. exact A1'. }
  { rewrite C1. exact A2'. }
  { exact L1. }
  { exact L2. }
  { intros z Hz. destruct (X1 z Hz) as (Z1 & Z2 & Lz). split; [|split; [exact Z1|split; [exact Z2|]]].
    - rewrite (nth_elt_phase h) by (apply Same1, Hz). apply KK, Hz.
    - apply (nth_leaf h); [apply Same1, Hz|exact Lz]. }
  { exact ND1. }
  { exact ND2. }
  { exact Hd. }
  { exact Es. }
  destruct W as (W1 & W2 & W3 & W4 & W5 & W6 & W7).
  assert (R1 : forall z, In z r1 <-> In z l1)
    by (intros z; split; intros Hz; eapply Permutation_in; try exact Hz; [symmetry|]; assumption).
  assert (R2 : forall z, In z r2 <-> In z l2)
    by (intros z; split; intros Hz; eapply Permutation_in; try exact Hz; [symmetry|]; assumption).
  assert (NR1 : ~ In o1 r1) by (rewrite R1; intros Q; destruct (X1 o1 (or_introl Q)) as (Z & _); exact (Z eq_refl)).
  assert (NR2 : ~ In o2 r1) by (rewrite R1; intros Q; destruct (X1 o2 (or_introl Q)) as (_ & Z & _); exact (Z eq_refl)).
  assert (G3 : good1 h o1 o2 a h3).
  { destruct G1 as (g1 & g2 & g3 & g4). split; [lia|]. split; [|split; [tauto|exact W2]].
    intros o ob b l e Do Hob Hin He. destruct Do as [Eo|[Ho Hb]].
    - assert (Hs : nth_error h3 o = nth_error h1 o).
      { assert (Z1 : o <> o1) by (intros ->; exact (N1 Eo)). assert (Z2 : o <> o2) by (intros ->; exact (N2 Eo)).
        rewrite W3, F2; auto. rewrite R1. intros Q. exact (NL o (or_introl Q) Eo). }
      rewrite Hs in Hob. exact (g2 o ob b l e (or_introl Eo) Hob Hin He).
    - assert (Hg : get_attr h1 o b = Some (Lst (Some l))).
      { assert (Hg3 : get_attr h3 o b = Some (Lst (Some l)))
          by (unfold get_attr; rewrite Hob; apply dget_NoDup; [exact (W2 _ _ Hob)|exact Hin]).
        destruct Ho as [->| ->].
        - rewrite W4, O1 in Hg3 by exact Hb. exact Hg3.
        - rewrite (nth_get h2 h3 o2), O2 in Hg3; [exact Hg3|exact Hb|apply W3; [exact NR2|congruence]]. }
      apply get_attr_In in Hg as (ob' & Ho' & Hi'). exact (g2 o ob' b l e (or_intror (conj Ho Hb)) Ho' Hi' He). }
  destruct (sa_fold h o1 o2 a Hne N1 N2 fuel ow post h3 s1 h' s' Hpost G3 H) as (G4 & F4 & B4 & C4).
  assert (Same4 : forall z, In z l1 \/ In z l2 -> nth_error h' z = nth_error h3 z).
  { intros z Hz. destruct (X1 z Hz) as (Z1 & Z2 & _). apply F4; auto. }
  assert (Same2 : forall z, In z l1 \/ In z l2 -> nth_error h2 z = nth_error h z).
  { intros z Hz. destruct (X1 z Hz) as (Z1 & Z2 & _). rewrite F2 by assumption. apply Same1, Hz. }
  exists (r1 ++ added K r1 r2). split; [|split; [|split; [|split; [|split]]]].
  - apply has_attr_get. rewrite B4, W5, map_app. reflexivity.
  - apply NoDup_app2.
    + eapply Permutation_NoDup; [exact P1|apply PL1].
    + apply NoDup_filter. eapply Permutation_NoDup; [exact P2|apply PL2].
    + intros z Hz Hz'. apply filter_In in Hz' as [Hz' _]. apply R1 in Hz. apply R2 in Hz'. exact (Hd z Hz Hz').
  - intros z. rewrite in_app_iff, R1.
    rewrite <- (added_perm K l1 r1 l2 r2 P1 P2). unfold K. rewrite (added_In h l1 l2 PL1 PL2). tauto.
  - intros x y p Hx Hy Px Py.
    assert (Exy : K x = K y).
    { destruct PL1 as (_ & Q1 & _). destruct (Q1 x Hx) as (_ & p' & n & P' & Rp).
      rewrite (phase_of_fun _ _ _ _ P' Px) in Rp.
      unfold K. rewrite (proj2 (phase_of_K _ _ _ _ Px Rp)), (proj2 (phase_of_K _ _ _ _ Py Rp)). reflexivity. }
    destruct (W6 x y (proj2 (R1 x) Hx) (proj2 (R2 y) Hy) Exy) as [WA WB].
    assert (Gx : forall b, get_attr h2 x b = get_attr h x b) by (apply nth_get, Same2; auto).
    assert (Gy : forall b, get_attr h2 y b = get_attr h y b) by (apply nth_get, Same2; auto).
    assert (Gx' : forall b, get_attr h' x b = get_attr h3 x b) by (apply nth_get, Same4; auto).
    split.
    + intros b c1 c2. rewrite !has_attr_get, Gx'. intros Q1 Q2. apply WA; [rewrite Gx|rewrite Gy]; assumption.
    + intros b c1. rewrite !has_attr_get, Gx'. intros Q1 Q2. rewrite WB; [rewrite Gx; exact Q1|].
      rewrite Gy. destruct (get_attr h y b) as [v|] eqn:Ev; [|reflexivity].
      exfalso. apply (Q2 v). apply has_attr_get, Ev.
  - intros x Hx Hno. rewrite Same4, W7, Same2; auto; [apply R1, Hx|].
    intros y Hy Exy. apply R2 in Hy.
    destruct PL1 as (_ & Q1 & _). destruct (Q1 x Hx) as (_ & p & n & P & Rp).
    destruct PL2 as (_ & Q2 & _). destruct (Q2 y Hy) as (_ & q & m & Q & Rq).
    apply (Hno p P). exists y. split; [exact Hy|].
    unfold K in Exy. rewrite (proj2 (phase_of_K _ _ _ _ P Rp)), (proj2 (phase_of_K _ _ _ _ Q Rq)) in Exy. subst m.
    rewrite (rank_inj _ _ _ Rp Rq). exact Q.
  - intros y Hy. rewrite Same4, W3, Same2; auto; [rewrite R1; intros Q; exact (Hd y Q Hy)|].
    apply (X1 y); auto.
Qed.
