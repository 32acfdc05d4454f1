(** Lemmas on merging lists of per-phase sub-objects (modify.py 116-164). *)
From Coq Require Import Sorted Permutation.
From Verif Require Import Base BaseFacts StoreModel StoreSpec StoreProofs ModifyProofs CopyProofs
  AddDeleteProofs MergeProofs MergeTopProofs.
Local Open Scope string_scope.
Local Open Scope nat_scope.
Local Open Scope list_scope.

(** ** Merging one leaf into another *)

Definition leaf_post (ow : bool) (x y : oid) (h h' : heap) : Prop :=
  length h' = length h /\
  (forall z, z <> x -> nth_error h' z = nth_error h z) /\
  (forall b c1 c2, get_attr h x b = Some (Scal c1) -> get_attr h y b = Some (Scal c2) ->
     get_attr h' x b = Some (Scal (merged_value ow c1 c2))) /\
  (forall b, get_attr h y b = None -> get_attr h' x b = get_attr h x b).

Lemma merge_attr_scalar fuel rec ow x y a h s h' s' :
  x <> y -> merge_attr fuel rec ow x y a false (h, s) = Ok (h', s') ->
  s' = s /\ length h' = length h /\
  (forall z, z <> x -> nth_error h' z = nth_error h z) /\
  (forall b, b <> a -> get_attr h' x b = get_attr h x b) /\
  (forall c1 c2, get_attr h x a = Some (Scal c1) -> get_attr h y a = Some (Scal c2) ->
     get_attr h' x a = Some (Scal (merged_value ow c1 c2))).
Proof.
  intros Hne H. unfold merge_attr in H.
  destruct (get_attr h y a) as [[[v|]|l2]|] eqn:E2; [| | |discriminate].
  - destruct (get_attr h x a) as [cur|] eqn:E1; [|discriminate].
    destruct ((match cur with Scal None | Lst None => false | _ => true end) && negb ow) eqn:Eb.
    + injection H as <- <-. do 4 (split; [auto|]).
      intros c1 c2 H1 H2. injection H1 as ->. injection H2 as <-.
      apply andb_true_iff in Eb as [Eb1 Eb2]. apply negb_true_iff in Eb2. subst ow.
      destruct c1; [exact E1|discriminate].
    + injection H as <- <-. split; [reflexivity|]. split; [apply set_attr_length|]. split; [|split].
      * intros z Hz. rewrite nth_set_attr. apply Nat.eqb_neq in Hz. rewrite Hz. reflexivity.
      * intros b Hb. rewrite get_set_attr, Nat.eqb_refl. simpl.
        destruct (String.eqb_spec a b); [congruence|reflexivity].
      * intros c1 c2 H1 H2. injection H1 as ->. injection H2 as <-.
        rewrite get_set_attr, Nat.eqb_refl, String.eqb_refl. simpl.
        unfold get_attr in E1. destruct (nth_error h x); [|discriminate].
        destruct c1; [|reflexivity]. destruct ow; [reflexivity|discriminate].
  - injection H as <- <-. do 4 (split; [auto|]).
    intros c1 c2 H1 H2. injection H2 as <-. rewrite H1. destruct c1; reflexivity.
  - injection H as <- <-. do 4 (split; [auto|]). intros; discriminate.
Qed.

Lemma leaf_merge fuel ow x y h s h' s' :
  x <> y -> leaf h y -> unique_attrs h ->
  set_attributes fuel ow (h, s) x y = Ok (h', s') -> s' = s /\ leaf_post ow x y h h'.
Proof.
  intros Hne (ob & Hob & Hleaf) Huq H. destruct fuel as [|fuel]; [discriminate|].
  rewrite set_attributes_S in H. cbn [fst] in H. rewrite Hob in H.
  assert (Hnd := Huq _ _ Hob).
  assert (P : s' = s /\ length h' = length h /\
              (forall z, z <> x -> nth_error h' z = nth_error h z) /\
              (forall b, ~ In b (map fst (attrs ob)) -> get_attr h' x b = get_attr h x b) /\
              (forall b c1 c2, In b (map fst (attrs ob)) -> get_attr h x b = Some (Scal c1) ->
                 get_attr h y b = Some (Scal c2) -> get_attr h' x b = Some (Scal (merged_value ow c1 c2)))).
  { clear Hob. revert h s Huq H. induction (attrs ob) as [|[a v] t IH]; intros h s Huq H.
    - injection H as <- <-. do 4 (split; [auto|]). intros b c1 c2 [].
    - cbn [foldM] in H. destruct (sa_step fuel ow x y (h, s) (a, v)) as [[h1 s1]|] eqn:Es; [|discriminate].
      destruct (Hleaf a v (or_introl eq_refl)) as [c ->]. unfold sa_step in Es. cbn [fst snd is_list_attr] in Es.
      destruct (merge_attr_scalar _ _ _ _ _ _ _ _ _ _ Hne Es) as (-> & L1 & F1 & O1 & S1).
      cbn [map fst] in Hnd. inversion Hnd as [|? ? Hni Hnd']; subst.
      assert (U1 : unique_attrs h1).
      { intros z obz Hz. destruct (Nat.eq_dec z x) as [->|Hn]; [|rewrite F1 in Hz by exact Hn; exact (Huq _ _ Hz)].
        assert (Huse := merge_attr_good (fun _ _ => True) (fun _ => True) 0 False (fun _ _ _ => I) (fun _ _ => I)
                  fuel (sa_rec fuel ow) ow x y a false h s h1 s
                  (sa_rec_good (fun _ _ => True) (fun _ => True) 0 False (fun _ _ _ => I) (fun _ _ => I) fuel ow)).
        assert (Gh : good (fun _ _ => True) (fun _ => True) 0 False h).
        { split; [lia|]. split; [auto|]. split; [tauto|exact Huq]. }
        destruct (Huse Gh I I (fun f _ => match f with end) Es) as ((_ & _ & _ & Q) & _). exact (Q _ _ Hz). }
      destruct (IH (fun b w Hb => Hleaf b w (or_intror Hb)) Hnd' h1 s U1 H) as (-> & L2 & F2 & O2 & S2).
      split; [reflexivity|]. split; [congruence|]. split; [|split].
      + intros z Hz. rewrite F2, F1 by exact Hz. reflexivity.
      + intros b Hb. cbn [map fst In] in Hb. rewrite O2, O1 by (intros Q; apply Hb; auto). reflexivity.
      + intros b c1 c2 Hb H1 H2. cbn [map fst In] in Hb.
        assert (Hy : forall b, get_attr h1 y b = get_attr h y b) by (apply nth_get, F1; congruence).
        destruct (String.eqb_spec a b) as [<-|Hab].
        * rewrite O2 by exact Hni. apply S1; assumption.
        * destruct Hb as [Hb|Hb]; [contradiction|]. apply S2; [exact Hb| |rewrite Hy; exact H2].
          rewrite O1 by congruence. exact H1. }
  destruct P as (-> & L1 & F1 & O1 & S1). split; [reflexivity|]. split; [exact L1|]. split; [exact F1|].
  assert (Hy : forall b, get_attr h y b = dget (attrs ob) b) by (intros b; unfold get_attr; rewrite Hob; reflexivity).
  split.
  - intros b c1 c2 H1 H2. apply S1; try assumption. rewrite Hy in H2. apply dget_In in H2.
    apply (in_map fst) in H2. exact H2.
  - intros b Hb. apply O1. rewrite Hy in Hb. apply dget_None, Hb.
Qed.

Lemma sa_unique fuel ow x y h s h' s' :
  unique_attrs h -> set_attributes fuel ow (h, s) x y = Ok (h', s') -> unique_attrs h'.
Proof.
  intros Huq H.
  assert (Gh : good (fun _ _ => True) (fun _ => True) 0 False h).
  { split; [lia|]. split; [auto|]. split; [tauto|exact Huq]. }
  assert (Q := set_attributes_good (fun _ _ => True) (fun _ => True) 0 False (fun _ _ _ => I) (fun _ _ => I)
                 fuel ow h s x y h' s' Gh (fun _ => I) (fun _ => I) (fun f _ => match f with end) H).
  apply Q.
Qed.

(** ** The walk over two phase-sorted lists of leaves *)

Definition added (K : oid -> nat) (r1 r2 : list oid) : list oid :=
  filter (fun y => negb (existsb (fun x => K x =? K y) r1) && existsb (fun x => K y <? K x) r1) r2.

Definition pair_post (ow : bool) (x y : oid) (h h' : heap) : Prop :=
  (forall b c1 c2, get_attr h x b = Some (Scal c1) -> get_attr h y b = Some (Scal c2) ->
     get_attr h' x b = Some (Scal (merged_value ow c1 c2))) /\
  (forall b, get_attr h y b = None -> get_attr h' x b = get_attr h x b).

Definition walk_leaf_post (ow : bool) (K : oid -> nat) (o1 : oid) (a : string) (l : list elt)
           (r1 r2 : list oid) (h h' : heap) : Prop :=
  length h' = length h /\ unique_attrs h' /\
  (forall z, ~ In z r1 -> z <> o1 -> nth_error h' z = nth_error h z) /\
  (forall b, b <> a -> get_attr h' o1 b = get_attr h o1 b) /\
  get_attr h' o1 a = Some (Lst (Some (l ++ map EObj (added K r1 r2)))) /\
  (forall x y, In x r1 -> In y r2 -> K x = K y -> pair_post ow x y h h') /\
  (forall x, In x r1 -> (forall y, In y r2 -> K x <> K y) -> nth_error h' x = nth_error h x).

Lemma added_nil K r2 : added K [] r2 = [].
Proof. induction r2; simpl; auto. Qed.

Lemma added_cons K r1 y t : added K r1 (y :: t) =
  if negb (existsb (fun x => K x =? K y) r1) && existsb (fun x => K y <? K x) r1
  then y :: added K r1 t else added K r1 t.
Proof. reflexivity. Qed.

(** Elements above the head of list 1 ignore it. *)
Lemma added_skip K x r1 r2 : (forall y, In y r2 -> K x < K y) -> added K (x :: r1) r2 = added K r1 r2.
Proof.
  intros H. induction r2 as [|y t IH]; [reflexivity|]. rewrite !added_cons. cbn [existsb].
  assert (Hy := H y (or_introl eq_refl)).
  assert (E1 : (K x =? K y) = false) by (apply Nat.eqb_neq; lia).
  assert (E2 : (K y <? K x) = false) by (apply Nat.ltb_ge; lia).
  rewrite E1, E2. cbn [orb]. rewrite IH by (intros z Hz; apply H; right; exact Hz). reflexivity.
Qed.

Lemma added_match K x r1 y r2 : K x = K y -> added K (x :: r1) (y :: r2) = added K (x :: r1) r2.
Proof.
  intros H. rewrite added_cons. cbn [existsb]. rewrite H, Nat.eqb_refl. reflexivity.
Qed.

Lemma added_take K x r1 y r2 : K y < K x -> (forall z, In z r1 -> K x < K z) ->
  added K (x :: r1) (y :: r2) = y :: added K (x :: r1) r2.
Proof.
  intros H Hs. rewrite added_cons. cbn [existsb].
  assert (E1 : (K x =? K y) = false) by (apply Nat.eqb_neq; lia).
  assert (E2 : (K y <? K x) = true) by (apply Nat.ltb_lt; lia).
  assert (E3 : existsb (fun x => K x =? K y) r1 = false).
  { apply not_true_is_false. intros E. apply existsb_exists in E as (z & Hz & E).
    apply Nat.eqb_eq in E. specialize (Hs z Hz). lia. }
  rewrite E1, E2, E3. reflexivity.
Qed.

Lemma sorted_head (K : oid -> nat) x l : StronglySorted lt (map K (x :: l)) -> forall z, In z l -> K x < K z.
Proof.
  intros H z Hz. inversion H as [|? ? _ Hf]; subst. rewrite Forall_forall in Hf.
  apply Hf, in_map, Hz.
Qed.

Lemma sorted_tail (K : oid -> nat) x l : StronglySorted lt (map K (x :: l)) -> StronglySorted lt (map K l).
Proof. intros H. inversion H; subst; assumption. Qed.

Lemma elt_phase_scalar h x n : elt_phase h (EObj x) = Ok n ->
  exists c, get_attr h x "phase" = Some (Scal c) /\ phase_order c = Ok n.
Proof.
  unfold elt_phase. destruct (get_attr h x "phase") as [[c|]|]; try discriminate. eauto.
Qed.

Lemma nth_elt_phase h h' x : nth_error h' x = nth_error h x -> elt_phase h' (EObj x) = elt_phase h (EObj x).
Proof. intros E. unfold elt_phase. rewrite (nth_get _ _ _ E). reflexivity. Qed.

Lemma nth_leaf h h' x : nth_error h' x = nth_error h x -> leaf h x -> leaf h' x.
Proof. intros E (ob & Ho & Hl). exists ob. rewrite E. auto. Qed.

Lemma append_attr_get h o1 a l y : get_attr h o1 a = Some (Lst (Some l)) ->
  length (append_attr h o1 a y) = length h /\
  (forall z, z <> o1 -> nth_error (append_attr h o1 a y) z = nth_error h z) /\
  (forall b, b <> a -> get_attr (append_attr h o1 a y) o1 b = get_attr h o1 b) /\
  get_attr (append_attr h o1 a y) o1 a = Some (Lst (Some (l ++ [y]))).
Proof.
  intros E. unfold append_attr. rewrite E. split; [apply set_attr_length|]. split; [|split].
  - intros z Hz. rewrite nth_set_attr. apply Nat.eqb_neq in Hz. rewrite Hz. reflexivity.
  - intros b Hb. rewrite get_set_attr, Nat.eqb_refl. destruct (String.eqb_spec a b); [congruence|reflexivity].
  - rewrite get_set_attr, Nat.eqb_refl, String.eqb_refl. unfold get_attr in E. destruct (nth_error h o1); [reflexivity|discriminate].
Qed.

Lemma append_attr_unique h o1 a y : unique_attrs h -> unique_attrs (append_attr h o1 a y).
Proof.
  intros Huq.
  assert (Gh : good (fun _ _ => True) (fun _ => True) 0 False h).
  { split; [lia|]. split; [auto|]. split; [tauto|exact Huq]. }
  apply (append_good (fun _ _ => True) (fun _ => True) 0 False h o1 a y Gh I (fun _ _ => I)).
Qed.

Lemma phase_walk_nil1 rec o1 a r2 st : phase_walk rec o1 a r2 [] st = Ok st.
Proof. destruct r2; reflexivity. Qed.

Lemma phase_walk_leaf fuel ow K o1 a : forall r2 r1 app h s h' s' l,
  unique_attrs h ->
  (forall z, In z r1 \/ In z app \/ In z r2 -> elt_phase h (EObj z) = Ok (K z) /\ z <> o1) ->
  (forall y, In y r2 -> leaf h y) ->
  (forall x, In x r1 -> ~ In x r2) -> (forall x, In x r1 -> ~ In x app) ->
  StronglySorted lt (map K r1) -> StronglySorted lt (map K r2) ->
  (forall z y, In z app -> In y r2 -> K z < K y) ->
  get_attr h o1 a = Some (Lst (Some l)) ->
  phase_walk (sa_rec fuel ow) o1 a (map EObj r2) (map EObj (r1 ++ app)) (h, s) = Ok (h', s') ->
  s' = s /\ walk_leaf_post ow K o1 a l r1 r2 h h'.
Proof.
  induction r2 as [|y r2 IH2].
  - intros r1 app h s h' s' l Huq _ _ _ _ _ _ _ Hl H.
    assert (H0 : Ok (h, s) = Ok (h', s')) by (destruct (map EObj (r1 ++ app)); exact H).
    injection H0 as <- <-. split; [reflexivity|].
    split; [reflexivity|]. split; [exact Huq|]. do 2 (split; [auto|]). split; [|split; [|auto]].
    + unfold added. simpl. rewrite app_nil_r. exact Hl.
    + intros x y _ [].
  - induction r1 as [|x r1 IH1]; intros app h s h' s' l Huq Hk Hlf Hd Hd' S1 S2 Happ Hl H.
    + cbn [List.app] in H.
      assert (H0 : Ok (h, s) = Ok (h', s')).
      { rewrite <- H. clear IH2 Hl H. induction app as [|z app IH]; [reflexivity|].
        cbn [map phase_walk fst].
        rewrite (proj1 (Hk z (or_intror (or_introl (or_introl eq_refl))))).
        rewrite (proj1 (Hk y (or_intror (or_intror (or_introl eq_refl))))).
        assert (Hz := Happ z y (or_introl eq_refl) (or_introl eq_refl)).
        assert (E1 : (K z =? K y) = false) by (apply Nat.eqb_neq; lia).
        assert (E2 : (K z <? K y) = true) by (apply Nat.ltb_lt; lia).
        rewrite E1, E2. apply IH.
        - intros w [[]|[Hw|Hw]]; apply Hk; simpl; auto.
        - intros x [].
        - intros w y' Hw Hy'. apply Happ; [right; exact Hw|exact Hy']. }
      injection H0 as <- <-. split; [reflexivity|].
      split; [reflexivity|]. split; [exact Huq|]. do 2 (split; [auto|]). split; [|split].
      * rewrite added_nil. simpl. rewrite app_nil_r. exact Hl.
      * intros x y' [].
      * intros x [].
    + cbn [List.app map phase_walk fst] in H.
      destruct (Hk x (or_introl (or_introl eq_refl))) as [Kx Nx].
      destruct (Hk y (or_intror (or_intror (or_introl eq_refl)))) as [Ky Ny].
      rewrite Kx, Ky in H.
      assert (Hx1 := sorted_head K x r1 S1). assert (Hy1 := sorted_head K y r2 S2).
      assert (S1' := sorted_tail K x r1 S1). assert (S2' := sorted_tail K y r2 S2).
      assert (Xr : ~ In x r1) by (intros Q; specialize (Hx1 x Q); lia).
      destruct (Nat.eqb_spec (K x) (K y)) as [Exy|Nxy].
      * (* same phase: merge *)
        destruct (sa_rec fuel ow (h, s) (EObj x) (EObj y)) as [[h1 s1]|] eqn:Er; [|discriminate].
        change (set_attributes fuel ow (h, s) x y = Ok (h1, s1)) in Er.
        assert (Hxy : x <> y) by (intros ->; apply (Hd y); left; reflexivity).
        assert (U1 := sa_unique _ _ _ _ _ _ _ _ Huq Er).
        destruct (leaf_merge _ _ _ _ _ _ _ _ Hxy (Hlf y (or_introl eq_refl)) Huq Er) as (-> & L1 & F1 & A1 & B1).
        destruct (IH2 r1 app h1 s h' s' l) as (-> & L2 & U2 & F2 & O2 & G2 & P2 & Q2).
        -- exact U1.
        -- intros z Hz. assert (Hz' : In z (x :: r1) \/ In z app \/ In z (y :: r2)) by (simpl; tauto).
           destruct (Hk z Hz') as [Kz Nz]. split; [|exact Nz].
           rewrite (nth_elt_phase h h1 z); [exact Kz|]. apply F1. intros ->.
           destruct Hz as [Hz|[Hz|Hz]]; [exact (Xr Hz)|exact (Hd' x (or_introl eq_refl) Hz)|].
           apply (Hd x (or_introl eq_refl)). right; exact Hz.
        -- intros z Hz. apply (nth_leaf h); [|apply Hlf; right; exact Hz].
           apply F1. intros ->. apply (Hd x (or_introl eq_refl)). right; exact Hz.
        -- intros z Hz Hz'. apply (Hd z (or_intror Hz)). right; exact Hz'.
        -- intros z Hz. apply (Hd' z (or_intror Hz)).
        -- exact S1'.
        -- exact S2'.
        -- intros z w Hz Hw. apply Happ; [exact Hz|right; exact Hw].
        -- rewrite (nth_get h h1 o1 (F1 _ (not_eq_sym Nx))). exact Hl.
        -- exact H.
        -- assert (Hsk : forall w, In w r2 -> K x < K w) by (intros w Hw; specialize (Hy1 w Hw); lia).
           split; [reflexivity|]. split; [congruence|]. split; [exact U2|]. split; [|split; [|split; [|split]]].
           ++ intros z Hz Nz. rewrite F2, F1; [reflexivity|intros ->; apply Hz; left; reflexivity|
                intros Q; apply Hz; right; exact Q|exact Nz].
           ++ intros b Hb. rewrite (O2 b Hb). apply (nth_get h h1 o1 (F1 _ (not_eq_sym Nx))).
           ++ rewrite G2, added_match, added_skip by assumption. reflexivity.
           ++ intros x' y' [<-|Hx'] [<-|Hy'] Exy'.
              ** assert (Hh : forall b, get_attr h' x b = get_attr h1 x b) by (apply nth_get, F2; assumption).
                 split; [intros b c1 c2 H1 H2; rewrite Hh; apply A1; assumption|
                         intros b Hb; rewrite Hh; apply B1, Hb].
              ** exfalso. specialize (Hsk y' Hy'). lia.
              ** exfalso. specialize (Hx1 x' Hx'). lia.
              ** destruct (P2 x' y' Hx' Hy' Exy') as [PA PB].
                 assert (Ex' : forall b, get_attr h1 x' b = get_attr h x' b)
                   by (apply nth_get, F1; intros ->; exact (Xr Hx')).
                 assert (Ey' : forall b, get_attr h1 y' b = get_attr h y' b)
                   by (apply nth_get, F1; intros ->; apply (Hd x (or_introl eq_refl)); right; exact Hy').
                 split.
                 --- intros b c1 c2 H1 H2. apply PA; [rewrite Ex'|rewrite Ey']; assumption.
                 --- intros b Hb. rewrite PB, Ex'; [reflexivity|rewrite Ey'; exact Hb].
           ++ intros x' [<-|Hx'] Hno; [exfalso; exact (Hno y (or_introl eq_refl) Exy)|].
              rewrite Q2; [apply F1; intros ->; exact (Xr Hx')|exact Hx'|].
              intros w Hw. apply Hno. right; exact Hw.
      * destruct (Nat.ltb_spec (K x) (K y)) as [Lxy|Lxy].
        -- (* advance list 1 *)
           assert (Hsk : forall w, In w (y :: r2) -> K x < K w).
           { intros w [<-|Hw]; [exact Lxy|]. specialize (Hy1 w Hw). lia. }
           destruct (IH1 app h s h' s' l) as (-> & L2 & U2 & F2 & O2 & G2 & P2 & Q2); try assumption.
           ++ intros z Hz. apply Hk. simpl in *. tauto.
           ++ intros z Hz. apply Hd. right; exact Hz.
           ++ intros z Hz. apply Hd'. right; exact Hz.
           ++ split; [reflexivity|]. split; [exact L2|]. split; [exact U2|]. split; [|split; [|split; [|split]]].
              ** intros z Hz Nz. apply F2; [intros Q; apply Hz; right; exact Q|exact Nz].
              ** exact O2.
              ** rewrite G2, added_skip by assumption. reflexivity.
              ** intros x' y' [<-|Hx'] Hy' Exy'; [exfalso; specialize (Hsk y' Hy'); lia|].
                 apply P2; assumption.
              ** intros x' [<-|Hx'] Hno; [apply F2; assumption|]. apply Q2; assumption.
        -- (* append *)
           assert (Gyx : K y < K x) by lia.
           destruct (append_attr_get h o1 a l (EObj y) Hl) as (L1 & F1 & O1 & G1).
           assert (Q : EObj x :: map EObj (r1 ++ app) ++ [EObj y] = map EObj ((x :: r1) ++ app ++ [y])).
           { cbn [List.app map]. rewrite (app_assoc r1 app [y]), (map_app _ (r1 ++ app)). reflexivity. }
           rewrite Q in H. cbn [snd] in H.
           destruct (IH2 (x :: r1) (app ++ [y]) (append_attr h o1 a (EObj y)) s h' s' (l ++ [EObj y]))
             as (-> & L2 & U2 & F2 & O2 & G2 & P2 & Q2).
           ++ apply append_attr_unique, Huq.
           ++ intros z Hz. assert (Hz' : In z (x :: r1) \/ In z app \/ In z (y :: r2)).
              { destruct Hz as [Hz|[Hz|Hz]]; [auto| |simpl; auto].
                apply in_app_iff in Hz as [Hz|[<-|[]]]; simpl; auto. }
              destruct (Hk z Hz') as [Kz Nz]. split; [|exact Nz].
              rewrite (nth_elt_phase h); [exact Kz|]. apply F1, Nz.
           ++ intros z Hz. apply (nth_leaf h); [|apply Hlf; right; exact Hz].
              apply F1. apply (Hk z). simpl; auto.
           ++ intros z Hz Hz'. apply (Hd z Hz). right; exact Hz'.
           ++ intros z Hz Hz'. apply in_app_iff in Hz' as [Hz'|[<-|[]]]; [exact (Hd' z Hz Hz')|].
              apply (Hd y Hz). left; reflexivity.
           ++ exact S1.
           ++ exact S2'.
           ++ intros z w Hz Hw. apply in_app_iff in Hz as [Hz|[<-|[]]];
                [apply Happ; [exact Hz|right; exact Hw]|apply Hy1, Hw].
           ++ exact G1.
           ++ exact H.
           ++ split; [reflexivity|]. split; [congruence|]. split; [exact U2|]. split; [|split; [|split; [|split]]].
              ** intros z Hz Nz. rewrite F2 by assumption. apply F1, Nz.
              ** intros b Hb. rewrite (O2 b Hb). apply O1, Hb.
              ** rewrite G2, added_take by assumption. cbn [map]. rewrite <- app_assoc. reflexivity.
              ** assert (Hsame : forall z, In z (x :: r1) \/ In z app \/ In z (y :: r2) -> forall b,
                    get_attr (append_attr h o1 a (EObj y)) z b = get_attr h z b).
                 { intros z Hz. apply nth_get, F1. apply (Hk z Hz). }
                 intros x' y' Hx' [<-|Hy'] Exy'.
                 { exfalso. destruct Hx' as [<-|Hx']; [lia|]. specialize (Hx1 x' Hx'). lia. }
                 destruct (P2 x' y' Hx' Hy' Exy') as [PA PB]. split.
                 --- intros b c1 c2 H1 H2. apply PA; rewrite Hsame by (simpl in *; tauto); assumption.
                 --- intros b Hb. rewrite PB; [apply Hsame; auto|].
                     rewrite Hsame by (simpl in *; tauto). exact Hb.
              ** intros x' Hx' Hno. rewrite Q2; [apply F1, (Hk x'); auto|exact Hx'|].
                 intros w Hw. apply Hno. right; exact Hw.
Qed.

(** ** Sorting by phase *)

Lemma mapM_keys h (K : oid -> nat) l : (forall z, In z l -> elt_phase h (EObj z) = Ok (K z)) ->
  mapM (elt_phase h) (map EObj l) = Ok (map K l).
Proof.
  induction l as [|z t IH]; intros H; [reflexivity|]. cbn [map mapM].
  rewrite (H z (or_introl eq_refl)), IH; [reflexivity|]. intros w Hw. apply H. right; exact Hw.
Qed.

Definition keyed (K : oid -> nat) (l : list oid) : list (nat * elt) := map (fun z => (K z, EObj z)) l.

Lemma insert_by_keyed K z l : NoDup (map K (z :: l)) -> StronglySorted lt (map K l) ->
  exists l', insert_by (K z) (EObj z) (keyed K l) = keyed K l' /\ Permutation (z :: l) l' /\
             StronglySorted lt (map K l').
Proof.
  induction l as [|y t IH]; intros Hnd Hs.
  - exists [z]. split; [reflexivity|]. split; [reflexivity|]. repeat constructor.
  - cbn [keyed map insert_by]. destruct (Nat.leb_spec (K z) (K y)) as [Hle|Hgt].
    + exists (z :: y :: t). split; [reflexivity|]. split; [reflexivity|].
      assert (Hlt : K z < K y).
      { cbn [map] in Hnd. inversion Hnd as [|? ? Hni _]; subst. destruct (Nat.eq_dec (K z) (K y)); [|lia].
        exfalso. apply Hni. left. congruence. }
      cbn [map]. constructor; [exact Hs|]. constructor; [exact Hlt|].
      apply Forall_forall. intros n Hn. apply in_map_iff in Hn as (w & <- & Hw).
      assert (Q := sorted_head K y t Hs w Hw). lia.
    + destruct IH as (l' & E & P & S).
      * cbn [map] in *. inversion Hnd as [|? ? Hni Hnd']; subst. inversion Hnd'; subst.
        constructor; [|assumption]. intros Q. apply Hni. right; exact Q.
      * exact (sorted_tail K y t Hs).
      * exists (y :: l'). fold (keyed K t). rewrite E. split; [reflexivity|]. split.
        -- rewrite perm_swap. constructor. exact P.
        -- cbn [map]. constructor; [exact S|]. apply Forall_forall. intros n Hn.
           apply in_map_iff in Hn as (w & <- & Hw). apply (Permutation_in w (Permutation_sym P)) in Hw as [<-|Hw]; [exact Hgt|].
           exact (sorted_head K y t Hs w Hw).
Qed.

Lemma sort_phases_spec h (K : oid -> nat) l :
  (forall z, In z l -> elt_phase h (EObj z) = Ok (K z)) -> NoDup (map K l) ->
  exists l', sort_phases h (map EObj l) = Ok (map EObj l') /\ Permutation l l' /\ StronglySorted lt (map K l').
Proof.
  intros Hk Hnd. unfold sort_phases. rewrite (mapM_keys h K l Hk). cbn [bind].
  assert (P : exists l', sort_keyed (combine (map K l) (map EObj l)) = keyed K l' /\ Permutation l l' /\
                         StronglySorted lt (map K l')).
  { clear Hk. induction l as [|z t IH].
    - exists []. repeat split; constructor.
    - cbn [map combine]. inversion Hnd as [|? ? Hni Hnd']; subst.
      destruct (IH Hnd') as (t' & E & P & S).
      assert (Hnd2 : NoDup (map K (z :: t'))).
      { cbn [map]. constructor.
        - intros Q. apply Hni. eapply Permutation_in; [symmetry; apply Permutation_map, P|exact Q].
        - eapply Permutation_NoDup; [apply Permutation_map, P|exact Hnd']. }
      destruct (insert_by_keyed K z t' Hnd2 S) as (l' & E' & P' & S').
      exists l'. split; [|split; [rewrite P; exact P'|exact S']].
      unfold sort_keyed in *. cbn [fold_right fst snd]. rewrite E. exact E'. }
  destruct P as (l' & E & P & S). exists l'. rewrite E. split; [|auto].
  unfold keyed. rewrite map_map. reflexivity.
Qed.

(** ** One phase-wise attribute *)

Lemma merge_attr_phases fuel0 fuel ow K o1 o2 a h s h' s' l1 l2 :
  unique_attrs h -> o1 <> o2 ->
  get_attr h o1 a = Some (Lst (Some (map EObj l1))) -> get_attr h o2 a = Some (Lst (Some (map EObj l2))) ->
  l1 <> [] -> l2 <> [] ->
  (forall z, In z l1 \/ In z l2 -> elt_phase h (EObj z) = Ok (K z) /\ z <> o1 /\ z <> o2 /\ leaf h z) ->
  NoDup (map K l1) -> NoDup (map K l2) -> (forall x, In x l1 -> ~ In x l2) ->
  merge_attr fuel0 (sa_rec fuel ow) ow o1 o2 a true (h, s) = Ok (h', s') ->
  s' = s /\ exists r1 r2 h2, Permutation l1 r1 /\ Permutation l2 r2 /\
    walk_leaf_post ow K o1 a (map EObj r1) r1 r2 h2 h' /\ length h2 = length h /\
    (forall z, z <> o1 -> z <> o2 -> nth_error h2 z = nth_error h z) /\
    (forall b, b <> a -> get_attr h2 o1 b = get_attr h o1 b) /\
    (forall b, b <> a -> get_attr h2 o2 b = get_attr h o2 b).
Proof.
  intros Huq Hne E1 E2 N1 N2 Hz Hn1 Hn2 Hd H. unfold merge_attr in H. rewrite E1, E2 in H.
  destruct l1 as [|x1 l1]; [congruence|]. destruct l2 as [|x2 l2]; [congruence|]. cbn [map] in H.
  assert (Hph : forall z, In z (x1 :: l1) \/ In z (x2 :: l2) -> elt_has_phase h (EObj z) = true).
  { intros z Hi. destruct (Hz z Hi) as (Kz & _). unfold elt_phase in Kz. unfold elt_has_phase.
    destruct (get_attr h z "phase") as [[[c|]|]|]; try discriminate. reflexivity. }
  rewrite (Hph x1), (Hph x2) in H by (simpl; auto). cbn [andb] in H.
  destruct (sort_phases_spec h K (x1 :: l1)) as (r1 & S1 & P1 & T1).
  { intros z Hi. apply Hz; auto. }
  { exact Hn1. }
  destruct (sort_phases_spec h K (x2 :: l2)) as (r2 & S2 & P2 & T2).
  { intros z Hi. apply Hz; auto. }
  { exact Hn2. }
  cbn [map] in S1, S2. rewrite S1, S2 in H. cbn [bind] in H.
  set (h1 := set_attr h o1 a (Lst (Some (map EObj r1)))) in *.
  set (h2 := set_attr h1 o2 a (Lst (Some (map EObj r2)))) in *.
  assert (F2 : forall z, z <> o1 -> z <> o2 -> nth_error h2 z = nth_error h z).
  { intros z Z1 Z2. unfold h2, h1. rewrite !nth_set_attr.
    apply Nat.eqb_neq in Z1. apply Nat.eqb_neq in Z2. rewrite Z1, Z2. reflexivity. }
  assert (U2 : unique_attrs h2).
  { assert (Gh : good (fun _ _ => True) (fun _ => True) 0 False h).
    { split; [lia|]. split; [auto|]. split; [tauto|exact Huq]. }
    apply (good_set_attr (fun _ _ => True) (fun _ => True) 0 False h1 o2 a (Lst (Some (map EObj r2))));
      [|intros l _ e _; exact I|discriminate].
    apply (good_set_attr (fun _ _ => True) (fun _ => True) 0 False h o1 a (Lst (Some (map EObj r1))) Gh);
      [intros l _ e _; exact I|discriminate]. }
  destruct (phase_walk_leaf fuel ow K o1 a r2 r1 [] h2 s h' s' (map EObj r1)) as (-> & W).
  - exact U2.
  - intros z Hi.
    assert (Hi' : In z (x1 :: l1) \/ In z (x2 :: l2)).
    { destruct Hi as [Hi|[[]|Hi]]; [left|right]; eapply Permutation_in; [symmetry; exact P1|exact Hi|symmetry; exact P2|exact Hi]. }
    destruct (Hz z Hi') as (Kz & Z1 & Z2 & _). split; [|exact Z1].
    rewrite (nth_elt_phase h); [exact Kz|]. apply F2; assumption.
  - intros y Hy. assert (Hy' : In y (x2 :: l2)) by (eapply Permutation_in; [symmetry; exact P2|exact Hy]).
    destruct (Hz y (or_intror Hy')) as (_ & Z1 & Z2 & Lf). apply (nth_leaf h); [|exact Lf]. apply F2; assumption.
  - intros x Hx Hx'. apply (Hd x); eapply Permutation_in; [symmetry; exact P1|exact Hx|symmetry; exact P2|exact Hx'].
  - intros x _ [].
  - exact T1.
  - exact T2.
  - intros z y [].
  - unfold h2. rewrite get_set_attr. apply Nat.eqb_neq in Hne. rewrite Hne. cbn [andb].
    unfold h1. rewrite get_set_attr, Nat.eqb_refl, String.eqb_refl. cbn [andb].
    unfold get_attr in E1. destruct (nth_error h o1); [reflexivity|discriminate].
  - rewrite app_nil_r. exact H.
  - split; [reflexivity|]. exists r1, r2, h2. split; [exact P1|]. split; [exact P2|]. split; [exact W|].
    split; [unfold h2, h1; rewrite !set_attr_length; reflexivity|]. split; [exact F2|].
    split; intros b Hb; unfold h2, h1; rewrite !get_set_attr;
      (destruct (String.eqb_spec a b); [congruence|]); rewrite !andb_false_r; reflexivity.
Qed.
