(** C137: the impedances of a list of wires. *)
From Coq Require Import Reals Lra Lia.
From Verif Require Import Base BaseFacts MatrixModel MatrixSpec MatrixProofs ImpedModel ImpedSpec ImpedProofs CarsonProofs KronProofs KronTop MatrixProps PhZModel PhZSpec.
Local Open Scope string_scope.
Local Open Scope list_scope.
Local Open Scope R_scope.

Lemma get2_tab {A} n (f : nat -> nat -> A) i j : (i < n)%nat -> (j < n)%nat -> get2 (tabulate n n f) i j = Some (f i j).
Proof.
  intros Hi Hj. unfold get2. rewrite tabulate_row, (proj2 (Nat.ltb_lt i n) Hi), nth_error_map_seq, (proj2 (Nat.ltb_lt j n) Hj). reflexivity.
Qed.

Lemma cell_get2 {A} (m : list (list A)) i j x : get2 m i j = Some x <-> cell m i j x.
Proof.
  unfold get2, cell. split.
  - intros H. destruct (nth_error m i) as [r|]; [eauto | discriminate].
  - intros [r [-> H]]. exact H.
Qed.

Lemma tab_length {A} n (f : nat -> nat -> A) : length (tabulate n n f) = n.
Proof. unfold tabulate. now rewrite map_length, seq_length. Qed.

Lemma mapM_all {A B} (h : A -> res B) (g : A -> B) l : (forall x, In x l -> h x = Ok (g x)) -> mapM h l = Ok (map g l).
Proof.
  induction l as [|x l IH]; intros H; [reflexivity|]. cbn [mapM map]. rewrite (H x (or_introl eq_refl)), IH; [reflexivity|].
  intros y Hy. apply H. now right.
Qed.

Lemma mapM_tab {A} n (h : nat -> nat -> res A) f : (forall i j, (i < n)%nat -> (j < n)%nat -> h i j = Ok (f i j)) ->
  mapM (fun i => mapM (h i) (seq 0 n)) (seq 0 n) = Ok (tabulate n n f).
Proof.
  intros H. unfold tabulate. apply mapM_all. intros i Hi. apply in_seq in Hi. apply mapM_all. intros j Hj. apply in_seq in Hj.
  apply H; lia.
Qed.

Lemma mapM_nth {A B} (h : A -> res B) (f : nat -> B) l : forall a,
  (forall i w, nth_error l i = Some w -> h w = Ok (f (a + i)%nat)) -> mapM h l = Ok (map f (seq a (length l))).
Proof.
  induction l as [|x l IH]; intros a H; [reflexivity|]. cbn [mapM length seq map].
  pose proof (H 0%nat x eq_refl) as H0. rewrite Nat.add_0_r in H0. rewrite H0, (IH (S a)); [reflexivity|].
  intros i w Hw. specialize (H (S i) w Hw). now rewrite Nat.add_succ_r in H.
Qed.

Lemma feet_tab ws dist d : spaced ws dist d ->
  distances_feet (length ws) dist = Ok (tabulate (length ws) (length ws) (fun i j => feet (d i j))).
Proof.
  intros [[L _] [HC _]]. unfold distances_feet. rewrite L, Nat.eqb_refl. cbn [negb]. apply mapM_tab.
  intros i j Hi Hj. rewrite (proj2 (cell_get2 _ _ _ _) (HC i j Hi Hj)). reflexivity.
Qed.

Lemma prim_tab n f gl rl (g r : nat -> R) : (0 < n)%nat ->
  (forall i, (i < n)%nat -> nth_error gl i = Some (g i) /\ nth_error rl i = Some (r i) /\ 0 < g i) ->
  (forall i j, (i < n)%nat -> (j < n)%nat -> i <> j -> 0 < f i j) ->
  primitive (tabulate n n f) gl rl
  = Ok (tabulate n n (fun i j => if (i =? j)%nat then carson_self (r i) (g i) else carson_mutual (f i j))).
Proof.
  intros Hn HG HF. unfold primitive.
  assert (E : get_primitive_impedance_matrix (tabulate n n f) (map Some gl) (map Some rl)
    = Ok (tabulate n n (fun i j => if (i =? j)%nat then carson_self (r i) (g i) else carson_mutual (f i j)))).
  { unfold get_primitive_impedance_matrix. rewrite tab_length. apply mapM_tab. intros i j Hi Hj.
    destruct (Nat.eqb_spec i j) as [Eij|Eij].
    - destruct (HG i Hi) as [H1 [H2 H3]]. rewrite !nth_error_map, H1, H2. cbn [option_map of_opt bind]. unfold carson_equation_self.
      destruct (Req_EM_T (g i) 0); [lra|]. destruct (Rlt_dec 0 (g i)); [reflexivity | lra].
    - rewrite get2_tab by assumption. cbn [of_opt bind]. unfold carson_equation. pose proof (HF i j Hi Hj Eij).
      destruct (Req_EM_T (f i j) 0); [lra|]. destruct (Rlt_dec 0 (f i j)); [reflexivity | lra]. }
  pose proof (tab_length n f) as L. destruct (tabulate n n f) as [|x y]; [cbn in L; lia | exact E].
Qed.

Lemma per_meter_tab n f : map (map z_per_meter) (tabulate n n f) = tabulate n n (fun i j => z_per_meter (f i j)).
Proof. unfold tabulate. rewrite map_map. apply map_ext. intros i. now rewrite map_map. Qed.

(** What the code makes of overhead wires. *)
Lemma overhead_value inv ws dist d g r kron : spaced ws dist d -> ws <> [] -> length ws <> 4%nat -> kron <> Some true ->
  (forall i w, nth_error ws i = Some w -> p_gmr w = Some (g i) /\ p_r w = Some (r i) /\ 0 < g i) ->
  get_phase_impedances inv ws (Some dist) true kron
  = Ok (tabulate (length ws) (length ws) (fun i j => z_per_meter
      (if (i =? j)%nat then carson_self (per_foot (r i)) (feet (g i)) else carson_mutual (feet (d i j))))).
Proof.
  intros HS HN H4 HK HW. unfold get_phase_impedances. cbn [default]. rewrite (feet_tab _ _ _ HS). cbn [bind].
  apply Nat.eqb_neq in H4. rewrite H4. unfold overhead_matrix.
  rewrite (mapM_nth overhead_wire (fun i => (feet (g i), per_foot (r i))) ws 0).
  2:{ intros i w Hw. destruct (HW i w Hw) as [H1 [H2 _]]. unfold overhead_wire. rewrite H1, H2. reflexivity. }
  cbn [bind]. destruct HS as [_ [_ HS]].
  assert (HN' : (0 < length ws)%nat) by (destruct ws; [congruence | cbn; lia]).
  rewrite (prim_tab (length ws) (fun i j => feet (d i j)) _ _ (fun i => feet (g i)) (fun i => per_foot (r i))).
  - cbn [bind]. replace (default false kron) with false; [now rewrite per_meter_tab|].
    destruct kron as [[|]|]; [congruence | reflexivity | reflexivity].
  - exact HN'.
  - intros i Hi. rewrite !map_map, !nth_error_map_seq, (proj2 (Nat.ltb_lt _ _) Hi). cbn [fst snd].
    split; [reflexivity|]. split; [reflexivity|]. destruct (nth_error ws i) as [w|] eqn:E; [|apply nth_error_None in E; lia].
    destruct (HW i w E) as [_ [_ P]]. unfold feet. lra.
  - intros i j Hi Hj N. destruct (HS i j Hi Hj N) as [P _]. unfold feet. lra.
Qed.

Lemma cell_tab {A} n (f : nat -> nat -> A) i j x : (i < n)%nat -> (j < n)%nat -> f i j = x -> cell (tabulate n n f) i j x.
Proof. intros Hi Hj <-. apply cell_get2. now apply get2_tab. Qed.

Lemma cell_fun {A} (m : list (list A)) i j x y : cell m i j x -> cell m i j y -> x = y.
Proof. intros [r [H1 H2]] [r' [H3 H4]]. congruence. Qed.

(** C137: for overhead wires, not four, there is a square matrix with Carson's mutual
    impedances and self reactances, in ohms per meter. *)
Theorem C137_overhead : forall inv ws dist d (g r : nat -> R) kron,
  spaced ws dist d -> ws <> [] -> length ws <> 4%nat -> kron <> Some true ->
  (forall i w, nth_error ws i = Some w -> p_gmr w = Some (g i) /\ p_r w = Some (r i) /\ 0 < g i) ->
  exists m, get_phase_impedances inv ws (Some dist) true kron = Ok m
  /\ dims m (length ws) (length ws)
  /\ (forall i j, (i < length ws)%nat -> (j < length ws)%nat -> i <> j ->
        cell m i j (ground_r / 1609.34, carson_x (3.28084 * d i j) / 1609.34))
  /\ (forall i, (i < length ws)%nat -> exists x, cell m i i (x, carson_x (3.28084 * g i) / 1609.34)).
Proof.
  intros inv ws dist d g r kron HS HN H4 HK HW. rewrite (overhead_value inv ws dist d g r kron HS HN H4 HK HW).
  eexists. split; [reflexivity|]. split; [apply tabulate_dims|]. split.
  - intros i j Hi Hj N. apply cell_tab; [assumption | assumption|]. apply Nat.eqb_neq in N. rewrite N.
    unfold z_per_meter, carson_mutual, ground_r, carson_x, feet. cbn [fst snd].
    replace (328084 / 100000 * d i j) with (3.28084 * d i j) by lra. apply f_equal2; [|set (l := ln _)]; lra.
  - intros i Hi. eexists. apply cell_tab; [assumption | assumption|]. rewrite Nat.eqb_refl.
    unfold z_per_meter, carson_self, carson_x, feet. cbn [fst snd].
    replace (328084 / 100000 * g i) with (3.28084 * g i) by lra. apply f_equal2; [reflexivity|set (l := ln _)]; lra.
Qed.
Print Assumptions C137_overhead.

(** Refutation of "the resistances of overhead wires are used": the self resistance is never
    the resistance of the wire plus that of the ground, unless that of the wire is zero. What
    is added is the resistance divided by 3.28084 and by 1609.34. *)
Theorem C137_resistance_refuted : forall inv ws dist d (g r : nat -> R) kron m i x y,
  spaced ws dist d -> ws <> [] -> length ws <> 4%nat -> kron <> Some true ->
  (forall i w, nth_error ws i = Some w -> p_gmr w = Some (g i) /\ p_r w = Some (r i) /\ 0 < g i) ->
  get_phase_impedances inv ws (Some dist) true kron = Ok m ->
  cell m i i (x, y) ->
  x = r i / 3.28084 / 1609.34 + ground_r / 1609.34
  /\ (r i <> 0 -> x <> r i + ground_r / 1609.34).
Proof.
  intros inv ws dist d g r kron m i x y HS HN H4 HK HW H HC.
  rewrite (overhead_value inv ws dist d g r kron HS HN H4 HK HW) in H. injection H as <-.
  assert (Hi : (i < length ws)%nat).
  { destruct HC as [row [E _]]. rewrite tabulate_row in E. destruct (Nat.ltb_spec i (length ws)); [assumption | discriminate]. }
  apply cell_get2 in HC. rewrite get2_tab, Nat.eqb_refl in HC by assumption.
  unfold z_per_meter, carson_self, per_foot in HC. cbn [fst snd] in HC. injection HC as HX _. unfold ground_r. split; [lra|].
  intros N C. apply N. lra.
Qed.
Print Assumptions C137_resistance_refuted.

(** Refutation of "four overhead wires are reduced to three": with four overhead wires, or if
    the reduction is asked for, there is always an exception. *)
Theorem C137_four_refuted : forall inv ws dist kron m,
  length ws = 4%nat \/ kron = Some true ->
  get_phase_impedances inv ws dist true kron <> Ok m.
Proof.
  intros inv ws dist kron m H. unfold get_phase_impedances.
  assert (K : (if Nat.eqb (length ws) 4 then true else default false kron) = true).
  { destruct H as [->| ->]; [reflexivity|]. now destruct (Nat.eqb (length ws) 4). }
  rewrite K. destruct (distances_feet _ _) as [d|]; cbn [bind]; [|discriminate]. unfold overhead_matrix.
  destruct (mapM overhead_wire ws) as [gr|]; cbn [bind]; [|discriminate].
  destruct (primitive d _ _); cbn [bind]; discriminate.
Qed.
Print Assumptions C137_four_refuted.

(** Refutation of "missing values of overhead wires get defaults": if a radius or a resistance
    is missing it is a NameError. *)
Theorem C137_defaults_refuted : forall inv ws w kron,
  In w ws -> p_gmr w = None \/ p_r w = None ->
  get_phase_impedances inv ws None true kron = Err EName.
Proof.
  intros inv ws w kron HI HW. unfold get_phase_impedances. cbn [default].
  assert (E : exists d, distances_feet (length ws) (default_distances (length ws) true) = Ok d).
  { unfold distances_feet, default_distances. rewrite tab_length, Nat.eqb_refl. cbn [negb]. eexists. apply mapM_tab.
    intros i j Hi Hj. rewrite get2_tab by assumption. reflexivity. }
  destruct E as [d ->]. cbn [bind]. unfold overhead_matrix.
  rewrite (mapM_err overhead_wire ws EName); [reflexivity| |].
  - intros x e _ H. unfold overhead_wire in H. destruct (p_gmr x); cbn in H; [|congruence]. destruct (p_r x); cbn in H; congruence.
  - exists w, EName. split; [exact HI|]. unfold overhead_wire. destruct HW as [->| ->]; [reflexivity|].
    destruct (p_gmr w); reflexivity.
Qed.
Print Assumptions C137_defaults_refuted.

(** The distances of the conductors of cables. *)
Definition cable_dist (n : nat) (d : nat -> nat -> R) (k : nat -> cable) (i j : nat) : R :=
  if Bool.eqb (Nat.ltb i n) (Nat.ltb j n) then feet (d (i mod n) (j mod n))%nat
  else if Nat.eqb (i mod n) (j mod n) then k_radius (k (i mod n)%nat)
  else feet (d (i mod n) (j mod n))%nat.

Definition cable_val (k : wire_data) : cable :=
  mkCable (feet (wd_gmr k)) (per_foot (wd_r k))
    (Rpower (feet (wd_gmr_s k) * INR (wd_strands k) * feet (wd_radius k) ^ (wd_strands k - 1)) (1 / INR (wd_strands k)))
    (per_mile (wd_r_s k) / INR (wd_strands k)) (feet (wd_radius k)).

Lemma cable_ok w k : cable_of w k -> underground_wire w = Ok (cable_val k).
Proof.
  intros [H1 [H2 [H3 [H4 [H5 [[a [b [H6 [H7 H8]]]] [H9 [P1 [P2 P3]]]]]]]]].
  unfold underground_wire. rewrite H1, H2, H3, H4, H5, H6, H7. cbn [default]. rewrite <- H8.
  destruct (Nat.eqb_spec (wd_strands k) 0); [lia|].
  destruct (Rlt_dec 0 _) as [_|N]; [reflexivity|]. exfalso. apply N.
  apply Rmult_lt_0_compat; [apply Rmult_lt_0_compat|].
  - unfold feet. lra.
  - now apply lt_0_INR.
  - apply pow_lt. unfold feet. lra.
Qed.

Lemma mod_case n i : (0 < n)%nat -> (i < 2 * n)%nat -> (i mod n)%nat = if (i <? n)%nat then i else (i - n)%nat.
Proof.
  intros Hn Hi. destruct (Nat.ltb_spec i n) as [H|H]; [now apply Nat.mod_small|].
  replace i with ((i - n) + 1 * n)%nat at 1 by lia. rewrite Nat.mod_add by lia. apply Nat.mod_small. lia.
Qed.

Lemma filter_none {A} (f : A -> bool) l : (forall x, In x l -> f x = false) -> filter f l = [].
Proof.
  induction l as [|x l IH]; intros H; [reflexivity|]. cbn [filter]. rewrite (H x (or_introl eq_refl)). apply IH.
  intros y Hy. apply H. now right.
Qed.

Lemma filter_every {A} (f : A -> bool) l : (forall x, In x l -> f x = true) -> filter f l = l.
Proof.
  induction l as [|x l IH]; intros H; [reflexivity|]. cbn [filter]. rewrite (H x (or_introl eq_refl)), IH; [reflexivity|].
  intros y Hy. apply H. now right.
Qed.

Lemma nmem_seq i a n : nmem i (seq a n) = ((a <=? i) && (i <? a + n))%nat.
Proof.
  unfold nmem. destruct (existsb _ _) eqn:E.
  - apply existsb_exists in E as [x [Hx Ex]]. apply Nat.eqb_eq in Ex. subst x. apply in_seq in Hx.
    symmetry. apply andb_true_iff. split; [apply Nat.leb_le | apply Nat.ltb_lt]; lia.
  - symmetry. apply not_true_iff_false. intros H. apply andb_true_iff in H as [H1 H2]. apply Nat.leb_le in H1. apply Nat.ltb_lt in H2.
    assert (T : existsb (Nat.eqb i) (seq a n) = true); [|congruence].
    apply existsb_exists. exists i. split; [apply in_seq; lia | apply Nat.eqb_refl].
Qed.

(** The primitive matrix of the cables. *)
Lemma cables_primitive ws dist d k : spaced ws dist d -> ws <> [] ->
  (forall i w, nth_error ws i = Some w -> cable_of w (k i)) ->
  let n := length ws in
  let ks := map (fun i => cable_val (k i)) (seq 0 n) in
  cable_distances n (tabulate n n (fun i j => feet (d i j))) ks = Ok (tabulate (2 * n) (2 * n) (cable_dist n d (fun i => cable_val (k i))))
  /\ exists z, primitive (tabulate (2 * n) (2 * n) (cable_dist n d (fun i => cable_val (k i)))) (map k_gmr ks ++ map k_gmr_n ks) (map k_r ks ++ map k_r_n ks) = Ok z
     /\ length z = (2 * n)%nat /\ reads z (cables_z n d k (fun w => wd_r w / 3.28084)).
Proof.
  intros [_ [_ HS]] HN HW n ks. assert (Hn : (0 < n)%nat) by (unfold n; destruct ws; [congruence | cbn; lia]).
  assert (HK : forall i, (i < n)%nat -> nth_error ks i = Some (cable_val (k i))).
  { intros i Hi. unfold ks. rewrite nth_error_map_seq, (proj2 (Nat.ltb_lt _ _) Hi). reflexivity. }
  assert (Hm : forall i, (i mod n < n)%nat) by (intros; apply Nat.mod_upper_bound; lia).
  assert (LK : length ks = n) by (unfold ks; now rewrite map_length, seq_length).
  assert (HC : forall i, (i < n)%nat -> exists w, cable_of w (k i)).
  { intros i Hi. destruct (nth_error ws i) as [w|] eqn:E; [exists w; now apply HW | apply nth_error_None in E; unfold n in Hi; lia]. }
  split.
  - unfold cable_distances. apply mapM_tab. intros i j Hi Hj. cbv zeta. unfold cable_dist.
    rewrite get2_tab by apply Hm. rewrite HK by apply Hm.
    destruct (Bool.eqb _ _); [reflexivity|]. destruct (Nat.eqb _ _); reflexivity.
  - set (g := fun i => if (i <? n)%nat then k_gmr (cable_val (k i)) else k_gmr_n (cable_val (k (i - n)%nat))).
    set (r := fun i => if (i <? n)%nat then k_r (cable_val (k i)) else k_r_n (cable_val (k (i - n)%nat))).
    rewrite (prim_tab (2 * n) (cable_dist n d (fun i => cable_val (k i))) _ _ g r).
    + eexists. split; [reflexivity|]. split; [apply tab_length|]. split; [rewrite tab_length; apply tabulate_dims|].
      rewrite tab_length. intros i j Hi Hj. apply cell_tab; [assumption | assumption|].
      unfold cables_z, g, r, cable_dist. cbv zeta. rewrite !mod_case by assumption.
      destruct (Nat.eqb_spec i j) as [->|N].
      * destruct (Nat.ltb_spec j n) as [B|B]; unfold carson_self, cable_val, ground_r, carson_x, strands_gmr, feet, per_foot, per_mile; cbn [k_gmr k_r k_gmr_n k_r_n].
        { replace (328084 / 100000 * wd_gmr (k j)) with (3.28084 * wd_gmr (k j)) by lra.
          apply f_equal2; [|set (l := ln _)]; lra. }
        { replace (328084 / 100000) with 3.28084 by lra. replace (621371 / 1000000000) with 0.000621371 by lra.
          apply f_equal2; [|set (l := ln _)]; lra. }
      * assert (F : forall x, carson_mutual (feet x) = (ground_r, carson_x (3.28084 * x))).
        { intros x. unfold carson_mutual, ground_r, carson_x, feet. replace (328084 / 100000 * x) with (3.28084 * x) by lra.
          apply f_equal2; [|set (l := ln _)]; lra. }
        destruct (Nat.ltb_spec i n) as [Bi|Bi], (Nat.ltb_spec j n) as [Bj|Bj]; cbn [Bool.eqb].
        -- apply Nat.eqb_neq in N. rewrite N. apply F.
        -- destruct (Nat.eqb i (j - n)); apply F.
        -- destruct (Nat.eqb (i - n) j); apply F.
        -- destruct (Nat.eqb_spec (i - n) (j - n)); [lia | apply F].
    + lia.
    + intros i Hi. assert (S : forall f, nth_error (map f ks) (if (i <? n)%nat then i else (i - n)%nat) = Some (f (cable_val (k (if (i <? n)%nat then i else (i - n)%nat)))) :> option R).
      { intros f. rewrite nth_error_map, HK; [reflexivity|]. destruct (Nat.ltb_spec i n); lia. }
      unfold g, r. destruct (Nat.ltb_spec i n) as [B|B].
      * rewrite !nth_error_app1 by (rewrite map_length, LK; exact B). rewrite !S. split; [reflexivity|]. split; [reflexivity|].
        destruct (HC i B) as [w [_ [_ [_ [_ [_ [_ [_ [P _]]]]]]]]]. unfold cable_val, feet. cbn [k_gmr]. lra.
      * rewrite !nth_error_app2 by (rewrite map_length, LK; exact B). rewrite !map_length, LK, !S.
        split; [reflexivity|]. split; [reflexivity|]. unfold cable_val. cbn [k_gmr_n]. unfold Rpower. apply exp_pos.
    + intros i j Hi Hj N. unfold cable_dist. rewrite !mod_case by assumption.
      assert (D : forall a b, (a < n)%nat -> (b < n)%nat -> a <> b -> 0 < feet (d a b)).
      { intros a b Ha Hb Nab. destruct (HS a b Ha Hb Nab) as [P _]. unfold feet. lra. }
      assert (Q : forall a, (a < n)%nat -> 0 < k_radius (cable_val (k a))).
      { intros a Ha. destruct (HC a Ha) as [w [_ [_ [_ [_ [_ [_ [_ [_ [_ P]]]]]]]]]]. unfold cable_val, feet. cbn [k_radius]. lra. }
      destruct (Nat.ltb_spec i n) as [Bi|Bi], (Nat.ltb_spec j n) as [Bj|Bj]; cbn [Bool.eqb].
      * now apply D.
      * destruct (Nat.eqb_spec i (j - n)); [now apply Q | apply D; lia].
      * destruct (Nat.eqb_spec (i - n) j); [apply Q; lia | apply D; lia].
      * apply D; lia.
Qed.

Lemma ps_seq n : filter (fun i => negb (nmem i (seq n n))) (seq 0 (2 * n)) = seq 0 n.
Proof.
  replace (2 * n)%nat with (n + n)%nat by lia. rewrite seq_app, filter_app, filter_every, filter_none; [apply app_nil_r| |].
  - intros x Hx. apply in_seq in Hx. rewrite nmem_seq. apply negb_false_iff, andb_true_iff. split; [apply Nat.leb_le | apply Nat.ltb_lt]; lia.
  - intros x Hx. apply in_seq in Hx. rewrite nmem_seq. apply negb_true_iff, andb_false_iff. left. apply Nat.leb_gt. lia.
Qed.

Lemma ns_seq n : filter (fun i => nmem i (seq n n)) (seq 0 (2 * n)) = seq n n.
Proof.
  replace (2 * n)%nat with (n + n)%nat at 1 by lia. rewrite seq_app, filter_app, filter_none, filter_every; [reflexivity| |].
  - intros x Hx. apply in_seq in Hx. rewrite nmem_seq. apply andb_true_iff. split; [apply Nat.leb_le | apply Nat.ltb_lt]; lia.
  - intros x Hx. apply in_seq in Hx. rewrite nmem_seq. apply andb_false_iff. left. apply Nat.leb_gt. lia.
Qed.

Lemma cables_z_sym n (d : nat -> nat -> R) k rp i j : (i < 2 * n)%nat -> (j < 2 * n)%nat ->
  (forall a b, (a < n)%nat -> (b < n)%nat -> a <> b -> d a b = d b a) ->
  cables_z n d k rp i j = cables_z n d k rp j i.
Proof.
  intros Hi Hj HS. unfold cables_z. cbv zeta. rewrite (Nat.eqb_sym j i). destruct (Nat.eqb_spec i j) as [->|N]; [reflexivity|].
  set (a := if (i <? n)%nat then i else (i - n)%nat). set (b := if (j <? n)%nat then j else (j - n)%nat).
  assert (Ha : (a < n)%nat) by (unfold a; destruct (Nat.ltb_spec i n); lia).
  assert (Hb : (b < n)%nat) by (unfold b; destruct (Nat.ltb_spec j n); lia).
  rewrite (Nat.eqb_sym b a). destruct (Nat.eqb_spec a b) as [->|M]; [reflexivity|]. now rewrite (HS a b Ha Hb M).
Qed.

(** C137: the impedances of underground cables are those of the phase conductors when the
    concentric neutrals are grounded: they give the voltage drops for all currents for which
    no neutral has one. The resistance per mile of the phase conductors is, wrongly, that per
    foot. *)
Theorem C137_underground : forall inv ws dist d k kron m,
  spaced ws dist d -> ws <> [] ->
  (forall i w, nth_error ws i = Some w -> cable_of w (k i)) ->
  (forall a v, inv a = Ok v -> inverse_of c0 cadd cmul c1 a v) ->
  get_phase_impedances inv ws (Some dist) false kron = Ok m ->
  exists y, m = map (map z_per_meter) y
  /\ grounded_reduction c0 cadd cmul (cables_z (length ws) d k (fun w => wd_r w / 3.28084))
       (seq 0 (length ws)) (seq (length ws) (length ws)) y.
Proof.
  intros inv ws dist d k kron m HS HN HW HI H. unfold get_phase_impedances in H. cbn [default] in H.
  rewrite (feet_tab _ _ _ HS) in H. cbn [bind] in H. unfold underground_matrix in H.
  rewrite (mapM_nth underground_wire (fun i => cable_val (k i)) ws 0) in H by (intros i w Hw; apply cable_ok, HW, Hw).
  cbn [bind] in H. set (n := length ws) in *. cbv zeta in H.
  destruct (cables_primitive ws dist d k HS HN HW) as [E1 [z [E2 [LZ HR]]]]. fold n in E1, E2, LZ, HR.
  rewrite E1 in H. cbn [bind] in H. rewrite E2 in H. cbn [bind] in H.
  assert (Hn : (0 < n)%nat) by (unfold n; destruct ws; [congruence | cbn; lia]).
  destruct (kron_reduction _ _ _ _ _ inv z _) as [y|] eqn:EK; cbn [bind] in H; [|discriminate]. injection H as <-.
  exists y. split; [reflexivity|]. destruct HS as [_ [_ HS]]. fold n in HS.
  pose proof (C05_kron_grounded_partial C c0 c1 cadd cmul csub copp c_ring z _ (seq n n) inv HR) as G. cbv zeta in G.
  rewrite LZ, seq_length, ps_seq, ns_seq in G.
  apply G; try assumption; try lia; clear G.
  - apply seq_NoDup.
  - intros i Hi. apply in_seq in Hi. lia.
  - intros i j Hi Hj. apply cables_z_sym; [assumption | assumption|]. intros a b Ha Hb N. now destruct (HS a b Ha Hb N).
  - intros a b Ha Hb. rewrite !seq_nth by assumption. cbn [plus]. unfold cables_z. cbv zeta.
    destruct (Nat.eqb_spec a (n + b)); [lia|]. destruct (Nat.eqb_spec b (n + a)); [lia|].
    rewrite (proj2 (Nat.ltb_lt a n) Ha), (proj2 (Nat.ltb_lt b n) Hb).
    destruct (Nat.ltb_spec (n + b) n); [lia|]. destruct (Nat.ltb_spec (n + a) n); [lia|].
    replace (n + b - n)%nat with b by lia. replace (n + a - n)%nat with a by lia. rewrite (Nat.eqb_sym b a).
    destruct (Nat.eqb_spec a b) as [->|N]; [reflexivity|]. destruct (HS a b Ha Hb N) as [_ ->]. reflexivity.
Qed.
Print Assumptions C137_underground.

(** C137: there is a matrix for underground cables if the impedances of the neutrals can be
    inverted. *)
Theorem C137_underground_exists : forall inv ws dist d k kron,
  spaced ws dist d -> ws <> [] ->
  (forall i w, nth_error ws i = Some w -> cable_of w (k i)) ->
  (forall a v, inv a = Ok v -> inverse_of c0 cadd cmul c1 a v) ->
  (forall b, length b = length ws ->
     reads b (fun i j => cables_z (length ws) d k (fun w => wd_r w / 3.28084) (length ws + i) (length ws + j)) ->
     exists v, inv b = Ok v) ->
  exists m, get_phase_impedances inv ws (Some dist) false kron = Ok m.
Proof.
  intros inv ws dist d k kron HS HN HW HI HB. unfold get_phase_impedances. cbn [default].
  rewrite (feet_tab _ _ _ HS). cbn [bind]. unfold underground_matrix.
  rewrite (mapM_nth underground_wire (fun i => cable_val (k i)) ws 0) by (intros i w Hw; apply cable_ok, HW, Hw).
  cbn [bind]. set (n := length ws) in *. cbv zeta.
  destruct (cables_primitive ws dist d k HS HN HW) as [E1 [z [E2 [LZ HR]]]]. fold n in E1, E2, LZ, HR.
  rewrite E1. cbn [bind]. rewrite E2. cbn [bind].
  assert (Hn : (0 < n)%nat) by (unfold n; destruct ws; [congruence | cbn; lia]).
  pose proof (kron_value C c0 c1 cadd cmul csub copp c_ring z _ (seq n n) inv HR) as G.
  rewrite LZ, seq_length in G. rewrite G; try assumption; try lia; clear G.
  - destruct HS as [_ [_ HS]]. fold n in HS.
    destruct (HB (tabulate n n (fun a b => cables_z n d k (fun w => wd_r w / 3.28084) (nth b (nlist z (seq n n)) 0%nat) (nth a (nlist z (seq n n)) 0%nat)))) as [v ->].
    + apply tab_length.
    + split; [rewrite tab_length; apply tabulate_dims|]. rewrite tab_length. intros i j Hi Hj. apply cell_tab; [assumption | assumption|].
      unfold nlist. rewrite LZ. replace (filter _ (seq 0 (2 * n))) with (seq n n) by (symmetry; apply ns_seq).
      rewrite !seq_nth by assumption. apply cables_z_sym; [lia | lia|]. intros a b Ha Hb N. now destruct (HS a b Ha Hb N).
    + cbn [bind]. eauto.
  - apply seq_NoDup.
  - intros i Hi. apply in_seq in Hi. lia.
Qed.
Print Assumptions C137_underground_exists.

(** The hypotheses are met: two overhead wires one meter apart, and one underground cable. *)
Definition ex_wire : phwire := mkPhwire (Some 0.01) (Some 0.0001) (Some 0.0005) (Some 16%nat) (Some 0.001) (Some 0.026) (Some 0.002).

(** The inverse of a matrix of one number. *)
Definition ex_inv (m : cmat) : res cmat :=
  match m with
  | [[x]] => if Req_EM_T (fst x * fst x + snd x * snd x) 0 then Err EValue else Ok [[cinv x]]
  | _ => Err EValue
  end.

Lemma ex_inv_ok a v : ex_inv a = Ok v -> inverse_of c0 cadd cmul c1 a v.
Proof.
  unfold ex_inv. destruct a as [|[|x [|]] [|]]; try discriminate. destruct (Req_EM_T _ 0) as [|N]; [discriminate|].
  intros H. injection H as <-.
  assert (X : x <> c0) by (intros ->; apply N; cbn; ring).
  assert (L : cmul (cinv x) x = c1) by (now apply cinv_l).
  assert (L' : cmul x (cinv x) = c1) by (rewrite <- L; unfold cmul; destruct x, (cinv _); cbn; f_equal; ring).
  exists 1%nat. split; [split; [reflexivity | intros r [<-|[]]; reflexivity]|].
  split; [split; [reflexivity | intros r [<-|[]]; reflexivity]|].
  split; intros a b Ha Hb; assert (a = 0%nat) by lia; assert (b = 0%nat) by lia; subst; cbn [seq sum_over fold_right map nth Nat.eqb].
  - rewrite L. unfold cadd, c0, c1. cbn. f_equal; ring.
  - rewrite L'. unfold cadd, c0, c1. cbn. f_equal; ring.
Qed.

Example C137_hypotheses_met :
  spaced [ex_wire; ex_wire] [[0; 1]; [1; 0]] (fun i j => if (i =? j)%nat then 0 else 1)
  /\ spaced [ex_wire] [[0]] (fun _ _ => 0)
  /\ cable_of ex_wire (mkWireData 0.01 0.0001 16 0.0005 0.002 0.0125)
  /\ (forall inv, exists m x, get_phase_impedances inv [ex_wire; ex_wire] (Some [[0; 1]; [1; 0]]) true None = Ok m
        /\ cell m 0 0 x /\ fst x <> 0.0001 + ground_r / 1609.34)
  /\ exists m, get_phase_impedances ex_inv [ex_wire] (Some [[0]]) false None = Ok m.
Proof.
  assert (S2 : spaced [ex_wire; ex_wire] [[0; 1]; [1; 0]] (fun i j => if (i =? j)%nat then 0 else 1)).
  { split; [split; [reflexivity | intros row [<-|[<-|[]]]; reflexivity]|]. split.
    - intros [|[|i]] [|[|j]] Hi Hj; cbn in Hi, Hj; try lia; eexists; split; reflexivity.
    - intros i j _ _ N. rewrite (Nat.eqb_sym j i). apply Nat.eqb_neq in N. rewrite N. split; [lra | reflexivity]. }
  assert (S1 : spaced [ex_wire] [[0]] (fun _ _ => 0)).
  { split; [split; [reflexivity | intros row [<-|[]]; reflexivity]|]. split.
    + intros [|i] [|j] Hi Hj; cbn in Hi, Hj; try lia. eexists; split; reflexivity.
    + intros [|i] [|j] Hi Hj; cbn in Hi, Hj; lia. }
  assert (K : cable_of ex_wire (mkWireData 0.01 0.0001 16 0.0005 0.002 0.0125)).
  { unfold cable_of, ex_wire. cbn. do 5 (split; [reflexivity|]). split; [exists 0.001, 0.026; repeat split; lra|].
    split; [lia|]. split; [lra|]. split; lra. }
  split; [exact S2|]. split; [exact S1|]. split; [exact K|]. split.
  2:{ apply (C137_underground_exists ex_inv _ _ _ (fun _ => mkWireData 0.01 0.0001 16 0.0005 0.002 0.0125) None S1).
    - discriminate.
    - intros [|i] w Hw; cbn in Hw; [injection Hw as <-; exact K | destruct i; discriminate].
    - exact ex_inv_ok.
    - intros b LB [D HR]. destruct b as [|row [|]]; try discriminate LB. destruct (HR 0%nat 0%nat) as [r [E1 E2]]; [cbn; lia | cbn; lia|].
      cbn in E1. injection E1 as <-. pose proof (proj2 D row (or_introl eq_refl)) as LR. cbn in LR.
      destruct row as [|x [|]]; try discriminate LR. cbn [nth_error] in E2. injection E2 as ->.
      unfold ex_inv. destruct (Req_EM_T _ 0) as [E|]; [|eauto]. exfalso. revert E.
      cbn [length plus cables_z Nat.eqb Nat.ltb Nat.leb Nat.sub fst snd wd_r_s wd_strands].
      match goal with |- ?a * ?a + ?b * ?b = 0 -> _ => set (u := b); assert (P : 0 < a) end.
      { unfold ground_r. assert (0 < INR 16) by (apply lt_0_INR; lia).
        assert (0 < 0.002 / 0.000621371 / INR 16) by (apply Rdiv_lt_0_compat; lra). lra. }
      pose proof (Rle_0_sqr u) as Q. unfold Rsqr in Q. intros E. nra. }
  - intros inv. assert (HW : forall i w, nth_error [ex_wire; ex_wire] i = Some w ->
      p_gmr w = Some ((fun _ => 0.01) i) /\ p_r w = Some ((fun _ => 0.0001) i) /\ 0 < (fun _ : nat => 0.01) i).
    { intros [|[|i]] w Hw; cbn in Hw; [| |destruct i; discriminate]; injection Hw as <-; repeat split; lra. }
    destruct (C137_overhead inv _ _ _ (fun _ => 0.01) (fun _ => 0.0001) None S2 ltac:(discriminate) ltac:(discriminate) ltac:(discriminate) HW)
      as [m [E [_ [_ HD]]]].
    destruct (HD 0%nat) as [x HX]; [cbn; lia|]. exists m. eexists. split; [exact E|]. split; [exact HX|]. cbn [fst].
    destruct (C137_resistance_refuted inv _ _ _ (fun _ => 0.01) (fun _ => 0.0001) None m 0%nat x _ S2 ltac:(discriminate) ltac:(discriminate) ltac:(discriminate) HW E HX) as [_ N].
    apply N. lra.
Qed.
