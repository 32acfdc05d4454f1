(** C138: the impedance matrix of lines of Windmil files. *)
From Coq Require Import Reals Lra Lia.
From Verif Require Import Base BaseFacts MatrixModel MatrixSpec MatrixProofs ImpedModel ImpedSpec CarsonProofs MatrixProps PtDistModel PtDistProps PhZProps WmZModel.
Local Open Scope string_scope.
Local Open Scope list_scope.
Local Open Scope R_scope.

(** Distance of the places of two phases, as drawn by the reader: A, B and C in a row at
    height 10, one unit apart. *)
Definition apart (p q : string) (x : R) : Prop :=
  (In (p, q) [("A", "B"); ("B", "A"); ("B", "C"); ("C", "B")] /\ x = 1)
  \/ (In (p, q) [("A", "C"); ("C", "A")] /\ x = 2).

(** Carson's impedances, of a radius or distance and a resistance. *)
Definition self_imp (r g : R) : C := (r + 0.0953, 0.12134 * (ln (1 / g) + 7.93402)).
Definition mutual_imp (x : R) : C := (0.0953, 0.12134 * (ln (1 / x) + 7.93402)).

(** The radius and resistance of a wire: where the tables have none (or radius zero), 1 and 0. *)
Definition radius (w : wzwire) (g : R) : Prop :=
  (wz_gmr w = Some g /\ 0 < g) \/ ((wz_gmr w = None \/ wz_gmr w = Some 0) /\ g = 1).
Definition resist (w : wzwire) (r : R) : Prop := wz_r w = Some r \/ (wz_r w = None /\ r = 0).

Lemma radius_fill w g : radius w g -> fill_gmr w = g /\ 0 < g.
Proof.
  unfold radius, fill_gmr. intros [[-> H]|[[-> | ->] ->]].
  - destruct (Req_EM_T g 0); [lra | auto].
  - split; [reflexivity | lra].
  - destruct (Req_EM_T 0 0); [split; [reflexivity | lra] | congruence].
Qed.

Lemma resist_fill w r : resist w r -> fill_r w = r.
Proof. unfold resist, fill_r. now intros [-> | [-> ->]]. Qed.

Definition phase_place (p : string) : R := if String.eqb p "A" then -1 else if String.eqb p "C" then 1 else 0.

Lemma abc_distance p q : In p ["A"; "B"; "C"] -> In q ["A"; "B"; "C"] ->
  distance (place p) (place q) = Ok (Rabs (phase_place p - phase_place q)).
Proof.
  intros Hp Hq. apply distance_sq. split; [reflexivity|].
  destruct Hp as [<-|[<-|[<-|[]]]], Hq as [<-|[<-|[<-|[]]]]; unfold place, phase_place; cbn [String.eqb Ascii.eqb Bool.eqb sq];
  rewrite <- sqrt_Rsqr_abs; apply f_equal; unfold Rsqr; ring.
Qed.

Definition dist_tab (ws : list wzwire) : list (list R) :=
  map (fun w1 => map (fun w2 => Rabs (phase_place (wz_phase w1) - phase_place (wz_phase w2))) ws) ws.

Lemma step_ok k1 inv n ws : forall s s',
  foldM (add_wire k1 inv n) ws s = Ok s' ->
  fst s' = fst s ++ ws
  /\ (forall a w b, ws = a ++ w :: b -> exists m, wires_matrix k1 inv n (fst s ++ a ++ [w]) = Ok m)
  /\ (ws <> [] -> exists m, snd s' = Some m /\ wires_matrix k1 inv n (fst s') = Ok m).
Proof.
  induction ws as [|w ws IH]; intros s s' H.
  - cbn in H. injection H as <-. split; [now rewrite app_nil_r|]. split; [|congruence]. intros [|] ? ? E; discriminate E.
  - cbn [foldM] in H. unfold add_wire in H at 1. destruct (wires_matrix k1 inv n (fst s ++ [w])) as [m|] eqn:E; cbn [bind] in H; [|discriminate].
    destruct (IH _ _ H) as [H1 [H2 H3]]. cbn [fst snd] in *. split; [rewrite H1, <- app_assoc; reflexivity|]. split.
    + intros [|x a] w' b Eq; injection Eq as <- Eq; [exists m; exact E|]. subst ws.
      destruct (H2 a w' b eq_refl) as [m' E']. exists m'. now rewrite <- app_assoc in E'.
    + intros _. destruct ws as [|x ws]; [|apply H3; discriminate]. cbn in H. injection H as <-. cbn [fst snd]. eauto.
Qed.

Lemma foldM_all k1 inv n ws : forall s,
  (forall a w b, ws = a ++ w :: b -> exists m, wires_matrix k1 inv n (fst s ++ a ++ [w]) = Ok m) ->
  exists s', foldM (add_wire k1 inv n) ws s = Ok s'.
Proof.
  induction ws as [|w ws IH]; intros s H; [cbn; eauto|]. cbn [foldM]. unfold add_wire at 1.
  destruct (H [] w ws eq_refl) as [m E]. cbn [app] in E. rewrite E. cbn [bind]. apply IH. cbn [fst].
  intros a w' b Eq. destruct (H (w :: a) w' b) as [m' E']; [now rewrite Eq|]. exists m'. now rewrite <- app_assoc.
Qed.

Lemma wires_value k1 inv ws : ws <> [] ->
  (forall w, In w ws -> In (wz_phase w) ["A"; "B"; "C"] /\ 0 < fill_gmr w) -> NoDup (map wz_phase ws) ->
  exists m, wires_matrix k1 inv 0 ws = Ok m
  /\ dims m (length ws) (length ws)
  /\ (forall i w, nth_error ws i = Some w -> cell m i i (carson_self (fill_r w) (fill_gmr w)))
  /\ (forall i j v w, nth_error ws i = Some v -> nth_error ws j = Some w -> i <> j ->
        cell m i j (carson_mutual (Rabs (phase_place (wz_phase v) - phase_place (wz_phase w))))).
Proof.
  intros HN HW HD. unfold wires_matrix.
  assert (ED : mapM (fun w1 => mapM (fun w2 => distance (place (wz_phase w1)) (place (wz_phase w2))) ws) ws = Ok (dist_tab ws)).
  { unfold dist_tab. apply mapM_all. intros v Hv. apply mapM_all. intros w Hw. apply abc_distance; [now apply HW | now apply HW]. }
  rewrite ED. cbn [bind]. cbn [Nat.eqb].
  assert (LD : length (dist_tab ws) = length ws) by (unfold dist_tab; now rewrite map_length).
  assert (GD : forall i j v w, nth_error ws i = Some v -> nth_error ws j = Some w ->
     get2 (dist_tab ws) i j = Some (Rabs (phase_place (wz_phase v) - phase_place (wz_phase w)))).
  { intros i j v w Hv Hw. unfold get2, dist_tab. rewrite nth_error_map, Hv. cbn [option_map]. now rewrite nth_error_map, Hw. }
  assert (PD : forall i j v w, nth_error ws i = Some v -> nth_error ws j = Some w -> i <> j ->
     0 < Rabs (phase_place (wz_phase v) - phase_place (wz_phase w))).
  { intros i j v w Hv Hw N. apply Rabs_pos_lt. intros E.
    assert (EP : wz_phase v = wz_phase w).
    { destruct (HW v (nth_error_In _ _ Hv)) as [Pv _]. destruct (HW w (nth_error_In _ _ Hw)) as [Pw _].
      destruct Pv as [Pv|[Pv|[Pv|[]]]], Pw as [Pw|[Pw|[Pw|[]]]]; rewrite <- Pv, <- Pw in E |- *; try reflexivity; unfold phase_place in E; cbn in E; lra. }
    apply N. rewrite NoDup_nth_error in HD. apply HD.
    - rewrite map_length. apply nth_error_Some. congruence.
    - rewrite !nth_error_map, Hv, Hw. cbn. now f_equal. }
  assert (EX : exists m, get_primitive_impedance_matrix (dist_tab ws) (map (fun w => Some (fill_gmr w)) ws) (map (fun w => Some (fill_r w)) ws) = Ok m).
  { unfold get_primitive_impedance_matrix. rewrite LD. apply mapM_total. intros i Hi. apply mapM_total. intros j Hj.
    apply in_seq in Hi. apply in_seq in Hj.
    destruct (nth_error ws i) as [v|] eqn:Ev; [|apply nth_error_None in Ev; lia].
    destruct (nth_error ws j) as [w|] eqn:Ew; [|apply nth_error_None in Ew; lia].
    destruct (Nat.eqb_spec i j) as [E|E].
    - rewrite !nth_error_map, Ev. cbn [option_map of_opt bind]. unfold carson_equation_self.
      destruct (HW v (nth_error_In _ _ Ev)) as [_ P]. destruct (Req_EM_T (fill_gmr v) 0); [lra|].
      destruct (Rlt_dec 0 (fill_gmr v)); [eauto | lra].
    - rewrite (GD i j v w Ev Ew). cbn [of_opt bind]. unfold carson_equation. pose proof (PD i j v w Ev Ew E).
      destruct (Req_EM_T _ 0); [lra|]. destruct (Rlt_dec 0 _); [eauto | lra]. }
  destruct EX as [m EM]. rewrite EM. cbn [bind]. exists m. split; [reflexivity|].
  apply primitive_result in EM. cbv zeta in EM. rewrite LD in EM. destruct EM as [D [HS [HM _]]].
  split; [exact D|]. split.
  - intros i w Hw. destruct (HS i) as [r [g [Hr [Hg [_ HC]]]]]; [apply nth_error_Some; congruence|].
    rewrite nth_error_map, Hw in Hr, Hg. injection Hr as <-. injection Hg as <-. exact HC.
  - intros i j v w Hv Hw N. destruct (HM i j) as [x [Hx [_ HC]]]; [apply nth_error_Some; congruence | apply nth_error_Some; congruence | exact N|].
    apply cell_get2 in Hx. rewrite (GD i j v w Hv Hw) in Hx. injection Hx as <-. exact HC.
Qed.

(** C138: a line without a neutral, with different phases of A, B and C and radii that are not negative, has a
    matrix with a row for each phase: Carson's impedances of the radii and resistances of the
    wires, and of the distances of their places. *)
Theorem C138_no_neutral : forall k1 inv ws,
  ws <> [] -> NoDup (map wz_phase ws) ->
  (forall w, In w ws -> In (wz_phase w) ["A"; "B"; "C"] /\ exists g, radius w g) ->
  exists m, line_matrix k1 inv 0 ws = Ok (Some m)
  /\ dims m (length ws) (length ws)
  /\ (forall i w g r, nth_error ws i = Some w -> radius w g -> resist w r -> cell m i i (self_imp r g))
  /\ (forall i j v w x, nth_error ws i = Some v -> nth_error ws j = Some w -> apart (wz_phase v) (wz_phase w) x ->
        cell m i j (mutual_imp x)).
Proof.
  intros k1 inv ws HN HD HW.
  assert (HF : forall w, In w ws -> In (wz_phase w) ["A"; "B"; "C"] /\ 0 < fill_gmr w).
  { intros w Hw. destruct (HW w Hw) as [P [g G]]. split; [exact P|]. destruct (radius_fill w g G) as [-> G']. exact G'. }
  unfold line_matrix. destruct (foldM_all k1 inv 0%nat ws ([], None)) as [s' ES].
  { intros a w b E. cbn [fst app].
    assert (SUB : forall x, In x (a ++ [w]) -> In x ws) by (intros x Hx; rewrite E; apply in_app_iff in Hx; apply in_app_iff; cbn in *; tauto).
    destruct (wires_value k1 inv (a ++ [w])) as [m [Em _]]; [destruct a; discriminate | auto | | eauto].
    rewrite E in HD. change (w :: b) with ([w] ++ b) in HD. rewrite app_assoc, map_app in HD.
    clear - HD. induction (map wz_phase (a ++ [w])) as [|x l IH]; [constructor|]. cbn in HD. inversion HD; subst.
    constructor; [intros C; apply H1; apply in_app_iff; now left | now apply IH]. }
  rewrite ES. cbn [bind]. destruct (step_ok _ _ _ _ _ _ ES) as [E1 [_ H3]]. cbn [fst app] in E1.
  destruct (H3 HN) as [m [-> Em]]. rewrite E1 in Em. destruct (wires_value k1 inv ws HN HF HD) as [m' [Em' [D [HS HM]]]].
  rewrite Em in Em'. injection Em' as <-. exists m. split; [reflexivity|]. split; [exact D|]. split.
  - intros i w g r Hw Hg Hr. specialize (HS i w Hw). destruct (radius_fill w g Hg) as [EG _]. rewrite EG, (resist_fill w r Hr) in HS.
    replace (self_imp r g) with (carson_self r g); [exact HS|].
    unfold self_imp, carson_self. apply f_equal2; [|set (l := ln _)]; lra.
  - intros i j v w x Hv Hw HA.
    assert (N : i <> j).
    { intros ->. assert (v = w) by congruence. subst w. destruct HA as [[HA _]|[HA _]]; cbn in HA; intuition congruence. }
    specialize (HM i j v w Hv Hw N).
    assert (EX : Rabs (phase_place (wz_phase v) - phase_place (wz_phase w)) = x).
    { destruct HA as [[HA ->]|[HA ->]]; cbn [In] in HA;
      repeat (destruct HA as [HA|HA]; [injection HA as <- <-; unfold phase_place; cbn [String.eqb Ascii.eqb Bool.eqb]; unfold Rabs; destruct (Rcase_abs _); lra|]);
      destruct HA. }
    rewrite EX in HM. replace (mutual_imp x) with (carson_mutual x); [exact HM|].
    unfold mutual_imp, carson_mutual. apply f_equal2; [|set (l := ln _)]; lra.
Qed.
Print Assumptions C138_no_neutral.

(** Refutation of "the matrix is in ohms per meter", as it is of the models: the self resistance
    of a wire of [r] ohms per meter is not [r] plus that of the ground per meter, which is
    0.0953 ohms per mile. *)
Theorem C138_unit_refuted : forall k1 inv ws m i w g r x y,
  ws <> [] -> NoDup (map wz_phase ws) ->
  (forall w, In w ws -> In (wz_phase w) ["A"; "B"; "C"] /\ exists g, radius w g) ->
  line_matrix k1 inv 0 ws = Ok (Some m) ->
  nth_error ws i = Some w -> radius w g -> resist w r ->
  cell m i i (x, y) -> x <> r + 0.0953 / 1609.34.
Proof.
  intros k1 inv ws m i w g r x y HN HD HW H Hw Hg Hr HC.
  destruct (C138_no_neutral k1 inv ws HN HD HW) as [m' [E [_ [HS _]]]]. rewrite H in E. injection E as <-.
  pose proof (cell_fun _ _ _ _ _ HC (HS i w g r Hw Hg Hr)) as E. unfold self_imp in E. injection E as -> _. lra.
Qed.
Print Assumptions C138_unit_refuted.

(** Refutation of "lines with a neutral are read": with a neutral and three wires or more there
    is always an exception, because the neutral cannot be eliminated. *)
Theorem C138_neutral_refuted : forall k1 inv n ws m,
  (0 < n)%nat -> (3 <= length ws)%nat -> line_matrix k1 inv n ws <> Ok m.
Proof.
  intros k1 inv n ws m Hn HL H. unfold line_matrix in H.
  destruct (foldM _ ws _) as [s|] eqn:E; cbn [bind] in H; [|discriminate]. destruct (step_ok _ _ _ _ _ _ E) as [_ [HP _]].
  destruct ws as [|a [|b [|c ws]]]; cbn in HL; try lia.
  destruct (HP [a; b] c ws eq_refl) as [m' Em]. cbn [fst app] in Em. unfold wires_matrix in Em.
  destruct (mapM _ [a; b; c]) as [d|] eqn:ED; cbn [bind] in Em; [|discriminate].
  destruct (get_primitive_impedance_matrix d _ _) as [z|] eqn:EZ; cbn [bind] in Em; [|discriminate].
  destruct (Nat.eqb_spec n 0); [lia|]. apply mapM_length in ED. cbn in ED.
  apply primitive_result in EZ. cbv zeta in EZ. rewrite ED in EZ. destruct EZ as [[LZ DZ] _].
  unfold reduce in Em. rewrite LZ in Em. cbn [Nat.eqb] in Em.
  rewrite (C05_kron_default_refuted C c0 cadd cmul csub z (fun i j => match get2 z i j with Some x => x | None => c0 end) inv) in Em;
    [discriminate | | lia].
  split; [rewrite LZ; split; assumption|]. rewrite LZ. intros i j Hi Hj. apply cell_get2. unfold get2.
  destruct (nth_error z i) as [row|] eqn:Er; [|apply nth_error_None in Er; lia].
  destruct (nth_error row j) as [x|] eqn:Ex; [reflexivity|]. apply nth_error_None in Ex.
  pose proof (DZ row (nth_error_In _ _ Er)). lia.
Qed.
Print Assumptions C138_neutral_refuted.

(** With the products of numpy of arrays without entries this is so for every line with a
    neutral: the first wire fails already. *)
Theorem C138_any_neutral_refuted : forall inv n ws m,
  (0 < n)%nat -> ws <> [] -> line_matrix no_entries inv n ws <> Ok m.
Proof.
  intros inv n ws m Hn HN H. unfold line_matrix in H.
  destruct (foldM _ ws _) as [s|] eqn:E; cbn [bind] in H; [|discriminate]. destruct (step_ok _ _ _ _ _ _ E) as [_ [HP _]].
  destruct ws as [|w ws]; [congruence|]. destruct (HP [] w ws eq_refl) as [m' Em]. cbn [fst app] in Em. unfold wires_matrix in Em.
  destruct (mapM _ [w]) as [d|] eqn:ED; cbn [bind] in Em; [|discriminate].
  destruct (get_primitive_impedance_matrix d _ _) as [z|] eqn:EZ; cbn [bind] in Em; [|discriminate].
  destruct (Nat.eqb_spec n 0); [lia|]. apply mapM_length in ED. cbn in ED.
  apply primitive_result in EZ. cbv zeta in EZ. rewrite ED in EZ. destruct EZ as [[LZ _] _].
  unfold reduce in Em. rewrite LZ in Em. discriminate.
Qed.
Print Assumptions C138_any_neutral_refuted.

(** The hypotheses are met: a line with the phases A and C. *)
Example C138_hypotheses_met : forall k1 inv, exists m,
  line_matrix k1 inv 0 [mkWzwire "A" (Some 0.01) (Some 0.0002); mkWzwire "C" (Some 0.01) (Some 0.0002)] = Ok (Some m)
  /\ cell m 0 1 (mutual_imp 2).
Proof.
  intros k1 inv. set (ws := [_; _]).
  destruct (C138_no_neutral k1 inv ws) as [m [E [_ [_ HM]]]].
  - discriminate.
  - repeat constructor; cbn; intuition discriminate.
  - intros w [<-|[<-|[]]]; (split; [cbn; tauto|]); exists 0.01; left; (split; [reflexivity | lra]).
  - exists m. split; [exact E|]. apply (HM 0%nat 1%nat _ _ 2 eq_refl eq_refl). right. cbn. auto.
Qed.
