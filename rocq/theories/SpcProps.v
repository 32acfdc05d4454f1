(** C136: the impedance matrix of a CYME line given by a spacing and conductors. *)
From Coq Require Import Reals Lra Lia.
From Verif Require Import Base BaseFacts MatrixModel MatrixSpec ImpedModel ImpedSpec CarsonProofs SpcModel SpcSpec SpcProofs.
Local Open Scope string_scope.
Local Open Scope list_scope.
Local Open Scope R_scope.

(** C136: the matrix of a line with at most one neutral has Carson's impedances of its
    conductors: those of the phases, each at the place of its number in the line, and
    the neutral if it has a place and a conductor. *)
Theorem C136_matrix : forall cs settings sp phases ws m,
  line_wires cs settings sp phases ws ->
  spacing_matrix cs settings sp phases = Ok m ->
  carson_matrix ws m.
Proof.
  intros cs settings sp phases ws m HW H. destruct (spacing_wires _ _ _ _ _ HW) as [r1 [r2 E]]. rewrite E in H.
  destruct (get_primitive_impedance_matrix _ _ _) as [z|] eqn:EZ; cbn [bind] in H; [|discriminate].
  injection H as <-. now apply primitive_wires in EZ.
Qed.
Print Assumptions C136_matrix.

(** C136: there is a matrix if the conductors have a radius and are at different places. *)
Theorem C136_exists : forall cs settings sp phases ws,
  line_wires cs settings sp phases ws ->
  (forall w, In w ws -> 0 < c_gmr w) ->
  (forall i j a b, i <> j -> nth_error ws i = Some a -> nth_error ws j = Some b -> (c_x a, c_y a) <> (c_x b, c_y b)) ->
  exists m, spacing_matrix cs settings sp phases = Ok m.
Proof.
  intros cs settings sp phases ws HW HG HX. destruct (spacing_wires _ _ _ _ _ HW) as [r1 [r2 E]]. rewrite E.
  destruct (primitive_total ws r1 r2 HG HX) as [z ->]. cbn [bind]. eauto.
Qed.
Print Assumptions C136_exists.

Lemma cell_fun {A} (m : list (list A)) i j x y : cell m i j x -> cell m i j y -> x = y.
Proof. intros [r [H1 H2]] [r' [H3 H4]]. congruence. Qed.

(** C136: the matrix is symmetric. *)
Theorem C136_symmetric : forall cs settings sp phases ws m i j z,
  line_wires cs settings sp phases ws -> spacing_matrix cs settings sp phases = Ok m ->
  cell m i j z -> cell m j i z.
Proof.
  intros cs settings sp phases ws m i j z HW H HC. pose proof (C136_matrix _ _ _ _ _ _ HW H) as [[L D] [_ HM]].
  assert (Hi : (i < length ws)%nat) by (destruct HC as [r [E _]]; rewrite <- L; apply nth_error_Some; congruence).
  assert (Hj : (j < length ws)%nat).
  { destruct HC as [r [E1 E2]]. rewrite <- (D r (nth_error_In _ _ E1)). apply nth_error_Some. congruence. }
  destruct (Nat.eq_dec i j) as [->|N]; [exact HC|].
  destruct (nth_error ws i) as [a|] eqn:Ea; [|apply nth_error_None in Ea; lia].
  destruct (nth_error ws j) as [b|] eqn:Eb; [|apply nth_error_None in Eb; lia].
  rewrite (cell_fun _ _ _ _ _ HC (HM i j a b Ea Eb N)).
  replace (mutual_z a b) with (mutual_z b a); [now apply HM; auto|].
  assert (B : between b a = between a b) by (unfold between; apply f_equal; ring). unfold mutual_z. now rewrite B.
Qed.
Print Assumptions C136_symmetric.

(** Refutation of "the matrix has a row for each phase": with a neutral that has a place
    and a conductor, it always has one more; the neutral is never eliminated. *)
Theorem C136_neutral_refuted : forall cs settings sp phases ph w m,
  phases <> [] -> nowhere (sp_n2 sp) -> phase_wires cs settings sp phases ph ->
  has_neutral cs settings (c_gmr w, c_r w) -> placed (sp_n1 sp) w ->
  spacing_matrix cs settings sp phases = Ok m ->
  length m = S (length phases).
Proof.
  intros cs settings sp phases ph w m HN H2 HP Hn Hw H.
  assert (HW : line_wires cs settings sp phases (ph ++ [w])).
  { split; [exact HN|]. split; [exact H2|]. exists ph. split; [exact HP|]. left. eauto. }
  destruct (C136_matrix _ _ _ _ _ _ HW H) as [[L _] _]. destruct HP as [HL _]. rewrite L, app_length, HL. cbn. lia.
Qed.
Print Assumptions C136_neutral_refuted.

(** Refutation of "phase C is at the third place of the spacing", which is where the reader
    puts its wire: on a line with the phases A and C it is taken to be at the second. *)
Theorem C136_position_refuted : forall cs settings sp ws wa wc x3 y3 m,
  line_wires cs settings sp ["A"; "C"] (wa :: wc :: ws) ->
  spacing_matrix cs settings sp ["A"; "C"] = Ok m ->
  sp_cond sp 3 = (Num x3, Num y3) ->
  let c := mkConductor x3 y3 (c_gmr wc) (c_r wc) in
  0 < between wa wc -> 0 < between wa c -> between wa wc <> between wa c ->
  ~ cell m 0 1 (mutual_z wa c).
Proof.
  intros cs settings sp ws wa wc x3 y3 m HW H _ c P1 P2 N HC.
  destruct (C136_matrix _ _ _ _ _ _ HW H) as [_ [_ HM]].
  pose proof (cell_fun _ _ _ _ _ HC (HM 0%nat 1%nat wa wc eq_refl eq_refl (O_S 0))) as E.
  apply N. unfold mutual_z in E. injection E as E.
  set (d1 := between wa wc) in *. set (d2 := between wa c) in *.
  assert (E2 : ln (1 / (3.28084 * d2)) = ln (1 / (3.28084 * d1))) by lra.
  assert (Q1 : 0 < 3.28084 * d1) by lra. assert (Q2 : 0 < 3.28084 * d2) by lra.
  apply ln_inv in E2; [|apply Rdiv_lt_0_compat; lra|apply Rdiv_lt_0_compat; lra].
  unfold Rdiv in E2. rewrite !Rmult_1_l in E2.
  assert (E3 : 3.28084 * d2 = 3.28084 * d1).
  { rewrite <- (Rinv_inv (3.28084 * d2)), E2, Rinv_inv. reflexivity. }
  lra.
Qed.
Print Assumptions C136_position_refuted.

(** Refutation of "lines with two neutrals are read": if the spacing has places for two
    neutrals, there is no matrix but an exception, whatever the conductors. *)
Theorem C136_two_neutrals_refuted : forall cs settings sp phases ph n1 n2 m,
  phase_wires cs settings sp phases ph -> placed (sp_n1 sp) n1 -> placed (sp_n2 sp) n2 ->
  spacing_matrix cs settings sp phases <> Ok m.
Proof.
  intros cs settings sp phases ph n1 n2 m HP H1 H2 H. destruct (phase_parts _ _ _ _ _ HP) as [E1 E2].
  unfold spacing_matrix, positions in H. rewrite E1, H1, H2, filter_app, filter_pt in H.
  cbn [n1_pos n2_pos is_absent is_blank fst snd orb both num filter is_valid] in H.
  change [(Some (c_x n1), Some (c_y n1)); (Some (c_x n2), Some (c_y n2))] with (map pt [xy n1; xy n2]) in H.
  rewrite <- map_app, distance_matrix_ok in H. cbn [bind] in H. rewrite E2 in H. cbn [bind] in H.
  destruct (neutral_conductor cs settings) as [o|]; cbn [bind] in H; [|discriminate]. rewrite !map_some in H.
  fold gof rof in H. set (gs := map gof ph) in *.
  assert (LG : length gs = length ph) by (unfold gs; now rewrite map_length).
  destruct (restrict _ _) as [dist|] eqn:ER; cbn [bind] in H; [|discriminate].
  destruct (get_primitive_impedance_matrix dist _ _) as [z|] eqn:EZ; cbn [bind] in H; [|discriminate]. clear H.
  apply primitive_result in EZ. cbv zeta in EZ. destruct EZ as [_ [HS _]].
  assert (LD : (length ph < length dist)%nat /\ (o <> None -> (S (length ph) < length dist)%nat)).
  { unfold restrict in ER. destruct (Dm (map xy ph ++ [xy n1; xy n2])) as [|x y] eqn:ED; [destruct (map xy ph); discriminate ED|].
    apply mapM_length in ER. rewrite ER, <- ED. unfold Dm. rewrite map_length, app_length, map_length, seq_app, filter_app, app_length.
    rewrite filter_all; [|intros i Hi; apply in_seq in Hi; rewrite not_removed by lia; reflexivity].
    rewrite seq_length. cbn [length seq filter plus].
    assert (R1 : removed (map (@Some R) gs ++ [option_map gmr_of o]) (S (length ph)) = false).
    { unfold removed. replace (nth_error _ _) with (@None (option R)); [reflexivity|]. symmetry. apply nth_error_None.
      rewrite app_length, map_length. cbn. lia. }
    rewrite R1. cbn [negb]. destruct o as [gr|].
    - assert (R0 : removed (map (@Some R) gs ++ [option_map gmr_of (Some gr)]) (length ph) = false).
      { unfold removed. rewrite nth_error_app2 by (rewrite map_length; lia). rewrite map_length, LG, Nat.sub_diag. reflexivity. }
      rewrite R0. cbn [negb length]. split; [lia | intros _; lia].
    - split; [|congruence]. destruct (negb _); cbn [length]; lia. }
  destruct LD as [LD1 LD2]. destruct o as [gr|].
  - destruct (HS (S (length ph))) as [r [g [HR _]]]; [apply LD2; discriminate|].
    assert (B : (S (length ph) < length ph + 1)%nat); [|lia].
    assert (HL : nth_error (map (@Some R) (map rof ph) ++ [option_map res_of (Some gr)]) (S (length ph)) <> None)
      by (rewrite HR; discriminate).
    apply nth_error_Some in HL. rewrite app_length, !map_length in HL. exact HL.
  - destruct (HS (length ph) LD1) as [r [g [HR _]]].
    rewrite nth_error_app2 in HR by (rewrite !map_length; lia). rewrite !map_length, Nat.sub_diag in HR. discriminate.
Qed.
Print Assumptions C136_two_neutrals_refuted.

(** Refutation of "the matrix has a row for each phase", for a spacing without places: it
    has one row, whatever the number of phases. *)
Theorem C136_no_places_refuted : forall cs settings sp phases m,
  (forall i, nowhere (sp_cond sp i)) -> nowhere (sp_n1 sp) -> nowhere (sp_n2 sp) ->
  spacing_matrix cs settings sp phases = Ok m -> dims m 1 1.
Proof.
  intros cs settings sp phases m H0 H1 H2 H. unfold spacing_matrix, positions in H. rewrite H1, H2 in H.
  assert (E : filter is_valid (map (fun i => cond_pos (sp_cond sp (i + 1))) (seq 0 (length phases)) ++
    [n1_pos (Absent, Absent); n2_pos (Absent, Absent)]) = []).
  { rewrite filter_app. cbn. rewrite app_nil_r. clear H. induction (seq 0 (length phases)) as [|i l IH]; [reflexivity|].
    cbn [map filter]. rewrite H0. exact IH. }
  rewrite E in H. cbn [distance_matrix mapM bind] in H.
  destruct (mapM (phase_conductor cs settings) phases) as [ws|]; cbn [bind] in H; [|discriminate].
  destruct (neutral_conductor cs settings) as [o|]; cbn [bind restrict] in H; [|discriminate].
  destruct (get_primitive_impedance_matrix _ _ _) as [z|] eqn:EZ; cbn [bind] in H; [|discriminate].
  injection H as <-. apply primitive_result in EZ as [D _]. now apply per_meter_dims in D.
Qed.
Print Assumptions C136_no_places_refuted.

(** A spacing with three places and one for the neutral, and two conductors. *)
Definition ex_spacing : spacing :=
  mkSpacing (fun i => match i with 1 => (Num 0, Num 8) | 2 => (Num 1, Num 8) | _ => (Num 3, Num 8) end%nat)
            (Num 1, Num 6) (Absent, Absent).
Definition ex_conductors : conductors := [("ACSR", (0.7, 0.2)); ("DEFAULT", (0.6, 0.3))].
Definition ex_settings : @dict string := [("condid_a", "ACSR"); ("condid_c", "ACSR"); ("condid_n", "DEFAULT")].
Definition ex_wires : list conductor := [mkConductor 0 8 0.7 0.2; mkConductor 1 8 0.7 0.2; mkConductor 1 6 0.6 0.3].

Lemma ex_line : line_wires ex_conductors ex_settings ex_spacing ["A"; "C"] ex_wires.
Proof.
  split; [discriminate|]. split; [reflexivity|]. exists [mkConductor 0 8 0.7 0.2; mkConductor 1 8 0.7 0.2]. split.
  - split; [reflexivity|]. intros [|[|[|i]]] p w Hp Hw; cbn in Hp, Hw; try discriminate Hp;
      injection Hp as <-; injection Hw as <-; (split; [reflexivity|]); exists "ACSR"; split; reflexivity.
  - left. exists (mkConductor 1 6 0.6 0.3). split; [|split; reflexivity]. left. exists "DEFAULT". split; reflexivity.
Qed.

(** The hypotheses are met: a line with the phases A and C and a neutral has a matrix of
    three rows. *)
Example C136_hypotheses_met : exists m, spacing_matrix ex_conductors ex_settings ex_spacing ["A"; "C"] = Ok m
  /\ carson_matrix ex_wires m /\ length m = 3%nat
  /\ ~ cell m 0 1 (mutual_z (mkConductor 0 8 0.7 0.2) (mkConductor 3 8 0.7 0.2)).
Proof.
  destruct (C136_exists _ _ _ _ _ ex_line) as [m Hm].
  - intros w [<-|[<-|[<-|[]]]]; cbn; lra.
  - intros [|[|[|i]]] [|[|[|j]]] a b N Ha Hb; cbn in Ha, Hb; try congruence;
      try (destruct i; discriminate); try (destruct j; discriminate);
      injection Ha as <-; injection Hb as <-; cbn; intros E; injection E; intros; lra.
  - exists m. pose proof (C136_matrix _ _ _ _ _ _ ex_line Hm) as HC. split; [exact Hm|]. split; [exact HC|].
    split; [exact (proj1 (proj1 HC))|].
    assert (B1 : between (mkConductor 0 8 0.7 0.2) (mkConductor 1 8 0.7 0.2) = 1).
    { unfold between. cbn. apply sqrt_lem_1; lra. }
    assert (B3 : between (mkConductor 0 8 0.7 0.2) (mkConductor 3 8 0.7 0.2) = 3).
    { unfold between. cbn. apply sqrt_lem_1; lra. }
    apply (C136_position_refuted _ _ _ _ _ _ 3 8 m ex_line Hm); [reflexivity| | |]; cbn [c_gmr c_r]; rewrite ?B1, ?B3; lra.
Qed.
