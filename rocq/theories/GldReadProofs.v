(** Lines that the GridLAB-D reader can read. *)
From Coq Require Import Reals Lra.
From Verif Require Import Base BaseFacts TextModel GlmModel GldModel MatrixModel MatrixSpec ImpedModel ImpedSpec ImpedTop SpacingModel SpacingSpec SpacingProofs SpacingProps GldLineModel GldLineSpec GldUnderProofs GldLineProofs GldTriplexProofs.
Local Open Scope string_scope.
Local Open Scope list_scope.
Local Open Scope R_scope.

Section Num.
Variable num : string -> res R.
Hypothesis FL : floats num.
Variable objs : dict obj.

Lemma fnum_legible o k : legible num o k -> exists v, fnum num o k = Ok v.
Proof.
  intros H. unfold fnum, getitem. unfold legible, attr in H. destruct (dget (o_props o) k) as [s|]; cbn [of_opt bind]; [|exists None; reflexivity].
  destruct (H s eq_refl) as [x ->]. exists (Some x). reflexivity.
Qed.
Lemma fnum_value o k x : value num o k x -> fnum num o k = Ok (Some x).
Proof. intros (s & A & B). unfold fnum, getitem. unfold attr in A. rewrite A. cbn [of_opt bind]. now rewrite B. Qed.
Lemma fnum_some o k x : fnum num o k = Ok (Some x) -> value num o k x.
Proof.
  unfold fnum, getitem, value, attr. destruct (dget (o_props o) k) as [s|]; cbn [of_opt bind]; [|discriminate].
  destruct (num s) as [y|e] eqn:E; cbn [attempt]; [intros Q; injection Q as <-; eauto|destruct e; discriminate].
Qed.
Lemma told_legible o k u v : told num o k u v -> legible num o k.
Proof. intros [[A _]|(s & x & A & B & _)] s' A'; [congruence|]. exists x. congruence. Qed.

Lemma lacks_direct cfg keys : lacks cfg keys -> direct keys cfg = false.
Proof.
  intros (k & I & H). unfold direct. apply not_true_is_false. intros Q. rewrite forallb_forall in Q. specialize (Q k I). unfold has in H. destruct (attr cfg k); congruence.
Qed.
Lemma spacing_reads prs so : (forall i j, In (i, j) prs -> legible num so (dist_name i j)) -> exists sp, read_spacing num prs so = Ok sp.
Proof.
  intros H. unfold read_spacing. cut (exists l, mapM (fun p : nat * nat => do d <- fnum num so (dist_name (fst p) (snd p)); Ok (p, d)) prs = Ok l).
  { intros [l ->]. cbn [bind]. eauto. }
  induction prs as [|[i j] prs IH]; [exists []; reflexivity|]. cbn [mapM fst snd]. destruct (fnum_legible so (dist_name i j)) as [v ->]; [apply H; now left|]. cbn [bind].
  destruct IH as [l ->]; [intros a b I; apply H; now right|]. cbn [bind]. eauto.
Qed.
Lemma wires_made (f : string -> obj -> res wire) keys gmr res_ cfg :
  (forall ph c, (forall k, In k keys -> legible num c k) -> exists w, f ph c = Ok w /\ w_phase w = ph /\ fnum num c gmr = Ok (w_gmr w) /\ fnum num c res_ = Ok (w_res w)) ->
  (forall ph, In ph (phases_of cfg) -> exists c, refers objs cfg ("conductor_" ++ ph) c /\ usable num keys gmr res_ ph c) ->
  exists ws, make_wires objs f (conductors cfg) = Ok ws /\ map w_phase ws = phases_of cfg /\
    Forall (fun w => good_self (plain w) /\ (w_phase w = "N" -> self_impedance 60 100 (plain w) <> c0)) ws.
Proof.
  intros F H. rewrite conductors_spec. unfold make_wires. revert H. induction (phases_of cfg) as [|p l IH]; intros H.
  - exists []. repeat split. constructor.
  - destruct (H p (or_introl eq_refl)) as (c & (n & Hn & Hc) & U1 & U2 & U3). destruct IH as (ws & E & E2 & E3); [intros q I; apply H; now right|].
    destruct (F p c U1) as (w & Ew & P & G & Rs). exists (w :: ws). cbn [map mapM fst snd]. rewrite Hn. unfold get at 1. rewrite Hc. cbn [of_opt bind]. rewrite Ew. cbn [bind].
    rewrite E. cbn [bind]. split; [reflexivity|]. split; [cbn; congruence|]. constructor; [|exact E3]. split.
    + unfold good_self, plain. cbn. destruct (w_gmr w) as [g|]; [|auto]. right. right. exists g. split; [reflexivity|]. apply U2. now apply fnum_some.
    + intros PN. rewrite P in PN. destruct (U3 PN) as (g & r & V1 & V2 & R0). apply fnum_value in V1, V2. rewrite V1 in G. rewrite V2 in Rs.
      injection G as G. injection Rs as Rs. unfold self_impedance, plain. cbn. rewrite <- G, <- Rs. intros Q. injection Q as Q _. unfold c0 in Q. cbn in Q. lra.
Qed.
Lemma overhead_makes ph c : (forall k, In k ["diameter"; "geometric_mean_radius"; "resistance"; "rating.summer.continuous"; "rating.summer.emergency"] -> legible num c k) ->
  exists w, overhead_wire num ph c = Ok w /\ w_phase w = ph /\ fnum num c "geometric_mean_radius" = Ok (w_gmr w) /\ fnum num c "resistance" = Ok (w_res w).
Proof.
  intros H. unfold overhead_wire.
  destruct (fnum_legible c "diameter") as [d Ed]; [apply H; cbn; auto|]. destruct (fnum_legible c "geometric_mean_radius") as [g Eg]; [apply H; cbn; auto|].
  destruct (fnum_legible c "resistance") as [r Er]; [apply H; cbn; auto|]. destruct (fnum_legible c "rating.summer.continuous") as [a Ea]; [apply H; cbn; auto|].
  destruct (fnum_legible c "rating.summer.emergency") as [e Ee]; [apply H; cbn; tauto|]. rewrite Ed, Eg, Er, Ea, Ee. cbn [bind]. eexists. split; [reflexivity|]. cbn. auto.
Qed.
Lemma underground_makes ph c : (forall k, In k ["conductor_gmr"; "conductor_resistance"; "neutral_gmr"; "neutral_resistance"] -> legible num c k) ->
  exists w, underground_wire num ph c = Ok w /\ w_phase w = ph /\ fnum num c "conductor_gmr" = Ok (w_gmr w) /\ fnum num c "conductor_resistance" = Ok (w_res w).
Proof.
  intros H. unfold underground_wire.
  destruct (fnum_legible c "conductor_gmr") as [d Ed]; [apply H; cbn; auto|]. destruct (fnum_legible c "conductor_resistance") as [g Eg]; [apply H; cbn; auto|].
  destruct (fnum_legible c "neutral_gmr") as [r Er]; [apply H; cbn; auto|]. destruct (fnum_legible c "neutral_resistance") as [a Ea]; [apply H; cbn; auto|].
  rewrite Ed, Eg, Er, Ea. cbn [bind]. eexists. split; [reflexivity|]. cbn. auto.
Qed.

(** placing keeps what matters *)
Lemma place_forall (Q : wire -> Prop) ws pos : (forall w p, Q w -> Q (set_xy w p)) -> Forall Q ws -> Forall Q (place ws pos).
Proof.
  intros H F. destruct pos as [out|]; [|exact F]. cbn [place]. revert out. induction F as [|w ws A F IH]; intros [|q out]; cbn; constructor; auto.
Qed.
Lemma matrix_ok ws : NoDup (map w_phase ws) -> (forall w, In w ws -> exists i, phase_position (w_phase w) i) ->
  Forall (fun w => good_self (plain w) /\ (w_phase w = "N" -> self_impedance 60 100 (plain w) <> c0)) ws ->
  (forall w w', In w ws -> In w' ws -> w_phase w <> w_phase w' -> good_pair (plain w) (plain w')) ->
  exists m, compute_matrix (map plain ws) 60 100 true = Ok m.
Proof.
  intros ND PH F PR. apply compute_succeeds.
  - rewrite named_plain. exact ND.
  - lra.
  - lra.
  - intros w I. apply in_map_iff in I as (v & <- & I). rewrite Forall_forall in F. now apply F.
  - intros i j w w' N A B. rewrite nth_error_map in A, B. destruct (nth_error ws i) as [v|] eqn:Ev; [|discriminate]. destruct (nth_error ws j) as [v'|] eqn:Ev'; [|discriminate].
    cbn in A, B. injection A as <-. injection B as <-. apply PR; [eapply nth_error_In; eassumption|eapply nth_error_In; eassumption|].
    intros Q. apply N. rewrite NoDup_nth_error in ND. apply ND; [rewrite map_length; apply nth_error_Some; congruence|]. rewrite !nth_error_map, Ev, Ev'. cbn. congruence.
  - intros w p I Hp. apply in_map_iff in I as (v & <- & I). cbn in Hp. injection Hp as <-. now apply PH.
  - intros w I Hp. apply in_map_iff in I as (v & <- & I). cbn in Hp. injection Hp as Hp. rewrite Forall_forall in F. now apply F.
Qed.
Lemma phase_known cfg p : In p (phases_of cfg) -> exists i, phase_position p i.
Proof.
  unfold phases_of. intros I. apply filter_In in I as [I _]. unfold phase_position. cbn in I. destruct I as [<- | [<- | [<- | [<- | []]]]]; [exists 0%nat|exists 1%nat|exists 2%nat|exists 3%nat]; tauto.
Qed.
Lemma pairs_good cols unit (kind : (nat -> bool) -> Prop) cfg ws : unit <> 0 -> map w_phase ws = phases_of cfg -> laid_out num objs cols unit kind cfg ws ->
  (attr cfg "spacing" = None \/ exists so present earth P, refers objs cfg "spacing" so /\ describes num cols so present earth P /\ drawing present P /\ kind present /\
       distinct present P /\ forall ph, In ph (phases_of cfg) -> exists p, drawn present P ph p) ->
  forall w w', In w ws -> In w' ws -> w_phase w <> w_phase w' -> good_pair (plain w) (plain w').
Proof.
  intros U PH [L1 L2] [N|(so & present & earth & P & R1 & R2 & R3 & R4 & R5 & R6)] w w' I I' NE.
  - specialize (L1 N). rewrite Forall_forall in L1. destruct (L1 w I) as [X _]. unfold good_pair, wire_distance, plain. cbn. rewrite X. discriminate.
  - assert (AL : forall w, In w ws -> exists p, drawn present P (w_phase w) p) by (intros v V; apply R6; rewrite <- PH; now apply in_map).
    destruct (AL w I) as [p D]. destruct (AL w' I') as [p' D'].
    destruct (L2 so present earth P R1 R2 R3 R4 AL w w' p p' I I' D D') as (q & q' & [X Y] & [X' Y'] & E).
    unfold good_pair, wire_distance, plain. cbn. rewrite X, Y, X', Y'. intros Q. injection Q as Q.
    assert (Z : pdist p p' = 0). { apply (Rmult_eq_reg_r unit); [|exact U]. rewrite <- E, Rmult_0_l. rewrite !Rmult_1_r in Q. exact Q. }
    destruct D as (i & A1 & A2 & ->). destruct D' as (j & B1 & B2 & ->).
    assert (P i <> P j).
    { apply R5; try assumption; [apply (nth_error_Some ["A"; "B"; "C"; "N"]); congruence|apply (nth_error_Some ["A"; "B"; "C"; "N"]); congruence|]. intros ->. congruence. }
    apply H. unfold pdist in Z. assert (D0 : dist2 (P i) (P j) = 0) by (apply sqrt_eq_0; [unfold dist2; apply Rplus_le_le_0_compat; apply Rle_0_sqr|exact Z]).
    unfold dist2 in D0. destruct (P i) as [a b], (P j) as [c d]. cbn [fst snd] in D0.
    pose proof (Rle_0_sqr (a - c)) as Q1. pose proof (Rle_0_sqr (b - d)) as Q2. unfold Rsqr in *.
    assert (S1 : (a - c) * (a - c) = 0) by lra. assert (S2 : (b - d) * (b - d) = 0) by lra. apply Rmult_integral in S1, S2. f_equal; lra.
Qed.

Lemma overhead_reads st o : readable_overhead num objs o -> exists r, conv_overhead num objs st o = Ok r.
Proof.
  intros (HL & cfg & (c & Hc & Hcfg) & LK & US & SP).
  destruct (wires_made (overhead_wire num) _ _ _ cfg overhead_makes US) as (ws0 & Ew & Pw & GW).
  unfold conv_overhead, length_m. destruct (fnum_legible o "length" HL) as [len ->]. cbn [bind].
  unfold overhead_conf. rewrite Hc. unfold get at 1. rewrite Hcfg. cbn [of_opt bind]. rewrite Ew. cbn [bind].
  pose proof (no_positions objs _ _ _ (overhead_blank num) Ew) as NP.
  assert (FIN : forall ws, map w_phase ws = phases_of cfg -> Forall (fun w => good_self (plain w) /\ (w_phase w = "N" -> self_impedance 60 100 (plain w) <> c0)) ws ->
     laid_out num objs 5 foot (fun _ => True) cfg ws -> forall len, exists r, matrix_and_units "overhead" metric_oh o len (add_wires st cfg ws) = Ok r).
  { intros ws PW F LO l. unfold matrix_and_units, add_wires. cbn [cur of_opt bind heap conn2 api_wire]. rewrite (lacks_direct cfg keys3 LK), load_app. unfold matrix3.
    destruct (matrix_ok ws) as [m ->]; [rewrite PW; apply phases_nodup| |exact F| |cbn [bind]; eauto].
    - intros w I. apply (phase_known cfg). rewrite <- PW. now apply in_map.
    - eapply pairs_good; [|exact PW|exact LO|exact SP]. unfold foot. lra. }
  destruct (attr cfg "spacing") as [s|] eqn:Hs; [|cbn [bind]; apply FIN; [exact Pw|exact GW|now apply laid_none]].
  destruct SP as [SP|(so & present & earth & P & (n & Hn & Hso) & DS & DR & K & DI & AL)]; [discriminate|]. rewrite Hs in Hn. injection Hn as ->.
  unfold get at 1. rewrite Hso. cbn [of_opt bind]. destruct (spacing_reads pairs so) as [sp Er].
  { intros i j I. assert (B : (i < j < 5)%nat) by (clear - I; unfold pairs in I; repeat (destruct I as [I|I]; [injection I as <- <-; lia|]); destruct I).
    unfold dist_name. eapply told_legible. apply DS; [exact B|apply letters5; lia|apply letters5; lia]. }
  rewrite Er. cbn [bind]. destruct (drawn_all present P (map w_phase ws0)) as [ps F]; [intros q I; apply AL; now rewrite <- Pw|].
  pose proof DR as (D1 & D2 & D3). destruct (C69_distances present earth P (map w_phase ws0) ps 30 D1 D2 D3 F) as (out & E & LL & _).
  assert (EX : compute_spacing sp (map w_phase ws0) 30 = Ok (Some out)).
  { rewrite <- E. apply spacing_ext. intros i j I. eapply (read_described num FL 5 pairs); try eassumption; [apply nodup_pairs| |lia].
    clear. intros i j I. unfold pairs in I. repeat (destruct I as [I|I]; [injection I as <- <-; lia|]). destruct I. }
  rewrite EX. cbn [bind]. apply FIN.
  - rewrite place_phases; [exact Pw|]. apply spacing_length in EX. now rewrite map_length in EX.
  - apply place_forall; [|exact GW]. intros w p A. exact A.
  - eapply (overhead_laid num FL objs cfg ws0); eassumption.
Qed.
Lemma underground_reads st o : readable_underground num objs o -> exists r, conv_underground num objs st o = Ok r.
Proof.
  intros (HL & cfg & (c & Hc & Hcfg) & LK & US & SP).
  destruct (wires_made (underground_wire num) _ _ _ cfg underground_makes US) as (ws0 & Ew & Pw & GW).
  unfold conv_underground, length_m. destruct (fnum_legible o "length" HL) as [len ->]. cbn [bind].
  unfold underground_conf. rewrite Hc. unfold get at 1. rewrite Hcfg. cbn [of_opt bind]. rewrite Ew. cbn [bind].
  pose proof (no_positions objs _ _ _ (underground_blank num) Ew) as NP.
  assert (FIN : forall ws, map w_phase ws = phases_of cfg -> Forall (fun w => good_self (plain w) /\ (w_phase w = "N" -> self_impedance 60 100 (plain w) <> c0)) ws ->
     laid_out num objs 4 1 no_third_neutral cfg ws -> forall len, exists r, matrix_and_units "underground" metric_ug o len (add_wires st cfg ws) = Ok r).
  { intros ws PW F LO l. unfold matrix_and_units, add_wires. cbn [cur of_opt bind heap conn2 api_wire]. rewrite (lacks_direct cfg keys3 LK), load_app. unfold matrix3.
    destruct (matrix_ok ws) as [m ->]; [rewrite PW; apply phases_nodup| |exact F| |cbn [bind]; eauto].
    - intros w I. apply (phase_known cfg). rewrite <- PW. now apply in_map.
    - eapply pairs_good; [|exact PW|exact LO|exact SP]. lra. }
  destruct (attr cfg "spacing") as [s|] eqn:Hs; [|cbn [bind]; apply FIN; [exact Pw|exact GW|now apply laid_none]].
  destruct SP as [SP|(so & present & earth & P & (n & Hn & Hso) & DS & DR & K & DI & AL)]; [discriminate|]. rewrite Hs in Hn. injection Hn as ->.
  unfold get at 1. rewrite Hso. cbn [of_opt bind]. destruct (spacing_reads pairs4 so) as [sp Er].
  { intros i j I. assert (B : (i < j < 4)%nat) by (clear - I; unfold pairs4 in I; repeat (destruct I as [I|I]; [injection I as <- <-; lia|]); destruct I).
    unfold dist_name. eapply told_legible. apply DS; [exact B|apply letters5; lia|apply letters5; lia]. }
  rewrite Er. cbn [bind]. apply FIN.
  - destruct (under_positions (distances sp) (map w_phase ws0)) as [out|] eqn:E; [|exact Pw]. rewrite place_phases; [exact Pw|]. apply under_length in E. now rewrite map_length in E.
  - apply place_forall; [|exact GW]. intros w p A. exact A.
  - eapply (underground_laid num FL objs cfg ws0); try eassumption. rewrite Pw. apply phases_nodup.
Qed.

(** ** Triplex lines *)
Lemma log_ok d : 0 < d -> exists l, log_term 60 100 d = Ok l.
Proof.
  intros H. unfold log_term, pydiv, pylog. destruct (Req_EM_T d 0); [lra|]. cbn [bind].
  destruct (Rlt_dec 0 (1 / d)) as [?|N]; [|exfalso; apply N; apply Rdiv_lt_0_compat; lra]. cbn [bind]. destruct (Req_EM_T 60 0); [lra|]. cbn [bind].
  destruct (Rlt_dec 0 (100 / 60)); [|lra]. cbn [bind]. eauto.
Qed.
Lemma self_ok w r g : w_res w = Some r -> w_gmr w = Some g -> 0 < g -> self_z 60 100 (plain w) = Ok (self_impedance 60 100 (plain w)).
Proof.
  intros Hr Hg G. destruct (log_ok g G) as [l L]. assert (E : exists z, self_z 60 100 (plain w) = Ok z).
  { unfold self_z, plain. cbn. rewrite Hr, Hg, L. cbn. eauto. }
  destruct E as [z E]. rewrite E. f_equal. now apply self_z_ok.
Qed.
Lemma kron2_reads m : centry m 2 2 <> c0 -> exists r, kron2 m = Ok r.
Proof. intros N. unfold kron2. cbn [mapM seq]. rewrite !cdiv_ok by exact N. cbn [bind]. eauto. Qed.
Lemma secondary_reads w0 w1 w2 : map w_phase [w0; w1; w2] = ["A"; "B"; "N"] ->
  Forall (fun w => exists r g, w_res w = Some r /\ 0 <= r /\ w_gmr w = Some g /\ 0 < g) [w0; w1; w2] ->
  (forall d12 d1n, cable [w0; w1; w2] = Some (d12, d1n) -> 0 < d12 /\ 0 < d1n) ->
  exists z, compute_secondary_matrix [w0; w1; w2] 60 100 = Ok z.
Proof.
  intros P F CB. change (compute_secondary_matrix [w0; w1; w2] 60 100) with (do m <- loop2 [w0; w1; w2]; kron2 m).
  inversion F as [|? ? (r0 & g0 & R0 & R0' & G0 & G0') F1]; subst. inversion F1 as [|? ? (r1 & g1 & R1 & R1' & G1 & G1') F2]; subst.
  inversion F2 as [|? ? (r2 & g2 & R2 & R2' & G2 & G2') _]; subst. clear F F1 F2.
  pose proof (self_ok _ _ _ R0 G0 G0') as S0. pose proof (self_ok _ _ _ R1 G1 G1') as S1. pose proof (self_ok _ _ _ R2 G2 G2') as S2.
  cbn [map] in P. injection P as P0 P1 P2.
  assert (L : exists m, loop2 [w0; w1; w2] = Ok m).
  { unfold loop2. remember (cable [w0; w1; w2]) as cb eqn:Ecb. cbn [length seq foldM]. unfold secondary_cell. rewrite <- Ecb.
    cbn [nth_error of_opt bind Nat.eqb]. rewrite S0, S1, S2, P0, P1, P2. cbn [wire_map2 dget String.eqb Ascii.eqb Bool.eqb of_opt bind tabulate seq map orb].
    destruct cb as [[d12 d1n]|].
    - destruct (CB d12 d1n eq_refl) as [C1 C2]. destruct (log_ok _ C1) as [l1 L1]. destruct (log_ok _ C2) as [l2 L2]. rewrite L1, L2.
      repeat (progress (cbn [bind set2 nth_error of_opt set_nth]; unfold set2; cbn)). eauto.
    - repeat (progress (cbn [bind set2 nth_error of_opt set_nth]; unfold set2; cbn)). eauto. }
  destruct L as [m L]. rewrite L. cbn [bind]. apply kron2_reads.
  rewrite (loop2_entries [w0; w1; w2] m) by (try exact L; try lia; cbn [map]; rewrite P0, P1, P2; cbn; tauto).
  unfold zcell, twisted_impedance, wire_at. cbn [find nth]. rewrite P0, P1, P2. cbn [String.eqb Ascii.eqb Bool.eqb Nat.eqb].
  unfold self_impedance, plain. cbn. rewrite R2, G2. unfold cscale, c0. cbn. intros Q. injection Q as Q _.
  assert (0 < (r2 + 158836 / 100000000 * 60) * / 1609.34) by (apply Rmult_lt_0_compat; [lra|apply Rinv_0_lt_compat; lra]). lra.
Qed.
Lemma data_reads len l0 c w r g : value num c "geometric_mean_radius" g -> value num c "resistance" r -> len = Some l0 ->
  exists w', triplex_data num len c w = Ok w' /\ w_phase w' = w_phase w /\ w_diam w' = w_diam w /\ w_ins w' = w_ins w /\
    w_gmr w' = Some (g * / 3.28084) /\ w_res w' = Some (r * l0 * / 1609.34).
Proof.
  intros VG VR ->. unfold triplex_data. rewrite (fnum_value _ _ _ VG), (fnum_value _ _ _ VR). cbn [bind]. eexists. split; [reflexivity|]. cbn. auto.
Qed.
Lemma cable_last w0 w1 w2 : w_diam w0 = None -> w_diam w1 = None ->
  cable [w0; w1; w2] = match w_diam w2, w_ins w2 with Some d, Some t => Some ((d + 2 * t) / 12, (d + t) / 12) | _, _ => None end.
Proof. intros A B. cbn [cable]. rewrite A, B. reflexivity. Qed.
Lemma triplex_reads st o : readable_triplex num objs o -> exists r, conv_triplex_line num objs st o = Ok r.
Proof.
  intros ((len & VL & L0) & cfg & (c & Hc & Hcfg) & LK & HN & HC & LD & PD & LT & PT).
  destruct (HC "conductor_1") as (c1 & g1 & r1 & (n1 & N1 & C1) & VG1 & G1 & VR1 & R1); [cbn; auto|].
  destruct (HC "conductor_2") as (c2 & g2 & r2 & (n2 & N2 & C2) & VG2 & G2 & VR2 & R2); [cbn; auto|].
  unfold conv_triplex_line, length_m. rewrite (fnum_value _ _ _ VL). cbn [bind scale option_map].
  unfold triplex_conf. rewrite Hc. unfold get at 1. rewrite Hcfg. cbn [of_opt bind].
  unfold triplex_conductors. rewrite N1, N2. unfold has in HN. destruct (attr cfg "conductor_N") as [nn|]; [|discriminate]. cbn [of_opt bind app map fst snd].
  unfold add_wires. cbn [heap cur conn2 api_wire length]. set (h := heap st).
  destruct (fnum_legible _ _ LT) as [xt Et]. destruct (fnum_legible _ _ LD) as [xd Ed].
  set (w2 := match xd with Some d => set_diam (d * inch) (match xt with Some t => set_ins (t * inch) (new_wire "N") | None => new_wire "N" end)
             | None => match xt with Some t => set_ins (t * inch) (new_wire "N") | None => new_wire "N" end end).
  assert (U : forall a b x f, update (h ++ [a; b; x]) (length h + 3 - 1) f = h ++ [a; b; f x]).
  { intros a b x f. replace (length h + 3 - 1)%nat with (length h + 2)%nat by lia. rewrite update_app. reflexivity. }
  unfold last_wire at 1. rewrite Et. cbn [bind].
  match goal with |- exists r, (do st0 <- (do st1 <- ?A; _); _) = _ => replace A with (Ok (mkState (h ++ [new_wire "A"; new_wire "B"; match xt with Some t => set_ins (t * inch) (new_wire "N") | None => new_wire "N" end]) (Some (cfg, seq (length h) 3)) (Some n2) (Some (length h + 3 - 1)%nat))) by (destruct xt; cbn [api_wire of_opt bind heap cur conn2]; rewrite ?U; reflexivity) end.
  cbn [bind]. unfold last_wire. rewrite Ed. cbn [bind].
  match goal with |- exists r, (do st0 <- (do st1 <- ?A; _); _) = _ => replace A with (Ok (mkState (h ++ [new_wire "A"; new_wire "B"; w2]) (Some (cfg, seq (length h) 3)) (Some n2) (Some (length h + 3 - 1)%nat))) by (unfold w2; destruct xd; cbn [api_wire of_opt bind heap cur conn2]; rewrite ?U; reflexivity) end.
  cbn [bind heap cur conn2 api_wire].
  change 3%nat with (length [new_wire "A"; new_wire "B"; w2]) at 1. rewrite data_all by reflexivity. cbn [combine mapM]. unfold data_of. cbn [fst snd].
  unfold get. rewrite C1, C2. cbn [of_opt bind].
  destruct (data_reads (Some (len * 0.3048)) (len * 0.3048) c1 (new_wire "A") r1 g1 VG1 VR1 eq_refl) as (v0 & E0 & P0 & D0 & I0 & GG0 & RR0). rewrite E0. cbn [bind].
  destruct (data_reads (Some (len * 0.3048)) (len * 0.3048) c2 (new_wire "B") r2 g2 VG2 VR2 eq_refl) as (v1 & E1 & P1 & D1 & I1 & GG1 & RR1). rewrite E1. cbn [bind].
  destruct (data_reads (Some (len * 0.3048)) (len * 0.3048) c2 w2 r2 g2 VG2 VR2 eq_refl) as (v2 & E2 & P2 & D2 & I2 & GG2 & RR2). rewrite E2. cbn [bind heap cur conn2 api_wire of_opt].
  rewrite (lacks_direct cfg keys2 LK).
  replace (seq (length h) 3) with (seq (length h) (length [v0; v1; v2])) by reflexivity. rewrite load_app.
  destruct (secondary_reads v0 v1 v2) as [z Ez].
  - cbn [map]. rewrite P0, P1, P2. unfold w2. destruct xd, xt; reflexivity.
  - assert (NN : forall r, 0 <= r -> 0 <= r * (len * 0.3048) * / 1609.34) by (intros r Hr; apply Rmult_le_pos; [apply Rmult_le_pos; [exact Hr|lra]|left; apply Rinv_0_lt_compat; lra]).
    assert (GP : forall g, 0 < g -> 0 < g * / 3.28084) by (intros g Hg; apply Rmult_lt_0_compat; [exact Hg|apply Rinv_0_lt_compat; lra]).
    repeat apply Forall_cons; [| | |constructor]; eexists _, _; (split; [eassumption|]); (split; [now apply NN|]); (split; [eassumption|]); now apply GP.
  - intros d12 d1n. rewrite cable_last by (rewrite ?D0, ?D1; reflexivity). rewrite D2, I2.
    assert (II : 0 < inch) by (unfold inch; apply Rinv_0_lt_compat; lra).
    unfold w2. destruct xd as [d|]; [|destruct xt; discriminate].
    assert (0 < d * inch) by (apply Rmult_lt_0_compat; [apply PD; now apply fnum_some|exact II]).
    destruct xt as [t|]; cbn; intros Q; injection Q as <- <-.
    + assert (0 <= t * inch) by (apply Rmult_le_pos; [apply PT; now apply fnum_some|lra]). lra.
    + lra.
  - rewrite Ez. cbn [bind]. eauto.
Qed.

(** ** All lines *)
Lemma readable_configured o : readable num objs o -> configured objs o.
Proof.
  intros (A & B & D) IL. unfold is_line in IL. apply smem_In in IL. destruct IL as [E|[E|[E|[]]]]; symmetry in E.
  - destruct (A E) as (_ & cfg & (c & Hc & Hcfg) & _). exists c. split; [exact Hc|]. congruence.
  - destruct (B E) as (_ & cfg & (c & Hc & Hcfg) & _ & HN & _). exists c. split; [exact Hc|]. intros _. exists cfg. split; [exact Hcfg|].
    unfold triplex_phases. intros Q. assert (I : In "N" (filter (fun p => has cfg (triplex_key p)) ["A"; "B"; "N"])) by (apply filter_In; split; [cbn; tauto|exact HN]).
    rewrite Q in I. destruct I.
  - destruct (D E) as (_ & cfg & (c & Hc & Hcfg) & _). exists c. split; [exact Hc|]. congruence.
Qed.
Lemma lines_read os : forall st ls, Forall (readable num objs) os -> exists r, foldM (conv_line num objs) os (st, ls) = Ok r.
Proof.
  induction os as [|o os IH]; intros st ls F; cbn [foldM]; [eauto|]. inversion F as [|? ? (A & B & D) F']; subst.
  assert (S : exists r, conv_line num objs (st, ls) o = Ok r).
  { unfold conv_line. destruct (String.eqb_spec (o_cls o) "overhead_line") as [E|]; [destruct (overhead_reads st o (A E)) as [r ->]; cbn; eauto|].
    destruct (String.eqb_spec (o_cls o) "triplex_line") as [E|]; [destruct (triplex_reads st o (B E)) as [r ->]; cbn; eauto|].
    destruct (String.eqb_spec (o_cls o) "underground_line") as [E|]; [destruct (underground_reads st o (D E)) as [r ->]; cbn; eauto|]. eauto. }
  destruct S as [[s1 l1] ->]. now apply IH.
Qed.
End Num.
