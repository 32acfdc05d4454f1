(** C78: overhead lines, C79: underground lines, C80: triplex lines of GLM files. *)
From Coq Require Import Reals Lra.
From Verif Require Import Base BaseFacts TextModel GlmModel GldModel MatrixModel MatrixSpec ImpedModel ImpedSpec ImpedTop SpacingModel SpacingSpec SpacingProofs SpacingProps GldLineModel GldLineSpec GldUnderProofs GldLineProofs GldTriplexProofs GldReadProofs.
Local Open Scope string_scope.
Local Open Scope list_scope.
Local Open Scope R_scope.

(** ** C78 *)
(** An overhead line with a configuration has the name, ends, length and conductors of the file in metres, as far apart as
    drawn, and Carson's matrix per metre; its wires are its own and no other wire changes. *)
Theorem C78_overhead num objs st o st' l : floats num -> has o "configuration" = true -> conv_overhead num objs st o = Ok (st', l) ->
  overhead_of num objs (heap st') o l /\ (exists ws, heap st' = heap st ++ ws) /\ NoDup (l_wires l) /\ Forall (fun i => (length (heap st) <= i)%nat) (l_wires l).
Proof.
  intros FL H E. unfold has in H. destruct (attr o "configuration") as [c|] eqn:Hc; [|discriminate].
  destruct (overhead_result num FL objs st o c st' l Hc E) as (X & [F _] & O). split; [exact O|]. split; [exact X|]. rewrite F. split; [apply seq_NoDup|].
  apply Forall_forall. intros i I. apply in_seq in I. lia.
Qed.
Print Assumptions C78_overhead.
(** An overhead line with numbers, conductors and spacing in order is read. *)
Theorem C78_reads num objs st o : floats num -> readable_overhead num objs o -> exists st' l, conv_overhead num objs st o = Ok (st', l).
Proof. intros FL R. destruct (overhead_reads num FL objs st o R) as [[st' l] E]. eauto. Qed.
Print Assumptions C78_reads.
(** All lines of a file are read, in order; no two lines share a wire. *)
Theorem C78_file num objs os st ls : floats num -> Forall (configured objs) os -> conv_lines num objs os = Ok (st, ls) ->
  Forall2 (read_as num objs (heap st)) (filter is_line os) ls /\ NoDup (flat_map l_wires ls).
Proof.
  intros FL CF E. destruct (lines_loop num FL objs os state0 [] [] st ls CF (Forall2_nil _) (Forall_nil _) E) as (_ & F & _ & new & -> & N).
  split; [exact F|]. cbn [app]. rewrite N. apply seq_NoDup.
Qed.
Print Assumptions C78_file.
Theorem C78_file_reads num objs os : floats num -> Forall (readable num objs) os -> exists st ls, conv_lines num objs os = Ok (st, ls) /\
  Forall2 (read_as num objs (heap st)) (filter is_line os) ls /\ NoDup (flat_map l_wires ls).
Proof.
  intros FL F. destruct (lines_read num FL objs os state0 [] F) as [[st ls] E]. exists st, ls. split; [exact E|]. apply (C78_file num objs os); [exact FL| |exact E].
  eapply Forall_impl; [|exact F]. intros o. apply readable_configured.
Qed.
Print Assumptions C78_file_reads.
(** A configuration with its impedance matrix cannot be read. *)
Theorem C78_direct_matrix_refuted num objs st o c cfg : attr o "configuration" = Some c -> dget objs c = Some cfg ->
  (forall k, In k ["z11"; "z12"; "z13"; "z21"; "z22"; "z23"; "z31"; "z32"; "z33"] -> has cfg k = true) -> forall r, conv_overhead num objs st o <> Ok r.
Proof.
  intros Hc Hcfg Z r. unfold conv_overhead. destruct (length_m num o); cbn [bind]; [|discriminate]. unfold overhead_conf. rewrite Hc. unfold get at 1. rewrite Hcfg. cbn [of_opt bind].
  destruct (make_wires objs (overhead_wire num) (conductors cfg)) as [ws|]; cbn [bind]; [|discriminate].
  match goal with |- bind (bind ?A _) _ <> _ => destruct A as [ws'|]; cbn [bind]; [|discriminate] end.
  unfold matrix_and_units, add_wires. cbn [cur of_opt bind]. replace (direct keys3 cfg) with true; [discriminate|].
  symmetry. unfold direct. apply forallb_forall. intros k I. specialize (Z k I). unfold has in Z. destruct (attr cfg k); congruence.
Qed.
Print Assumptions C78_direct_matrix_refuted.

(** numbers used in the examples *)
Definition ex_num (s : string) : res R :=
  if String.eqb s "1" then Ok 1 else if String.eqb s "2" then Ok 2 else if String.eqb s "3" then Ok 3 else if String.eqb s "4" then Ok 4 else if String.eqb s "5" then Ok 5
  else if String.eqb s "10" then Ok 10 else if String.eqb s "0" then Ok 0 else Err EValue.
Lemma ex_floats : floats ex_num.
Proof. intros s. unfold ex_num. repeat (destruct (String.eqb _ _); [discriminate|]). discriminate. Qed.

Definition wire_obj : obj := mkObj "overhead_line_conductor" [("resistance", "1")].
Definition conf_a : obj := mkObj "line_configuration" [("conductor_A", "wire")].
Definition line_a : obj := mkObj "overhead_line" [("name", "l1"); ("from", "a"); ("to", "b"); ("length", "10"); ("configuration", "conf")].
Definition line_b : obj := mkObj "overhead_line" [("name", "l2"); ("from", "b"); ("to", "c"); ("length", "10")].
Definition objs_a : dict obj := [("wire", wire_obj); ("conf", conf_a)].
(** A line without a configuration gets the wires of the line before it, and changes their units again. *)
Theorem C78_stale_configuration_refuted : exists st l1 l2, conv_lines ex_num objs_a [line_a; line_b] = Ok (st, [l1; l2]) /\ l_wires l2 = l_wires l1 /\
  ~ overhead_of ex_num objs_a (heap st) line_a l1.
Proof.
  eexists _, _, _. split; [cbv -[Rmult Rdiv Rinv Rplus Rminus IZR c0 Q2R]; reflexivity|]. split; [reflexivity|].
  intros (cfg & (n & Hn & Hcfg) & _ & [_ OW] & _). cbv in Hn. injection Hn as <-. cbv in Hcfg. injection Hcfg as <-.
  inversion OW as [|? ? (c & (m & Hm & Hc) & _ & _ & T & _) _]; subst. cbv in Hm. injection Hm as <-. cbv in Hc. injection Hc as <-.
  destruct T as [[A _]|(s & x & A & B & V)]; [discriminate A|]. cbv in A. injection A as <-. cbv in B. injection B as <-.
  cbn in V. injection V as V. unfold mile in V. assert (0 < / 1609.34 < 1) by (split; [apply Rinv_0_lt_compat; lra|rewrite <- Rinv_1; apply Rinv_lt_contravar; lra]).
  set (m := / 1609.34) in *. nra.
Qed.
Print Assumptions C78_stale_configuration_refuted.

Definition two (i : nat) : bool := (Nat.eqb i 0 || Nat.eqb i 1)%bool.
Definition ten_apart (i : nat) : R * R := if Nat.eqb i 0 then (0, 3) else (10, 3).
Definition space_ab : obj := mkObj "line_spacing" [("distance_AB", "10")].
Definition conf_ab : obj := mkObj "line_configuration" [("conductor_A", "wire"); ("conductor_B", "wire"); ("spacing", "space")].
Definition objs_ab : dict obj := [("wire", wire_obj); ("space", space_ab); ("conf", conf_ab)].
Lemma sqrt_100 x : x = 10 * 10 -> sqrt x = 10.
Proof. intros ->. apply sqrt_square. lra. Qed.
Lemma ten_drawn cols : (cols <= 5)%nat -> describes ex_num cols space_ab two false ten_apart.
Proof.
  intros C5 i j a b H Ha Hb. assert (Hi : (i < 5)%nat) by lia. assert (Hj : (j < 5)%nat) by lia.
  destruct i as [|[|[|[|[|i]]]]]; [| | | | |lia]; (destruct j as [|[|[|[|[|j]]]]]; [| | | | |lia]); try lia;
    cbn in Ha, Hb; injection Ha as <-; injection Hb as <-.
  1: { right. exists "10", 10. split; [reflexivity|]. split; [reflexivity|]. unfold spacing_of. cbn [Nat.ltb Nat.leb two Nat.eqb orb andb]. rewrite Rmult_1_r. f_equal. unfold pdist, dist2, ten_apart. cbn [Nat.eqb fst snd]. apply sqrt_100. ring. }
  all: left; split; reflexivity.
Qed.
Lemma ten_drawing : drawing two ten_apart /\ distinct two ten_apart.
Proof.
  assert (D : ten_apart 0 <> ten_apart 1) by (unfold ten_apart; cbn; intros Q; injection Q; lra).
  split; [split; [cbn; lia|]; split|].
  - intros i _ _. unfold ten_apart. destruct (Nat.eqb i 0); cbn; lra.
  - exists 0%nat, 1%nat. repeat split; try lia. exact D.
  - intros i j Hi Hj N Pi Pj. unfold two in *.
    destruct i as [|[|i]]; cbn in Pi; try discriminate; destruct j as [|[|j]]; cbn in Pj; try discriminate; try congruence.
Qed.
Lemma ab_readable : readable_overhead ex_num objs_ab line_a.
Proof.
  split; [intros s A; cbv in A; injection A as <-; eexists; reflexivity|]. exists conf_ab. split; [eexists; split; reflexivity|].
  split; [exists "z11"; split; [cbn; auto|reflexivity]|]. split.
  - intros ph I. cbv in I. destruct I as [<- | [<- | []]]; (exists wire_obj; split; [eexists; split; reflexivity|]); (split; [|split; [|discriminate]]).
    1, 3: intros k I; cbn in I; repeat (destruct I as [<- | I]; [intros s A; cbv in A; try discriminate; injection A as <-; eexists; reflexivity|]); destruct I.
    1, 2: intros g (s & A & _); discriminate A.
  - right. exists space_ab, two, false, ten_apart. destruct ten_drawing as [D1 D2].
    split; [eexists; split; reflexivity|]. split; [apply ten_drawn; lia|]. split; [exact D1|]. split; [exact Logic.I|]. split; [exact D2|].
    intros ph I. cbv in I. destruct I as [<- | [<- | []]]; eexists; [exists 0%nat|exists 1%nat]; repeat split.
Qed.
(** An overhead line that is read. *)
Example C78_hypotheses_met : floats ex_num /\ readable_overhead ex_num objs_ab line_a /\ has line_a "configuration" = true /\ Forall (readable ex_num objs_ab) [line_a] /\ Forall (configured objs_ab) [line_a].
Proof.
  assert (R : readable ex_num objs_ab line_a) by (split; [intros _; exact ab_readable|split; discriminate]).
  split; [exact ex_floats|]. split; [exact ab_readable|]. split; [reflexivity|]. split; [constructor; [exact R|constructor]|]. constructor; [|constructor]. now apply (readable_configured ex_num).
Qed.

(** The distances between conductors are in metres when their impedances are computed, their radii in feet: the impedance
    between conductors ten feet apart is not that of ten feet. *)
Theorem C78_mixed_units_refuted : exists st l, conv_overhead ex_num objs_ab state0 line_a = Ok (st, l) /\
  forall z, cell (l_z l) 0 1 z -> snd z <> reactance 60 100 10 * / 1609.34.
Proof.
  destruct (C78_reads ex_num objs_ab state0 line_a ex_floats ab_readable) as (st & l & E). exists st, l. split; [exact E|].
  destruct (C78_overhead ex_num objs_ab state0 line_a st l ex_floats eq_refl E) as ((cfg & (n & Hn & Hcfg) & _ & [PH _] & [_ LO] & rs & m & F & [CA _] & ->) & _).
  cbv in Hn. injection Hn as <-. cbv in Hcfg. injection Hcfg as <-.
  set (ws := wires_of (heap st) l) in *. clearbody ws. change (map w_phase ws = ["A"; "B"]) in PH.
  destruct ws as [|w0 [|w1 [|w2 ws]]]; try discriminate PH. cbn [map] in PH. injection PH as P0 P1.
  inversion F as [|? r0 ? ? (Q0 & _ & _ & X0 & Y0) F1]; subst. inversion F1 as [|? r1 ? ? (Q1 & _ & _ & X1 & Y1) F2]; subst. inversion F2; subst. rewrite P0 in Q0. rewrite P1 in Q1.
  assert (DD : forall w, In w [w0; w1] -> exists p, drawn two ten_apart (w_phase w) p).
  { intros w [<- | [<- | []]]; eexists; [exists 0%nat|exists 1%nat]; rewrite ?P0, ?P1; repeat split. }
  destruct (LO space_ab two false ten_apart) with (w := w0) (w' := w1) (p := ten_apart 0) (p' := ten_apart 1) as (q & q' & [A B] & [A' B'] & D).
  { eexists; split; reflexivity. } { apply ten_drawn; lia. } { apply ten_drawing. } { exact Logic.I. } { exact DD. } { cbn; auto. } { cbn; auto. }
  { exists 0%nat. rewrite P0. repeat split. } { exists 1%nat. rewrite P1. repeat split. }
  destruct CA as [_ CA].
  { intros (w & [<- | [<- | []]] & W); congruence. }
  intros z (row & Hr & Hz). rewrite nth_error_map in Hr. destruct (nth_error m 0) as [row0|] eqn:R0; [|discriminate]. cbn in Hr. injection Hr as <-.
  rewrite nth_error_map in Hz. destruct (nth_error row0 1) as [z0|] eqn:Z0; [|discriminate]. cbn in Hz. injection Hz as <-. cbn [snd].
  assert (PR : prim 60 100 [r0; r1] 0 1 z0) by (apply CA; [lia|lia|]; exists row0; auto).
  assert (E0 : z0 = mutual_impedance 60 100 r0 r1).
  { destruct PR as [(w & p & _ & _ & _ & Q & _)|[(w & w' & p & p' & I1 & I2 & W1 & W2 & PP1 & PP2 & _ & Z)|[(N & _)|(N & _)]]]; [discriminate| | |].
    - assert (p = "A") by (destruct PP1 as [[? ?]|[[? ?]|[[? ?]|[? ?]]]]; congruence). assert (p' = "B") by (destruct PP2 as [[? ?]|[[? ?]|[[? ?]|[? ?]]]]; congruence). subst.
      destruct I1 as [<- | [<- | []]]; [|congruence]. destruct I2 as [<- | [<- | []]]; [congruence|]. reflexivity.
    - exfalso. apply (N r0 "A"); [now left|exact Q0|]. left. auto.
    - exfalso. apply (N r1 "B"); [right; now left|exact Q1|]. right. left. auto. }
  subst z0. unfold mutual_impedance, wire_distance. rewrite X0, X1, Y0, Y1, A, A', B, B'. cbn [snd].
  replace (sqrt ((fst q - fst q') ^ 2 + (snd q - snd q') ^ 2)) with (10 * foot).
  - intros Q. apply Rmult_eq_reg_r in Q; [|apply Rinv_neq_0_compat; lra]. unfold reactance in Q. apply Rmult_eq_reg_l in Q; [|lra].
    assert (L : ln (1 / (10 * foot)) = ln (1 / 10)) by lra. apply ln_inv in L; [|apply Rdiv_lt_0_compat; [lra|unfold foot; apply Rmult_lt_0_compat; [lra|apply Rinv_0_lt_compat; lra]]|lra].
    assert (K : 3.28084 * / 3.28084 = 1) by (apply Rinv_r; lra). unfold foot in L. set (f := / 3.28084) in *.
    assert (0 < f) by (apply Rinv_0_lt_compat; lra). assert (M : 1 / (10 * f) * (10 * f) = 1) by (field; lra). rewrite L in M. lra.
  - symmetry. transitivity (pdist q q'); [unfold pdist, dist2; f_equal; ring|]. rewrite D. f_equal. unfold pdist, dist2. cbn. apply sqrt_100. ring.
Qed.
Print Assumptions C78_mixed_units_refuted.

(** ** C79 *)
(** An underground line with a configuration has the name, ends, length and cables of the file in metres, as far apart as
    drawn (in feet, unless they are three with a neutral), and Carson's matrix per metre. *)
Theorem C79_underground num objs st o st' l : floats num -> has o "configuration" = true -> conv_underground num objs st o = Ok (st', l) ->
  underground_of num objs (heap st') o l /\ (exists ws, heap st' = heap st ++ ws) /\ NoDup (l_wires l) /\ Forall (fun i => (length (heap st) <= i)%nat) (l_wires l).
Proof.
  intros FL H E. unfold has in H. destruct (attr o "configuration") as [c|] eqn:Hc; [|discriminate].
  destruct (underground_result num FL objs st o c st' l Hc E) as (X & [F _] & O). split; [exact O|]. split; [exact X|]. rewrite F. split; [apply seq_NoDup|].
  apply Forall_forall. intros i I. apply in_seq in I. lia.
Qed.
Print Assumptions C79_underground.
(** An underground line with numbers, conductors and spacing in order is read. *)
Theorem C79_reads num objs st o : floats num -> readable_underground num objs o -> exists st' l, conv_underground num objs st o = Ok (st', l).
Proof. intros FL R. destruct (underground_reads num FL objs st o R) as [[st' l] E]. eauto. Qed.
Print Assumptions C79_reads.

Lemma one_point_row num so sp present earth P cs : floats num -> read_spacing num pairs4 so = Ok sp -> describes num 4 so present earth P ->
  how_many present = 2%nat -> present 0%nat = true -> (forall i, (i < 4)%nat -> present i = true -> P i = P 0%nat) ->
  under_positions (distances sp) cs = Some (in_a_row cs).
Proof.
  intros FL Er DS H2 PA SP. assert (N2 : (2 <= how_many present)%nat) by lia.
  assert (DE : distances sp = distances (spacing_of present false P)).
  { apply distances_ext. intros i j I. assert (B : (i < j < 4)%nat) by (clear - I; unfold pairs4 in I; repeat (destruct I as [I|I]; [injection I as <- <-; lia|]); destruct I).
    transitivity (spacing_of present earth P i j).
    - eapply (read_described num FL); try eassumption; [apply nodup_pairs| |lia].
      clear. intros i j I. unfold pairs4 in I. repeat (destruct I as [I|I]; [injection I as <- <-; lia|]). destruct I.
    - unfold spacing_of. destruct (Nat.eqb_spec j 4); [lia|]. reflexivity. }
  rewrite DE. clear DE Er DS. set (D := distances (spacing_of present false P)).
  assert (LK : last_known D = (0, 0)%nat).
  { unfold last_known. enough (G : forall l0, (forall x, In x l0 -> In x indices4) -> fold_left (fun r (p : nat * nat) => if known D p then
      if Req_EM_T (D (fst p) (snd p)) 0 then r else p else r) l0 (0, 0)%nat = (0, 0)%nat) by (apply G; auto).
    induction l0 as [|[i j] l0 IH]; intros S; [reflexivity|]. cbn [fold_left]. pose proof (proj1 (in_indices4 present N2 i j) (S _ (or_introl eq_refl))) as [I4 J4].
    assert (IH' := IH (fun x I => S x (or_intror I))). rewrite (D_known present P N2 i j I4 J4 : known D (i, j) = _).
    destruct (present i && present j)%bool eqn:B; [|exact IH']. apply andb_prop in B as [Bi Bj]. cbn [fst snd].
    assert (Z : D i j = 0) by (unfold D; rewrite (D_at present P N2 i j I4 J4), Bi, Bj; cbn [andb]; rewrite (SP i I4 Bi), (SP j J4 Bj); apply pdist_self).
    rewrite Z. destruct (Req_EM_T 0 0) as [_|N]; [exact IH' | congruence]. }
  assert (Z : D 0%nat 0%nat = 0) by (unfold D; rewrite (D_at present P N2) by lia; rewrite PA; cbn [andb]; apply pdist_self).
  unfold under_positions. rewrite (count_known present P N2 : n_known D = _), H2. f_equal. unfold under2. rewrite LK. cbn [fst snd]. rewrite Z.
  destruct (Req_EM_T 0 0) as [_|N]; [reflexivity | congruence].
Qed.
(** Two cables, one of them A, that the spacing puts at one point are put in a row, half a unit apart and six deep. *)
Theorem C79_one_point num objs st o st' l cfg so present earth P : floats num ->
  conv_underground num objs st o = Ok (st', l) -> refers objs o "configuration" cfg -> refers objs cfg "spacing" so -> describes num 4 so present earth P ->
  how_many present = 2%nat -> present 0%nat = true -> (forall i, (i < 4)%nat -> present i = true -> P i = P 0%nat) ->
  forall k w, nth_error (wires_of (heap st') l) k = Some w -> position w (INR k / 2, -6).
Proof.
  intros FL E (c & Hc & Hcfg) (s & Hs & Hso) DS H2 PA SP k w Hk. unfold conv_underground in E. destruct (length_m num o) as [len|] eqn:El; cbn [bind] in E; [|discriminate].
  unfold underground_conf in E. rewrite Hc in E. unfold get in E. rewrite Hcfg in E. cbn [of_opt bind] in E.
  destruct (make_wires objs (underground_wire num) (conductors cfg)) as [ws0|] eqn:Ew; cbn [bind] in E; [|discriminate].
  rewrite Hs, Hso in E. cbn [of_opt bind] in E. destruct (read_spacing num pairs4 so) as [sp|] eqn:Er; cbn [bind] in E; [|discriminate].
  apply units_result in E as (m & a & _ & Em & -> & ->). unfold wires_of in Hk. cbn [heap lines_state l_wires finish_line] in Hk.
  set (ws := place ws0 (under_positions (distances sp) (map w_phase ws0))) in *.
  rewrite <- (map_length metric_ug ws), load_app in Hk. rewrite nth_error_map in Hk. destruct (nth_error ws k) as [w0|] eqn:K0; [|discriminate]. injection Hk as <-.
  unfold ws in K0. rewrite (one_point_row num so sp present earth P _ FL Er DS H2 PA SP) in K0. apply place_nth in K0 as (w1 & q & _ & Q & ->). unfold in_a_row in Q. rewrite nth_error_map in Q.
  destruct (nth_error (seq 0 (length (map w_phase ws0))) k) as [j|] eqn:J; [|discriminate]. injection Q as <-.
  assert (j = k) as ->. { assert (L : (k < length (map w_phase ws0))%nat) by (rewrite <- (seq_length (length (map w_phase ws0)) 0); apply nth_error_Some; congruence).
    apply nth_error_nth with (d := 0%nat) in J. rewrite seq_nth in J by exact L. lia. }
  unfold position, metric_ug, set_xy. cbn [w_x w_y fst snd]. split; f_equal. lra.
Qed.
Print Assumptions C79_one_point.

Definition cable_obj : obj := mkObj "underground_line_conductor" [("conductor_resistance", "1"); ("neutral_gmr", "2")].
Definition uline : obj := mkObj "underground_line" [("name", "l1"); ("from", "a"); ("to", "b"); ("length", "10"); ("configuration", "conf")].
Definition uobjs_ab : dict obj := [("wire", cable_obj); ("space", space_ab); ("conf", conf_ab)].
Lemma uab_readable : readable_underground ex_num uobjs_ab uline.
Proof.
  split; [intros s A; cbv in A; injection A as <-; eexists; reflexivity|]. exists conf_ab. split; [eexists; split; reflexivity|].
  split; [exists "z11"; split; [cbn; auto|reflexivity]|]. split.
  - intros ph I. cbv in I. destruct I as [<- | [<- | []]]; (exists cable_obj; split; [eexists; split; reflexivity|]); (split; [|split; [|discriminate]]).
    1, 3: intros k I; cbn in I; repeat (destruct I as [<- | I]; [intros s A; cbv in A; try discriminate; injection A as <-; eexists; reflexivity|]); destruct I.
    1, 2: intros g (s & A & _); discriminate A.
  - right. exists space_ab, two, false, ten_apart. destruct ten_drawing as [D1 D2].
    split; [eexists; split; reflexivity|]. split; [apply ten_drawn; lia|]. split; [exact D1|]. split; [discriminate|]. split; [exact D2|].
    intros ph I. cbv in I. destruct I as [<- | [<- | []]]; eexists; [exists 0%nat|exists 1%nat]; repeat split.
Qed.
(** An underground line that is read. *)
Example C79_hypotheses_met : floats ex_num /\ readable_underground ex_num uobjs_ab uline /\ has uline "configuration" = true.
Proof. split; [exact ex_floats|]. split; [exact uab_readable|reflexivity]. Qed.

Definition space_0 : obj := mkObj "line_spacing" [("distance_AB", "0")].
Definition uobjs_0 : dict obj := [("wire", cable_obj); ("space", space_0); ("conf", conf_ab)].
Definition one_place (i : nat) : R * R := (0, 3).
Lemma one_described : describes ex_num 4 space_0 two false one_place.
Proof.
  intros i j a b H Ha Hb. assert (Hi : (i < 4)%nat) by lia. assert (Hj : (j < 4)%nat) by lia.
  destruct i as [|[|[|[|i]]]]; [| | | |lia]; (destruct j as [|[|[|[|j]]]]; [| | | |lia]); try lia;
    cbn in Ha, Hb; injection Ha as <-; injection Hb as <-.
  1: { right. exists "0", 0. split; [reflexivity|]. split; [reflexivity|]. unfold spacing_of. cbn [Nat.ltb Nat.leb two Nat.eqb orb andb]. rewrite Rmult_1_r. f_equal. unfold one_place. apply pdist_self. }
  all: left; split; reflexivity.
Qed.
(** Two cables at one point that are read. *)
Example C79_one_point_met : describes ex_num 4 space_0 two false one_place /\ how_many two = 2%nat /\
  exists st l w w', conv_underground ex_num uobjs_0 state0 uline = Ok (st, l) /\ wires_of (heap st) l = [w; w'].
Proof.
  split; [exact one_described|]. split; [reflexivity|].
  assert (US : forall ph, In ph (phases_of conf_ab) -> exists c, refers uobjs_0 conf_ab ("conductor_" ++ ph) c /\ usable ex_num ["conductor_gmr"; "conductor_resistance"; "neutral_gmr"; "neutral_resistance"] "conductor_gmr" "conductor_resistance" ph c).
  { intros ph I. cbv in I. destruct I as [<- | [<- | []]]; (exists cable_obj; split; [eexists; split; reflexivity|]); (split; [|split; [|discriminate]]).
    1, 3: intros k I; cbn in I; repeat (destruct I as [<- | I]; [intros s A; cbv in A; try discriminate; injection A as <-; eexists; reflexivity|]); destruct I.
    1, 2: intros g (s & A & _); discriminate A. }
  destruct (wires_made ex_num uobjs_0 (underground_wire ex_num) _ _ _ conf_ab (underground_makes ex_num) US) as (ws0 & Ew & Pw & GW).
  change (phases_of conf_ab) with ["A"; "B"] in Pw. destruct ws0 as [|w [|w' [|? ?]]]; try discriminate Pw. injection Pw as PA PB.
  destruct (spacing_reads ex_num pairs4 space_0) as [sp Er].
  { intros i j I. assert (B : (i < j < 4)%nat) by (clear - I; unfold pairs4 in I; repeat (destruct I as [I|I]; [injection I as <- <-; lia|]); destruct I).
    unfold dist_name. eapply told_legible. apply one_described; [exact B|apply letters5; lia|apply letters5; lia]. }
  pose proof (one_point_row ex_num space_0 sp two false one_place ["A"; "B"] ex_floats Er one_described eq_refl eq_refl (fun i _ _ => eq_refl)) as UP.
  assert (M : exists m, compute_matrix (map plain [set_xy w (5 / 10 * INR 0, -6); set_xy w' (5 / 10 * INR 1, -6)]) 60 100 true = Ok m).
  { apply matrix_ok.
    - cbn [map set_xy w_phase]. rewrite PA, PB. repeat constructor; [intros [Q|[]]; discriminate Q | intros []].
    - intros x [<-|[<-|[]]]; cbn [set_xy w_phase]; [rewrite PA; exists 0%nat | rewrite PB; exists 1%nat]; unfold phase_position; tauto.
    - inversion GW as [|? ? [G1 G1'] GW']; subst. inversion GW' as [|? ? [G2 G2'] _]; subst. constructor; [split; assumption|]. constructor; [split; assumption | constructor].
    - intros x y [<-|[<-|[]]] [<-|[<-|[]]] N; try (contradiction N; reflexivity); unfold good_pair, wire_distance, plain; cbn [set_xy w_x w_y ImpedModel.w_x ImpedModel.w_y option_map fst snd INR]; intros Q; injection Q as Q;
        apply sqrt_eq_0 in Q; nra. }
  destruct M as [m M]. unfold conv_underground, length_m.
  assert (EL : exists len, fnum ex_num uline "length" = Ok len) by (eexists; reflexivity). destruct EL as [len EL]. rewrite EL. cbn [bind].
  unfold underground_conf. change (attr uline "configuration") with (Some "conf"). unfold get. change (dget uobjs_0 "conf") with (Some conf_ab). cbn [of_opt bind]. rewrite Ew. cbn [bind].
  change (attr conf_ab "spacing") with (Some "space"). cbn [bind]. change (dget uobjs_0 "space") with (Some space_0). cbn [of_opt bind]. rewrite Er. cbn [bind map]. rewrite PA, PB, UP.
  change (in_a_row ["A"; "B"]) with [(5 / 10 * INR 0, -6); (5 / 10 * INR 1, -6)]. cbn [place combine map fst snd].
  unfold matrix_and_units, add_wires. cbn [cur of_opt bind heap conn2 api_wire]. change (direct keys3 conf_ab) with false. cbv iota. rewrite load_app. unfold matrix3. rewrite M. cbn [bind].
  eexists _, _, _, _. split; [reflexivity|]. unfold wires_of. cbn [heap state0 l_wires finish_line app length seq map update_all fold_left update]. reflexivity.
Qed.

(** The positions of underground cables are not converted: ten feet become ten metres. *)
Theorem C79_positions_in_feet_refuted : exists st l w w' q q', conv_underground ex_num uobjs_ab state0 uline = Ok (st, l) /\
  wires_of (heap st) l = [w; w'] /\ position w q /\ position w' q' /\ pdist q q' <> 10 * foot.
Proof.
  destruct (C79_reads ex_num uobjs_ab state0 uline ex_floats uab_readable) as (st & l & E). exists st, l.
  destruct (C79_underground ex_num uobjs_ab state0 uline st l ex_floats eq_refl E) as ((cfg & (n & Hn & Hcfg) & _ & [PH _] & [_ LO] & _) & _).
  cbv in Hn. injection Hn as <-. cbv in Hcfg. injection Hcfg as <-.
  change (map w_phase (wires_of (heap st) l) = ["A"; "B"]) in PH.
  destruct (wires_of (heap st) l) as [|w0 [|w1 [|w2 ws]]]; try discriminate PH. cbn [map] in PH. injection PH as P0 P1.
  destruct (LO space_ab two false ten_apart) with (w := w0) (w' := w1) (p := ten_apart 0) (p' := ten_apart 1) as (q & q' & A & A' & D).
  { eexists; split; reflexivity. } { apply ten_drawn; lia. } { apply ten_drawing. } { discriminate. }
  { intros w [<- | [<- | []]]; eexists; [exists 0%nat|exists 1%nat]; rewrite ?P0, ?P1; repeat split. } { cbn; auto. } { cbn; auto. }
  { exists 0%nat. rewrite P0. repeat split. } { exists 1%nat. rewrite P1. repeat split. }
  exists w0, w1, q, q'. split; [exact E|]. split; [reflexivity|]. split; [exact A|]. split; [exact A'|]. rewrite D.
  replace (pdist (ten_apart 0) (ten_apart 1)) with 10 by (symmetry; unfold pdist, dist2; cbn; apply sqrt_100; ring).
  intros Q. assert (K : 3.28084 * foot = 1) by (unfold foot; apply Rinv_r; lra). lra.
Qed.
Print Assumptions C79_positions_in_feet_refuted.

Definition abn (i : nat) : bool := negb (Nat.eqb i 2).
Definition right_angle (i : nat) : R * R := if Nat.eqb i 0 then (0, 3) else if Nat.eqb i 1 then (3, 3) else (0, 7).
(** Three cables of which one is a neutral, at the corners of a right triangle, are not put at the drawn distances. *)
Theorem C79_three_with_neutral_refuted : drawing abn right_angle /\ distinct abn right_angle /\
  exists a b n, under_positions (distances (spacing_of abn false right_angle)) ["A"; "B"; "N"] = Some [a; b; n] /\ pdist a n <> pdist (right_angle 0) (right_angle 3).
Proof.
  assert (DI' : distinct abn right_angle).
  { intros i j Hi Hj N A B. unfold right_angle. destruct i as [|[|[|[|i]]]]; try lia; destruct j as [|[|[|[|j]]]]; try lia; cbn in *; try discriminate; intros Q; injection Q; lra. }
  assert (SP : exists i j, (i < 4)%nat /\ (j < 4)%nat /\ abn i = true /\ abn j = true /\ right_angle i <> right_angle j).
  { exists 0%nat, 1%nat. repeat split; try lia. apply DI'; auto; lia. }
  assert (N2 : (2 <= how_many abn)%nat) by (cbn; lia).
  split; [split; [exact N2|split; [|exact SP]]|split; [exact DI'|]].
  { intros i _ _. unfold right_angle. destruct (Nat.eqb i 0), (Nat.eqb i 1); cbn; lra. }
  set (D := distances (spacing_of abn false right_angle)).
  assert (KN : forall i j, (i < 4)%nat -> (j < 4)%nat -> known D (i, j) = (abn i && abn j)%bool) by (intros; now apply D_known).
  assert (S3 : D 0%nat 1%nat = 3). { unfold D. rewrite (D_at abn right_angle N2) by lia. cbn [abn Nat.eqb negb andb]. unfold pdist, dist2, right_angle. cbn. transitivity (sqrt (3 * 3)); [f_equal; ring|apply sqrt_square; lra]. }
  assert (S4 : D 0%nat 3%nat = 4). { unfold D. rewrite (D_at abn right_angle N2) by lia. cbn [abn Nat.eqb negb andb]. unfold pdist, dist2, right_angle. cbn. transitivity (sqrt (4 * 4)); [f_equal; ring|apply sqrt_square; lra]. }
  assert (S5 : D 1%nat 3%nat = 5). { unfold D. rewrite (D_at abn right_angle N2) by lia. cbn [abn Nat.eqb negb andb]. unfold pdist, dist2, right_angle. cbn. transitivity (sqrt (5 * 5)); [f_equal; ring|apply sqrt_square; lra]. }
  unfold under_positions. replace (n_known D) with (how_many abn) by (symmetry; exact (count_known abn right_angle N2)). change (how_many abn) with 3%nat. cbv beta iota.
  unfold under3. fold D.
  assert (FO : fold_left (longest1 D) pairs4 (0, -1, None, None) = (0 + 3 + 4 + 5, 5, Some 1%nat, Some 3%nat)).
  { unfold pairs4. cbn [fold_left]. unfold longest1. rewrite !KN by lia. cbn [abn Nat.eqb negb andb fst snd]. rewrite S3, S4, S5.
    destruct (Rlt_dec (-1) 3); [|lra]. destruct (Rlt_dec 3 4); [|lra]. destruct (Rlt_dec 4 5); [|lra]. reflexivity. }
  rewrite FO. cbn [fold_left fst snd]. rewrite !KN by lia. cbn [abn Nat.eqb negb andb]. rewrite S3.
  replace ((0 + 3 + 4 + 5) / 2 * ((0 + 3 + 4 + 5) / 2 - 3)) with 18 by field.
  unfold psqrt at 1. destruct (Rlt_dec 18 0); [lra|]. cbn [bind]. unfold pdiv. destruct (Req_EM_T 5 0); [lra|]. cbn [bind].
  assert (MI : middle D (Some 1%nat) (Some 3%nat) = Some 0%nat).
  { unfold middle. cbn [fold_left is_at Nat.eqb negb andb at4]. rewrite !KN by lia. reflexivity. }
  rewrite MI. cbn [mapM at4 letter nth String.eqb Ascii.eqb Bool.eqb bind]. rewrite S3.
  assert (SQ : sqrt 18 * sqrt 18 = 18) by (apply sqrt_sqrt; lra).
  assert (HH : 3 ^ 2 - (sqrt 18 * 2 / 5) ^ 2 = 153 / 25) by (replace ((sqrt 18 * 2 / 5) ^ 2) with (sqrt 18 * sqrt 18 * 4 / 25) by field; rewrite SQ; field).
  rewrite HH. unfold psqrt. destruct (Rlt_dec (153 / 25) 0); [lra|]. cbn [bind or_row].
  eexists _, _, _. split; [reflexivity|].
  assert (XX : sqrt (153 / 25) * sqrt (153 / 25) = 153 / 25) by (apply sqrt_sqrt; lra). set (x := sqrt (153 / 25)) in *. set (y := sqrt 18) in *.
  replace (pdist (right_angle 0) (right_angle 3)) with 4 by (symmetry; unfold pdist, dist2, right_angle; cbn; transitivity (sqrt (4 * 4)); [f_equal; ring|apply sqrt_square; lra]).
  unfold pdist, dist2. cbn [fst snd]. intros Q. apply (f_equal (fun t => t * t)) in Q. rewrite sqrt_sqrt in Q by (apply Rplus_le_le_0_compat; apply Rle_0_sqr).
  replace ((x - 5) * (x - 5) + (-6 + y * 2 / 5 - -6) * (-6 + y * 2 / 5 - -6)) with (x * x - 10 * x + 25 + y * y * 4 / 25) in Q by field. rewrite XX, SQ in Q.
  assert (x = 18 / 10) by lra. rewrite H in XX. lra.
Qed.
Print Assumptions C79_three_with_neutral_refuted.

(** ** C80 *)
(** A triplex line whose configuration has conductors has the name, ends, length and conductors of the file in metres (the
    neutral those of the second conductor), the diameter and insulation on its last wire, and the matrix of the
    conductors with the neutral grounded. *)
Theorem C80_triplex num objs st o st' l : floats num -> o_cls o = "triplex_line" -> configured objs o -> conv_triplex_line num objs st o = Ok (st', l) ->
  triplex_of num objs (heap st') o l /\ (exists ws, heap st' = heap st ++ ws) /\ NoDup (l_wires l) /\ Forall (fun i => (length (heap st) <= i)%nat) (l_wires l).
Proof.
  intros FL C CF E. destruct CF as (c & Hc & CF); [unfold is_line; now rewrite C|]. destruct (CF C) as (cfg & Hcfg & NE).
  destruct (triplex_result num FL objs st o c cfg st' l Hc Hcfg NE E) as (X & [F _] & O). split; [exact O|]. split; [exact X|]. rewrite F. split; [apply seq_NoDup|].
  apply Forall_forall. intros i I. apply in_seq in I. lia.
Qed.
Print Assumptions C80_triplex.
(** A triplex line with a length, two conductors and a neutral is read. *)
Theorem C80_reads num objs st o : floats num -> readable_triplex num objs o -> exists st' l, conv_triplex_line num objs st o = Ok (st', l).
Proof. intros FL R. destruct (triplex_reads num objs st o R) as [[st' l] E]. eauto. Qed.
Print Assumptions C80_reads.
(** A configuration with its impedance matrix cannot be read. *)
Theorem C80_direct_matrix_refuted num objs st o c cfg : attr o "configuration" = Some c -> dget objs c = Some cfg ->
  (forall k, In k ["z11"; "z12"; "z21"; "z22"] -> has cfg k = true) -> forall r, conv_triplex_line num objs st o <> Ok r.
Proof.
  intros Hc Hcfg Z r. unfold conv_triplex_line. destruct (length_m num o) as [len|]; cbn [bind]; [|discriminate].
  unfold triplex_conf. rewrite Hc. unfold get at 1. rewrite Hcfg. cbn [of_opt bind].
  destruct (triplex_conductors cfg (conn2 st)) as [[l c2]|]; cbn [bind]; [|discriminate].
  set (s0 := add_wires _ _ _). assert (K : forall f k s s', last_wire num f cfg k s = Ok s' -> cur s' = cur s).
  { intros f k s s'. unfold last_wire. destruct (fnum num cfg k) as [[x|]|]; cbn [bind]; [|intros Q; injection Q as <-; reflexivity|discriminate].
    destruct (api_wire s); cbn; [|discriminate]. intros Q. injection Q as <-. reflexivity. }
  destruct (last_wire num set_ins cfg "insulation_thickness" s0) as [s1|] eqn:E1; cbn [bind]; [|discriminate].
  destruct (last_wire num set_diam cfg "diameter" s1) as [s2|] eqn:E2; cbn [bind]; [|discriminate].
  match goal with |- bind (bind ?A _) _ <> _ => destruct A as [h|]; cbn [bind]; [|discriminate] end. cbn [cur]. rewrite (K _ _ _ _ E2), (K _ _ _ _ E1). cbn [s0 add_wires cur of_opt bind].
  replace (direct keys2 cfg) with true; [discriminate|].
  symmetry. unfold direct. apply forallb_forall. intros k I. specialize (Z k I). unfold has in Z. destruct (attr cfg k); congruence.
Qed.
Print Assumptions C80_direct_matrix_refuted.
(** A triplex line without a neutral cannot be read. *)
Theorem C80_no_neutral_refuted num objs st o c cfg : floats num -> attr o "configuration" = Some c -> dget objs c = Some cfg -> triplex_phases cfg <> [] ->
  has cfg "conductor_N" = false -> forall r, conv_triplex_line num objs st o <> Ok r.
Proof.
  intros FL Hc Hcfg NE HN r. unfold conv_triplex_line. destruct (length_m num o) as [len|]; cbn [bind]; [|discriminate].
  destruct (triplex_conf num objs st o len) as [s1|] eqn:E1; cbn [bind]; [|discriminate].
  destruct (conf_result num objs _ _ _ _ _ _ Hc Hcfg NE E1) as (cs & c2 & xi & xd & ws & Ec & Ei & Ed & Em & L & Hh & Hcur).
  rewrite Hcur. cbn [of_opt bind]. destruct (direct keys2 cfg); [discriminate|]. rewrite Hh, load_app.
  destruct (compute_secondary_matrix ws 60 100) as [z|] eqn:Ez; cbn [bind]; [|discriminate]. exfalso.
  change (compute_secondary_matrix ws 60 100) with (do m <- loop2 ws; kron2 m) in Ez.
  destruct (loop2 ws) as [m|] eqn:Lm; cbn [bind] in Ez; [|discriminate]. apply kron2_ok in Ez as [N _]. apply N.
  assert (PH : map w_phase ws = triplex_phases cfg).
  { destruct (triplex_list _ _ _ _ Ec) as (T1 & _). rewrite <- T1. revert Em. set (w0 := opt_last _ _ _). intros Em.
    assert (P2 : map w_phase w0 = map fst cs).
    { unfold w0. rewrite (proj1 (opt_last_keeps set_diam xd _ keeps_diam)), (proj1 (opt_last_keeps set_ins xi _ keeps_ins)), map_map. reflexivity. }
    rewrite <- P2. assert (LL : length w0 = length cs) by (apply (f_equal (@length string)) in P2; now rewrite !map_length in P2).
    clearbody w0. clear - FL Em LL. revert cs ws Em LL. induction w0 as [|w w0 IH]; intros [|[p n] cs] ws Em LL; try discriminate LL; cbn [map combine mapM snd fst] in *; [now injection Em as <-|].
    unfold data_of at 1 in Em. cbn [fst snd] in Em. destruct (get objs n) as [c|]; cbn [bind] in Em; [|discriminate].
    destruct (triplex_data num len c w) as [w'|] eqn:Ew; cbn [bind] in Em; [|discriminate]. destruct (mapM _ (combine w0 (map snd cs))) as [r|] eqn:Er in Em; cbn [bind] in Em; [|discriminate].
    injection Em as <-. cbn [map]. f_equal; [now apply (data_keeps num FL) in Ew|]. eapply IH; [exact Er|]. cbn in LL; now injection LL. }
  rewrite (loop2_entries ws m) by (try exact Lm; try lia; rewrite PH; apply triplex_subsets).
  unfold zcell, twisted_impedance. replace (wire_at ws 2) with (@None wire); [reflexivity|]. symmetry. unfold wire_at. cbn [nth].
  destruct (find _ ws) as [w|] eqn:Fw; [|reflexivity]. apply find_some in Fw as [I Q]. apply String.eqb_eq in Q. exfalso.
  assert (J : In "N" (triplex_phases cfg)) by (rewrite <- PH, <- Q; now apply in_map). unfold triplex_phases in J. apply filter_In in J as [_ J]. change (has cfg "conductor_N" = true) in J. congruence.
Qed.
Print Assumptions C80_no_neutral_refuted.

Definition strand (g r : string) : obj := mkObj "triplex_line_conductor" [("geometric_mean_radius", g); ("resistance", r)].
Definition conf_t : obj := mkObj "triplex_line_configuration" [("conductor_1", "w1"); ("conductor_2", "w2"); ("conductor_N", "wn"); ("diameter", "2"); ("insulation_thickness", "1")].
Definition tline (len : string) : obj := mkObj "triplex_line" [("name", "t1"); ("from", "a"); ("to", "b"); ("length", len); ("configuration", "conf")].
Definition tobjs : dict obj := [("w1", strand "1" "1"); ("w2", strand "2" "3"); ("wn", strand "4" "5"); ("conf", conf_t)].
Ltac read_it := match goal with |- value ex_num _ _ _ => eexists; split; reflexivity end.
Lemma t_readable len x : ex_num len = Ok x -> 0 <= x -> readable_triplex ex_num tobjs (tline len).
Proof.
  intros E P. split; [exists x; split; [exists len; split; [reflexivity|exact E]|exact P]|]. exists conf_t. split; [eexists; split; reflexivity|].
  split; [exists "z11"; split; [cbn; auto|reflexivity]|]. split; [reflexivity|]. split.
  - intros k [<- | [<- | []]].
    + exists (strand "1" "1"), 1, 1. repeat split; try lra; try read_it. eexists; split; reflexivity.
    + exists (strand "2" "3"), 2, 3. repeat split; try lra; try read_it. eexists; split; reflexivity.
  - split; [intros s A; cbv in A; injection A as <-; eexists; reflexivity|]. split; [intros d (s & A & B); cbv in A; injection A as <-; cbv -[IZR] in B; injection B as <-; lra|].
    split; [intros s A; cbv in A; injection A as <-; eexists; reflexivity|]. intros d (s & A & B); cbv in A; injection A as <-; cbv -[IZR] in B; injection B as <-; lra.
Qed.
(** A triplex line that is read. *)
Example C80_hypotheses_met : floats ex_num /\ readable_triplex ex_num tobjs (tline "10") /\ configured tobjs (tline "10").
Proof.
  assert (R : readable_triplex ex_num tobjs (tline "10")) by (apply (t_readable _ 10); [reflexivity|lra]).
  split; [exact ex_floats|]. split; [exact R|]. apply (readable_configured ex_num). split; [discriminate|]. split; [intros _; exact R|discriminate].
Qed.

(** The neutral does not have the data of its own conductor. *)
Theorem C80_neutral_data_refuted : exists st l w, conv_triplex_line ex_num tobjs state0 (tline "10") = Ok (st, l) /\ In w (wires_of (heap st) l) /\
  w_phase w = "N" /\ ~ exists c, refers tobjs conf_t "conductor_N" c /\ twisted ex_num (l_len l) c w.
Proof.
  destruct C80_hypotheses_met as (FL & R & CF). destruct (C80_reads _ _ state0 _ FL R) as (st & l & E). exists st, l.
  destruct (C80_triplex ex_num tobjs state0 (tline "10") st l FL eq_refl CF E) as ((cfg & (n & Hn & Hcfg) & _ & PH & _ & NE & _) & _).
  cbv in Hn. injection Hn as <-. cbv in Hcfg. injection Hcfg as <-. specialize (NE eq_refl).
  assert (I : In "N" (map w_phase (wires_of (heap st) l))) by (rewrite PH; cbn; auto). apply in_map_iff in I as (w & PN & I).
  exists w. split; [exact E|]. split; [exact I|]. split; [exact PN|].
  rewrite Forall_forall in NE. destruct (NE w I PN) as (c & (m & Hm & Hc) & G & _). cbv in Hm. injection Hm as <-. cbv in Hc. injection Hc as <-.
  intros (c' & (m & Hm & Hc) & G' & _). cbv in Hm. injection Hm as <-. cbv in Hc. injection Hc as <-.
  destruct G as [[A _]|(s & x & A & B & V)]; [discriminate A|]. destruct G' as [[A' _]|(s' & x' & A' & B' & V')]; [discriminate A'|].
  cbv in A, A'. injection A as <-. injection A' as <-. cbv -[IZR] in B, B'. injection B as <-. injection B' as <-. rewrite V in V'. injection V' as V'.
  assert (0 < / 3.28084) by (apply Rinv_0_lt_compat; lra). lra.
Qed.
Print Assumptions C80_neutral_data_refuted.

Definition conf_u : obj := mkObj "triplex_line_configuration" [("conductor_1", "w1"); ("conductor_2", "w2"); ("conductor_N", "w2")].
Definition uobjs : dict obj := [("w1", strand "1" "1"); ("w2", strand "2" "3"); ("conf", conf_u)].
Lemma u_readable len x : ex_num len = Ok x -> 0 <= x -> readable_triplex ex_num uobjs (tline len).
Proof.
  intros E P. split; [exists x; split; [exists len; split; [reflexivity|exact E]|exact P]|]. exists conf_u. split; [eexists; split; reflexivity|].
  split; [exists "z11"; split; [cbn; auto|reflexivity]|]. split; [reflexivity|]. split.
  - intros k [<- | [<- | []]].
    + exists (strand "1" "1"), 1, 1. repeat split; try lra; try read_it. eexists; split; reflexivity.
    + exists (strand "2" "3"), 2, 3. repeat split; try lra; try read_it. eexists; split; reflexivity.
  - split; [intros s A; discriminate A|]. split; [intros d (s & A & _); discriminate A|]. split; [intros s A; discriminate A|]. intros d (s & A & _); discriminate A.
Qed.
Lemma u_corner len x : ex_num len = Ok x -> 0 <= x -> exists st l z, conv_triplex_line ex_num uobjs state0 (tline len) = Ok (st, l) /\
  cell (l_z l) 0 0 z /\ fst z = (1 * (x * 0.3048 / 1609.34) + 158836 / 100000000 * 60) * / 1609.34.
Proof.
  intros Ex P. pose proof (u_readable len x Ex P) as R. destruct (C80_reads _ _ state0 _ ex_floats R) as (st & l & E). exists st, l.
  assert (CF : configured uobjs (tline len)) by (apply (readable_configured ex_num); split; [discriminate|]; split; [intros _; exact R|discriminate]).
  destruct (C80_triplex ex_num uobjs state0 (tline len) st l ex_floats eq_refl CF E) as ((cfg & (n & Hn & Hcfg) & (_ & _ & _ & _ & HL) & PH & OW & _ & LW & GR) & _).
  cbv in Hn. injection Hn as <-. cbv in Hcfg. injection Hcfg as <-. change (map w_phase (wires_of (heap st) l) = ["A"; "B"; "N"]) in PH.
  destruct (wires_of (heap st) l) as [|w0 [|w1 [|w2 [|w3 ws]]]] eqn:W; try discriminate PH. cbn [map] in PH. injection PH as P0 P1 P2.
  assert (BT : between [w0; w1; w2] = None).
  { unfold between. cbn [rev app]. destruct (LW w2 eq_refl) as [[[_ ->]|(s & y & A & _)] _]; [reflexivity|discriminate A]. }
  rewrite BT in GR. inversion OW as [|? ? O1 _]; subst. destruct O1 as (c & (m & Hm & Hc) & TG & TR); [rewrite P0; discriminate|].
  rewrite P0 in Hm. cbv in Hm. injection Hm as <-. cbv in Hc. injection Hc as <-.
  destruct HL as [[A _]|(s & y & A & B & HL)]; [discriminate A|]. cbv in A. injection A as <-. rewrite Ex in B. injection B as <-. rewrite HL in TR.
  destruct TG as [[A _]|(s & g & A & B & TG)]; [discriminate A|]. destruct TR as [[A' _]|(s' & r & A' & B' & TR)]; [discriminate A'|].
  cbv in A, A'. injection A as <-. injection A' as <-. cbv -[IZR] in B'. injection B' as <-.
  destruct GR as [[G1 G2] GR]. destruct (l_z l) as [|row [|row1 [|? ?]]]; try discriminate G1.
  pose proof (G2 row (or_introl eq_refl)) as LR. destruct row as [|z0 [|z1 [|? ?]]]; try discriminate LR.
  exists z0. split; [exact E|]. split; [exists [z0; z1]; split; reflexivity|].
  assert (Z : forall i j, twisted_impedance [w0; w1; w2] None i j = if Nat.eqb i j then twisted_impedance [w0; w1; w2] None i i else c0).
  { intros i j. destruct (Nat.eqb_spec i j) as [->|N]; [reflexivity|]. unfold twisted_impedance. apply Nat.eqb_neq in N. rewrite N. destruct (wire_at [w0; w1; w2] i), (wire_at [w0; w1; w2] j); reflexivity. }
  assert (T0 : twisted_impedance [w0; w1; w2] None 0 0 = cscale (/ 1609.34) (self_impedance 60 100 (plain w0))).
  { unfold twisted_impedance, wire_at. cbn [find nth]. rewrite P0. reflexivity. }
  specialize (GR (fun k => if Nat.eqb k 0 then c1 else c0)). specialize (GR ltac:(intros k [<- | []]; unfold drop; cbn [sum_over Nat.eqb]; rewrite (Z 2%nat 0%nat), (Z 2%nat 1%nat); cbn [Nat.eqb]; unfold cadd, cmul, c0, c1; cbn; f_equal; ring) 0%nat 0%nat [z0; z1] eq_refl eq_refl).
  unfold drop in GR. cbn [sum_over length seq nth Nat.eqb] in GR. rewrite (Z 0%nat 1%nat), (Z 0%nat 2%nat) in GR. cbn [Nat.eqb] in GR. rewrite T0 in GR.
  unfold self_impedance, plain, cscale in GR. cbn [ImpedModel.w_res ImpedModel.w_gmr] in GR. rewrite TG, TR in GR. cbn [fst snd] in GR.
  apply (f_equal fst) in GR. unfold cadd, cmul, c0, c1 in GR. cbn [fst snd] in GR. lra.
Qed.
(** The impedance per metre of a triplex line depends on its length. *)
Theorem C80_length_refuted : exists st1 l1 z1 st2 l2 z2,
  conv_triplex_line ex_num uobjs state0 (tline "1") = Ok (st1, l1) /\ conv_triplex_line ex_num uobjs state0 (tline "2") = Ok (st2, l2) /\
  cell (l_z l1) 0 0 z1 /\ cell (l_z l2) 0 0 z2 /\ z1 <> z2.
Proof.
  destruct (u_corner "1" 1 eq_refl) as (st1 & l1 & z1 & E1 & C1 & V1); [lra|]. destruct (u_corner "2" 2 eq_refl) as (st2 & l2 & z2 & E2 & C2 & V2); [lra|].
  exists st1, l1, z1, st2, l2, z2. repeat (split; [assumption|]). intros Q. rewrite Q in V1. rewrite V1 in V2.
  assert (0 < / 1609.34) by (apply Rinv_0_lt_compat; lra). apply Rmult_eq_reg_r in V2; [|lra]. unfold Rdiv in V2. set (k := / 1609.34) in *. nra.
Qed.
Print Assumptions C80_length_refuted.
