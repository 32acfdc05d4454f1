(** C130: the transformers of a Windmil file. *)
From Coq Require Import Reals Lra.
From Verif Require Import Base BaseFacts WmLineModel WmLineSpec WmLineProofs WmTrafoModel WmTrafoSpec.
Local Open Scope string_scope.
Local Open Scope list_scope.
Local Open Scope nat_scope.

Lemma impedance z ratio : 
  let r := sqrt (z ^ 2 / (ratio ^ 2 + 1)) in let x := sqrt (z ^ 2 - r ^ 2) in
  (0 <= r /\ r ^ 2 + x ^ 2 = z ^ 2 /\ x = Rabs ratio * r)%R.
Proof.
  intros r x.
  assert (H1 : (0 < ratio ^ 2 + 1)%R) by (pose proof (pow2_ge_0 ratio); lra).
  assert (H2 : (0 <= z ^ 2 / (ratio ^ 2 + 1))%R).
  { apply Rmult_le_pos; [apply pow2_ge_0|]. left. now apply Rinv_0_lt_compat. }
  assert (Hr : (0 <= r)%R) by apply sqrt_pos.
  assert (Hr2 : (r ^ 2 = z ^ 2 / (ratio ^ 2 + 1))%R) by (unfold r; now rewrite pow2_sqrt).
  assert (Hz : (z ^ 2 - r ^ 2 = (ratio * r) ^ 2)%R).
  { rewrite Rpow_mult_distr, Hr2. field. lra. }
  assert (Hx : x = (Rabs ratio * r)%R).
  { unfold x. rewrite Hz. replace ((ratio * r) ^ 2)%R with (Rsqr (ratio * r)) by (unfold Rsqr; ring).
    rewrite sqrt_Rsqr_abs, Rabs_mult. f_equal. now apply Rabs_pos_eq. }
  split; [exact Hr|]. split; [|exact Hx].
  rewrite Hx, Rpow_mult_distr, RPow_abs.
  rewrite (Rabs_pos_eq (ratio ^ 2)) by apply pow2_ge_0.
  rewrite Rpow_mult_distr in Hz. lra.
Qed.

Lemma node_tr_clean s : (forall a b, s <> a ++ "node_" ++ b)%string -> node_tr 0 s = s.
Proof.
  induction s as [|c t IH]; intros H; [reflexivity|].
  cbn [node_tr]. destruct (prefix "node_" (String c t)) eqn:E.
  - exfalso. apply prefix_app in E as [b Hb]. exact (H "" b Hb).
  - f_equal. apply IH. intros a b Ht. apply (H (String c a) b). cbn. now rewrite Ht.
Qed.

Lemma phase_windings ps ws : mapM phase_winding ps = Ok ws -> ws = ps.
Proof.
  revert ws; induction ps as [|p ps IH]; intros ws H; cbn [mapM] in H; [now injection H as <-|].
  unfold phase_winding at 1 in H. destruct (dget phase_2_index p); cbn [of_opt bind] in H; [|discriminate].
  destruct (mapM phase_winding ps) as [ws'|]; [|discriminate]. injection H as <-. now rewrite (IH ws').
Qed.

Lemma one_winding_ok e k r n i w :
  one_winding e r n (k_cell k "Single Phase Rated kVA- Zps") i = Ok w ->
  winding_ok e k i w /\ g_resistance w = (r / INR n)%R.
Proof.
  unfold one_winding. intros H.
  destruct (nth_error (x_kv e) i) as [kv|] eqn:E1; cbn [of_opt bind] in H; [|discriminate].
  destruct kv as [kv|]; cbn [bind] in H; [|discriminate].
  destruct (nth_error (x_conn e) i) as [conn|] eqn:E2; cbn [of_opt bind] in H; [|discriminate].
  destruct (k_cell k "Single Phase Rated kVA- Zps") as [kva|] eqn:E3; cbn [bind] in H; [|discriminate].
  destruct (mapM phase_winding (letters (x_phases e))) as [ps|] eqn:E4; cbn [bind] in H; [|discriminate].
  injection H as <-. apply phase_windings in E4 as ->.
  split; [|reflexivity]. unfold winding_ok; cbn [g_voltage g_conn g_power g_type g_phases].
  split.
  { exists kv. split; [exact E1|]. destruct (Nat.eqb_spec (length (letters (x_phases e))) 1) as [L|L].
    - split; [intros _; ring | intros C; contradiction].
    - split; [intros C; contradiction | intros _; field]. }
  split; [exact E2|]. split; [exists kva; split; [exact E3 | ring]|].
  split; [|reflexivity]. destruct (Nat.eqb_spec i 0); split; intros; congruence || discriminate.
Qed.

Lemma windings_ok e k r n m : forall j ws,
  mapM (one_winding e r n (k_cell k "Single Phase Rated kVA- Zps")) (seq j m) = Ok ws ->
  length ws = m /\ Forall (fun w => g_resistance w = (r / INR n)%R) ws
  /\ forall i w, nth_error ws i = Some w -> winding_ok e k (j + i) w.
Proof.
  induction m as [|m IH]; intros j ws H; cbn [seq mapM] in H.
  - injection H as <-. split; [reflexivity|]. split; [constructor|]. intros [|i] w; discriminate.
  - destruct (one_winding e r n _ j) as [w|] eqn:E; [|discriminate].
    destruct (mapM _ (seq (S j) m)) as [ws'|] eqn:E'; [|discriminate]. injection H as <-.
    destruct (IH _ _ E') as [L [F N]]. destruct (one_winding_ok _ _ _ _ _ _ E) as [W G].
    split; [cbn; now rewrite L|]. split; [now constructor|].
    intros [|i] w' Hw; cbn in Hw.
    + injection Hw as <-. now rewrite Nat.add_0_r.
    + rewrite Nat.add_succ_r. now apply (N i).
Qed.

Lemma sum_const c ws : Forall (fun w => g_resistance w = c) ws ->
  sum (map g_resistance ws) = (INR (length ws) * c)%R.
Proof.
  induction 1 as [|w ws H F IH]; cbn [map sum length]; [cbn; ring|]. rewrite IH, H, S_INR. ring.
Qed.

Section Reader.
Variable rows : list xrow.
Variable pos : string -> option (R * R).
Variable pick : list string -> string.
Variable is_zero : R -> bool.
Hypothesis pick_in : forall l, l <> [] -> In (pick l) l.
Hypothesis zero_spec : forall x, is_zero x = true <-> x = 0%R.

Lemma one_transformer_ok e ts : one_transformer rows pos pick is_zero e = Ok ts ->
  Forall2 (trafo_ok rows pos) (filter equipped [e]) ts.
Proof.
  intros H. unfold one_transformer in H. cbn [filter].
  destruct (kinds e) as [|k0 ks0] eqn:Ek.
  - injection H as <-. replace (equipped e) with false; [constructor|].
    symmetry. unfold equipped. destruct (existsb _ (x_equipment e)) eqn:E; [|reflexivity].
    apply existsb_exists in E as [s [Hs Hn]].
    assert (In s (kinds e)) as HI by (apply filter_In; now split). rewrite Ek in HI. destruct HI.
  - rewrite <- Ek in H. assert (HK : kinds e <> []) by (rewrite Ek; discriminate).
    pose proof (pick_in _ HK) as HP. apply filter_In in HP as [HP1 HP2].
    replace (equipped e) with true
      by (symmetry; apply existsb_exists; exists (pick (kinds e)); now split).
    clear k0 ks0 Ek.
    set (found := filter (fun k => String.eqb (k_id k) (pick (kinds e))) rows) in *.
    destruct (windings_of (x_tertiary e)) as [n|] eqn:En; cbn [bind] in H; [|discriminate].
    destruct found as [|k more] eqn:Ef; [discriminate|]. cbn [nth_error of_opt bind] in H.
    assert (Hk : In k found) by (rewrite Ef; now left).
    apply filter_In in Hk as [Hk1 Hk2]. apply String.eqb_eq in Hk2.
    destruct (k_cell k "X/R Ratio- Phase A") as [ratio|] eqn:E1; cbn [bind] in H; [|discriminate].
    destruct (k_cell k "Percent Impedance- Zps") as [z|] eqn:E2; cbn [bind] in H; [|discriminate].
    destruct (k_cell k "Single Phase Base kVA- Zps") as [a|] eqn:E3; cbn [bind] in H; [|discriminate].
    destruct (k_cell k "Single Phase Base kVA- Zpt") as [b|] eqn:E4; cbn [bind] in H; [|discriminate].
    destruct (k_cell k "Single Phase Base kVA- Zst") as [c|] eqn:E5; cbn [bind] in H; [|discriminate].
    destruct (k_cell k "No-Load Loss- Zps") as [loss|] eqn:E6; cbn [bind] in H; [|discriminate].
    destruct (is_zero a) eqn:Ea; cbn [bind] in H; [discriminate|].
    assert (a <> 0%R) as Ha by (intros C; apply zero_spec in C; congruence).
    destruct (x_center e) as [ct|] eqn:E7; cbn [bind] in H; [|discriminate].
    destruct (pos (x_to e)) as [p|] eqn:E8; cbn [of_opt bind] in H; [|discriminate].
    destruct (impedance z ratio) as [I1 [I2 I3]].
    set (r := sqrt (z ^ 2 / (ratio ^ 2 + 1))) in *.
    set (x := sqrt (z ^ 2 - r ^ 2)) in *.
    assert (Hn : n <> 0 /\ (x_tertiary e = TNaN -> n = 2) /\ (x_tertiary e <> TNaN -> n = 3)).
    { destruct (x_tertiary e); cbn in En; [| |discriminate]; injection En as <-;
        split; try discriminate; split; congruence. }
    destruct Hn as [Hn0 [Hn2 Hn3]].
    destruct more as [|k' more].
    2:{ exfalso. destruct n as [|n]; [congruence|]. cbn [seq mapM] in H.
        unfold one_winding at 1 in H.
        destruct (nth_error (x_kv e) 0) as [kv|]; cbn [of_opt bind] in H; [|discriminate].
        destruct kv as [kv|]; cbn [bind] in H; [|discriminate].
        destruct (nth_error (x_conn e) 0) as [conn|]; cbn [of_opt bind] in H; discriminate. }
    destruct (mapM _ (seq 0 n)) as [ws|] eqn:Ew; cbn [bind] in H; [|discriminate].
    injection H as <-. constructor; [|constructor].
    destruct (windings_ok _ _ _ _ _ _ _ Ew) as [L [F N]].
    assert (HS : sum (map g_resistance ws) = r).
    { rewrite (sum_const _ _ F), L. field. now apply not_0_INR. }
    unfold trafo_ok; cbn [t_from t_to t_feeder t_substation t_name t_pos t_center t_pad t_kva t_noload t_reactances t_windings].
    do 2 (split; [reflexivity|]).
    split; [destruct (x_feeder e); reflexivity|]. split; [destruct (x_substation e); reflexivity|].
    split.
    { intros y -> Hy. transitivity ("tr_" ++ node_tr 0 y)%string; [destruct y; reflexivity|].
      now rewrite node_tr_clean. }
    split; [exact E8|]. split; [exact E7|].
    exists k. split; [exact Hk1|]. split; [now rewrite Hk2|].
    split; [rewrite Hk2; intros C; rewrite C in HP2; discriminate|]. split; [reflexivity|].
    split.
    { exists a, b, c. do 4 (split; [assumption || reflexivity|]). exists loss. split; [exact E6|]. field. exact Ha. }
    split.
    { exists z, ratio, x. split; [exact E2|]. split; [exact E1|]. split; [reflexivity|]. rewrite HS. auto. }
    split; [intros T; rewrite L; now apply Hn2|]. split; [intros T; rewrite L; now apply Hn3|].
    split; [|exact N].
    intros w w' Hw Hw'. rewrite Forall_forall in F. now rewrite (F _ Hw), (F _ Hw').
Qed.
End Reader.

(** C130: if the reader finishes, the transformers are those of the edges that name
    some equipment, in order; each has two windings, or three with a tertiary, the
    voltages of the file in volts, and a resistance and a reactance that make up
    the impedance of its kind in the ratio X/R of its kind. *)
Theorem C130_transformers : forall rows pos pick is_zero es ts,
  (forall l, l <> [] -> In (pick l) l) -> (forall x, is_zero x = true <-> x = 0%R) ->
  parse_transformers rows pos pick is_zero es = Ok ts ->
  Forall2 (trafo_ok rows pos) (filter equipped es) ts.
Proof.
  intros rows pos pick is_zero es ts HP HZ H. unfold parse_transformers in H.
  destruct (mapM (one_transformer rows pos pick is_zero) es) as [tss|] eqn:E; cbn [bind] in H; [|discriminate].
  injection H as <-. revert tss E. induction es as [|e es IH]; intros tss E; cbn [mapM] in E.
  - injection E as <-. constructor.
  - destruct (one_transformer rows pos pick is_zero e) as [l|] eqn:E1; [|discriminate].
    destruct (mapM (one_transformer rows pos pick is_zero) es) as [tss'|]; [|discriminate].
    injection E as <-. cbn [concat].
    replace (filter equipped (e :: es)) with (filter equipped [e] ++ filter equipped es)
      by (cbn; destruct (equipped e); reflexivity).
    apply Forall2_app; [eapply one_transformer_ok; eassumption | now apply IH].
Qed.
Print Assumptions C130_transformers.

(** Refutation of "a transformer with a tertiary is read": if the first transformer
    with some equipment names its tertiary by a string, the reader stops. *)
Theorem C130_tertiary_refuted : forall rows pos pick is_zero es1 e es2,
  filter equipped es1 = [] -> equipped e = true -> x_tertiary e = TStr ->
  parse_transformers rows pos pick is_zero (es1 ++ e :: es2) = Err EType.
Proof.
  intros rows pos pick is_zero es1 e es2 H1 He Ht. unfold parse_transformers.
  replace (mapM (one_transformer rows pos pick is_zero) (es1 ++ e :: es2))
    with (@Err (list (list transformer)) EType); [reflexivity|]. symmetry.
  induction es1 as [|a es1 IH]; cbn [app mapM].
  - unfold one_transformer. destruct (kinds e) as [|k ks] eqn:Ek.
    + exfalso. apply existsb_exists in He as [s [Hs Hn]].
      assert (HI : In s (kinds e)) by (apply filter_In; now split). rewrite Ek in HI. destruct HI.
    + rewrite Ht. reflexivity.
  - cbn [filter] in H1. destruct (equipped a) eqn:Ea; [discriminate|].
    replace (one_transformer rows pos pick is_zero a) with (@Ok (list transformer) []).
    + now rewrite (IH H1).
    + symmetry. unfold one_transformer. destruct (kinds a) as [|k ks] eqn:Ek; [reflexivity|].
      exfalso. assert (HI : In k (kinds a)) by (rewrite Ek; now left).
      apply filter_In in HI as [HI1 HI2].
      assert (equipped a = true) by (apply existsb_exists; exists k; now split). congruence.
Qed.
Print Assumptions C130_tertiary_refuted.

(** Refutation of "three windings have three reactances": however many windings a
    transformer has, there is one reactance. *)
Theorem C130_reactances_refuted : forall rows pos pick is_zero es ts t,
  (forall l, l <> [] -> In (pick l) l) -> (forall x, is_zero x = true <-> x = 0%R) ->
  parse_transformers rows pos pick is_zero es = Ok ts -> In t ts ->
  length (t_reactances t) = 1.
Proof.
  intros rows pos pick is_zero es ts t HP HZ H Ht.
  pose proof (C130_transformers _ _ _ _ _ _ HP HZ H) as F. clear H.
  induction F as [|e t' es' ts' HT F IH]; [destruct Ht|].
  destruct Ht as [->|Ht]; [|now apply IH].
  destruct HT as (_ & _ & _ & _ & _ & _ & _ & k & _ & _ & _ & _ & _ & (z & ratio & x & _ & _ & -> & _) & _).
  reflexivity.
Qed.
Print Assumptions C130_reactances_refuted.

(** The first of a list; a test for 0. *)
Definition ex_pick (l : list string) : string := hd "" l.
Definition ex_zero (x : R) : bool := if Req_EM_T x 0 then true else false.
Definition ex_trafo (ty : tertiary) : xedge :=
  mkX "node_a" "node_b" "ABC" ["D"; "Y"; "Y"] [Ok 7%R; Ok 1%R; Ok 2%R] ty ["NONE"; "big"; "NONE"]
      (Some "f") None (Ok 0%Z).

(** The hypotheses are met by transformers of two and of three windings, and by an
    edge without equipment. *)
Example C130_hypotheses_met :
  (forall l, l <> [] -> In (ex_pick l) l) /\ (forall x, ex_zero x = true <-> x = 0%R)
  /\ exists t1 t2,
      parse_transformers [mkXRow "big" (fun _ => Ok 2%R) true] (fun _ => Some (1%R, 2%R)) ex_pick ex_zero
        [ex_trafo TNaN; mkX "a" "b" "A" [] [] TStr ["NONE"] None None (Ok 0%Z); ex_trafo TNum]
      = Ok [t1; t2]
      /\ length (t_windings t1) = 2 /\ length (t_windings t2) = 3 /\ t_name t1 = "tr_b".
Proof.
  split; [intros [|a l] H; [congruence | now left]|].
  split; [intros x; unfold ex_zero; destruct (Req_EM_T x 0); split; congruence|].
  do 2 eexists. split; [|split; [|split]].
  - assert (Z : ex_zero 2 = false) by (unfold ex_zero; destruct (Req_EM_T 2 0); [lra | reflexivity]).
    unfold parse_transformers, one_transformer. cbn -[ex_zero sqrt pow]. rewrite Z. cbn -[ex_zero sqrt pow]. reflexivity.
  - reflexivity.
  - reflexivity.
  - reflexivity.
Qed.
