(** C132: the regulators of a Windmil file. *)
From Coq Require Import QArith Qround Lqa.
From Verif Require Import Base BaseFacts WmLineModel WmRegModel WmRegSpec.
Local Open Scope string_scope.
Local Open Scope list_scope.
Local Open Scope nat_scope.

Lemma one_phase_inv p r x a b vs pw : one_phase (p, (r, x, a, b, vs)) = Ok pw ->
  exists lo hi v, a = Ok lo /\ b = Ok hi /\ vs = Ok v /\ ~ ((lo - hi) / 33 == 0)%Q
    /\ p_phase pw = p /\ r = Ok (p_r pw) /\ x = Ok (p_x pw)
    /\ p_tap pw = trunc ((v - 1) / ((lo - hi) / 33)).
Proof.
  unfold one_phase. intros H.
  destruct a as [lo|]; cbn [bind] in H; [|discriminate].
  destruct b as [hi|]; cbn [bind] in H; [|discriminate].
  destruct vs as [v|]; cbn [bind] in H; [|discriminate].
  destruct (Qeq_bool ((lo - hi) / 33) 0) eqn:E; cbn [bind] in H; [discriminate|].
  destruct (dget phase_2_index p); cbn [of_opt bind] in H; [|discriminate].
  destruct r as [r|]; cbn [bind] in H; [|discriminate].
  destruct x as [x|]; cbn [bind] in H; [|discriminate].
  injection H as <-. exists lo, hi, v. do 3 (split; [reflexivity|]).
  split; [now apply Qeq_bool_neq|]. cbn. auto.
Qed.

Lemma list3 {A} (l : list A) : length l = 3 -> exists a b c, l = [a; b; c].
Proof. destruct l as [|a [|b [|c [|d l]]]]; cbn; intros H; try discriminate. eauto. Qed.

Lemma leading_phases e ps : leading (e_phases e) ->
  length (e_ldcr e) = 3 -> length (e_ldcx e) = 3 -> length (e_low e) = 3 -> length (e_high e) = 3 ->
  length (e_vset e) = 3 ->
  mapM one_phase (zip6 (letters (e_phases e)) (e_ldcr e) (e_ldcx e) (e_low e) (e_high e) (e_vset e)) = Ok ps ->
  Forall2 (fun p pw => p_phase pw = p
             /\ nth_error (e_ldcr e) (place p) = Some (Ok (p_r pw))
             /\ nth_error (e_ldcx e) (place p) = Some (Ok (p_x pw))) (letters (e_phases e)) ps.
Proof.
  intros HL L1 L2 L3 L4 L5.
  destruct (list3 _ L1) as [r1 [r2 [r3 ->]]]. destruct (list3 _ L2) as [x1 [x2 [x3 ->]]].
  destruct (list3 _ L3) as [a1 [a2 [a3 ->]]]. destruct (list3 _ L4) as [b1 [b2 [b3 ->]]].
  destruct (list3 _ L5) as [v1 [v2 [v3 ->]]]. clear L1 L2 L3 L4 L5.
  unfold leading in HL. cbn [In] in HL.
  destruct HL as [<-|[<-|[<-|[]]]]; cbn [letters list_ascii_of_string map zip6 mapM]; intros H.
  - destruct (one_phase ("A", _)) as [w1|] eqn:E1; [|discriminate]. injection H as <-.
    apply one_phase_inv in E1 as (lo & hi & v & _ & _ & _ & _ & P & -> & -> & _).
    constructor; [cbn; auto | constructor].
  - destruct (one_phase ("A", _)) as [w1|] eqn:E1; [|discriminate].
    destruct (one_phase ("B", _)) as [w2|] eqn:E2; [|discriminate]. injection H as <-.
    apply one_phase_inv in E1 as (lo & hi & v & _ & _ & _ & _ & P & -> & -> & _).
    apply one_phase_inv in E2 as (lo' & hi' & v' & _ & _ & _ & _ & P' & -> & -> & _).
    constructor; [cbn; auto|]. constructor; [cbn; auto | constructor].
  - destruct (one_phase ("A", _)) as [w1|] eqn:E1; [|discriminate].
    destruct (one_phase ("B", _)) as [w2|] eqn:E2; [|discriminate].
    destruct (one_phase ("C", _)) as [w3|] eqn:E3; [|discriminate]. injection H as <-.
    apply one_phase_inv in E1 as (lo & hi & v & _ & _ & _ & _ & P & -> & -> & _).
    apply one_phase_inv in E2 as (lo' & hi' & v' & _ & _ & _ & _ & P' & -> & -> & _).
    apply one_phase_inv in E3 as (lo'' & hi'' & v'' & _ & _ & _ & _ & P'' & -> & -> & _).
    constructor; [cbn; auto|]. constructor; [cbn; auto|]. constructor; [cbn; auto | constructor].
Qed.

Lemma first_kv_inv k v : first_kv k = Ok v -> exists rest, k = KList (Ok v :: rest).
Proof.
  destruct k as [|q|l]; cbn; try discriminate. destruct l as [|x l]; cbn; [discriminate|].
  intros ->. eauto.
Qed.

Lemma one_winding_inv e amp i w : one_winding e amp i = Ok w ->
  exists v rest ps, e_kv e = KList (Ok v :: rest) /\ nth_error (e_conn e) i = Some (g_conn w)
    /\ (g_power w == 1000 * v * amp)%Q
    /\ (length (letters (e_phases e)) = 1 -> (g_voltage w == 1000 * v)%Q)
    /\ (length (letters (e_phases e)) <> 1 -> (g_voltage w == 1732 * v)%Q)
    /\ g_type w = (if Nat.eqb i 0 then 0 else 2)%Z
    /\ mapM one_phase (zip6 (letters (e_phases e)) (e_ldcr e) (e_ldcx e) (e_low e) (e_high e) (e_vset e)) = Ok ps
    /\ g_phases w = ps.
Proof.
  unfold one_winding. intros H.
  destruct (first_kv (e_kv e)) as [v|] eqn:E; cbn [bind] in H; [|discriminate].
  destruct (nth_error (e_conn e) i) as [conn|] eqn:E1; cbn [of_opt bind] in H; [|discriminate].
  destruct (mapM one_phase _) as [ps|] eqn:E2; cbn [bind] in H; [|discriminate].
  injection H as <-. destruct (first_kv_inv _ _ E) as [rest K].
  exists v, rest, ps. cbn [g_conn g_power g_voltage g_type g_phases].
  split; [exact K|]. split; [reflexivity|]. split; [ring|].
  split; [intros ->; cbn [Nat.eqb]; ring|].
  split; [intros L; apply Nat.eqb_neq in L; rewrite L; ring|].
  split; [reflexivity|]. split; reflexivity.
Qed.

Lemma last_of_in {A} (l : list A) x : last_of l = Some x -> In x l.
Proof. unfold last_of. intros H. apply nth_error_In in H. now apply in_rev. Qed.

Lemma one_regulator_ok rows pos pick e rs : (forall l, l <> [] -> In (pick l) l) ->
  one_regulator rows pos pick e = Ok rs -> Forall2 (reg_ok rows pos) (filter equipped [e]) rs.
Proof.
  intros HP H. unfold one_regulator in H. cbn [filter].
  destruct (kinds e) as [|k0 ks0] eqn:Ek.
  - injection H as <-. replace (equipped e) with false; [constructor|].
    symmetry. unfold equipped. destruct (existsb _ (e_equipment e)) eqn:E; [|reflexivity].
    apply existsb_exists in E as [s [Hs Hn]].
    assert (In s (kinds e)) as HI by (apply filter_In; now split). rewrite Ek in HI. destruct HI.
  - rewrite <- Ek in H. assert (HK : kinds e <> []) by (rewrite Ek; discriminate).
    pose proof (HP _ HK) as HI. apply filter_In in HI as [HI1 HI2].
    replace (equipped e) with true
      by (symmetry; apply existsb_exists; exists (pick (kinds e)); now split).
    clear k0 ks0 Ek.
    destruct (last_of _) as [k|] eqn:El; cbn [of_opt bind] in H; [|discriminate].
    apply last_of_in, filter_In in El as [El1 El2]. apply String.eqb_eq in El2.
    destruct (k_bandwidth k) as [bw|] eqn:Eb; cbn [bind] in H; [|discriminate].
    destruct (create_reg_xfmr pos e k) as [t|] eqn:Et; cbn [bind] in H; [|discriminate].
    destruct (pos (e_to e)) as [p|] eqn:Ep; cbn [of_opt bind] in H; [|discriminate].
    injection H as <-. unfold create_reg_xfmr in Et.
    destruct (first_kv (e_kv e)) as [v|] eqn:Ev; cbn [bind] in Et; [|discriminate].
    destruct (k_ampacity k) as [amp|] eqn:Ea; cbn [bind] in Et; [|discriminate].
    rewrite Ep in Et. cbn [of_opt bind seq mapM] in Et.
    destruct (one_winding e amp 0) as [w1|] eqn:E1; cbn [bind] in Et; [|discriminate].
    destruct (one_winding e amp 1) as [w2|] eqn:E2; cbn [bind] in Et; [|discriminate].
    injection Et as <-. destruct (first_kv_inv _ _ Ev) as [rest K].
    apply one_winding_inv in E1 as (v1 & rest1 & ps1 & K1 & C1 & P1 & A1 & B1 & T1 & M1 & G1).
    apply one_winding_inv in E2 as (v2 & rest2 & ps2 & K2 & C2 & P2 & A2 & B2 & T2 & M2 & G2).
    assert (v1 = v) by congruence. assert (v2 = v) by congruence. assert (ps2 = ps1) by congruence. subst v1 v2 ps2.
    constructor; [|constructor]. unfold reg_ok.
    cbn [r_name r_from r_to r_feeder r_substation r_pos r_transformer r_bandwidth t_name t_from t_to t_pos t_feeder t_substation t_kva t_windings].
    do 5 (split; [reflexivity|]). split; [exact Ep|]. do 7 (split; [reflexivity|]).
    exists k. split; [exact El1|]. split; [now rewrite El2|].
    split; [rewrite El2; intros C; rewrite C in HI2; discriminate|]. split; [exact Eb|].
    split.
    { exists v, rest, amp. split; [exact K|]. split; [exact Ea|]. split; [ring|].
      intros w [<-|[<-|[]]]; auto. }
    split.
    { exists w1, w2. split; [reflexivity|]. split; [exact T1|]. split; [exact T2|].
      split; [exact C1|]. split; [exact C2|]. congruence. }
    intros HL L1 L2 L3 L4 L5 w Hw.
    assert (HG : g_phases w = ps1) by (destruct Hw as [<-|[<-|[]]]; assumption).
    rewrite HG. now apply leading_phases.
Qed.

(** C132: if the reader finishes, the regulators are those of the edges that name some
    equipment, in order, each with a transformer of its own between the same ends,
    of two windings, and for phases A, AB and ABC the compensator settings of
    each phase. *)
Theorem C132_regulators : forall rows pos pick es rs,
  (forall l, l <> [] -> In (pick l) l) ->
  parse_regulators rows pos pick es = Ok rs ->
  Forall2 (reg_ok rows pos) (filter equipped es) rs.
Proof.
  intros rows pos pick es rs HP H. unfold parse_regulators in H.
  destruct (mapM (one_regulator rows pos pick) es) as [rss|] eqn:E; cbn [bind] in H; [|discriminate].
  injection H as <-. revert rss E. induction es as [|e es IH]; intros rss E; cbn [mapM] in E.
  - injection E as <-. constructor.
  - destruct (one_regulator rows pos pick e) as [l|] eqn:E1; [|discriminate].
    destruct (mapM (one_regulator rows pos pick) es) as [rss'|]; [|discriminate].
    injection E as <-. cbn [concat].
    replace (filter equipped (e :: es)) with (filter equipped [e] ++ filter equipped es)
      by (cbn; destruct (equipped e); reflexivity).
    apply Forall2_app; [eapply one_regulator_ok; eassumption | now apply IH].
Qed.
Print Assumptions C132_regulators.

(** Refutation of "the regulators below a substation are read": no regulator is read
    whose voltage is the number of a substation and not the list of a transformer. *)
Theorem C132_substation_refuted : forall rows pos pick es e rs,
  (forall l, l <> [] -> In (pick l) l) -> In e es -> equipped e = true ->
  (e_kv e = KNone \/ exists q, e_kv e = KNum q) ->
  parse_regulators rows pos pick es <> Ok rs.
Proof.
  intros rows pos pick es e rs HP He Heq Hk H.
  pose proof (C132_regulators _ _ _ _ _ HP H) as F.
  assert (HI : In e (filter equipped es)) by (apply filter_In; now split).
  clear -F HI Hk. induction F as [|e' r es' rs' HR F IH]; [destruct HI|].
  destruct HI as [->|HI]; [|now apply IH].
  destruct r as [r t]. destruct HR as (_ & _ & _ & _ & _ & _ & _ & _ & _ & _ & _ & _ & _ & k & _ & _ & _ & _ & (v & rest & amp & K & _) & _).
  destruct Hk as [Hk|[q Hk]]; congruence.
Qed.
Print Assumptions C132_substation_refuted.

(** Refutation of "a regulator below a transformer has the output voltage of it": its
    voltage is the input voltage. *)
Theorem C132_voltage_refuted : forall rows pos e r t input output rest w,
  reg_ok rows pos e (r, t) -> e_kv e = KList (Ok input :: Ok output :: rest) ->
  length (letters (e_phases e)) = 1 -> In w (t_windings t) -> ~ (input == output)%Q ->
  ~ (g_voltage w == 1000 * output)%Q.
Proof.
  intros rows pos e r t input output rest w HR K L Hw Hd HE.
  destruct HR as (_ & _ & _ & _ & _ & _ & _ & _ & _ & _ & _ & _ & _ & k & _ & _ & _ & _ & (v & rest' & amp & K' & _ & _ & HW) & _).
  rewrite K in K'. injection K' as <- _. destruct (HW w Hw) as [_ [HV _]]. specialize (HV L).
  apply Hd. rewrite HV in HE. lra.
Qed.
Print Assumptions C132_voltage_refuted.

(** Refutation of "each phase has its own settings": a regulator on phase C alone has
    the settings of phase A. *)
Theorem C132_phase_refuted : forall e amp i w r rr x xx,
  e_phases e = "C" -> e_ldcr e = r :: rr -> e_ldcx e = x :: xx ->
  e_low e <> [] -> e_high e <> [] -> e_vset e <> [] ->
  one_winding e amp i = Ok w ->
  exists pw, g_phases w = [pw] /\ p_phase pw = "C" /\ r = Ok (p_r pw) /\ x = Ok (p_x pw).
Proof.
  intros e amp i w r rr x xx HC H1 H2 H3 H4 H5 H.
  apply one_winding_inv in H as (v & rest & ps & _ & _ & _ & _ & _ & _ & M & G).
  rewrite HC, H1, H2 in M.
  destruct (e_low e) as [|a al]; [congruence|]. destruct (e_high e) as [|b bl]; [congruence|].
  destruct (e_vset e) as [|c cl]; [congruence|].
  cbn [letters list_ascii_of_string map zip6 mapM] in M.
  destruct (one_phase _) as [pw|] eqn:E; [|discriminate]. injection M as <-.
  apply one_phase_inv in E as (lo & hi & u & _ & _ & _ & _ & P & Er & Ex & _).
  exists pw. auto.
Qed.
Print Assumptions C132_phase_refuted.

Lemma trunc_opp q : (0 <= q)%Q -> forall q', (q' == - q)%Q -> trunc q' = (- Qround.Qfloor q)%Z.
Proof.
  intros H q' E.
  assert (H' : (0 <= - q')%Q) by lra.
  rewrite (Qround.Qfloor_comp q (- q')%Q) by lra.
  destruct q' as [a b]. unfold trunc, Qround.Qfloor, Qopp, Qle in *. cbn in *.
  rewrite <- Z.quot_div_nonneg by lia. rewrite Z.quot_opp_l by discriminate. lia.
Qed.

(** Refutation of "a set voltage above 1 raises the tap": low and high protectors are
    mistaken for each other, so the tap is the right number of steps below 0. *)
Theorem C132_tap_refuted : forall p r x lo hi v pw,
  one_phase (p, (r, x, Ok lo, Ok hi, Ok v)) = Ok pw -> (lo < hi)%Q -> (1 <= v)%Q ->
  p_tap pw = (- Qround.Qfloor ((v - 1) * 33 / (hi - lo)))%Z /\ (p_tap pw <= 0)%Z.
Proof.
  intros p r x lo hi v pw H HL HV.
  apply one_phase_inv in H as (lo' & hi' & v' & El & Eh & Ev & _ & _ & _ & _ & T).
  injection El as <-. injection Eh as <-. injection Ev as <-.
  assert (H0 : (0 <= (v - 1) * 33 / (hi - lo))%Q).
  { unfold Qdiv. apply Qmult_le_0_compat; [lra|]. apply Qlt_le_weak, Qinv_lt_0_compat. lra. }
  assert (ET : p_tap pw = (- Qround.Qfloor ((v - 1) * 33 / (hi - lo)))%Z).
  { rewrite T. apply trunc_opp; [exact H0|]. field. split; lra. }
  split; [exact ET|]. rewrite ET.
  assert (0 <= Qround.Qfloor ((v - 1) * 33 / (hi - lo)))%Z
    by (change 0%Z with (Qround.Qfloor 0); now apply Qround.Qfloor_resp_le).
  lia.
Qed.
Print Assumptions C132_tap_refuted.

Definition ex_reg (ph : string) (k : kv) : redge :=
  mkR "node_a" "node_b" "reg1" ph ["Y"; "Y"] k ["NONE"; "r1"; "NONE"]
      [Ok (11 # 10)%Q; Ok 1%Q; Ok 1%Q] [Ok 1%Q; Ok 2%Q; Ok 3%Q] [Ok 4%Q; Ok 5%Q; Ok 6%Q]
      [Ok (12 # 10)%Q; Ok (12 # 10)%Q; Ok (12 # 10)%Q] [Ok (8 # 10)%Q; Ok (8 # 10)%Q; Ok (8 # 10)%Q] "f" "s".

(** The hypotheses are met by regulators on phases AB and on phase C below a
    transformer; below a substation the reader stops. *)
Example C132_hypotheses_met :
  (forall l, l <> [] -> In ((fun l => hd "" l) l) l)
  /\ (exists r1 t1 r2 t2,
        parse_regulators [mkRRow "r1" (Ok 2%Q) (Ok 100%Q)] (fun _ => Some (0%Q, 1%Q)) (fun l => hd "" l)
          [ex_reg "AB" (KList [Ok 12%Q; Ok 4%Q]); ex_reg "C" (KList [Ok 12%Q; Ok 4%Q])]
        = Ok [(r1, t1); (r2, t2)]
        /\ r_transformer r1 = "xfmr_reg1"
        /\ map (fun w => map p_tap (g_phases w)) (t_windings t2) = [[-8]; [-8]]%Z)
  /\ parse_regulators [mkRRow "r1" (Ok 2%Q) (Ok 100%Q)] (fun _ => Some (0%Q, 1%Q)) (fun l => hd "" l)
       [ex_reg "AB" (KNum 12%Q)] = Err EType.
Proof.
  split; [intros [|a l] H; [congruence | now left]|].
  split; [|vm_compute; reflexivity].
  do 4 eexists. split; [vm_compute; reflexivity|]. split; reflexivity.
Qed.
