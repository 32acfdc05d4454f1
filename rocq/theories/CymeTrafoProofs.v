From Coq Require Import List String Ascii Bool Arith ZArith Reals Lra Lia.
From Verif Require Import Base BaseFacts CymeMapModel CymeMapSpec CymeMapProps CymeParseModel CymeParseSpec CymeLoadModel CymeLoadSpec CymeLoadProofs CymeSrcModel CymeTrafoModel CymeTrafoSpec.
Import ListNotations.
Local Open Scope string_scope.
Local Open Scope nat_scope.
Local Open Scope list_scope.

(** ** Numbers *)
Lemma sqrt_3 : (sqrt 3 * sqrt 3 = 3)%R.
Proof. apply sqrt_sqrt. lra. Qed.
Lemma trunc_spec x : truncated x (trunc x).
Proof.
  unfold trunc, truncated. destruct (Rle_dec 0 x) as [L|L].
  - split; [intros _|lra]. destruct (base_Int_part x). lra.
  - split; [lra|intros _]. destruct (base_Int_part (- x)). rewrite opp_IZR. lra.
Qed.
Lemma sequence_spec z k : impedance z k (fst (sequence z k)) (snd (sequence z k)).
Proof.
  unfold sequence, impedance. destruct (Req_EM_T k 0) as [E|N]; [left; now split|right]. cbn [fst snd]. split; [exact N|].
  assert (P : (0 < k * k)%R) by (destruct (Rtotal_order k 0) as [L|[L|L]]; [|congruence|]; nra).
  set (s := sqrt (1 + k * k)). assert (S0 : (0 < s)%R) by (apply sqrt_lt_R0; lra). assert (SS : (s * s = 1 + k * k)%R) by (apply sqrt_sqrt; lra).
  assert (AK : (Rabs k * Rabs k = k * k)%R) by (rewrite <- Rabs_mult; apply Rabs_pos_eq; lra). assert (A0 : (0 < Rabs k)%R) by now apply Rabs_pos_lt.
  assert (E2 : sqrt (1 + 1 / (k * k)) = (s / Rabs k)%R).
  { assert (0 <= s / Rabs k)%R by (apply Rlt_le; now apply Rdiv_lt_0_compat). rewrite <- (sqrt_square (s / Rabs k)) by assumption. f_equal. replace (s / Rabs k * (s / Rabs k))%R with (s * s / (Rabs k * Rabs k))%R by (field; lra). rewrite SS, AK. field. lra. }
  assert (X : (z / sqrt (1 + 1 / (k * k)) = Rabs k * (z / s))%R). { rewrite E2. field. split; lra. }
  split; [|split; [exact X|]].
  - rewrite X. replace (z / s * (z / s) + Rabs k * (z / s) * (Rabs k * (z / s)))%R with (z * z * (1 + Rabs k * Rabs k) / (s * s))%R by (field; lra). rewrite AK, SS. field. lra.
  - replace (z / s * z)%R with (z * z * / s)%R by (field; lra). apply Rmult_le_pos; [nra|]. apply Rlt_le. now apply Rinv_0_lt_compat.
Qed.
Lemma percent_spec z1 z0 xr xr0 : percent z1 z0 xr xr0 = (fst (sequence z0 xr0) / 3, snd (sequence z0 xr0) / 3)%R.
Proof. unfold percent, times, T, diagonal, T_inv, third, c1, cmul. cbn [Nat.eqb fst snd]. f_equal; field. Qed.

Section Proofs.
Variable num : string -> option R.
Variable int_ : string -> option Z.
Notation record := CymeParseModel.record.

Lemma float_iff d k x : float_of num d k = Ok x <-> number num d k x.
Proof.
  unfold float_of, number. destruct (dget d k) as [t|]; cbn; [|split; [discriminate|intros (t & E & _); discriminate]].
  destruct (num t) eqn:N; cbn; (split; [intros H; exists t; split; [reflexivity|congruence]|intros (t' & E & H); congruence]).
Qed.
Lemma kilo_spec d k : thousands num d k (kilo num d k).
Proof.
  intros x. unfold kilo. destruct (float_of num d k) as [y|e] eqn:E.
  - apply float_iff in E as N. split; [intros H; injection H as <-; now exists y|]. intros (y' & N' & ->). apply float_iff in N'. congruence.
  - split; [discriminate|]. intros (y' & N' & _). apply float_iff in N'. congruence.
Qed.
Lemma on_letters t o : on_phases t o (map (fun p => (p, o)) (letters t)).
Proof. unfold on_phases, letters. now rewrite map_map. Qed.
Lemma three_spec d t which : three_says num int_ d t which (three_winding num int_ d (letters t) which).
Proof.
  split; [apply kilo_spec|]. split; [apply kilo_spec|]. exists (tap int_ d (which ++ "fixedtapsetting")%string). split; [|apply on_letters]. intros z. unfold tap. destruct (dget d _) as [u|]; [|split; [discriminate|intros (u & E & _); discriminate]]. split; [intros H; now exists u|intros (u' & E & H); congruence].
Qed.
Lemma pair_either t : (exists z a n r, In (z, a, n, r) pair_table /\ spelt a n t) \/ forall z a n r, In (z, a, n, r) pair_table -> ~ spelt a n t.
Proof.
  generalize pair_table as tb. induction tb as [|[[[z a] n] r] tb [(z' & a' & n' & r' & I & S)|N]]; [now right|left; exists z', a', n', r'; split; [now right|exact S]|].
  unfold spelt. destruct (string_dec t a) as [E|E]; [left; exists z, a, n, r; split; [now left|now left]|].
  destruct (string_dec (lower t) n) as [F|F]; [left; exists z, a, n, r; split; [now left|now right]|].
  right. intros z' a' n' r' [H|H]; [injection H as <- <- <- <-; tauto|now apply (N z' a' n' r')].
Qed.
Definition pair_conn (q : record) (which : Z) := match dget q "conn" with Some t => match transformer_connection_mapping (VStr t) which with Ok (Some c) => Some c | _ => None end | None => None end.
Lemma pair_spec q : pair_says q (pair_conn q 0) (pair_conn q 1).
Proof.
  unfold pair_says, pair_conn. destruct (dget q "conn") as [u|]; [|right; split; [discriminate|now split]]. destruct C61_transformer as (TB & _ & NO & _). destruct (pair_either u) as [(z & c & n & [x y] & I & S)|N].
  - left. exists u, z, c, n, x, y. destruct (TB _ _ _ _ _ I) as (_ & _ & H). destruct (H u S) as [-> ->]. repeat (split; [auto|]). reflexivity.
  - right. split; [intros u' z c n r E; injection E as <-; apply N|]. rewrite !NO by auto. now split.
Qed.
Lemma two_spec q t z1 z0 xr xr0 : number num q "z0" z0 -> number num q "xr0" xr0 ->
  two_says num q t [snd (percent z1 z0 xr xr0)] [two_winding num q (letters t) (fst (percent z1 z0 xr xr0) / 2) 0 "kvllprim"; two_winding num q (letters t) (fst (percent z1 z0 xr xr0) / 2) 1 "kvllsec"].
Proof.
  intros N0 NX. rewrite percent_spec. cbn [fst snd]. exists z0, xr0, (fst (sequence z0 xr0)), (snd (sequence z0 xr0)). eexists _, _. split; [exact N0|]. split; [exact NX|]. split; [apply sequence_spec|]. split; [reflexivity|]. split; [reflexivity|]. unfold two_winding. cbn [w_resistance w_power w_voltage w_connection w_phases].
  split; [f_equal; field|]. split; [f_equal; field|]. split; [apply kilo_spec|]. split; [apply kilo_spec|]. split; [apply kilo_spec|]. split; [apply kilo_spec|]. split; [apply (pair_spec q)|]. split; apply on_letters.
Qed.
Lemma connection_either t : (exists z a n r, In (z, a, n, r) connection_table /\ spelt a n t) \/ forall z a n r, In (z, a, n, r) connection_table -> ~ spelt a n t.
Proof.
  generalize connection_table as tb. induction tb as [|[[[z a] n] r] tb [(z' & a' & n' & r' & I & S)|N]]; [now right|left; exists z', a', n', r'; split; [now right|exact S]|].
  unfold spelt. destruct (string_dec t a) as [E|E]; [left; exists z, a, n, r; split; [now left|now left]|].
  destruct (string_dec (lower t) n) as [F|F]; [left; exists z, a, n, r; split; [now left|now right]|].
  right. intros z' a' n' r' [H|H]; [injection H as <- <- <- <-; tauto|now apply (N z' a' n' r')].
Qed.
Lemma conn_spec d : connection_says d (match dget d "conn" with Some t => match connection_configuration_mapping (VStr t) with Ok (Some c) => Some c | _ => None end | None => None end).
Proof.
  unfold connection_says. destruct (dget d "conn") as [t|] eqn:F; [|right; split; [discriminate|reflexivity]].
  destruct C61_connection as (TB & _ & ERR & _ & NO). destruct (connection_either t) as [(z & a & n & r & I & S)|N].
  - left. exists t, z, a, n, r. split; [reflexivity|]. split; [exact I|]. split; [exact S|]. destruct (TB z a n r I) as [_ TS]. now rewrite (TS t S).
  - right. split; [intros t' z a n r H2; injection H2 as <-; apply N|].
    assert (Q : spelt "6" "ct" t \/ spelt "7" "dg" t \/ (~ spelt "6" "ct" t /\ ~ spelt "7" "dg" t)).
    { unfold spelt. destruct (string_dec t "6"); [tauto|]. destruct (string_dec (lower t) "ct"); [tauto|]. destruct (string_dec t "7"); [tauto|]. destruct (string_dec (lower t) "dg"); tauto. }
    destruct Q as [Q|[Q|[Q1 Q2]]]; [rewrite ERR by tauto|rewrite ERR by tauto|rewrite NO by assumption]; reflexivity.
Qed.
Lemma grounding_spec q t : grounding_says num q t (grounding_winding num q (letters t)).
Proof. split; [apply kilo_spec|]. split; [apply kilo_spec|]. split; [apply conn_spec|apply on_letters]. Qed.
Lemma positions_spec d : positions_say num d (match (do x <- float_of num d "coordx"; do y <- float_of num d "coordy"; Ok (x, y)) with Ok xy => [xy] | Err _ => [] end).
Proof.
  destruct (float_of num d "coordx") as [x|e] eqn:X; cbn [bind].
  - destruct (float_of num d "coordy") as [y|e] eqn:Y; cbn [bind].
    + left. exists x, y. apply float_iff in X, Y. auto.
    + right. split; [|reflexivity]. intros x' y' [_ N]. apply float_iff in N. congruence.
  - right. split; [|reflexivity]. intros x' y' [N _]. apply float_iff in N. congruence.
Qed.
Lemma data_fun eq d q q' : data_of eq d q -> data_of eq d q' -> q = q'.
Proof. intros (i & E & H) (i' & E' & H'). assert (i' = i) by congruence. subst. destruct H as [H|[H K]], H' as [H'|[H' K']]; congruence. Qed.
Lemma ltc_spec sf id d q feeder s : dget sf (lower id) = Some feeder -> dget d "sectionid" = Some s ->
  (marked q -> (forall k, In k ["taps"; "lowerbandwidth"; "upperbandwidth"] -> exists x, number num q k x) /\ (forall k, In k ["maxbuck"; "maxboost"; "setpoint"; "ct"; "pt"] -> exists x, number num d k x)) ->
  exists o, regulator num feeder ("Trans_" ++ s)%string d q = Ok o /\ ((marked q /\ exists g, o = Some g /\ ltc_says num sf id d q g) \/ (~ marked q /\ o = None)).
Proof.
  intros EF ES M. unfold regulator. destruct (dget q "isltc") as [t|] eqn:E; [|exists None; split; [reflexivity|right; split; [intros (t & H & _); congruence|reflexivity]]].
  destruct (String.eqb_spec t "") as [->|N]; [exists None; split; [reflexivity|right; split; [intros (t & H & K); congruence|reflexivity]]|].
  assert (MK : marked q) by (exists t; auto). destruct (M MK) as [Q D]. destruct (Q "taps") as (x1 & X1); [cbn; auto|]. destruct (Q "lowerbandwidth") as (x2 & X2); [cbn; auto|]. destruct (Q "upperbandwidth") as (x3 & X3); [cbn; auto|].
  destruct (D "maxbuck") as (y1 & Y1); [cbn; auto|]. destruct (D "maxboost") as (y2 & Y2); [cbn; auto|]. destruct (D "setpoint") as (y3 & Y3); [cbn; auto|]. destruct (D "ct") as (y4 & Y4); [cbn; auto|]. destruct (D "pt") as (y5 & Y5); [cbn; auto 6|].
  apply float_iff in X1 as X1', X2 as X2', X3 as X3', Y1 as Y1', Y2 as Y2', Y3 as Y3', Y4 as Y4', Y5 as Y5'. rewrite X1', X2', X3', Y1', Y2', Y3', Y4', Y5', ES. cbn [bind]. eexists. split; [reflexivity|]. left. split; [exact MK|]. eexists. split; [reflexivity|].
  exists s, x2, x3, y1, y2, y5, y4. cbn [g_name g_feeder g_transformer g_high g_low g_pt g_ct g_setpoint g_bandwidth]. split; [exact ES|]. split; [reflexivity|]. split; [reflexivity|]. split; [exact EF|]. split; [exact X2|]. split; [exact X3|]. split; [apply Rplus_comm|]. split; [exact Y3|]. split; [exact Y1|]. split; [apply trunc_spec|]. split; [exact Y2|]. split; [apply trunc_spec|]. split; [exact Y5|]. split; [apply trunc_spec|]. split; [exact Y4|apply trunc_spec].
Qed.
Lemma three_iff u : smem u ["three_winding_transformer"; "three_winding_auto_transformer"] = true <-> three_type u.
Proof. rewrite smem_In. unfold three_type. cbn. intuition congruence. Qed.

Lemma one_spec sp sf eq gr e : placed sp sf e -> readable num eq (snd e) -> exists r, one_transformer num int_ sp sf eq gr e = Ok r /\ transformer_says num int_ sp sf eq gr e r.
Proof.
  intros (id & k & s & t & f & u & n & EK & B & ES & ET & EF & EU & EN) [RT RG]. destruct e as [key d]. cbn [fst snd] in *. unfold one_transformer. cbn [fst snd]. rewrite EK, (strip_bare id k B), EF. cbn [of_opt bind]. rewrite ES. cbn [of_opt bind]. rewrite ET. cbn [of_opt bind]. rewrite EU. cbn [of_opt bind]. rewrite EN.
  assert (G : forall xs ws o, windings_say num int_ eq gr d u t xs ws -> regulator_says num sf eq id d u o -> transformer_says num int_ sp sf eq gr ((id ++ stars k)%string, d)
    (mkTrafo ("Trans_" ++ n) f (dget s "fromnodeid") (dget s "tonodeid") None None (match (do x <- float_of num d "coordx"; do y <- float_of num d "coordy"; Ok (x, y)) with Ok xy => [xy] | Err _ => [] end) xs ws, o)).
  { intros xs ws o W R. exists id, k, s, t, u, n. cbn [fst snd t_name t_feeder t_from t_to t_positions t_reactances t_windings]. split; [reflexivity|]. split; [exact B|]. split; [exact ES|]. split; [exact ET|]. split; [exact EU|]. split; [exact EN|]. split; [reflexivity|]. split; [exact EF|]. split; [reflexivity|]. split; [reflexivity|]. split; [apply positions_spec|]. split; [exact W|exact R]. }
  pose proof (three_iff u) as TI. destruct (smem u _) eqn:ST.
  - assert (T3 : three_type u) by now apply TI. assert (NT : u <> "transformer") by (intros ->; destruct T3; discriminate). eexists. split; [reflexivity|]. cbn [map]. apply G; [|right; split; [contradiction|reflexivity]]. eapply windings_three; try reflexivity; [exact T3|apply three_spec..].
  - assert (N3 : ~ three_type u) by (intros H; apply TI in H; discriminate). destruct (String.eqb_spec u "transformer") as [->|NT].
    + destruct (RT EU) as (q & DQ & NQ & MQ). pose proof DQ as (i & EI & H). rewrite EI. cbn [of_opt bind]. assert (match dget eq i with Some q => Ok q | None => of_opt EKey (dget eq "DEFAULT") end = Ok q) as -> by (destruct H as [-> | [-> ->]]; reflexivity). cbn [bind].
      destruct (NQ "z1") as (z1 & Z1); [cbn; auto|]. destruct (NQ "z0") as (z0 & Z0); [cbn; auto|]. destruct (NQ "xr") as (xr & XR); [cbn; auto|]. destruct (NQ "xr0") as (xr0 & XR0); [cbn; auto|]. apply float_iff in Z1 as Z1', Z0 as Z0', XR as XR', XR0 as XR0'. rewrite Z1', Z0', XR', XR0'. cbn [bind].
      destruct (ltc_spec sf id d q f n EF EN MQ) as (o & -> & O). cbn [bind]. eexists. split; [reflexivity|]. apply G.
      * eapply windings_two; [reflexivity|exact DQ|]. now apply two_spec.
      * destruct O as [(MK & g & -> & L)|(NM & ->)]; [left; exists q, g; auto|right; split; [|reflexivity]]. intros _ q' DQ'. now rewrite (data_fun _ _ _ _ DQ' DQ).
    + destruct (String.eqb_spec u "grounding_transformer") as [->|NG].
      * destruct (RG EU) as (i & EI). rewrite EI. cbn [of_opt bind]. eexists. split; [reflexivity|]. apply G; [|right; split; [discriminate|reflexivity]]. eapply windings_ground; try reflexivity; [|apply grounding_spec|apply grounding_spec]. exists i. split; [exact EI|]. destruct (dget gr i); auto.
      * eexists. split; [reflexivity|]. apply G; [now apply windings_other|right; split; [contradiction|reflexivity]].
Qed.
End Proofs.
