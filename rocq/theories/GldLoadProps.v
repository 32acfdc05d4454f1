(** C72, C73: the nodes and loads that the GridLAB-D reader makes. *)
From Verif Require Import Base BaseFacts CsvModel TextModel GlmModel GlmSpec GlmProofs GlmProps GldModel GldSpec GldProofs.
From Coq Require Import QArith Qcanon.
Local Open Scope list_scope.
Local Open Scope string_scope.

Lemma abc_quoted q p : plain p -> quoted q p -> abc q = abc_phases p.
Proof.
  intros P Q. unfold abc, abc_phases. rewrite (strip_quoted q p P Q), letters_chars. apply filter_ext. intros c.
  destruct (in_dec string_dec c ["A"; "B"; "C"]) as [H|H]; [now apply smem_In|]. destruct (smem c ["A"; "B"; "C"]) eqn:E; [|reflexivity]. now apply smem_In in E.
Qed.

(** A node or meter has the name, the voltage and the phases of its object; a text of phases that ends with a letter other
    than A, B, C (the neutral) is taken as it is. The swing bus is a source, all others are nodes. *)
Theorem C72_node : forall num o n v s c, text o "name" n -> number num o "nominal_voltage" v -> says o "phases" (s ++ String c "") ->
  (forall x, In x (chars s) -> is_abc x) -> ~ is_abc (String c "") ->
  exists nd, conv_node num o = Ok nd /\ n_name nd = n /\ n_v nd = v /\ n_phases nd = Some (abc_phases (s ++ String c "")) /\
    (n_source nd = true <-> says o "bustype" "SWING").
Proof.
  intros num o n v s c N V P A B. unfold conv_node. rewrite (numattr_number num o _ v V). cbn [bind]. eexists. split; [reflexivity|]. cbn [n_name n_v n_phases n_source].
  split; [now apply attr_text|]. split; [reflexivity|]. split.
  - rewrite (attr_says _ _ _ P), drop_last_snoc, letters_chars. f_equal. unfold abc_phases. rewrite chars_app, filter_app. cbn [chars list_ascii_of_string map filter].
    destruct (in_dec string_dec (String c "") ["A"; "B"; "C"]) as [I|I]; [elim B; cbn in I; unfold is_abc; intuition congruence|]. rewrite app_nil_r. symmetry. clear - A.
    induction (chars s) as [|x l IH]; [reflexivity|]. cbn [filter]. destruct (in_dec string_dec x ["A"; "B"; "C"]) as [I|I]; [f_equal; apply IH; intros y Y; apply A; now right|].
    elim I. destruct (A x) as [->|[->| ->]]; cbn; tauto.
  - unfold says, attr. destruct (dget (o_props o) "bustype") as [b|]; [|split; discriminate]. rewrite String.eqb_eq. split; congruence.
Qed.
Print Assumptions C72_node.

(** A triplex node has the name and the voltage of its object, and the phases 1 and 2 if its phases are in quotes and are one phase and S. *)
Theorem C72_triplex : forall num o n v a b, text o "name" n -> number num o "nominal_voltage" v -> says o "phases" ("""" ++ String a (String b """")) ->
  exists nd, conv_triplex num o = Ok nd /\ n_name nd = n /\ n_v nd = v /\ n_phases nd = Some ["1"; "2"] /\ n_source nd = false.
Proof.
  intros num o n v a b N V P. unfold conv_triplex. rewrite (numattr_number num o _ v V). cbn [bind]. eexists. split; [reflexivity|]. cbn [n_name n_v n_phases n_source].
  split; [now apply attr_text|]. split; [reflexivity|]. split; [|reflexivity]. rewrite (attr_says _ _ _ P). reflexivity.
Qed.
Print Assumptions C72_triplex.

(** Without a neutral the last phase of a node is lost. *)
Theorem C72_no_neutral_refuted : forall num o v s c, number num o "nominal_voltage" v -> says o "phases" (s ++ String c "") -> is_abc (String c "") -> ~ In (String c "") (chars s) ->
  exists nd l, conv_node num o = Ok nd /\ n_phases nd = Some l /\ ~ In (String c "") l.
Proof.
  intros num o v s c V P A B. unfold conv_node. rewrite (numattr_number num o _ v V). cbn [bind]. do 2 eexists. split; [reflexivity|]. cbn [n_phases].
  rewrite (attr_says _ _ _ P), drop_last_snoc, letters_chars. split; [reflexivity|exact B].
Qed.
Print Assumptions C72_no_neutral_refuted.

(** Quotes around the phases are taken as a phase, the neutral too. *)
Theorem C72_quotes_refuted : forall num o v s, number num o "nominal_voltage" v -> says o "phases" ("""" ++ s ++ """") ->
  exists nd, conv_node num o = Ok nd /\ n_phases nd = Some ("""" :: chars s).
Proof.
  intros num o v s V P. unfold conv_node. rewrite (numattr_number num o _ v V). cbn [bind]. eexists. split; [reflexivity|]. cbn [n_phases].
  rewrite (attr_says _ _ _ P). change ("""" ++ s ++ """") with ((String """" s) ++ """"). rewrite drop_last_snoc, letters_chars. reflexivity.
Qed.
Print Assumptions C72_quotes_refuted.

(** Without quotes a triplex node on one phase has no phases. *)
Theorem C72_triplex_refuted : forall num o v a, number num o "nominal_voltage" v -> says o "phases" (String a "S") ->
  exists nd, conv_triplex num o = Ok nd /\ n_phases nd = Some [].
Proof.
  intros num o v a V P. unfold conv_triplex. rewrite (numattr_number num o _ v V). cbn [bind]. eexists. split; [reflexivity|]. cbn [n_phases]. rewrite (attr_says _ _ _ P). reflexivity.
Qed.
Print Assumptions C72_triplex_refuted.

(** From the file to the node: the last block of a name in the file and its includes, if it is a node or meter, gives the node. *)
Theorem C72_from_file : forall schema cron files rows inc l fits num n b v s c,
  included files rows inc -> glm (rows ++ inc)%list l ->
  (forall b, In (Obj b) l -> readable schema b) ->
  (forall n es ts v, In (Sched n es) l -> In (ts, v) es -> cron (String.concat " " ts) = Ok (fits ts)) ->
  last_block n l = Some b -> last_value "phases" (given b) = Some (s ++ String c "") -> (forall x, In x (chars s) -> is_abc x) -> ~ is_abc (String c "") ->
  match last_value "nominal_voltage" (given b), v with Some t, Some x => num t = Ok x | None, None => True | _, _ => False end ->
  exists objs scheds o nd, parse_glm schema cron files [] rows = Ok (objs, scheds) /\ dget objs n = Some o /\ o_cls o = b_cls b /\
    conv_node num o = Ok nd /\ n_name nd = Some n /\ n_v nd = v /\ n_phases nd = Some (abc_phases (s ++ String c "")) /\
    (n_source nd = true <-> last_value "bustype" (given b) = Some "SWING").
Proof.
  intros schema cron files rows inc l fits num n b v s c HI G HR HC LB PH A B V.
  destruct (C70_objects schema cron files [] rows inc l fits HI G HR HC) as (objs & scheds & E & H). specialize (H n). rewrite LB in H. destruct H as (o & D & (CL & X)).
  destruct (C72_node num o (Some n) v s c) as (nd & E1 & E2 & E3 & E4 & E5).
  - cbn. unfold says. now rewrite X.
  - unfold number, maybe, reads, says, lacks. destruct v as [x|].
    + rewrite X. cbn [String.eqb Ascii.eqb Bool.eqb]. destruct (last_value "nominal_voltage" (given b)) as [t|]; [exists t; tauto|contradiction].
    + rewrite X. cbn [String.eqb Ascii.eqb Bool.eqb]. destruct (last_value "nominal_voltage" (given b)); [contradiction|reflexivity].
  - unfold says. rewrite X. exact PH.
  - exact A.
  - exact B.
  - exists objs, scheds, o, nd. rewrite E5. unfold says. rewrite X. cbn [String.eqb Ascii.eqb Bool.eqb]. tauto.
Qed.
Print Assumptions C72_from_file.

Definition ex_num (s : string) : res Qc :=
  if String.eqb s "2401.7" then Ok (Q2Qc (24017 # 10)) else if String.eqb s "120" then Ok (Q2Qc 120) else if String.eqb s "0.5" then Ok (Q2Qc (1 # 2))
  else if String.eqb s "1000" then Ok (Q2Qc 1000) else if String.eqb s "0.8" then Ok (Q2Qc (8 # 10)) else if String.eqb s "0" then Ok (Q2Qc 0) else Err EValue.
Definition ex_cnum (s : string) : res C :=
  if String.eqb s "3000+1500j" then Ok (Q2Qc 3000, Q2Qc 1500) else if String.eqb s "0" then Ok czero
  else if String.eqb s "120-50j" then Ok (Q2Qc 120, Q2Qc (-50)) else if String.eqb s "3+4j" then Ok (Q2Qc 3, Q2Qc 4)
  else if String.eqb s "2+1j" then Ok (Q2Qc 2, Q2Qc 1) else if String.eqb s "1500j" then Ok (Q2Qc 0, Q2Qc 1500) else Err EValue.
Definition ex_node : obj := mkObj "node" [("name", "n1"); ("phases", "ACN"); ("nominal_voltage", "2401.7"); ("bustype", "SWING")].
Example C72_hypotheses_met : text ex_node "name" (Some "n1") /\ number ex_num ex_node "nominal_voltage" (Some (Q2Qc (24017 # 10))) /\
  says ex_node "phases" ("AC" ++ String "N" "") /\ (forall x, In x (chars "AC") -> is_abc x) /\ ~ is_abc (String "N" "") /\
  conv_node ex_num ex_node = Ok (mkNode true (Some "n1") (Some (Q2Qc (24017 # 10))) (Some ["A"; "C"])).
Proof.
  split; [reflexivity|]. split; [exists "2401.7"; split; reflexivity|]. split; [reflexivity|]. split; [intros x [<-|[<-|[]]]; unfold is_abc; tauto|].
  split; [intros [Q|[Q|Q]]; discriminate Q|reflexivity].
Qed.

(** A load has one phase load for each of the phases A, B, C of its object, in order, and it draws the power that the object
    gives for the phase. A load with a parent is connected to it; one without is connected to a node of the same name,
    voltage and phases, which is made for it. *)
Theorem C73_load : forall num cnum scheds o n par v q p, text o "parent" par -> says o "name" n -> number num o "nominal_voltage" v ->
  says o "phases" q -> quoted q p -> plain p ->
  (forall ph, In ph (abc_phases p) -> voltage_ok cnum o ph /\ zip_readable num o ph /\ exists s m, draws num cnum scheds o ph s m) ->
  exists l nd, conv_load num cnum scheds o = Ok (l, nd) /\ ld_v l = v /\
    match par with
    | Some x => ld_name l = Some n /\ ld_conn l = Some x /\ nd = None
    | None => ld_name l = Some ("load_" ++ n) /\ ld_conn l = Some n /\ nd = Some (mkNode false (Some n) v (Some (abc_phases p)))
    end /\
    Forall2 (fun ph pl => pl_phase pl = ph /\ forall s m, draws num cnum scheds o ph s m -> (pl_p pl, pl_q pl) = s /\ pl_model pl = m) (abc_phases p) (ld_phases l).
Proof.
  intros num cnum scheds o n par v q p PA N V PH Q P D.
  destruct (mapM_Forall2 (phase_load num cnum scheds o) (fun ph pl => pl_phase pl = ph /\ forall s m, draws num cnum scheds o ph s m -> (pl_p pl, pl_q pl) = s /\ pl_model pl = m) (abc_phases p)) as (pls & E & F).
  { intros ph I. destruct (D ph I) as (VO & ZR & s & m & DR). destruct (draws_phase num cnum scheds o ph s m VO ZR DR) as (pl & E & E1 & E2 & E3).
    exists pl. split; [assumption|]. split; [assumption|]. intros s' m' D'. destruct (draws_phase num cnum scheds o ph s' m' VO ZR D') as (pl' & E' & _ & E2' & E3').
    rewrite E in E'. injection E' as <-. tauto. }
  unfold conv_load. rewrite (numattr_number num o _ v V). cbn [bind]. rewrite (attr_says _ _ _ PH), (abc_quoted q p P Q), E. cbn [bind].
  rewrite (attr_text _ _ _ PA), (attr_says _ _ _ N). destruct par as [x|]; do 2 eexists; (split; [reflexivity|cbn; tauto]).
Qed.
Print Assumptions C73_load.

(** The power of a phase is the power of everything that the object gives for it, if at most one of constant power,
    impedance and current is used and it has an active component. *)
Theorem C73_power : forall num cnum scheds o ph v s, creads cnum o ("voltage_" ++ ph) v -> total cnum o ph v s -> one_part cnum o ph -> active cnum o ph ->
  lacks o ("base_power_" ++ ph) -> zip_readable num o ph ->
  exists pl, phase_load num cnum scheds o ph = Ok pl /\ pl_phase pl = ph /\ (pl_p pl, pl_q pl) = s.
Proof.
  intros num cnum scheds o ph v s V (s1 & s2 & s3 & P1 & P2 & P3 & ->) O A B Z.
  assert (G : exists m, draws num cnum scheds o ph (cadd s1 (cadd s2 s3)) m).
  { assert (X : forall k f t, part cnum f o k t -> unused cnum o k -> t = czero).
    { intros k f t [[_ ->]|(a & R & N & _)]; [reflexivity|]. intros [L|R']; [|].
      - destruct R as (w & W & _). unfold says in W. rewrite L in W. discriminate.
      - destruct R as (w & W & C1), R' as (w' & W' & C2). unfold says in *. rewrite W in W'. injection W' as <-. rewrite C1 in C2. congruence. }
    assert (L0 : forall t, cadd t (cadd czero czero) = t) by (intros [t1 t2]; unfold cadd, czero; cbn [fst snd]; f_equal; ring).
    assert (L1 : forall t, cadd czero (cadd t czero) = t) by (intros [t1 t2]; unfold cadd, czero; cbn [fst snd]; f_equal; ring).
    assert (L2 : forall t, cadd czero (cadd czero t) = t) by (intros [t1 t2]; unfold cadd, czero; cbn [fst snd]; f_equal; ring).
    destruct O as [[U1 U2]|[[U1 U3]|[U2 U3]]].
    - rewrite (X _ _ _ P1 U1), (X _ _ _ P2 U2), L2. destruct P3 as [[U3 ->]|(a & R & N & ->)].
      + exists None. now apply draws_nothing.
      + exists (Some 5%Z). apply draws_current; try assumption. apply (A "constant_current_"); [cbn; tauto|assumption|assumption].
    - rewrite (X _ _ _ P1 U1), (X _ _ _ P3 U3), L1. destruct P2 as [[U2 ->]|(a & R & N & I)].
      + exists None. now apply draws_nothing.
      + exists (Some 2%Z). apply (draws_impedance num cnum scheds o ph v a); try assumption. apply (A "constant_impedance_"); [cbn; tauto|assumption|assumption].
    - rewrite (X _ _ _ P2 U2), (X _ _ _ P3 U3), L0. destruct P1 as [[U1 ->]|(a & R & N & ->)].
      + exists None. now apply draws_nothing.
      + exists (Some 1%Z). apply draws_power; [assumption|]. apply (A "constant_power_"); [cbn; tauto|assumption|assumption]. }
  destruct G as [m D]. destruct (draws_phase num cnum scheds o ph _ m (or_intror (ex_intro _ v V)) Z D) as (pl & E & E1 & E2 & _). exists pl. tauto.
Qed.
Print Assumptions C73_power.

(** The fractions of a ZIP load: the current, power and impedance fractions are divided between the active and reactive portions. *)
Theorem C73_zip : forall num cnum scheds o ph cf cp pf pp zf zp, voltage_ok cnum o ph ->
  unused cnum o ("constant_power_" ++ ph) -> unused cnum o ("constant_impedance_" ++ ph) -> unused cnum o ("constant_current_" ++ ph) ->
  (lacks o ("base_power_" ++ ph) \/ exists x, reads num o ("base_power_" ++ ph) x) -> zip_given num o ph cf cp pf pp zf zp ->
  exists pl a b c d e f, phase_load num cnum scheds o ph = Ok pl /\ pl_zip pl = Some 1%Z /\
    pl_pc pl = Some a /\ pl_qc pl = Some b /\ pl_pp pl = Some c /\ pl_qp pl = Some d /\ pl_pz pl = Some e /\ pl_qz pl = Some f /\
    (a + b = cf /\ c + d = pf /\ e + f = zf /\ a = cf * cp /\ c = pf * pp /\ e = zf * zp)%Qc.
Proof.
  intros num cnum scheds o ph cf cp pf pp zf zp VO U1 U2 U3 B (H1 & H2 & H3 & H4 & H5 & H6). unfold phase_load.
  rewrite (const_power_unused _ _ _ U1), (const_impedance_unused _ _ _ VO U2), (const_current_unused _ _ _ VO U3). cbn [bind].
  assert (G : exists x, base_power num scheds o ph = Ok x) by (destruct B as [L|[x R]]; [rewrite base_lacks by assumption|rewrite (base_number _ _ _ _ _ R)]; eauto).
  destruct G as [x ->]. cbn [bind]. unfold zip.
  rewrite (fl_reads _ _ _ _ H1). cbn [bind]. rewrite (fl_reads _ _ _ _ H2). cbn [bind]. rewrite (fl_reads _ _ _ _ H3). cbn [bind].
  rewrite (fl_reads _ _ _ _ H4). cbn [bind]. rewrite (fl_reads _ _ _ _ H5). cbn [bind]. rewrite (fl_reads _ _ _ _ H6). cbn [bind attempt].
  do 7 eexists. do 8 (split; [reflexivity|]). unfold z1. split; [ring|]. split; [ring|]. split; [ring|]. tauto.
Qed.
Print Assumptions C73_zip.

(** A text that is no complex number (a polar one) stops the conversion of the whole file. *)
Theorem C73_unreadable : forall num cnum scheds o q p ph s v, number num o "nominal_voltage" v -> says o "phases" q -> quoted q p -> plain p -> 
  hd_error (abc_phases p) = Some ph -> says o ("constant_power_" ++ ph) s -> cnum s = Err EValue -> conv_load num cnum scheds o = Err EValue.
Proof.
  intros num cnum scheds o q p ph s v V PH Q P H S E. unfold conv_load. rewrite (numattr_number num o _ v V). cbn [bind]. rewrite (attr_says _ _ _ PH), (abc_quoted q p P Q).
  destruct (abc_phases p) as [|x l]; [discriminate|]. injection H as ->. cbn [mapM]. unfold phase_load, const_power, cx. rewrite (getitem_says _ _ _ S). cbn [bind]. rewrite E. reflexivity.
Qed.
Print Assumptions C73_unreadable.

(** A purely reactive load is lost. *)
Theorem C73_reactive_refuted : forall num cnum scheds o ph x, creads cnum o ("constant_power_" ++ ph) (Q2Qc 0, x) -> x <> Q2Qc 0 ->
  lacks o ("constant_impedance_" ++ ph) -> lacks o ("constant_current_" ++ ph) -> lacks o ("base_power_" ++ ph) -> zip_readable num o ph ->
  (forall v, total cnum o ph v (Q2Qc 0, x)) /\
  exists pl, phase_load num cnum scheds o ph = Ok pl /\ pl_p pl = Q2Qc 0 /\ pl_q pl = Q2Qc 0.
Proof.
  intros num cnum scheds o ph x R N L2 L3 L4 Z. split.
  - intros v. exists (Q2Qc 0, x), czero, czero. split; [right; exists (Q2Qc 0, x); split; [assumption|]; split; [unfold czero; congruence|reflexivity]|].
    split; [left; split; [now left|reflexivity]|]. split; [left; split; [now left|reflexivity]|]. unfold cadd, czero. cbn [fst snd]. f_equal; ring.
  - unfold phase_load, const_power, const_impedance, const_current. rewrite (cx_creads _ _ _ _ R), (cx_lacks _ _ _ L2), (cx_lacks _ _ _ L3). cbn [bind attempt fst].
    replace (qz (Q2Qc 0)) with true by reflexivity. cbn [bind attempt]. rewrite (base_lacks _ _ _ _ L4). cbn [bind]. destruct (zip_ok num cnum o ph (Q2Qc 0) Z) as (pl & E & _ & E1 & E2 & _). eauto.
Qed.
Print Assumptions C73_reactive_refuted.

(** Of a load with constant power and constant current only the power is read. *)
Theorem C73_sum_refuted : forall num cnum scheds o ph s i v, creads cnum o ("constant_power_" ++ ph) s -> fst s <> Q2Qc 0 ->
  creads cnum o ("constant_current_" ++ ph) i -> lacks o ("constant_impedance_" ++ ph) -> i <> czero -> power v i <> czero ->
  exists pl t, phase_load num cnum scheds o ph = Ok pl /\ total cnum o ph v t /\ (pl_p pl, pl_q pl) <> t.
Proof.
  intros num cnum scheds o ph s i v R N R3 L2 NI NP. exists (simple ph s 1), (cadd s (cadd czero (power v i))). split; [|split].
  - unfold phase_load, const_power. rewrite (cx_creads _ _ _ _ R). cbn [bind attempt]. apply qz_false in N. rewrite N. reflexivity.
  - exists s, czero, (power v i). split; [right; exists s; split; [assumption|]; split; [intros ->; apply N; reflexivity|reflexivity]|].
    split; [left; split; [now left|reflexivity]|]. split; [right; exists i; tauto|reflexivity].
  - cbn [simple pl_p pl_q]. intros E. apply NP. destruct s as [s1 s2], (power v i) as [w1 w2]. unfold cadd, czero in *. cbn [fst snd] in E. injection E as E1 E2.
    f_equal; [replace w1 with ((s1 + (Q2Qc 0 + w1)) - s1)%Qc by ring; rewrite <- E1; ring|replace w2 with ((s2 + (Q2Qc 0 + w2)) - s2)%Qc by ring; rewrite <- E2; ring].
Qed.
Print Assumptions C73_sum_refuted.

(** A constant current without a voltage is lost, although the nominal voltage is given. *)
Theorem C73_no_voltage_refuted : forall num cnum scheds o ph i, creads cnum o ("constant_current_" ++ ph) i -> lacks o ("voltage_" ++ ph) ->
  lacks o ("constant_power_" ++ ph) -> lacks o ("constant_impedance_" ++ ph) -> lacks o ("base_power_" ++ ph) -> zip_readable num o ph ->
  exists pl, phase_load num cnum scheds o ph = Ok pl /\ pl_p pl = Q2Qc 0 /\ pl_q pl = Q2Qc 0.
Proof.
  intros num cnum scheds o ph i R LV L1 L2 L4 Z.
  unfold phase_load, const_power, const_impedance, const_current. rewrite (cx_creads _ _ _ _ R), (cx_lacks _ _ _ L2), (cx_lacks _ _ _ L1), (cx_lacks _ _ _ LV). cbn [bind attempt].
  rewrite (base_lacks _ _ _ _ L4). cbn [bind]. destruct (zip_ok num cnum o ph (Q2Qc 0) Z) as (pl & E & _ & E1 & E2 & _). eauto.
Qed.
Print Assumptions C73_no_voltage_refuted.

Definition ex_load : obj := mkObj "load" [("name", "l1"); ("phases", """ABCN"""); ("nominal_voltage", "120"); ("constant_power_A", "3000+1500j");
  ("voltage_B", "120-50j"); ("constant_impedance_B", "3+4j"); ("voltage_C", "120-50j"); ("constant_power_C", "0"); ("constant_current_C", "2+1j")].
Lemma no_zip o ph : (forall k, In k ["current_fraction_"; "current_pf_"; "power_fraction_"; "power_pf_"; "impedance_fraction_"; "impedance_pf_"] -> dget (o_props o) (k ++ ph) = None) -> zip_readable ex_num o ph.
Proof. intros H k K. exists None. now apply H. Qed.
Ltac reads_ := eexists; split; reflexivity.
Ltac nozero_ := intros H_; apply (f_equal this) in H_; discriminate H_.
Example C73_hypotheses_met : exists sa sb sc,
  draws ex_num ex_cnum [] ex_load "A" sa (Some 1%Z) /\ draws ex_num ex_cnum [] ex_load "B" sb (Some 2%Z) /\ draws ex_num ex_cnum [] ex_load "C" sc (Some 5%Z) /\
  (forall ph, In ph (abc_phases "ABCN") -> voltage_ok ex_cnum ex_load ph /\ zip_readable ex_num ex_load ph /\ exists s m, draws ex_num ex_cnum [] ex_load ph s m) /\
  quoted """ABCN""" "ABCN" /\ plain "ABCN" /\ one_part ex_cnum ex_load "C" /\ total ex_cnum ex_load "C" (Q2Qc 120, Q2Qc (-50)) sc.
Proof.
  destruct (impedance_exists (Q2Qc 120, Q2Qc (-50)) (Q2Qc 3, Q2Qc 4)) as [sb IB]; [nozero_|].
  assert (DA : draws ex_num ex_cnum [] ex_load "A" (Q2Qc 3000, Q2Qc 1500) (Some 1%Z)) by (apply draws_power; [reads_|nozero_]).
  assert (DB : draws ex_num ex_cnum [] ex_load "B" sb (Some 2%Z)) by (apply (draws_impedance _ _ _ _ _ (Q2Qc 120, Q2Qc (-50)) (Q2Qc 3, Q2Qc 4)); [now left|reads_|reads_|nozero_|assumption]).
  assert (DC : draws ex_num ex_cnum [] ex_load "C" (power (Q2Qc 120, Q2Qc (-50)) (Q2Qc 2, Q2Qc 1)) (Some 5%Z)) by (apply draws_current; [right; reads_|now left|reads_|reads_|nozero_]).
  exists (Q2Qc 3000, Q2Qc 1500), sb, (power (Q2Qc 120, Q2Qc (-50)) (Q2Qc 2, Q2Qc 1)). repeat (split; [assumption|]). split; [|split; [now right|split; [|split]]].
  - assert (ZR : forall ph, In ph ["A"; "B"; "C"] -> zip_readable ex_num ex_load ph).
    { intros ph I. apply no_zip. cbn [In] in I |- *. intros k K. decompose [or] I; decompose [or] K; subst; try contradiction; reflexivity. }
    intros ph I. change (abc_phases "ABCN") with ["A"; "B"; "C"] in I. split; [|split; [now apply ZR|]].
    + destruct I as [<-|[<-|[<-|[]]]]; [now left|right; eexists; reads_|right; eexists; reads_].
    + destruct I as [<-|[<-|[<-|[]]]]; eauto.
  - intros c [<-|[<-|[<-|[<-|[]]]]] Q; discriminate Q.
  - left. split; [right; reads_|now left].
  - exists czero, czero, (power (Q2Qc 120, Q2Qc (-50)) (Q2Qc 2, Q2Qc 1)). split; [left; split; [right; reads_|reflexivity]|]. split; [left; split; [now left|reflexivity]|].
    split; [right; exists (Q2Qc 2, Q2Qc 1); split; [reads_|]; split; [unfold czero; intros Q; injection Q; discriminate|reflexivity]|].
    unfold cadd, czero. destruct (power (Q2Qc 120, Q2Qc (-50)) (Q2Qc 2, Q2Qc 1)) as [a b]. cbn [fst snd]. f_equal; ring.
Qed.

(** The active portions of a ZIP load do not add to one when a power factor is below one. *)
Theorem C73_zip_refuted : exists o pl, zip_given ex_num o "A" (Q2Qc (1 # 2)) (Q2Qc (8 # 10)) (Q2Qc (1 # 2)) (Q2Qc (8 # 10)) (Q2Qc 0) (Q2Qc (8 # 10)) /\
  phase_load ex_num ex_cnum [] o "A" = Ok pl /\ exists a b c, pl_pc pl = Some a /\ pl_pp pl = Some b /\ pl_pz pl = Some c /\ (a + b + c)%Qc <> Q2Qc 1.
Proof.
  exists (mkObj "load" [("current_fraction_A", "0.5"); ("current_pf_A", "0.8"); ("power_fraction_A", "0.5"); ("power_pf_A", "0.8"); ("impedance_fraction_A", "0"); ("impedance_pf_A", "0.8")]).
  eexists. split; [repeat split; reads_|]. split; [reflexivity|]. do 3 eexists. do 3 (split; [reflexivity|]). intros E. apply (f_equal this) in E. vm_compute in E. discriminate E.
Qed.
Print Assumptions C73_zip_refuted.
