(** C93: files of the GridLAB-D writer read by the GridLAB-D reader. *)
From Verif Require Import Base BaseFacts CsvModel TextModel.
From Verif Require GlmModel GlmSpec GlmProofs GlmProps.
From Verif Require Import NetworkModel GlmWriteModel GlmWriteSpec GlmWriteProofs GlmConfProofs GlmFileProofs GlmPartsProofs GlmRefsProofs GlmWriteProps GlmBackSpec GlmBackProofs.
From Coq Require Import QArith Lia Permutation.
Local Open Scope string_scope.
Local Open Scope nat_scope.
Local Open Scope list_scope.

(** The nodes, capacitors and loads of a network without transformers,
    regulators and lines come back: the file is read, every node, capacitor
    and load that has a name is an object under the letter n and its name,
    of the right class, and the properties of the object are what the file
    should say about it, whatever the writer wrote before. *)
Theorem C93_elements_partial : forall num cplx order, (forall d, Permutation d (order d)) ->
  forall hs st ww ms rows st', reached num cplx order hs st -> phases_ok ms -> write_glm num cplx order ww ms st = Ok (rows, st') ->
  own_trafos ms = [] -> regs ms = [] -> lines ms = [] ->
  plain_file (file rows) -> named_file (file rows) ->
  forall schema cron files objs, known_file schema (file rows) ->
  exists objs' scheds, GlmModel.parse_glm schema cron files objs rows = Ok (objs', scheds) /\
    (forall n x, In n (nodes ms) -> n_name n = Some x -> exists b o, dget objs' (n_ x) = Some o /\ same_object b o /\ node_says num n b) /\
    (forall c x, In c (capacitors ms) -> c_name c = Some x -> exists b o, dget objs' (n_ x) = Some o /\ same_object b o /\ cap_says num c b) /\
    (forall l x, In l (loads ms) -> ld_name l = Some x -> exists b o, dget objs' (n_ x) = Some o /\ same_object b o /\ load_says num cplx l b).
Proof.
  intros num cplx order perm hs st ww ms rows st' Re P E T R L Pf Nf schema cron files objs K.
  destruct (elements num cplx order perm hs st ww ms rows st' Re P E) as (En & Ec & El & Et & Ei).
  destruct (file_classes num cplx order perm ww ms st rows st' (proj1 (reached_good num cplx order perm hs st Re)) P E) as [S C].
  assert (Er : of_class ["regulator"] (file rows) = []).
  { assert (F : Forall2 reg_says (regs ms) (of_class ["regulator"] (file rows))) by (apply (regulators num cplx order perm hs st ww ms rows st' Re P E); rewrite R; [constructor|intros k []]). rewrite R in F. now inversion F. }
  rewrite T in Et. rewrite L in Ei. assert (Et' : of_class ["transformer"] (file rows) = []) by (now inversion Et). assert (Ei' : of_class line_classes (file rows) = []) by (now inversion Ei).
  assert (G : forall b, In b (file rows) -> In (fst b) classes /\ smem (fst b) glued = false).
  { intros b H. split; [exact (C b H)|]. destruct (smem (fst b) glued) eqn:M; [exfalso|reflexivity].
    assert (Q : In b (of_class ["transformer"] (file rows)) \/ In b (of_class ["regulator"] (file rows)) \/ In b (of_class line_classes (file rows))).
    { unfold of_class. rewrite !filter_In. unfold glued in M. unfold smem in *. cbn [existsb line_classes] in *.
      repeat (apply Bool.orb_true_iff in M; destruct M as [M|M]; [rewrite M, ?Bool.orb_true_r; cbn; tauto|]). discriminate M. }
    rewrite Et', Ei', Er in Q. cbn in Q. tauto. }
  destruct (read_back schema cron files objs rows (file rows) S Pf G K Nf) as (objs' & scheds & E' & H).
  exists objs', scheds. split; [exact E'|].
  assert (Pick : forall A (says : A -> block -> Prop) l c x, Forall2 says l (of_class c (file rows)) -> In x l -> exists b, In b (file rows) /\ says x b).
  { intros A says l c x F I. destruct (forall2_in_l _ _ _ _ F I) as (b & Hb & Sb). exists b. unfold of_class in Hb. apply filter_In in Hb. tauto. }
  split; [|split].
  - intros n x I Nm. destruct (Pick _ _ _ _ _ En I) as (b & Hb & Sb). destruct (H b (n_ x) Hb) as (o & Ho & So); [destruct Sb as (_ & V & _); now rewrite V, Nm|]. eauto.
  - intros n x I Nm. destruct (Pick _ _ _ _ _ Ec I) as (b & Hb & Sb). destruct (H b (n_ x) Hb) as (o & Ho & So); [destruct Sb as (_ & V & _); now rewrite V, Nm|]. eauto.
  - intros n x I Nm. destruct (Pick _ _ _ _ _ El I) as (b & Hb & Sb). destruct (H b (n_ x) Hb) as (o & Ho & So); [destruct Sb as (_ & V & _); now rewrite V, Nm|]. eauto.
Qed.
Print Assumptions C93_elements_partial.

(** No network with a transformer of its own, a regulator or a line comes
    back: the objects of these classes are opened by a row such as
    object transformer{, without a blank, the reader takes transformer{ as
    the class, and no such class exists. This holds of every such network,
    also when everything else in the file can be read. *)
Theorem C93_branches_refuted : forall num cplx order, (forall d, Permutation d (order d)) ->
  forall hs st ww ms rows st', reached num cplx order hs st -> phases_ok ms -> write_glm num cplx order ww ms st = Ok (rows, st') ->
  own_trafos ms <> [] \/ of_class ["regulator"] (file rows) <> [] \/ lines ms <> [] ->
  plain_file (file rows) ->
  forall schema cron files objs, no_braces schema -> exists e, GlmModel.parse_glm schema cron files objs rows = Err e.
Proof.
  intros num cplx order perm hs st ww ms rows st' Re P E T Pf schema cron files objs B.
  destruct (elements num cplx order perm hs st ww ms rows st' Re P E) as (_ & _ & _ & Et & Ei).
  destruct (file_classes num cplx order perm ww ms st rows st' (proj1 (reached_good num cplx order perm hs st Re)) P E) as [S C].
  assert (G : exists b, In b (file rows) /\ smem (fst b) glued = true).
  { assert (X : of_class ["transformer"] (file rows) <> [] \/ of_class ["regulator"] (file rows) <> [] \/ of_class line_classes (file rows) <> []).
    { destruct T as [T|[T|T]]; [left|right; left; exact T|right; right]; intros N; apply T; [rewrite N in Et; now inversion Et|rewrite N in Ei; now inversion Ei]. }
    assert (Y : forall c, incl c glued -> of_class c (file rows) <> [] -> exists b, In b (file rows) /\ smem (fst b) glued = true).
    { intros c Ic N. destruct (of_class c (file rows)) as [|b l] eqn:El; [congruence|]. assert (Hb : In b (of_class c (file rows))) by (rewrite El; now left).
      unfold of_class in Hb. apply filter_In in Hb. destruct Hb as [Hb M]. exists b. split; [exact Hb|]. apply smem_In. apply Ic. now apply smem_In. }
    destruct X as [X|[X|X]]; [apply (Y ["transformer"])|apply (Y ["regulator"])|apply (Y line_classes)]; try exact X; intros c Hc; cbn in Hc |- *; tauto. }
  destruct G as (b & Hb & Gb). unfold GlmModel.parse_glm. rewrite (GlmProofs.includes_spec files rows [] (shape_included files rows _ S)). cbn [bind]. rewrite app_nil_r.
  destruct (stuck schema cron B rows (file rows) S Pf C 0 objs []) as [(e & X)|(os & _ & N)]; [|rewrite (N b Hb) in Gb; discriminate].
  exists e. change (GlmModel.pst0 objs) with (GlmProofs.ready 0 objs []). rewrite X. reflexivity.
Qed.
Print Assumptions C93_branches_refuted.

(** classes and properties of ditto/formats/gridlabd/schema.json, with those of their parents *)
Definition gld_classes : dict (list string) :=
  [("node", ["voltage_A"; "voltage_B"; "voltage_C"; "voltage_AB"; "voltage_BC"; "voltage_CA"; "current_A"; "current_B"; "current_C"; "power_A"; "power_B"; "power_C"; "shunt_A"; "shunt_B"; "shunt_C"; "bustype"; "maximum_voltage_error"; "busflags"; "reference_bus"; "mean_repair_time"; "name"; "phases"; "nominal_voltage"; "parent"; "groupid"; "schedule_skew"]);
   ("capacitor", ["pt_phase"; "phases_connected"; "switchA"; "switchB"; "switchC"; "cap_A_switch_count"; "cap_B_switch_count"; "cap_C_switch_count"; "control"; "voltage_set_high"; "voltage_set_low"; "VAr_set_high"; "VAr_set_low"; "capacitor_A"; "capacitor_B"; "capacitor_C"; "cap_nominal_voltage"; "time_delay"; "dwell_time"; "lockout_time"; "remote_sense"; "remote_sense_B"; "control_level"; "voltage_A"; "voltage_B"; "voltage_C"; "voltage_AB"; "voltage_BC"; "voltage_CA"; "current_A"; "current_B"; "current_C"; "power_A"; "power_B"; "power_C"; "shunt_A"; "shunt_B"; "shunt_C"; "bustype"; "maximum_voltage_error"; "busflags"; "reference_bus"; "mean_repair_time"; "name"; "phases"; "nominal_voltage"; "parent"; "groupid"; "schedule_skew"]);
   ("load", ["load_class"; "measured_voltage_A"; "measured_voltage_B"; "measured_voltage_C"; "measured_voltage_AB"; "measured_voltage_BC"; "measured_voltage_CA"; "constant_power_A"; "constant_power_B"; "constant_power_C"; "constant_current_A"; "constant_current_B"; "constant_current_C"; "constant_impedance_A"; "constant_impedance_B"; "constant_impedance_C"; "base_power_A"; "base_power_B"; "base_power_C"; "power_pf_A"; "current_pf_A"; "impedance_pf_A"; "power_pf_B"; "current_pf_B"; "impedance_pf_B"; "power_pf_C"; "current_pf_C"; "impedance_pf_C"; "power_fraction_A"; "current_fraction_A"; "impedance_fraction_A"; "power_fraction_B"; "current_fraction_B"; "impedance_fraction_B"; "power_fraction_C"; "current_fraction_C"; "impedance_fraction_C"; "voltage_A"; "voltage_B"; "voltage_C"; "voltage_AB"; "voltage_BC"; "voltage_CA"; "current_A"; "current_B"; "current_C"; "power_A"; "power_B"; "power_C"; "shunt_A"; "shunt_B"; "shunt_C"; "bustype"; "maximum_voltage_error"; "busflags"; "reference_bus"; "mean_repair_time"; "name"; "phases"; "nominal_voltage"; "parent"; "groupid"; "schedule_skew"]);
   ("transformer_configuration", ["connect_type"; "install_type"; "primary_voltage"; "secondary_voltage"; "power_rating"; "powerA_rating"; "powerB_rating"; "powerC_rating"; "resistance"; "reactance"; "impedance"; "shunt_impedance"; "impedance1"; "impedance2"; "full_load_loss"; "no_load_loss"; "reactance_resistance_ratio"; "tank_fittings_weight"; "oil_volume"; "core_coil_weight"; "rated_winding_hot_spot_rise"; "rated_top_oil_rise"; "rated_winding_time_constant"; "installed_insulation_life"; "coolant_type"; "cooling_type"; "name"; "phases"; "nominal_voltage"; "parent"; "groupid"; "schedule_skew"]);
   ("regulator_configuration", ["connect_type"; "band_center"; "band_width"; "time_delay"; "dwell_time"; "raise_taps"; "lower_taps"; "current_transducer_ratio"; "power_transducer_ratio"; "compensator_r_setting_A"; "compensator_r_setting_B"; "compensator_r_setting_C"; "compensator_x_setting_A"; "compensator_x_setting_B"; "compensator_x_setting_C"; "CT_phase"; "PT_phase"; "regulation"; "Control"; "control_level"; "Type"; "tap_pos_A"; "tap_pos_B"; "tap_pos_C"; "name"; "phases"; "nominal_voltage"; "parent"; "groupid"; "schedule_skew"]);
   ("line_configuration", ["conductor_A"; "conductor_B"; "conductor_C"; "conductor_N"; "spacing"; "z11"; "z12"; "z13"; "z21"; "z22"; "z23"; "z31"; "z32"; "z33"; "name"; "phases"; "nominal_voltage"; "parent"; "groupid"; "schedule_skew"]);
   ("transformer", ["aging_constant"; "aging_granularity"; "ambient_temperature"; "climate"; "configuration"; "percent_loss_of_life"; "top_oil_hot_spot_temperature"; "use_thermal_model"; "winding_hot_spot_temperature"; "from"; "to"; "power_in"; "power_out"; "power_losses"; "power_in_A"; "power_in_B"; "power_in_C"; "power_out_A"; "power_out_B"; "power_out_C"; "power_losses_A"; "power_losses_B"; "power_losses_C"; "status"; "current_out_A"; "current_out_B"; "current_out_C"; "current_in_A"; "current_in_B"; "current_in_C"; "flow_direction"; "mean_repair_time"; "name"; "phases"; "nominal_voltage"; "parent"; "groupid"; "schedule_skew"]);
   ("regulator", ["configuration"; "tap_A"; "tap_B"; "tap_C"; "sense_node"; "tap_A_change_count"; "tap_B_change_count"; "tap_C_change_count"; "from"; "to"; "power_in"; "power_out"; "power_losses"; "power_in_A"; "power_in_B"; "power_in_C"; "power_out_A"; "power_out_B"; "power_out_C"; "power_losses_A"; "power_losses_B"; "power_losses_C"; "status"; "current_out_A"; "current_out_B"; "current_out_C"; "current_in_A"; "current_in_B"; "current_in_C"; "flow_direction"; "mean_repair_time"; "name"; "phases"; "nominal_voltage"; "parent"; "groupid"; "schedule_skew"]);
   ("underground_line", ["length"; "configuration"; "from"; "to"; "power_in"; "power_out"; "power_losses"; "power_in_A"; "power_in_B"; "power_in_C"; "power_out_A"; "power_out_B"; "power_out_C"; "power_losses_A"; "power_losses_B"; "power_losses_C"; "status"; "current_out_A"; "current_out_B"; "current_out_C"; "current_in_A"; "current_in_B"; "current_in_C"; "flow_direction"; "mean_repair_time"; "name"; "phases"; "nominal_voltage"; "parent"; "groupid"; "schedule_skew"]);
   ("overhead_line", ["length"; "configuration"; "from"; "to"; "power_in"; "power_out"; "power_losses"; "power_in_A"; "power_in_B"; "power_in_C"; "power_out_A"; "power_out_B"; "power_out_C"; "power_losses_A"; "power_losses_B"; "power_losses_C"; "status"; "current_out_A"; "current_out_B"; "current_out_C"; "current_in_A"; "current_in_B"; "current_in_C"; "flow_direction"; "mean_repair_time"; "name"; "phases"; "nominal_voltage"; "parent"; "groupid"; "schedule_skew"]);
   ("fuse", ["current_limit"; "mean_replacement_time"; "phase_A_status"; "phase_B_status"; "phase_C_status"; "repair_dist_type"; "from"; "to"; "power_in"; "power_out"; "power_losses"; "power_in_A"; "power_in_B"; "power_in_C"; "power_out_A"; "power_out_B"; "power_out_C"; "power_losses_A"; "power_losses_B"; "power_losses_C"; "status"; "current_out_A"; "current_out_B"; "current_out_C"; "current_in_A"; "current_in_B"; "current_in_C"; "flow_direction"; "mean_repair_time"; "name"; "phases"; "nominal_voltage"; "parent"; "groupid"; "schedule_skew"]);
   ("switch", ["phase_A_state"; "phase_B_state"; "phase_C_state"; "operating_mode"; "from"; "to"; "power_in"; "power_out"; "power_losses"; "power_in_A"; "power_in_B"; "power_in_C"; "power_out_A"; "power_out_B"; "power_out_C"; "power_losses_A"; "power_losses_B"; "power_losses_C"; "status"; "current_out_A"; "current_out_B"; "current_out_C"; "current_in_A"; "current_in_B"; "current_in_C"; "flow_direction"; "mean_repair_time"; "name"; "phases"; "nominal_voltage"; "parent"; "groupid"; "schedule_skew"])].
Lemma string_last s c : String.substring (String.length (s ++ String c "") - 1) 1 (s ++ String c "") = String c "".
Proof.
  induction s as [|x s IH]; [reflexivity|]. cbn [String.append String.length]. rewrite Nat.sub_succ, Nat.sub_0_r.
  destruct (String.length (s ++ String c "")) as [|k] eqn:E; [destruct s; discriminate E|]. cbn [String.substring]. now rewrite Nat.sub_succ, Nat.sub_0_r in IH.
Qed.
Definition gld_schema (c : string) : option (list string) := dget gld_classes c.
Lemma gld_no_braces : no_braces gld_schema.
Proof.
  intros c. unfold gld_schema. assert (D : forall d : dict (list string), (forall k, In k (dkeys d) -> forall s, k <> (s ++ "{")%string) -> dget d (c ++ "{")%string = None).
  { induction d as [|[k v] d IH]; intros H; [reflexivity|]. cbn [dget]. destruct (String.eqb k (c ++ "{")) eqn:E; [apply String.eqb_eq in E; destruct (H k (or_introl eq_refl) c E)|]. apply IH. intros x Hx. apply H. now right. }
  apply D. intros k Hk s E. assert (M : forallb (fun k => negb (String.eqb (String.substring (String.length k - 1) 1 k) "{")) (dkeys gld_classes) = true) by (vm_compute; reflexivity).
  rewrite forallb_forall in M. specialize (M k Hk). subst k. rewrite string_last in M. discriminate M.
Qed.

Definition no_cron (s : string) : res bool := Err EValue.
Definition no_files (f : string) : res (list string) := Err EValue.
Definition ex_read (ms : list gobj) : res (dict GlmModel.obj) :=
  do r <- ex_write None ms wstate0; do o <- GlmModel.parse_glm gld_schema no_cron no_files [] (fst r); Ok (fst o).
Definition ex_small : list gobj := [ex_node; GNode (mkGnode (Some "low") (Some ["A"]) None); ex_cap (Some 110%Q) (Some 130%Q) None (Some 0%Z); ex_load].

Definition word_b (s : string) : bool := (negb (String.eqb s "") && forallb (fun c => negb (is_space c)) (list_ascii_of_string s))%bool.
Lemma word_b_ok s : word_b s = true -> GlmSpec.word s.
Proof.
  unfold word_b. rewrite Bool.andb_true_iff. intros [N E]. split; [destruct s; [discriminate N|discriminate]|]. clear N. induction s as [|c s IH]; cbn in *; [exact I|]. apply Bool.andb_true_iff in E. destruct E; split; auto.
Qed.
Definition key_b (k : string) : bool := (word_b k && negb (String.eqb k "object") && negb (String.eqb k "schedule") && negb (String.eqb (String.substring 0 2 k) "//"))%bool.
Definition value_b (v : string) : bool := (word_b v && negb (String.eqb (String.substring (String.length v - 1) 1 v) "}"))%bool.
Lemma plain_b bs : forallb (fun b => forallb (fun p => (key_b (fst p) && value_b (snd p))%bool) (snd b)) bs = true -> plain_file bs.
Proof.
  intros H b k v Hb Hk. rewrite forallb_forall in H. specialize (H b Hb). rewrite forallb_forall in H. specialize (H (k, v) Hk). cbn [fst snd] in H. apply Bool.andb_true_iff in H. destruct H as [K V].
  unfold key_b in K. rewrite !Bool.andb_true_iff, !Bool.negb_true_iff in K. destruct K as [[[K1 K2] K3] K4]. unfold value_b in V. rewrite Bool.andb_true_iff, Bool.negb_true_iff in V. destruct V as [V1 V2].
  split; [split; [now apply word_b_ok|split]|split; [now apply word_b_ok|]].
  - intros [-> | ->]; discriminate.
  - intros s ->. cbn in K4. destruct s; discriminate K4.
  - intros s ->. rewrite string_last in V2. discriminate V2.
Qed.

Example C93_hypotheses_met : exists rows st, ex_write None ex_small wstate0 = Ok (rows, st) /\ reached ex_num ex_cplx ex_order [] wstate0 /\ phases_ok ex_small /\
  own_trafos ex_small = [] /\ regs ex_small = [] /\ lines ex_small = [] /\ plain_file (file rows) /\ named_file (file rows) /\ known_file gld_schema (file rows) /\
  exists objs scheds, GlmModel.parse_glm gld_schema no_cron no_files [] rows = Ok (objs, scheds) /\ map fst objs = ["nsourcebus"; "nlow"; "nc"; "nl"].
Proof.
  eexists _, _. split; [vm_compute; reflexivity|]. split; [constructor|]. split; [phases_tac|]. split; [reflexivity|]. split; [reflexivity|]. split; [reflexivity|].
  split; [apply plain_b; vm_compute; reflexivity|]. split.
  - split; [|vm_compute; repeat (constructor; [cbn; intuition discriminate|]); constructor].
    apply Forall_forall. vm_compute. repeat (constructor; [discriminate|]). constructor.
  - split.
    + intros b Hb. assert (M : forallb (fun b => match gld_schema (fst b) with Some ks => (smem "name" ks && forallb (fun k => smem k ks) (keys b))%bool | None => false end) 
        (match ex_write None ex_small wstate0 with Ok (rows, _) => file rows | Err _ => [] end) = true) by (vm_compute; reflexivity).
      rewrite forallb_forall in M. specialize (M b Hb). destruct (gld_schema (fst b)) as [ks|]; [|discriminate]. exists ks. split; [reflexivity|]. apply Bool.andb_true_iff in M. destruct M as [M1 M2]. split; [now apply smem_In|].
      rewrite forallb_forall in M2. intros k Hk. apply smem_In. now apply M2.
    + eexists _, _. split; [vm_compute; reflexivity|reflexivity].
Qed.
Example C93_branches_hypotheses_met : exists rows st, ex_write None ex_net wstate0 = Ok (rows, st) /\ reached ex_num ex_cplx ex_order [] wstate0 /\ phases_ok ex_net /\ no_braces gld_schema /\
  own_trafos ex_net <> [] /\ of_class ["regulator"] (file rows) <> [] /\ lines ex_net <> [] /\ plain_file (file rows) /\
  GlmModel.parse_glm gld_schema no_cron no_files [] rows = Err EAttr.
Proof.
  eexists _, _. split; [vm_compute; reflexivity|]. split; [constructor|]. split; [phases_tac|]. split; [exact gld_no_braces|]. split; [vm_compute; discriminate|]. split; [vm_compute; discriminate|]. split; [vm_compute; discriminate|].
  split; [apply plain_b; vm_compute; reflexivity|]. vm_compute. reflexivity.
Qed.

(** A capacitor with a delay is not read, because the writer calls the
    property time_dela. Without the delay it is. *)
Theorem C93_delay_refuted :
  ex_read [ex_node; ex_cap None None (Some 30%Q) None] = Err EAttr /\
  exists o, ex_read [ex_node; ex_cap None None None None] = Ok o /\ dmem o "nc" = true.
Proof. split; [vm_compute; reflexivity|]. eexists. split; [vm_compute; reflexivity|reflexivity]. Qed.
Print Assumptions C93_delay_refuted.
(** A load on phase 1 of a secondary is not read, because loads have no
    property constant_power_1. On phase A it is. *)
Theorem C93_secondary_load_refuted :
  let l p := GLoad (mkGload (Some "l") (Some 120%Q) (Some "sourcebus") (Some [mkGpload (Some p) (Some 0%Z) (Some 1000%Q) (Some 500%Q) None None None None None None])) in
  ex_read [ex_node; l "1"] = Err EAttr /\ exists o, ex_read [ex_node; l "A"] = Ok o /\ dmem o "nl" = true.
Proof. split; [vm_compute; reflexivity|]. eexists. split; [vm_compute; reflexivity|reflexivity]. Qed.
Print Assumptions C93_secondary_load_refuted.
