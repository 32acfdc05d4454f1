(** C74, C75, C76, C77: the transformers, fuses, switches, capacitors and regulators that the GridLAB-D reader makes. *)
From Verif Require Import Base BaseFacts CsvModel TextModel GlmModel GldModel GldSpec GldProofs.
From Coq Require Import QArith Qcanon.
Local Open Scope list_scope.
Local Open Scope string_scope.

Lemma live_quoted o q p : says o "phases" q -> plain p -> quoted q p -> winding_phases o = live_phases p.
Proof.
  intros S P Q. unfold winding_phases, live_phases. rewrite (attr_says _ _ _ S), (strip_quoted q p P Q), letters_chars. apply filter_ext. intros c.
  destruct (in_dec string_dec c ["N"; "S"]) as [H|H]; [apply smem_In in H; now rewrite H|]. destruct (smem c ["N"; "S"]) eqn:E; [|reflexivity]. now apply smem_In in E.
Qed.

Section Trafo.
Variable num : string -> res Qc.
Variable cnum : string -> res C.

Lemma rated_rating cfg p : rated num cfg p -> rating num cfg = Ok (Some (p * k1000)%Qc).
Proof.
  intros (R & A & B & Cc). unfold rating. rewrite (numattr_number num cfg "power_rating" (Some p) R). cbn [bind].
  rewrite (numattr_number num cfg "powerA_rating" None A), (numattr_number num cfg "powerB_rating" None B), (numattr_number num cfg "powerC_rating" None Cc). reflexivity.
Qed.
Lemma two : Q2Qc 2 = (1 + 1)%Qc.
Proof. apply Qc_is_canon. reflexivity. Qed.
Lemma two_nz : (1 + 1)%Qc <> 0%Qc.
Proof. intros Q. apply (f_equal this) in Q. discriminate Q. Qed.
Lemma half_sum (x : Qc) : (half x + half x)%Qc = x.
Proof. unfold half. rewrite two. field. exact two_nz. Qed.

(** A transformer with two windings has the names, phases, voltages and connections of its object and configuration; the
    resistances of the windings add to the resistance, the reactance is kept, and both windings have the rating in VA. *)
Theorem C74_two_windings : forall objs o cfg n f t q p c conn c1 c2 loss hv lv r x kva inst,
  text o "name" n -> text o "from" f -> text o "to" t -> says o "phases" q -> plain p -> quoted q p -> says o "configuration" c -> dget objs c = Some cfg ->
  says cfg "connect_type" conn -> connects conn c1 c2 -> text cfg "install_type" inst -> number num cfg "no_load_loss" loss ->
  number num cfg "primary_voltage" hv -> number num cfg "secondary_voltage" lv -> impedance_of num cnum cfg r x -> rated num cfg kva ->
  exists tr r1 r2, conv_trafo num cnum objs o = Ok tr /\ t_name tr = n /\ t_from tr = f /\ t_to tr = t /\ t_install tr = inst /\ t_loss tr = loss /\ t_react tr = [x] /\
    t_windings tr = [mkW 0 c1 hv (Some r1) (Some (kva * Q2Qc 1000)%Qc) (live_phases p); mkW 2 c2 lv (Some r2) (Some (kva * Q2Qc 1000)%Qc) (live_phases p)] /\
    (r1 + r2)%Qc = r /\ r1 = r2.
Proof.
  intros objs o cfg n f t q p c conn c1 c2 loss hv lv r x kva inst N F T PH P Q CF D CT CN IN LO HV LV IM RA.
  unfold conv_trafo. rewrite (attr_says _ _ _ CF), D, (attr_says _ _ _ CT). rewrite (live_quoted o q p PH P Q).
  assert (K : center conn (live_phases p) = Ok (false, live_phases p, []) /\ connection conn = (c1, c2)) by (destruct CN; split; reflexivity).
  destruct K as [-> ->]. cbn [bind]. rewrite (numattr_number _ _ _ _ LO). cbn [bind]. rewrite (numattr_number _ _ _ _ HV). cbn [bind]. rewrite (numattr_number _ _ _ _ LV). cbn [bind].
  assert (G : exists r0, numattr num cfg "resistance" = Ok r0 /\ exists x0, numattr num cfg "reactance" = Ok x0 /\
    (match x0 with
     | Some x => do l <- reactances cnum cfg x false; Ok (r0, l)
     | None => do z <- attempt (cx cnum cfg "impedance"); match z with Some z => Ok (Some (fst z), [snd z]) | None => Ok (r0, []) end
     end) = Ok (Some r, [x])).
  { destruct IM as [[R X]|[[r0 R0] [L Z]]].
    - exists (Some r). split; [now apply numattr_number|]. exists (Some x). split; [now apply numattr_number|reflexivity].
    - exists r0. split; [now apply numattr_number|]. exists None. split; [now apply numattr_number|]. rewrite (cx_creads _ _ _ _ Z). reflexivity. }
  destruct G as (r0 & -> & x0 & -> & G). cbn [bind]. rewrite G. cbn [bind]. rewrite (rated_rating cfg kva RA). cbn [bind fst snd option_map].
  do 3 eexists. split; [reflexivity|]. cbn. rewrite (attr_text _ _ _ N), (attr_text _ _ _ F), (attr_text _ _ _ T), (attr_text _ _ _ IN).
  do 7 (split; [reflexivity|]). split; [apply half_sum|reflexivity].
Qed.

(** A center tap transformer has three windings: the rating is divided between the two secondaries, and the primary's
    resistance in series with the two parallel secondaries is the resistance of the transformer. *)
Theorem C74_center_tap : forall objs o cfg n f t q p ph c loss hv lv r x kva inst,
  text o "name" n -> text o "from" f -> text o "to" t -> says o "phases" q -> plain p -> quoted q p -> live_phases p = [ph] ->
  says o "configuration" c -> dget objs c = Some cfg ->
  says cfg "connect_type" "SINGLE_PHASE_CENTER_TAPPED" -> text cfg "install_type" inst -> number num cfg "no_load_loss" loss ->
  number num cfg "primary_voltage" hv -> number num cfg "secondary_voltage" lv -> impedance_of num cnum cfg r x -> rated num cfg kva ->
  lacks cfg "impedance1" -> r <> Q2Qc 0 ->
  exists tr r1 r2 r3 p1 p2 p3, conv_trafo num cnum objs o = Ok tr /\ t_name tr = n /\ t_from tr = f /\ t_to tr = t /\ t_install tr = inst /\ t_loss tr = loss /\
    t_react tr = [(Q2Qc (8 # 10) * x)%Qc; (Q2Qc (4 # 10) * x)%Qc; (Q2Qc (4 # 10) * x)%Qc] /\
    t_windings tr = [mkW 0 None hv (Some r1) (Some p1) [ph]; mkW 2 None lv (Some r2) (Some p2) ["A"]; mkW 2 None lv (Some r3) (Some p3) ["B"]] /\
    (r1 + r2 * r3 / (r2 + r3))%Qc = r /\ p1 = (kva * Q2Qc 1000)%Qc /\ (p2 + p3)%Qc = p1 /\ p2 = p3.
Proof.
  intros objs o cfg n f t q p ph c loss hv lv r x kva inst N F T PH P Q LP CF D CT IN LO HV LV IM RA L1 RN.
  unfold conv_trafo. rewrite (attr_says _ _ _ CF), D, (attr_says _ _ _ CT). rewrite (live_quoted o q p PH P Q), LP.
  change (center "SINGLE_PHASE_CENTER_TAPPED" [ph]) with (@Ok (bool * list string * list string) (true, ["A"], ["B"])). change (connection "SINGLE_PHASE_CENTER_TAPPED") with (@None string, @None string).
  cbn [bind]. rewrite (numattr_number _ _ _ _ LO). cbn [bind]. rewrite (numattr_number _ _ _ _ HV). cbn [bind]. rewrite (numattr_number _ _ _ _ LV). cbn [bind].
  assert (G : exists r0, numattr num cfg "resistance" = Ok r0 /\ exists x0, numattr num cfg "reactance" = Ok x0 /\
    (match x0 with
     | Some x => do l <- reactances cnum cfg x true; Ok (r0, l)
     | None => do z <- attempt (cx cnum cfg "impedance"); match z with Some z => Ok (Some (fst z), [(k08 * snd z)%Qc; (k04 * snd z)%Qc; (k04 * snd z)%Qc]) | None => Ok (r0, []) end
     end) = Ok (Some r, [(k08 * x)%Qc; (k04 * x)%Qc; (k04 * x)%Qc])).
  { destruct IM as [[R X]|[[r0 R0] [L Z]]].
    - exists (Some r). split; [now apply numattr_number|]. exists (Some x). split; [now apply numattr_number|]. unfold reactances. rewrite (cx_lacks _ _ _ L1). reflexivity.
    - exists r0. split; [now apply numattr_number|]. exists None. split; [now apply numattr_number|]. rewrite (cx_creads _ _ _ _ Z). reflexivity. }
  destruct G as (r0 & -> & x0 & -> & G). cbn [bind]. rewrite G. cbn [bind]. rewrite (rated_rating cfg kva RA). cbn [bind fst snd option_map].
  do 7 eexists. split; [reflexivity|]. cbn. rewrite (attr_text _ _ _ N), (attr_text _ _ _ F), (attr_text _ _ _ T), (attr_text _ _ _ IN).
  do 7 (split; [reflexivity|]). split; [|split; [reflexivity|split; [apply half_sum|reflexivity]]].
  assert (NR : (r + r)%Qc <> 0%Qc).
  { intros E. apply RN. rewrite <- (half_sum r). unfold half. rewrite two. replace (r / (1 + 1) + r / (1 + 1))%Qc with ((r + r) / (1 + 1))%Qc by (field; exact two_nz). rewrite E. field. exact two_nz. }
  unfold half. rewrite two. field. split; [exact NR|exact two_nz].
Qed.

(** The reactances of a center tap transformer with three impedances are those of the impedances. *)
Theorem C74_three_reactances : forall objs o cfg q p ph c r x i1 i2 kva,
  says o "phases" q -> plain p -> quoted q p -> live_phases p = [ph] -> says o "configuration" c -> dget objs c = Some cfg ->
  says cfg "connect_type" "SINGLE_PHASE_CENTER_TAPPED" -> number num cfg "resistance" (Some r) -> number num cfg "reactance" (Some x) ->
  creads cnum cfg "impedance1" i1 -> creads cnum cfg "impedance2" i2 -> rated num cfg kva ->
  (exists a, number num cfg "no_load_loss" a) -> (exists a, number num cfg "primary_voltage" a) -> (exists a, number num cfg "secondary_voltage" a) ->
  exists tr, conv_trafo num cnum objs o = Ok tr /\ t_react tr = [x; snd i1; snd i2].
Proof.
  intros objs o cfg q p ph c r x i1 i2 kva PH P Q LP CF D CT R X I1 I2 RA [loss LO] [hv HV] [lv LV].
  unfold conv_trafo. rewrite (attr_says _ _ _ CF), D, (attr_says _ _ _ CT). rewrite (live_quoted o q p PH P Q), LP.
  change (center "SINGLE_PHASE_CENTER_TAPPED" [ph]) with (@Ok (bool * list string * list string) (true, ["A"], ["B"])). change (connection "SINGLE_PHASE_CENTER_TAPPED") with (@None string, @None string).
  cbn [bind]. rewrite (numattr_number _ _ _ _ LO). cbn [bind]. rewrite (numattr_number _ _ _ _ HV). cbn [bind]. rewrite (numattr_number _ _ _ _ LV). cbn [bind].
  rewrite (numattr_number _ _ _ _ R). cbn [bind]. rewrite (numattr_number _ _ _ _ X). cbn [bind]. unfold reactances. rewrite (cx_creads _ _ _ _ I1). cbn [bind]. rewrite (cx_creads _ _ _ _ I2). cbn [bind].
  rewrite (rated_rating cfg kva RA). cbn [bind fst snd option_map]. eexists. split; reflexivity.
Qed.

(** Without its configuration a transformer has no voltages, ratings and impedances. *)
Theorem C74_no_configuration : forall objs o q p c, says o "phases" q -> plain p -> quoted q p -> says o "configuration" c -> dget objs c = None ->
  exists tr, conv_trafo num cnum objs o = Ok tr /\ t_react tr = [] /\ t_windings tr = [mkW 0 None None None None (live_phases p); mkW 2 None None None None (live_phases p)].
Proof.
  intros objs o q p c PH P Q CF D. unfold conv_trafo. rewrite (attr_says _ _ _ CF), D, (live_quoted o q p PH P Q). eexists. split; [reflexivity|]. split; reflexivity.
Qed.

(** A center tap transformer without phases stops the conversion of the whole file. *)
Theorem C74_center_no_phases : forall objs o c cfg, lacks o "phases" -> says o "configuration" c -> dget objs c = Some cfg -> says cfg "connect_type" "SINGLE_PHASE_CENTER_TAPPED" ->
  conv_trafo num cnum objs o = Err EIndex.
Proof.
  intros objs o c cfg PH CF D CT. unfold conv_trafo. rewrite (attr_says _ _ _ CF), D, (attr_says _ _ _ CT). unfold winding_phases, attr. rewrite PH. reflexivity.
Qed.

(** With ratings per phase the rating of the windings is that of phase C alone, not the sum. *)
Theorem C74_phase_ratings_refuted : forall cfg a b c r, number num cfg "power_rating" r -> reads num cfg "powerA_rating" a -> reads num cfg "powerB_rating" b -> reads num cfg "powerC_rating" c ->
  (a + b)%Qc <> Q2Qc 0 -> exists x, rating num cfg = Ok (Some x) /\ x = (c * Q2Qc 1000)%Qc /\ x <> ((a + b + c) * Q2Qc 1000)%Qc.
Proof.
  intros cfg a b c r R A B Cc N. exists (c * Q2Qc 1000)%Qc. split; [|split; [reflexivity|]].
  - unfold rating. rewrite (numattr_number _ _ _ _ R). cbn [bind].
    rewrite (numattr_number num cfg "powerA_rating" (Some a) A), (numattr_number num cfg "powerB_rating" (Some b) B), (numattr_number num cfg "powerC_rating" (Some c) Cc). reflexivity.
  - intros E. apply N. assert (H : ((a + b) * Q2Qc 1000)%Qc = Q2Qc 0). { replace ((a + b) * Q2Qc 1000)%Qc with ((a + b + c) * Q2Qc 1000 - c * Q2Qc 1000)%Qc by ring. rewrite <- E. ring. }
    apply Qcmult_integral in H. destruct H as [H|H]; [exact H|]. apply (f_equal this) in H. discriminate H.
Qed.

(** With the first secondary impedance but not the second a center tap transformer gets four reactances. *)
Theorem C74_four_reactances_refuted : forall cfg x z, creads cnum cfg "impedance1" z -> lacks cfg "impedance2" ->
  exists l, reactances cnum cfg x true = Ok l /\ length l = 4%nat.
Proof. intros cfg x z Z L. unfold reactances. rewrite (cx_creads _ _ _ _ Z), (cx_lacks _ _ _ L). eexists. split; reflexivity. Qed.
End Trafo.
Print Assumptions C74_two_windings.
Print Assumptions C74_center_tap.
Print Assumptions C74_three_reactances.
Print Assumptions C74_no_configuration.
Print Assumptions C74_center_no_phases.
Print Assumptions C74_phase_ratings_refuted.
Print Assumptions C74_four_reactances_refuted.

Definition ex_num (s : string) : res Qc :=
  if String.eqb s "7200" then Ok (Q2Qc 7200) else if String.eqb s "120" then Ok (Q2Qc 120) else if String.eqb s "0.01" then Ok (Q2Qc (1 # 100))
  else if String.eqb s "0.06" then Ok (Q2Qc (6 # 100)) else if String.eqb s "25" then Ok (Q2Qc 25) else Err EValue.
Definition ex_cnum (s : string) : res C := if String.eqb s "0.01+0.06j" then Ok (Q2Qc (1 # 100), Q2Qc (6 # 100)) else Err EValue.
Definition ex_cfg : obj := mkObj "transformer_configuration" [("name", "cfg"); ("connect_type", "SINGLE_PHASE_CENTER_TAPPED"); ("primary_voltage", "7200");
  ("secondary_voltage", "120"); ("impedance", "0.01+0.06j"); ("power_rating", "25")].
Definition ex_cfg2 : obj := mkObj "transformer_configuration" [("name", "cfg2"); ("connect_type", "DELTA_GWYE"); ("primary_voltage", "7200");
  ("secondary_voltage", "120"); ("resistance", "0.01"); ("reactance", "0.06"); ("power_rating", "25")].
Definition ex_trafo : obj := mkObj "transformer" [("name", "t"); ("from", "a"); ("to", "b"); ("phases", """CS"""); ("configuration", "cfg")].
Definition ex_trafo2 : obj := mkObj "transformer" [("name", "t2"); ("from", "a"); ("to", "b"); ("phases", "ABCN"); ("configuration", "cfg2")].
Ltac reads_ := eexists; split; reflexivity.
Example C74_hypotheses_met :
  impedance_of ex_num ex_cnum ex_cfg (Q2Qc (1 # 100)) (Q2Qc (6 # 100)) /\ rated ex_num ex_cfg (Q2Qc 25) /\ live_phases "CS" = ["C"] /\ quoted """CS""" "CS" /\
  impedance_of ex_num ex_cnum ex_cfg2 (Q2Qc (1 # 100)) (Q2Qc (6 # 100)) /\ rated ex_num ex_cfg2 (Q2Qc 25) /\ connects "DELTA_GWYE" (Some "D") (Some "Y") /\ live_phases "ABCN" = ["A"; "B"; "C"] /\
  number ex_num ex_cfg2 "primary_voltage" (Some (Q2Qc 7200)) /\
  exists t1 t2, conv_trafo ex_num ex_cnum [("cfg", ex_cfg); ("cfg2", ex_cfg2)] ex_trafo = Ok t1 /\ conv_trafo ex_num ex_cnum [("cfg", ex_cfg); ("cfg2", ex_cfg2)] ex_trafo2 = Ok t2 /\
    length (t_windings t1) = 3%nat /\ length (t_windings t2) = 2%nat.
Proof.
  split; [right; split; [exists None; reflexivity|split; [reflexivity|reads_]]|]. split; [split; [reads_|repeat split]|]. split; [reflexivity|]. split; [now right|].
  split; [left; split; reads_|]. split; [split; [reads_|repeat split]|]. split; [constructor|]. split; [reflexivity|]. split; [reads_|].
  do 2 eexists. split; [reflexivity|]. split; [reflexivity|]. split; reflexivity.
Qed.

(** ** Fuses and switches *)
Lemma own_wires_In o suffix bad w : In w (own_wires o suffix bad) <-> is_abc (wi_phase w) /\ exists s, says o ("phase_" ++ wi_phase w ++ suffix) s /\ wi_open w = Some (String.eqb s bad).
Proof.
  unfold own_wires. rewrite in_flat_map. split.
  - intros (ph & I & H). destruct (attr o ("phase_" ++ ph ++ suffix)) as [s|] eqn:E; [|destruct H]. destruct H as [<-|[]]. cbn [wi_phase wi_open].
    split; [cbn in I; unfold is_abc; intuition congruence|]. exists s. split; [exact E|reflexivity].
  - intros (A & s & S & O). exists (wi_phase w). split; [destruct A as [->|[->| ->]]; cbn; tauto|]. rewrite (attr_says _ _ _ S). left. rewrite <- O. now destruct w.
Qed.
Lemma own_wires_NoDup o suffix bad : NoDup (map wi_phase (own_wires o suffix bad)).
Proof.
  unfold own_wires. cbn [flat_map]. destruct (attr o ("phase_" ++ "A" ++ suffix)), (attr o ("phase_" ++ "B" ++ suffix)), (attr o ("phase_" ++ "C" ++ suffix)); cbn;
    repeat (apply NoDup_cons; [cbn; intuition discriminate|]); apply NoDup_nil.
Qed.

(** A fuse or switch that gives the state of each of its phases has one wire per phase, which is open exactly if the phase is
    blown or open. *)
Theorem C75_states : forall o suffix bad q p, says o "phases" q -> quoted q p -> plain p ->
  (forall ph, In ph (line_phases p) <-> is_abc ph /\ exists s, says o ("phase_" ++ ph ++ suffix) s) -> line_phases p <> [] ->
  NoDup (map wi_phase (wires o suffix bad)) /\
  (forall ph, In ph (line_phases p) <-> In ph (map wi_phase (wires o suffix bad))) /\
  forall w, In w (wires o suffix bad) -> exists s, says o ("phase_" ++ wi_phase w ++ suffix) s /\ (wi_open w = Some true <-> s = bad) /\ (wi_open w = Some false <-> s <> bad).
Proof.
  intros o suffix bad q p PH Q P H NE.
  assert (E : wires o suffix bad = own_wires o suffix bad).
  { unfold wires. destruct (own_wires o suffix bad) as [|w l] eqn:E; [|reflexivity]. destruct (line_phases p) as [|ph r]; [now elim NE|].
    destruct (H ph) as [H1 _]. destruct H1 as (A & s & S); [now left|]. assert (I : In (mkWire ph (Some (String.eqb s bad))) (own_wires o suffix bad)) by (apply own_wires_In; cbn; eauto).
    rewrite E in I. destruct I. }
  rewrite E. split; [apply own_wires_NoDup|]. split.
  - intros ph. rewrite H, in_map_iff. split.
    + intros (A & s & S). exists (mkWire ph (Some (String.eqb s bad))). split; [reflexivity|]. apply own_wires_In. cbn. eauto.
    + intros (w & <- & I). apply own_wires_In in I. destruct I as (A & s & S & _). eauto.
  - intros w I. apply own_wires_In in I. destruct I as (A & s & S & O). exists s. split; [assumption|]. rewrite O. destruct (String.eqb_spec s bad); split; split; congruence.
Qed.
Print Assumptions C75_states.

Lemma listed_some st l : listed_wires (Some st) l = map (fun ph => mkWire ph (Some (String.eqb st "OPEN"))) (filter (fun c => if string_dec c "N" then false else true) l).
Proof.
  induction l as [|x l IH]; [reflexivity|]. cbn [listed_wires filter]. destruct (String.eqb_spec x "N") as [->|N].
  - destruct (string_dec "N" "N") as [_|N]; [exact IH|now elim N].
  - destruct (string_dec x "N") as [E|_]; [now elim N|]. cbn [map]. now rewrite IH.
Qed.
Lemma own_nil o suffix bad : (forall ph, is_abc ph -> lacks o ("phase_" ++ ph ++ suffix)) -> own_wires o suffix bad = [].
Proof.
  intros H. destruct (own_wires o suffix bad) as [|w l] eqn:E; [reflexivity|]. assert (I : In w (own_wires o suffix bad)) by (rewrite E; now left).
  apply own_wires_In in I. destruct I as (A & s & S & _). apply H in A. unfold says in S. rewrite A in S. discriminate.
Qed.
(** One that only gives a status has one wire per phase, all open if the status is open and all closed otherwise. *)
Theorem C75_status : forall o suffix bad q p st, says o "phases" q -> quoted q p -> plain p -> says o "status" st ->
  (forall ph, is_abc ph -> lacks o ("phase_" ++ ph ++ suffix)) ->
  wires o suffix bad = map (fun ph => mkWire ph (Some (if string_dec st "OPEN" then true else false))) (line_phases p).
Proof.
  intros o suffix bad q p st PH Q P S L. unfold wires. rewrite (own_nil o suffix bad L), (attr_says _ _ _ PH), (attr_says _ _ _ S), (strip_quoted q p P Q), letters_chars, listed_some.
  apply map_ext. intros ph. do 2 f_equal. destruct (String.eqb_spec st "OPEN"), (string_dec st "OPEN"); congruence.
Qed.
Print Assumptions C75_status.

(** The line between the two nodes is marked as a fuse, or as a switch of length one. *)
Theorem C75_line : forall o n f t, text o "name" n -> text o "from" f -> text o "to" t ->
  conv_fuse o = mkLine true false None n f t (wires o "_status" "BLOWN") /\ conv_switch o = mkLine false true (Some 1%Z) n f t (wires o "_state" "OPEN").
Proof. intros o n f t N F T. unfold conv_fuse, conv_switch. rewrite (attr_text _ _ _ N), (attr_text _ _ _ F), (attr_text _ _ _ T). split; reflexivity. Qed.
Print Assumptions C75_line.

(** Without states and without a status a fuse or switch has one wire only, whatever its phases are. *)
Theorem C75_no_status_refuted : forall o suffix bad q p, says o "phases" q -> quoted q p -> plain p -> lacks o "status" ->
  (forall ph, is_abc ph -> lacks o ("phase_" ++ ph ++ suffix)) -> (1 < length (line_phases p))%nat ->
  length (wires o suffix bad) = 1%nat.
Proof.
  intros o suffix bad q p PH Q P S L N. unfold wires. rewrite (own_nil o suffix bad L), (attr_says _ _ _ PH), (strip_quoted q p P Q), letters_chars. unfold attr. rewrite S.
  unfold line_phases in N. clear - N. induction (chars p) as [|x l IH]; cbn [filter length] in N; [lia|]. cbn [listed_wires]. destruct (String.eqb_spec x "N") as [->|X]; [|reflexivity].
  apply IH. destruct (string_dec "N" "N") as [_|E]; [exact N|now elim E].
Qed.
Print Assumptions C75_no_status_refuted.

(** With the state of one phase only, the other phases have no wire. *)
Theorem C75_one_state_refuted : forall o suffix bad s, says o ("phase_" ++ "A" ++ suffix) s -> lacks o ("phase_" ++ "B" ++ suffix) -> lacks o ("phase_" ++ "C" ++ suffix) ->
  map wi_phase (wires o suffix bad) = ["A"].
Proof.
  intros o suffix bad s A B Cc. unfold wires, own_wires. cbn [flat_map]. rewrite (attr_says _ _ _ A).
  assert (EB : attr o ("phase_" ++ "B" ++ suffix) = None) by exact B. assert (EC : attr o ("phase_" ++ "C" ++ suffix) = None) by exact Cc. rewrite EB, EC. reflexivity.
Qed.
Print Assumptions C75_one_state_refuted.

Definition ex_switch : obj := mkObj "switch" [("name", "s"); ("from", "a"); ("to", "b"); ("phases", "ABN"); ("phase_A_state", "OPEN"); ("phase_B_state", "CLOSED")].
Definition ex_fuse : obj := mkObj "fuse" [("name", "f"); ("from", "a"); ("to", "b"); ("phases", """ABCN"""); ("status", "CLOSED")].
Example C75_hypotheses_met : (forall ph, In ph (line_phases "ABN") <-> is_abc ph /\ exists s, says ex_switch ("phase_" ++ ph ++ "_state") s) /\ line_phases "ABN" <> [] /\
  li_wires (conv_switch ex_switch) = [mkWire "A" (Some true); mkWire "B" (Some false)] /\
  (forall ph, is_abc ph -> lacks ex_fuse ("phase_" ++ ph ++ "_status")) /\ says ex_fuse "status" "CLOSED" /\
  li_wires (conv_fuse ex_fuse) = [mkWire "A" (Some false); mkWire "B" (Some false); mkWire "C" (Some false)].
Proof.
  change (line_phases "ABN") with ["A"; "B"]. split; [|split; [discriminate|split; [reflexivity|split; [|split; reflexivity]]]].
  - intros ph. split.
    + intros [<-|[<-|[]]]; (split; [unfold is_abc; tauto|eexists; reflexivity]).
    + intros ([->|[->| ->]] & s & S); [now left|right; now left|discriminate S].
  - intros ph [->|[->| ->]]; reflexivity.
Qed.

(** ** Capacitors *)
Section Cap.
Variable num : string -> res Qc.
(** A capacitor has one phase capacitor for each of the phases A, B, C with a size, of a million times the number in the file,
    and with its switch; its limits are those of the voltage if they are given, else those of the reactive power. *)
Theorem C76_capacitor : forall o n v d va vb vc vh vl rh rl pt,
  text o "name" n -> number num o "nominal_voltage" v -> number num o "time_delay" d -> text o "pt_phase" pt ->
  number num o "capacitor_A" va -> number num o "capacitor_B" vb -> number num o "capacitor_C" vc ->
  number num o "voltage_set_high" vh -> number num o "voltage_set_low" vl -> number num o "VAr_set_high" rh -> number num o "VAr_set_low" rl ->
  (vh = None <-> vl = None) -> (rh = None <-> rl = None) ->
  exists cap, conv_capacitor num o = Ok cap /\ c_name cap = n /\ c_v cap = v /\ c_delay cap = d /\ c_pt cap = pt /\
    (forall pc, In pc (c_phases cap) <-> exists ph x, In (ph, x) [("A", va); ("B", vb); ("C", vc)] /\ pc_phase pc = ph /\ x <> None /\
       x = Some (pc_var pc / Q2Qc 1000000)%Qc /\ text o ("switch_" ++ ph) (pc_switch pc)) /\
    NoDup (map pc_phase (c_phases cap)) /\
    c_high cap = match vh with Some _ => vh | None => rh end /\ c_low cap = match vl with Some _ => vl | None => rl end.
Proof.
  intros o n v d va vb vc vh vl rh rl pt N V D PT A B Cc VH VL RH RL EV ER. unfold conv_capacitor.
  rewrite (numattr_number _ _ _ _ V). cbn [bind]. rewrite (numattr_number _ _ _ _ D). cbn [bind].
  assert (L1 : limits num o "VAr_set_high" "VAr_set_low" (None, None) = Ok (rh, rl)).
  { unfold limits. rewrite (numattr_number _ _ _ _ RH). cbn [bind]. rewrite (numattr_number _ _ _ _ RL). destruct rh, rl; try reflexivity; destruct ER as [E1 E2]; now specialize (E1 eq_refl). }
  assert (L2 : limits num o "voltage_set_high" "voltage_set_low" (rh, rl) = Ok (match vh with Some _ => vh | None => rh end, match vl with Some _ => vl | None => rl end)).
  { unfold limits. rewrite (numattr_number _ _ _ _ VH). cbn [bind]. rewrite (numattr_number _ _ _ _ VL). destruct vh, vl; try reflexivity; destruct EV as [E1 E2]; now specialize (E1 eq_refl). }
  rewrite L1. cbn [bind]. rewrite L2. cbn [bind]. unfold phase_cap.
  change ("capacitor_" ++ "A") with "capacitor_A". change ("capacitor_" ++ "B") with "capacitor_B". change ("capacitor_" ++ "C") with "capacitor_C".
  rewrite (numattr_number _ _ _ _ A), (numattr_number _ _ _ _ B), (numattr_number _ _ _ _ Cc). cbn [bind].
  eexists. split; [reflexivity|]. cbn [c_name c_v c_delay c_pt c_phases c_high c_low fst snd].
  split; [now apply attr_text|]. split; [reflexivity|]. split; [reflexivity|]. split; [now apply attr_text|].
  assert (M : forall x y : Qc, (x * k1e6)%Qc = y <-> x = (y / Q2Qc 1000000)%Qc).
  { intros x y. assert (NZ : Q2Qc 1000000 <> Q2Qc 0) by (intros E; apply (f_equal this) in E; discriminate E). unfold k1e6. split; intros E; subst; field; exact NZ. }
  assert (T : forall k (t : option string), text o k t <-> t = attr o k).
  { intros k t. unfold text, maybe, says, lacks, attr. destruct t; intuition congruence. }
  split; [|split; [|split; reflexivity]].
  - assert (G : forall ph x pc, In pc (match x with Some x => [mkPc ph (x * k1e6)%Qc (attr o ("switch_" ++ ph))] | None => [] end) <->
       pc_phase pc = ph /\ x <> None /\ x = Some (pc_var pc / Q2Qc 1000000)%Qc /\ text o ("switch_" ++ ph) (pc_switch pc)).
    { intros ph x pc. rewrite T. destruct x as [x|]; [|split; [intros []|intros (_ & E & _); now elim E]]. split.
      - intros [<-|[]]. cbn. split; [reflexivity|]. split; [discriminate|]. split; [|reflexivity]. f_equal. now apply M.
      - intros (<- & _ & E & S). left. destruct pc as [a b c]. cbn in *. injection E as E. apply M in E. now rewrite E, S. }
    intros pc. rewrite !in_app_iff, !G. cbn [In]. split.
    + intros [H|[H|H]]; [exists "A", va|exists "B", vb|exists "C", vc]; (split; [tauto|exact H]).
    + intros (ph & x & [E|[E|[E|[]]]] & H); injection E as <- <-; tauto.
  - destruct va, vb, vc; cbn; repeat (apply NoDup_cons; [cbn; intuition discriminate|]); apply NoDup_nil.
Qed.

(** The control of a capacitor. *)
Theorem C76_control : forall o cap ctl, conv_capacitor num o = Ok cap -> says o "control" ctl ->
  (In ctl ["VOLT"; "volt"; "Volt"] -> c_mode cap = Some "voltage") /\ (In ctl ["VAR"; "var"; "VAr"] -> c_mode cap = Some "reactivePower") /\
  (In ctl ["MANUAL"; "manual"; "Manual"] -> c_mode cap = Some "none") /\ (In ctl ["VARVOLT"; "CURRENT"] -> c_mode cap = None).
Proof.
  intros o cap ctl E S.
  assert (M : c_mode cap = cap_mode ctl).
  { unfold conv_capacitor in E. repeat match type of E with bind ?r _ = _ => destruct r; cbn [bind] in E; [|discriminate E] end. injection E as <-. cbn [c_mode]. now rewrite (attr_says _ _ _ S). }
  rewrite M. cbn [In]. repeat split; intros H; decompose [or] H; subst; try contradiction; reflexivity.
Qed.

(** A capacitor is never connected: its parent is not kept. *)
Theorem C76_parent_refuted : forall o cap par, says o "parent" par -> conv_capacitor num o = Ok cap -> c_conn cap = None.
Proof.
  intros o cap par _ E. unfold conv_capacitor in E. repeat match type of E with bind ?r _ = _ => destruct r; cbn [bind] in E; [|discriminate E] end. injection E as <-. reflexivity.
Qed.

(** A voltage limit without its counterpart is combined with the limit of the reactive power. *)
Theorem C76_mixed_limits_refuted : forall o cap vh rh rl, conv_capacitor num o = Ok cap ->
  reads num o "voltage_set_high" vh -> lacks o "voltage_set_low" -> reads num o "VAr_set_high" rh -> reads num o "VAr_set_low" rl ->
  c_high cap = Some vh /\ c_low cap = Some rl.
Proof.
  intros o cap vh rh rl E VH VL RH RL. unfold conv_capacitor, limits in E.
  rewrite (numattr_number num o "VAr_set_high" (Some rh) RH), (numattr_number num o "VAr_set_low" (Some rl) RL), (numattr_number num o "voltage_set_high" (Some vh) VH), (numattr_number num o "voltage_set_low" None VL) in E.
  cbn [bind or_else fst snd] in E. repeat match type of E with bind ?r _ = _ => destruct r; cbn [bind] in E; [|discriminate E] end. injection E as <-. split; reflexivity.
Qed.
End Cap.
Print Assumptions C76_capacitor.
Print Assumptions C76_control.
Print Assumptions C76_parent_refuted.
Print Assumptions C76_mixed_limits_refuted.

Definition ex_cap : obj := mkObj "capacitor" [("name", "c"); ("parent", "a"); ("nominal_voltage", "7200"); ("capacitor_A", "0.06"); ("capacitor_C", "0.01");
  ("switch_A", "CLOSED"); ("control", "volt"); ("voltage_set_high", "7200"); ("voltage_set_low", "120")].
Example C76_hypotheses_met : exists cap, conv_capacitor ex_num ex_cap = Ok cap /\
  number ex_num ex_cap "capacitor_A" (Some (Q2Qc (6 # 100))) /\ number ex_num ex_cap "capacitor_B" None /\ number ex_num ex_cap "capacitor_C" (Some (Q2Qc (1 # 100))) /\
  number ex_num ex_cap "voltage_set_high" (Some (Q2Qc 7200)) /\ number ex_num ex_cap "voltage_set_low" (Some (Q2Qc 120)) /\ number ex_num ex_cap "VAr_set_high" None /\
  map pc_phase (c_phases cap) = ["A"; "C"] /\ map pc_switch (c_phases cap) = [Some "CLOSED"; None] /\ map pc_var (c_phases cap) = [Q2Qc 60000; Q2Qc 10000].
Proof.
  eexists. split; [reflexivity|]. split; [reads_|]. split; [reflexivity|]. split; [reads_|]. split; [reads_|]. split; [reads_|]. split; [reflexivity|].
  split; [reflexivity|]. split; [reflexivity|]. cbn. f_equal; [|f_equal]; apply Qc_is_canon; reflexivity.
Qed.

(** ** Regulators *)
Definition pwl (T : string -> option Z) (R X : string -> option Qc) (phs : list string) : list pwinding := map (fun ph => mkPw ph (T ph) (R ph) (X ph)) phs.
Definition upd {A} (ph : string) (x : A) (f : string -> option A) (y : string) : option A := if string_dec y ph then Some x else f y.
Lemma has_pwl T R X ph phs : has_phase ph (pwl T R X phs) = true <-> In ph phs.
Proof.
  unfold has_phase, pwl. rewrite existsb_exists. split.
  - intros (p & I & E). apply in_map_iff in I. destruct I as (y & <- & Y). apply String.eqb_eq in E. cbn in E. now subst.
  - intros I. exists (mkPw ph (T ph) (R ph) (X ph)). split; [now apply (in_map (fun ph => mkPw ph (T ph) (R ph) (X ph)))|]. cbn. apply String.eqb_refl.
Qed.
Lemma pwl_ext T R X T' R' X' phs : (forall y, In y phs -> T y = T' y /\ R y = R' y /\ X y = X' y) -> pwl T R X phs = pwl T' R' X' phs.
Proof. intros H. apply map_ext_in. intros y Y. destruct (H y Y) as (-> & -> & ->). reflexivity. Qed.
Lemma change_pwl T R X T' R' X' ph phs (f : pwinding -> pwinding) : NoDup phs -> In ph phs ->
  f (mkPw ph (T ph) (R ph) (X ph)) = mkPw ph (T' ph) (R' ph) (X' ph) -> (forall y, y <> ph -> T y = T' y /\ R y = R' y /\ X y = X' y) ->
  change ph f (pwl T R X phs) = pwl T' R' X' phs.
Proof.
  intros ND I F O. induction phs as [|y phs IH]; [destruct I|]. inversion ND as [|? ? N1 N2]; subst. cbn [pwl map change pw_phase]. destruct (String.eqb_spec y ph) as [->|NE].
  - rewrite F. f_equal. apply map_ext_in. intros z Z. destruct (O z) as (-> & -> & ->); [intros ->; contradiction|reflexivity].
  - destruct I as [->|I]; [now elim NE|]. destruct (O y NE) as (-> & -> & ->). f_equal. now apply IH.
Qed.

Section Reg.
Variable num : string -> res Qc.
Variable int : string -> res Z.

Lemma set_tap_pwl cfg tap T R X phs ph : setting int cfg "tap_pos_" tap -> is_abc ph -> NoDup phs -> T ph = None -> R ph = None -> X ph = None ->
  exists T' phs', set_tap int cfg (phs, pwl T R X phs) ph = Ok (phs', pwl T' R X phs') /\ NoDup phs' /\
    phs' = (phs ++ (if in_dec string_dec ph phs then [] else match tap ph with Some _ => [ph] | None => [] end))%list /\
    forall y, T' y = if string_dec y ph then tap y else T y.
Proof.
  intros S A ND TN RN XN. destruct (S ph) as [[_ H]|[H _]]; [|contradiction]. unfold set_tap. destruct (tap ph) as [t|] eqn:TP.
  2: { unfold attr. rewrite H. exists T, phs. split; [reflexivity|]. split; [assumption|]. split; [destruct (in_dec string_dec ph phs); now rewrite app_nil_r|]. intros y. destruct (string_dec y ph) as [->|]; congruence. }
  destruct H as (s & W & I). rewrite (attr_says _ _ _ W), I. cbn [snd].
  assert (K : forall phs', NoDup phs' -> In ph phs' -> change ph (fun p => mkPw (pw_phase p) (Some t) (pw_r p) (pw_x p)) (pwl T R X phs') = pwl (upd ph t T) R X phs').
  { intros phs' N' I'. apply change_pwl; [assumption|assumption| |]. - cbn. unfold upd. destruct (string_dec ph ph) as [_|E]; [reflexivity|now elim E].
    - intros y NE. unfold upd. destruct (string_dec y ph); [contradiction|tauto]. }
  assert (U : forall y, upd ph t T y = if string_dec y ph then tap y else T y) by (intros y; unfold upd; destruct (string_dec y ph) as [->|]; congruence).
  destruct (in_dec string_dec ph phs) as [J|J].
  - assert (E : has_phase ph (pwl T R X phs) = true) by now apply has_pwl. rewrite E. cbn [bind fst snd]. exists (upd ph t T), phs.
    split; [rewrite K by assumption; reflexivity|]. split; [assumption|]. split; [now rewrite app_nil_r|exact U].
  - assert (E : has_phase ph (pwl T R X phs) = false). { destruct (has_phase ph (pwl T R X phs)) eqn:E; [apply has_pwl in E; contradiction|reflexivity]. } rewrite E. cbn [bind fst snd].
    assert (ND' : NoDup (phs ++ [ph])%list). { rewrite <- (rev_involutive (phs ++ [ph])%list). apply NoDup_rev. rewrite rev_app_distr. cbn. constructor; [now rewrite <- in_rev|now apply NoDup_rev]. }
    exists (upd ph t T), (phs ++ [ph])%list. split; [|split; [assumption|split; [reflexivity|exact U]]]. do 2 f_equal.
    replace (mkPw ph None None None) with (mkPw ph (T ph) (R ph) (X ph)) by (rewrite TN, RN, XN; reflexivity). rewrite <- K.
    + unfold pwl at 2. rewrite map_app. reflexivity.
    + assumption.
    + apply in_app_iff. right. now left.
Qed.
Lemma set_r_pwl cfg val T R X phs ph : setting num cfg "compensator_r_setting_" val -> is_abc ph -> NoDup phs -> (val ph <> None -> In ph phs) -> R ph = None ->
  exists R', set_comp num "compensator_r_setting_" set_r cfg (phs, pwl T R X phs) ph = Ok (phs, pwl T R' X phs) /\ forall y, R' y = if string_dec y ph then val y else R y.
Proof.
  intros S A ND IV RN. destruct (S ph) as [[_ H]|[H _]]; [|contradiction]. unfold set_comp. destruct (val ph) as [t|] eqn:TP.
  2: { unfold attr. rewrite H. exists R. split; [reflexivity|]. intros y. destruct (string_dec y ph) as [->|]; congruence. }
  destruct H as (s & W & I). rewrite (attr_says _ _ _ W). cbn [snd]. assert (J : In ph phs) by now apply IV. apply (has_pwl T R X) in J. rewrite J, I. apply has_pwl in J. cbn [bind fst snd].
  exists (upd ph t R). split; [|intros y; unfold upd; destruct (string_dec y ph) as [->|]; congruence]. do 2 f_equal. apply change_pwl; [assumption|assumption| |].
  - unfold set_r, upd. cbn. destruct (string_dec ph ph) as [_|E]; [reflexivity|now elim E].
  - intros y NE. unfold upd. destruct (string_dec y ph); [contradiction|tauto].
Qed.
Lemma set_x_pwl cfg val T R X phs ph : setting num cfg "compensator_x_setting_" val -> is_abc ph -> NoDup phs -> (val ph <> None -> In ph phs) -> X ph = None ->
  exists X', set_comp num "compensator_x_setting_" set_x cfg (phs, pwl T R X phs) ph = Ok (phs, pwl T R X' phs) /\ forall y, X' y = if string_dec y ph then val y else X y.
Proof.
  intros S A ND IV RN. destruct (S ph) as [[_ H]|[H _]]; [|contradiction]. unfold set_comp. destruct (val ph) as [t|] eqn:TP.
  2: { unfold attr. rewrite H. exists X. split; [reflexivity|]. intros y. destruct (string_dec y ph) as [->|]; congruence. }
  destruct H as (s & W & I). rewrite (attr_says _ _ _ W). cbn [snd]. assert (J : In ph phs) by now apply IV. apply (has_pwl T R X) in J. rewrite J, I. apply has_pwl in J. cbn [bind fst snd].
  exists (upd ph t X). split; [|intros y; unfold upd; destruct (string_dec y ph) as [->|]; congruence]. do 2 f_equal. apply change_pwl; [assumption|assumption| |].
  - unfold set_x, upd. cbn. destruct (string_dec ph ph) as [_|E]; [reflexivity|now elim E].
  - intros y NE. unfold upd. destruct (string_dec y ph); [contradiction|tauto].
Qed.
Lemma all_abc {A} (val g : string -> option A) : (forall y, ~ is_abc y -> val y = None) ->
  (forall y, g y = if string_dec y "C" then val y else if string_dec y "B" then val y else if string_dec y "A" then val y else None) -> forall y, g y = val y.
Proof.
  intros H G y. rewrite G. destruct (string_dec y "C"); [reflexivity|]. destruct (string_dec y "B"); [reflexivity|]. destruct (string_dec y "A"); [reflexivity|].
  symmetry. apply H. unfold is_abc. tauto.
Qed.
Lemma setting_abc {A} (parse : string -> res A) cfg key val : setting parse cfg key val -> forall y, ~ is_abc y -> val y = None.
Proof. intros S y N. destruct (S y) as [[A0 _]|[_ E]]; [contradiction|assumption]. Qed.

Lemma taps_fold cfg tap R X phs : setting int cfg "tap_pos_" tap -> NoDup phs -> (forall y, is_abc y -> R y = None /\ X y = None) ->
  exists T, foldM (set_tap int cfg) ["A"; "B"; "C"] (phs, pwl (fun _ => None) R X phs) = Ok ((phs ++ extra tap phs)%list, pwl T R X (phs ++ extra tap phs)%list) /\
    NoDup (phs ++ extra tap phs)%list /\ forall y, T y = tap y.
Proof.
  intros S ND RX. cbn [foldM].
  destruct (set_tap_pwl cfg tap (fun _ => None) R X phs "A" S) as (T1 & p1 & E1 & N1 & P1 & U1); try (unfold is_abc; tauto); try reflexivity; try assumption; try (apply RX; unfold is_abc; tauto). rewrite E1.
  destruct (set_tap_pwl cfg tap T1 R X p1 "B" S) as (T2 & p2 & E2 & N2 & P2 & U2); try (unfold is_abc; tauto); try assumption; try (apply RX; unfold is_abc; tauto); [now rewrite U1|]. rewrite E2.
  destruct (set_tap_pwl cfg tap T2 R X p2 "C" S) as (T3 & p3 & E3 & N3 & P3 & U3); try (unfold is_abc; tauto); try assumption; try (apply RX; unfold is_abc; tauto); [rewrite U2; cbn; now rewrite U1|]. rewrite E3.
  assert (Q : p3 = (phs ++ extra tap phs)%list).
  { rewrite P3, P2, P1. unfold extra. cbn [filter].
    assert (G : forall ph l m, ~ In ph m -> (if in_dec string_dec ph (l ++ m)%list then true else false) = if in_dec string_dec ph l then true else false).
    { intros ph l m NI. destruct (in_dec string_dec ph (l ++ m)%list) as [I|I], (in_dec string_dec ph l) as [J|J]; try reflexivity; [apply in_app_iff in I; tauto|elim I; apply in_app_iff; now left]. }
    assert (H : forall (b : string) (l m : list string) (x : list string), ~ In b m -> (if in_dec string_dec b (l ++ m)%list then [] else x) = if in_dec string_dec b l then [] else x).
    { intros b l m x NI. specialize (G b l m NI). destruct (in_dec string_dec b (l ++ m)%list), (in_dec string_dec b l); congruence. }
    set (mA := if in_dec string_dec "A" phs then [] else match tap "A" with Some _ => ["A"] | None => [] end).
    assert (SA : forall z, In z mA -> z = "A") by (unfold mA; intros z; destruct (in_dec string_dec "A" phs); [intros []|destruct (tap "A"); [intros [<-|[]]; reflexivity|intros []]]).
    rewrite (H "B" phs mA) by (intros I; apply SA in I; discriminate I).
    set (mB := if in_dec string_dec "B" phs then [] else match tap "B" with Some _ => ["B"] | None => [] end).
    assert (SB : forall z, In z mB -> z = "B") by (unfold mB; intros z; destruct (in_dec string_dec "B" phs); [intros []|destruct (tap "B"); [intros [<-|[]]; reflexivity|intros []]]).
    rewrite <- (app_assoc phs mA mB), (H "C" phs (mA ++ mB)%list) by (intros I; apply in_app_iff in I; destruct I as [I|I]; [apply SA in I|apply SB in I]; discriminate I).
    rewrite <- !app_assoc. f_equal. unfold mA, mB. destruct (in_dec string_dec "A" phs), (in_dec string_dec "B" phs), (in_dec string_dec "C" phs), (tap "A"), (tap "B"), (tap "C"); reflexivity. }
  exists T3. rewrite <- Q. split; [reflexivity|]. split; [assumption|]. apply all_abc; [apply (setting_abc _ _ _ _ S)|]. intros y. rewrite U3, U2, U1. reflexivity.
Qed.
Lemma comp_r_fold cfg val T X phs : setting num cfg "compensator_r_setting_" val -> NoDup phs -> (forall ph, val ph <> None -> In ph phs) ->
  exists R, foldM (set_comp num "compensator_r_setting_" set_r cfg) ["A"; "B"; "C"] (phs, pwl T (fun _ => None) X phs) = Ok (phs, pwl T R X phs) /\ forall y, R y = val y.
Proof.
  intros S ND IV. cbn [foldM].
  destruct (set_r_pwl cfg val T (fun _ => None) X phs "A" S) as (R1 & E1 & U1); try (unfold is_abc; tauto); try reflexivity; try assumption; [apply IV|]. rewrite E1.
  destruct (set_r_pwl cfg val T R1 X phs "B" S) as (R2 & E2 & U2); try (unfold is_abc; tauto); try assumption; [apply IV|now rewrite U1|]. rewrite E2.
  destruct (set_r_pwl cfg val T R2 X phs "C" S) as (R3 & E3 & U3); try (unfold is_abc; tauto); try assumption; [apply IV|rewrite U2; cbn; now rewrite U1|]. rewrite E3.
  exists R3. split; [reflexivity|]. apply all_abc; [apply (setting_abc _ _ _ _ S)|]. intros y. now rewrite U3, U2, U1.
Qed.
Lemma comp_x_fold cfg val T R phs : setting num cfg "compensator_x_setting_" val -> NoDup phs -> (forall ph, val ph <> None -> In ph phs) ->
  exists X, foldM (set_comp num "compensator_x_setting_" set_x cfg) ["A"; "B"; "C"] (phs, pwl T R (fun _ => None) phs) = Ok (phs, pwl T R X phs) /\ forall y, X y = val y.
Proof.
  intros S ND IV. cbn [foldM].
  destruct (set_x_pwl cfg val T R (fun _ => None) phs "A" S) as (R1 & E1 & U1); try (unfold is_abc; tauto); try reflexivity; try assumption; [apply IV|]. rewrite E1.
  destruct (set_x_pwl cfg val T R R1 phs "B" S) as (R2 & E2 & U2); try (unfold is_abc; tauto); try assumption; [apply IV|now rewrite U1|]. rewrite E2.
  destruct (set_x_pwl cfg val T R R2 phs "C" S) as (R3 & E3 & U3); try (unfold is_abc; tauto); try assumption; [apply IV|rewrite U2; cbn; now rewrite U1|]. rewrite E3.
  exists R3. split; [reflexivity|]. apply all_abc; [apply (setting_abc _ _ _ _ S)|]. intros y. now rewrite U3, U2, U1.
Qed.
Lemma intattr_ok o k v : maybe (fun x => exists s, says o k s /\ int s = Ok x) o k v -> intattr int o k = Ok v.
Proof. unfold intattr. destruct v as [x|]; cbn; [intros (s & S & I); rewrite (getitem_says _ _ _ S); cbn; now rewrite I|intros H; now rewrite getitem_lacks]. Qed.
Definition integer (o : obj) (k : string) (v : option Z) : Prop := maybe (fun x => exists s, says o k s /\ int s = Ok x) o k v.

(** A regulator has the phases of its object and those with a tap position in its configuration, on both windings, and the tap
    position and compensator settings of its configuration on each phase; its voltage is that of the node it starts from; the
    delay, band, steps and ratios are those of the configuration. *)
Theorem C77_regulator : forall objs o cfg n f t q p c nd v tap rv xv conn delay bw bc hi lo pt ct ph0 rest,
  text o "name" n -> says o "from" f -> text o "to" t -> dget objs f = Some nd -> number num nd "nominal_voltage" v ->
  says o "phases" q -> quoted q p -> plain p -> NoDup (live_phases p) -> says o "configuration" c -> dget objs c = Some cfg ->
  setting int cfg "tap_pos_" tap -> setting num cfg "compensator_r_setting_" rv -> setting num cfg "compensator_x_setting_" xv ->
  (forall ph, rv ph <> None \/ xv ph <> None -> In ph (live_phases p) \/ tap ph <> None) ->
  text cfg "connect_type" conn -> number num cfg "time_delay" delay -> number num cfg "band_width" bw -> number num cfg "band_center" bc ->
  integer cfg "raise_taps" hi -> integer cfg "lower_taps" lo -> number num cfg "power_transducer_ratio" pt -> number num cfg "current_transducer_ratio" ct ->
  says cfg "PT_phase" (ph0 ++ rest) -> length (chars ph0) = 1%nat -> plain (ph0 ++ rest) ->
  let phs := (live_phases p ++ extra tap (live_phases p))%list in
  conv_regulator num int objs o = Ok (mkReg n (Some f) t v (match conn with Some c => if string_dec c "WYE_WYE" then Some "Y" else None | None => None end)
    phs (map (fun ph => mkPw ph (tap ph) (rv ph) (xv ph)) phs) delay bw bc hi lo pt ct (Some ph0)).
Proof.
  intros objs o cfg n f t q p c nd v tap rv xv conn delay bw bc hi lo pt ct ph0 rest N F T FN V PH Q P ND CF D ST SR SX IV CN DE BW BC HI LO PT CT PP L1 PL phs.
  unfold conv_regulator, reg_voltage. rewrite (attr_says _ _ _ F), FN. cbn [of_opt bind]. rewrite (numattr_number _ _ _ _ V). cbn [bind].
  rewrite (attr_says _ _ _ CF), D, (live_quoted o q p PH P Q).
  change (map (fun p0 : string => mkPw p0 None None None) (live_phases p)) with (pwl (fun _ => None) (fun _ => None) (fun _ => None) (live_phases p)).
  destruct (taps_fold cfg tap (fun _ => None) (fun _ => None) (live_phases p) ST ND) as (T1 & E1 & N1 & U1); [tauto|]. rewrite E1. cbn [bind]. fold phs.
  assert (IN : forall ph, rv ph <> None \/ xv ph <> None -> In ph phs).
  { intros ph H. apply in_app_iff. destruct (in_dec string_dec ph (live_phases p)) as [J|J]; [now left|]. right. destruct (IV ph H) as [J'|TN]; [contradiction|].
    apply filter_In. split. - destruct (SR ph) as [[[->|[->| ->]] _]|[NA RN]]; try (cbn; tauto). destruct (SX ph) as [[[->|[->| ->]] _]|[_ XN]]; try (cbn; tauto).
    - destruct (in_dec string_dec ph (live_phases p)); [contradiction|]. destruct (tap ph); [reflexivity|now elim TN]. }
  destruct (comp_r_fold cfg rv T1 (fun _ => None) phs SR N1) as (R1 & E2 & U2); [intros ph H; apply IN; now left|]. rewrite E2. cbn [bind].
  destruct (comp_x_fold cfg xv T1 R1 phs SX N1) as (X1 & E3 & U3); [intros ph H; apply IN; now right|]. rewrite E3. cbn [bind].
  rewrite (numattr_number _ _ _ _ DE). cbn [bind]. rewrite (numattr_number _ _ _ _ BW). cbn [bind]. rewrite (numattr_number _ _ _ _ BC). cbn [bind].
  rewrite (intattr_ok _ _ _ HI). cbn [bind]. rewrite (intattr_ok _ _ _ LO). cbn [bind]. rewrite (numattr_number _ _ _ _ PT). cbn [bind]. rewrite (numattr_number _ _ _ _ CT). cbn [bind].
  rewrite (attr_says _ _ _ PP), (strip_quoted _ _ PL (or_introl eq_refl)), letters_chars, chars_app.
  assert (C0 : chars ph0 = [ph0]). { destruct ph0 as [|a r]; [discriminate L1|]. destruct r; [reflexivity|discriminate L1]. }
  rewrite C0. cbn [app bind fst snd]. rewrite (attr_text _ _ _ N), (attr_text _ _ _ T), (attr_text _ _ _ CN). f_equal. f_equal.
  - destruct conn as [cc|]; [|reflexivity]. destruct (String.eqb_spec cc "WYE_WYE"), (string_dec cc "WYE_WYE"); congruence.
  - apply map_ext. intros ph. now rewrite U1, U2, U3.
Qed.

(** The nominal voltage of the regulator itself is ignored. *)
Theorem C77_own_voltage_refuted : forall objs o f nd v r, says o "from" f -> dget objs f = Some nd -> lacks nd "nominal_voltage" -> reads num o "nominal_voltage" v ->
  conv_regulator num int objs o = Ok r -> g_v r = None.
Proof.
  intros objs o f nd v r F D L _ E. unfold conv_regulator, reg_voltage in E. rewrite (attr_says _ _ _ F), D in E. cbn [of_opt bind] in E. rewrite (numattr_number num nd "nominal_voltage" None L) in E. cbn [bind] in E.
  destruct (match attr o "configuration" with Some c => dget objs c | None => None end) as [cfg|]; [|injection E as <-; reflexivity].
  repeat match type of E with bind ?r _ = _ => destruct r; cbn [bind] in E; [|discriminate E] end. injection E as <-. reflexivity.
Qed.

(** A regulator that starts from something that is not in the file stops the conversion. *)
Theorem C77_missing_node : forall objs o f, says o "from" f -> dget objs f = None -> conv_regulator num int objs o = Err EKey.
Proof. intros objs o f F D. unfold conv_regulator, reg_voltage. rewrite (attr_says _ _ _ F), D. reflexivity. Qed.

(** A compensator setting of a phase that is not listed and has no tap position stops the conversion. *)
Theorem C77_compensator_refuted : forall objs o cfg f nd v q p c s, says o "from" f -> dget objs f = Some nd -> number num nd "nominal_voltage" v ->
  says o "phases" q -> quoted q p -> plain p -> NoDup (live_phases p) -> says o "configuration" c -> dget objs c = Some cfg ->
  setting int cfg "tap_pos_" (fun _ => None) -> says cfg "compensator_r_setting_A" s -> ~ In "A" (live_phases p) ->
  conv_regulator num int objs o = Err EName.
Proof.
  intros objs o cfg f nd v q p c s F FN V PH Q P ND CF D ST CS NI.
  unfold conv_regulator, reg_voltage. rewrite (attr_says _ _ _ F), FN. cbn [of_opt bind]. rewrite (numattr_number _ _ _ _ V). cbn [bind].
  rewrite (attr_says _ _ _ CF), D, (live_quoted o q p PH P Q).
  change (map (fun p0 : string => mkPw p0 None None None) (live_phases p)) with (pwl (fun _ => None) (fun _ => None) (fun _ => None) (live_phases p)).
  destruct (taps_fold cfg (fun _ => None) (fun _ => None) (fun _ => None) (live_phases p) ST ND) as (T1 & E1 & N1 & U1); [tauto|]. rewrite E1. cbn [bind foldM].
  unfold set_comp at 1. change ("compensator_r_setting_" ++ "A") with "compensator_r_setting_A". rewrite (attr_says _ _ _ CS). cbn [snd].
  destruct (has_phase "A" (pwl T1 (fun _ => None) (fun _ => None) (live_phases p ++ extra (fun _ => @None Z) (live_phases p))%list)) eqn:E; [|reflexivity].
  apply has_pwl in E. apply in_app_iff in E. destruct E as [E|E]; [contradiction|]. apply filter_In in E. destruct E as [_ E]. destruct (in_dec string_dec "A" (live_phases p)); discriminate E.
Qed.
End Reg.
Print Assumptions C77_regulator.
Print Assumptions C77_own_voltage_refuted.
Print Assumptions C77_missing_node.
Print Assumptions C77_compensator_refuted.

Definition ex_int (s : string) : res Z := if String.eqb s "16" then Ok 16%Z else if String.eqb s "-3" then Ok (-3)%Z else Err EValue.
Definition ex_rcfg : obj := mkObj "regulator_configuration" [("name", "rc"); ("connect_type", "WYE_WYE"); ("band_center", "120"); ("raise_taps", "16"); ("lower_taps", "16");
  ("tap_pos_A", "-3"); ("tap_pos_B", "16"); ("compensator_r_setting_B", "25"); ("PT_phase", "AB")].
Definition ex_reg : obj := mkObj "regulator" [("name", "r"); ("from", "n"); ("to", "m"); ("phases", "ACN"); ("configuration", "rc")].
Definition ex_from : obj := mkObj "node" [("name", "n"); ("nominal_voltage", "7200")].
Definition ex_tap (ph : string) : option Z := if String.eqb ph "A" then Some (-3)%Z else if String.eqb ph "B" then Some 16%Z else None.
Definition ex_rv (ph : string) : option Qc := if String.eqb ph "B" then Some (Q2Qc 25) else None.
Example C77_hypotheses_met :
  setting ex_int ex_rcfg "tap_pos_" ex_tap /\ setting ex_num ex_rcfg "compensator_r_setting_" ex_rv /\ setting ex_num ex_rcfg "compensator_x_setting_" (fun _ => None) /\
  (forall ph, ex_rv ph <> None \/ @None Qc <> None -> In ph (live_phases "ACN") \/ ex_tap ph <> None) /\ extra ex_tap (live_phases "ACN") = ["B"] /\ NoDup (live_phases "ACN") /\
  exists r, conv_regulator ex_num ex_int [("n", ex_from); ("rc", ex_rcfg)] ex_reg = Ok r /\ g_phases1 r = ["A"; "C"; "B"] /\ map pw_tap (g_phases2 r) = [Some (-3)%Z; None; Some 16%Z].
Proof.
  assert (AB : forall ph, is_abc ph \/ ~ is_abc ph). { intros ph. unfold is_abc. destruct (string_dec ph "A"), (string_dec ph "B"), (string_dec ph "C"); tauto. }
  assert (NA : forall ph, ~ is_abc ph -> String.eqb ph "A" = false /\ String.eqb ph "B" = false). { intros ph H. unfold is_abc in H. split; apply String.eqb_neq; tauto. }
  split; [|split; [|split; [|split; [|split; [reflexivity|split]]]]].
  - intros ph. destruct (AB ph) as [A|A]; [left; split; [assumption|]|right; split; [assumption|]; unfold ex_tap; destruct (NA ph A) as [-> ->]; reflexivity].
    destruct A as [->|[->| ->]]; cbn; [reads_|reads_|reflexivity].
  - intros ph. destruct (AB ph) as [A|A]; [left; split; [assumption|]|right; split; [assumption|]; unfold ex_rv; destruct (NA ph A) as [_ ->]; reflexivity].
    destruct A as [->|[->| ->]]; cbn; [reflexivity|reads_|reflexivity].
  - intros ph. destruct (AB ph) as [A|A]; [left; split; [assumption|]|right; tauto]. destruct A as [->|[->| ->]]; reflexivity.
  - intros ph [H|H]; [|now elim H]. right. unfold ex_rv, ex_tap in *. destruct (String.eqb ph "A"); [discriminate|]. destruct (String.eqb ph "B"); [discriminate|now elim H].
  - change (live_phases "ACN") with ["A"; "C"]. repeat (apply NoDup_cons; [cbn; intuition discriminate|]); apply NoDup_nil.
  - eexists. split; [reflexivity|]. split; reflexivity.
Qed.
