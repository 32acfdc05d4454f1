(** C98: the nominal voltages that the OpenDSS reader gives to the objects of a model. *)
From Verif Require Import Base DssVoltModel DssVoltSpec DssVoltProofs.
From Coq Require Import Reals Lia.
Local Open Scope string_scope.
Local Open Scope nat_scope.
Local Open Scope list_scope.

Lemma steps_length : forall l objs, length (fold_left obj_step l objs) = length objs.
Proof. intros l objs. rewrite <- (map_length v_name), steps_names. apply map_length. Qed.
Lemma buses_length : forall l objs, length (fold_left bus_step l objs) = length objs.
Proof. intros l objs. rewrite <- (map_length v_name), buses_names. apply map_length. Qed.

(** what an object is at its turn in the second loop *)
Lemma turn : forall buses objs i o, nth_error objs i = Some o ->
  exists mid v, map v_name mid = map v_name objs /\ nth_error mid i = Some (mkV (v_name o) (v_place o) v)
    /\ nth_error (fold_left bus_step buses objs) i = Some (mkV (v_name o) (v_place o) v)
    /\ (forall j p, nth_error (fold_left bus_step buses objs) j = Some p -> still p -> nth_error mid j = Some p)
    /\ nth_error (set_nominal_voltages buses objs) i = nth_error (obj_step mid i) i.
Proof.
  intros buses objs i o N. destruct (bus_frame buses objs i o N) as (v & V).
  destruct (steps_at (seq 0 (length objs)) i (fold_left bus_step buses objs) (seq_NoDup _ _)) as (mid & M & A & K & F).
  - apply in_seq. pose proof (nth_lt _ _ _ N). lia.
  - exists mid, v. split; [now rewrite M, buses_names|]. split; [now rewrite A|]. split; [exact V|]. split; [exact K|exact F].
Qed.
(** the voltage that is found under the name of a bus *)
Lemma found : forall buses objs mid n v, NoDup (names objs) -> NoDup (map (fun x => lower (fst x)) buses) -> map v_name mid = map v_name objs ->
  (forall j p, nth_error (fold_left bus_step buses objs) j = Some p -> still p -> nth_error mid j = Some p) ->
  bus_volt buses n v -> has_node objs n -> volt_of mid (Some n) = Some (Some v).
Proof.
  intros buses objs mid n v D B M K (b & kv & I & L & ->) (p & P & Q & S). subst n.
  destruct (In_nth_error _ _ P) as (j & J). pose proof (index_only _ _ _ _ D J Q) as X.
  pose proof (bus_set buses objs j p b kv B I X J) as Y.
  rewrite (volt_still (fold_left bus_step buses objs) mid (lower b) j (mkV (v_name p) (v_place p) (Some (Some (kv * sqrt 3 * 1000)%R)))).
  - reflexivity.
  - now rewrite buses_names.
  - exact K.
  - now rewrite (index_names _ _ _ (buses_names buses objs)).
  - exact Y.
  - left. exact S.
Qed.

(** C98, in general: whatever the names and the buses are, only voltages change: no object is lost, added, moved or
    renamed, and no transformer gets or loses a winding. A voltage that was set before is lost only to a bus. *)
Theorem C98_frame : forall buses objs, length (set_nominal_voltages buses objs) = length objs /\
  forall i o, nth_error objs i = Some o -> exists o', nth_error (set_nominal_voltages buses objs) i = Some o' /\ same_object o o' /\
    (no_bus buses (v_name o) -> v_volt o <> Some None -> v_volt o' = v_volt o).
Proof.
  intros buses objs. split; [unfold set_nominal_voltages; rewrite steps_length; apply buses_length|]. intros i o N.
  destruct (turn buses objs i o N) as (mid & v & M & A & B & K & F). rewrite F.
  assert (no_bus buses (v_name o) -> v = v_volt o) as U.
  { intros H. rewrite bus_keep in B; [rewrite N in B; injection B as E; now rewrite E|].
    intros (b & kv) I E. cbn [fst] in E. destruct (index_found _ _ _ E) as (p & P & Q). rewrite N in P. injection P as <-.
    apply (H (lower b) (kv * sqrt 3 * 1000)%R Q). exists b, kv. auto. }
  assert (forall p, same_place p p) as R by (intros []; cbn; auto).
  unfold obj_step. rewrite A. cbn [v_volt v_place v_name].
  assert (forall w, nth_error (put mid i w) i = Some w) as P by (intros w; apply put_same, (nth_lt _ _ _ A)).
  destruct v as [[v|]|]; destruct (v_place o) as [| c | f | f t ws |] eqn:E; try rewrite A; try rewrite P;
    try (destruct (volt_of mid _); [rewrite P|rewrite A]); eexists; (split; [reflexivity|]);
    (split; [split; [reflexivity|cbn [v_place]; rewrite ?E; try apply R]|intros H1 H2; cbn [v_volt]; rewrite <- (U H1) in *; congruence || (now destruct H2)]);
    cbn [same_place]; rewrite windings_length; auto.
Qed.
Print Assumptions C98_frame.

(** C98, the voltages: when no two objects have one name and no two buses differ in case only, the object named like a
    bus has the voltage of the bus, from phase to phase and in volts; an object without a voltage takes that of the node
    it is connected to or begins at; so do the first three windings of a transformer, the first from its beginning and
    the others from its end; and voltages that were set before stay. *)
Theorem C98_voltages : forall buses objs, NoDup (names objs) -> NoDup (map (fun x => lower (fst x)) buses) ->
  forall i o, nth_error objs i = Some o -> exists o', nth_error (set_nominal_voltages buses objs) i = Some o' /\
    (forall n v, v_name o = Some n -> bus_volt buses n v -> v_volt o' = Some (Some v)) /\
    (no_bus buses (v_name o) ->
      (v_volt o <> Some None -> v_volt o' = v_volt o) /\
      (forall n v, v_volt o = Some None -> stands_at o n -> bus_volt buses n v -> has_node objs n -> v_volt o' = Some (Some v)) /\
      (forall n, v_volt o = Some None -> stands_at o n -> ~ In n (names objs) -> v_volt o' = Some None)) /\
    (forall f t ws, v_place o = PTrafo f t ws -> v_volt o <> Some None -> exists ws', v_place o' = PTrafo f t ws' /\ length ws' = length ws /\
      forall x w, nth_error ws x = Some w -> exists w', nth_error ws' x = Some w' /\
        (forall v, w = Some v -> w' = Some v) /\ (3 <= x -> w' = w) /\
        (forall n v, x < 3 -> w = None -> side f t x = Some n -> bus_volt buses n v -> has_node objs n -> w' = Some v)).
Proof.
  intros buses objs D B i o N. destruct (turn buses objs i o N) as (mid & v & M & A & BV & K & F). rewrite F.
  assert (no_bus buses (v_name o) -> v = v_volt o) as U.
  { intros H. rewrite bus_keep in BV; [rewrite N in BV; injection BV as E; now rewrite E|].
    intros (b & kv) I E. cbn [fst] in E. destruct (index_found _ _ _ E) as (p & P & Q). rewrite N in P. injection P as <-.
    apply (H (lower b) (kv * sqrt 3 * 1000)%R Q). exists b, kv. auto. }
  assert (forall n w, v_name o = Some n -> bus_volt buses n w -> v = Some (Some w)) as W.
  { intros n w E (b & kv & I & L & ->). subst n. pose proof (index_only _ _ _ _ D N E) as X.
    rewrite (bus_set buses objs i o b kv B I X N) in BV. injection BV as <-. reflexivity. }
  assert (forall n w, bus_volt buses n w -> has_node objs n -> volt_of mid (Some n) = Some (Some w)) as G by (intros n w G H; now apply (found buses objs mid n w D B M K)).
  assert (forall n, ~ In n (names objs) -> volt_of mid (Some n) = None) as Z by (intros n H; now apply (volt_missing objs)).
  assert (forall w, nth_error (put mid i w) i = Some w) as P by (intros w; apply put_same, (nth_lt _ _ _ A)).
  assert (v_volt o <> Some None -> v <> Some None) as V.
  { intros H E. subst v. assert (no_bus buses (v_name o)) as C by (intros n w E1 E2; discriminate (W n w E1 E2)). now rewrite (U C) in H. }
  unfold obj_step. rewrite A. cbn [v_volt v_place v_name].
  destruct v as [[v|]|].
  - (* a voltage is set *)
    assert (exists o', nth_error (match v_place o with PTrafo f t ws => put mid i (mkV (v_name o) (PTrafo f t (fold_left (winding_step mid f t) [0; 1; 2] ws)) (Some (Some v))) | _ => mid end) i = Some o'
      /\ v_volt o' = Some (Some v) /\ forall f t ws, v_place o = PTrafo f t ws -> v_place o' = PTrafo f t (fold_left (winding_step mid f t) [0; 1; 2] ws)) as (o' & O & O1 & O2).
    { destruct (v_place o) as [| c | f | f t ws |] eqn:E; rewrite ?P, ?A; eexists; (split; [reflexivity|]); cbn; (split; [reflexivity|]); intros f0 t0 ws0 Q; congruence. }
    exists o'. split; [exact O|]. rewrite O1. split; [intros n w E1 E2; exact (W n w E1 E2)|]. split.
    + intros C. pose proof (U C) as U1. split; [intros _; exact U1|]. split; intros; congruence.
    + intros f t ws E _. exists (fold_left (winding_step mid f t) [0; 1; 2] ws). split; [apply O2, E|]. split; [apply windings_length|].
      intros x w X. eexists. split; [apply windings_nth, X|]. destruct (Nat.ltb_spec x 3) as [L|L]; split; [intros u ->; reflexivity| |intros u ->; reflexivity|].
      * split; [intros; lia|]. intros n u _ -> S1 S2 S3. rewrite S1, (G n u S2 S3). reflexivity.
      * split; [reflexivity|]. intros; lia.
  - (* no voltage yet *)
    assert (forall n w, v_name o = Some n -> ~ bus_volt buses n w) as C by (intros n w E1 E2; discriminate (W n w E1 E2)).
    pose proof (U C) as U1. 
    assert (exists o', nth_error (match v_place o with PAt k | PFrom k => match volt_of mid k with Some w => put mid i (mkV (v_name o) (v_place o) (Some w)) | None => mid end | _ => mid end) i = Some o'
      /\ (forall n w, stands_at o n -> volt_of mid (Some n) = Some w -> v_volt o' = Some w) /\ (forall n, stands_at o n -> volt_of mid (Some n) = None -> v_volt o' = Some None)) as (o' & O & O1 & O2).
    { unfold stands_at. destruct (v_place o) as [| c | f | f t ws |] eqn:E; rewrite ?A; try (eexists; split; [reflexivity|]; split; intros; destruct H as [H|H]; discriminate).
      - destruct (volt_of mid c) as [w|] eqn:E1; rewrite ?P, ?A; eexists; (split; [reflexivity|]); cbn [v_volt]; (split; [intros n u [H|H] H2|intros n [H|H] H2]; try discriminate H; injection H as ->; rewrite E1 in H2; first [discriminate H2 | (injection H2 as ->; reflexivity) | (cbn [v_volt]; congruence)]).
      - destruct (volt_of mid f) as [w|] eqn:E1; rewrite ?P, ?A; eexists; (split; [reflexivity|]); cbn [v_volt]; (split; [intros n u [H|H] H2|intros n [H|H] H2]; try discriminate H; injection H as ->; rewrite E1 in H2; first [discriminate H2 | (injection H2 as ->; reflexivity) | (cbn [v_volt]; congruence)]). }
    exists o'. split; [destruct (v_place o); exact O|]. split; [intros n w E1 E2; destruct (C n w E1 E2)|]. split.
    + intros _. split; [intros H; now rewrite <- U1 in H|]. split; [intros n w _ S1 S2 S3; apply (O1 n _ S1), (G n w S2 S3)|].
      intros n _ S1 S2. apply (O2 n S1), (Z n S2).
    + intros f t ws _ H. now rewrite <- U1 in H.
  - (* no such attribute *)
    assert (exists o', nth_error (match v_place o with PTrafo f t ws => put mid i (mkV (v_name o) (PTrafo f t (fold_left (winding_step mid f t) [0; 1; 2] ws)) None) | _ => mid end) i = Some o'
      /\ v_volt o' = None /\ forall f t ws, v_place o = PTrafo f t ws -> v_place o' = PTrafo f t (fold_left (winding_step mid f t) [0; 1; 2] ws)) as (o' & O & O1 & O2).
    { destruct (v_place o) as [| c | f | f t ws |] eqn:E; rewrite ?P, ?A; eexists; (split; [reflexivity|]); cbn; (split; [reflexivity|]); intros f0 t0 ws0 Q; congruence. }
    exists o'. split; [exact O|]. rewrite O1. split; [intros n w E1 E2; exact (W n w E1 E2)|]. split.
    + intros C. pose proof (U C) as U1. split; [intros _; exact U1|]. split; intros; congruence.
    + intros f t ws E _. exists (fold_left (winding_step mid f t) [0; 1; 2] ws). split; [apply O2, E|]. split; [apply windings_length|].
      intros x w X. eexists. split; [apply windings_nth, X|]. destruct (Nat.ltb_spec x 3) as [L|L]; split; [intros u ->; reflexivity| |intros u ->; reflexivity|].
      * split; [intros; lia|]. intros n u _ -> S1 S2 S3. rewrite S1, (G n u S2 S3). reflexivity.
      * split; [reflexivity|]. intros; lia.
Qed.
Print Assumptions C98_voltages.

(** Objects of any class share one table of names, and the last one counts. A node with a later namesake, say a line or a
    load named like its bus, keeps no voltage at all, and the namesake is given the voltage of the bus instead of its own. *)
Theorem C98_namesake_refuted : forall buses objs i j o p n v, nth_error objs i = Some o -> nth_error objs j = Some p -> i < j ->
  v_name o = Some n -> v_name p = Some n -> v_place o = PNode -> (forall k q, j < k -> nth_error objs k = Some q -> v_name q <> Some n) ->
  NoDup (map (fun x => lower (fst x)) buses) -> bus_volt buses n v ->
  (exists o', nth_error (set_nominal_voltages buses objs) i = Some o' /\ v_volt o' = v_volt o) /\
  (exists p', nth_error (set_nominal_voltages buses objs) j = Some p' /\ v_volt p' = Some (Some v)).
Proof.
  intros buses objs i j o p n v N1 N2 L E1 E2 S Q B (b & kv & I & <- & ->).
  assert (index_of objs (lower b) = Some j) as X.
  { destruct (index_last objs _ _ _ N2 E2) as (k & X & J). destruct (index_found _ _ _ X) as (q & Y & Z).
    destruct (Nat.eq_dec k j) as [->|D]; [exact X|]. destruct (Q k q ltac:(lia) Y Z). }
  split.
  - destruct (turn buses objs i o N1) as (mid & w & M & A & BV & K & F). rewrite F. unfold obj_step. rewrite A. cbn [v_volt v_place v_name]. rewrite S.
    assert (w = v_volt o) as ->.
    { rewrite bus_keep in BV; [rewrite N1 in BV; injection BV as E; now rewrite E|].
      intros (c & kc) C E. cbn [fst] in E. destruct (index_found _ _ _ E) as (q & Y & Z). rewrite N1 in Y. injection Y as <-.
      rewrite E1 in Z. injection Z as Z. rewrite <- Z, X in E. injection E as E. lia. }
    destruct (v_volt o) as [[]|]; rewrite A; eexists; (split; [reflexivity|reflexivity]).
  - destruct (turn buses objs j p N2) as (mid & w & M & A & BV & K & F). rewrite F. unfold obj_step. rewrite A. cbn [v_volt v_place v_name].
    rewrite (bus_set buses objs j p b kv B I X N2) in BV. injection BV as <-.
    destruct (v_place p); try (rewrite A; eexists; split; reflexivity).
    rewrite put_same by apply (nth_lt _ _ _ A). eexists. split; reflexivity.
Qed.
Print Assumptions C98_namesake_refuted.

(** Buses are looked up in lower case, the ends of an element as they are written: an element whose bus is not written in
    lower case has no voltage, although the bus has one. *)
Theorem C98_case_refuted : exists buses objs o v, nth_error objs 1 = Some o /\ v_place o = PAt (Some "B1") /\ bus_volt buses (lower "B1") v /\ has_node objs (lower "B1") /\
  NoDup (names objs) /\ exists o', nth_error (set_nominal_voltages buses objs) 1 = Some o' /\ v_volt o' = Some None.
Proof.
  exists [("b1", 2)%R], [mkV (Some "b1") PNode (Some None); mkV (Some "l") (PAt (Some "B1")) (Some None)], (mkV (Some "l") (PAt (Some "B1")) (Some None)), (2 * sqrt 3 * 1000)%R.
  split; [reflexivity|]. split; [reflexivity|]. split; [exists "b1", 2%R; split; [now left|split; reflexivity]|].
  split; [eexists; split; [left; reflexivity|split; reflexivity]|]. split; [repeat constructor; cbn; intuition discriminate|].
  eexists. split; reflexivity.
Qed.
Print Assumptions C98_case_refuted.

(** Only the first three windings are looked at: a fourth one has no voltage, wherever the transformer stands. *)
Theorem C98_winding_refuted : forall buses objs i o f t ws, nth_error objs i = Some o -> v_place o = PTrafo f t ws -> v_volt o = None -> no_bus buses (v_name o) ->
  nth_error ws 3 = Some None -> exists o' ws', nth_error (set_nominal_voltages buses objs) i = Some o' /\ v_place o' = PTrafo f t ws' /\ nth_error ws' 3 = Some None.
Proof.
  intros buses objs i o f t ws N S V C W. destruct (turn buses objs i o N) as (mid & w & M & A & BV & K & F). rewrite F. unfold obj_step. rewrite A. cbn [v_volt v_place v_name]. rewrite S.
  assert (w = None) as ->.
  { rewrite bus_keep in BV; [rewrite N in BV; injection BV as E; rewrite E in V; exact V|].
    intros (b & kv) I E. cbn [fst] in E. destruct (index_found _ _ _ E) as (p & P & Q). rewrite N in P. injection P as <-.
    apply (C (lower b) (kv * sqrt 3 * 1000)%R Q). exists b, kv. auto. }
  eexists _, _. split; [apply put_same, (nth_lt _ _ _ A)|]. split; [reflexivity|]. rewrite (windings_nth _ _ _ _ 3 None W). reflexivity.
Qed.
Print Assumptions C98_winding_refuted.

(** a source with a node, a line, a transformer, and a load behind it *)
Definition net_v : list vobj :=
  [ mkV (Some "b1") PNode (Some None); mkV (Some "b2") PNode (Some None); mkV (Some "l1") (PFrom (Some "b1")) (Some None);
    mkV (Some "t1") (PTrafo (Some "b1") (Some "b2") [None; Some 240%R; None]) None; mkV (Some "load_x") (PAt (Some "b2")) (Some None);
    mkV None POther (Some None); mkV (Some "src") (PAt (Some "b1")) (Some (Some 7200%R)) ].
Example C98_hypotheses_met : NoDup (names net_v) /\ NoDup (map (fun x => lower (fst x)) [("B1", 4); ("B2", 1)]%R) /\
  let v k := Some (Some (k * sqrt 3 * 1000)%R) in
  set_nominal_voltages [("B1", 4); ("B2", 1)]%R net_v =
  [ mkV (Some "b1") PNode (v 4%R); mkV (Some "b2") PNode (v 1%R); mkV (Some "l1") (PFrom (Some "b1")) (v 4%R);
    mkV (Some "t1") (PTrafo (Some "b1") (Some "b2") [Some (4 * sqrt 3 * 1000)%R; Some 240%R; Some (1 * sqrt 3 * 1000)%R]) None; mkV (Some "load_x") (PAt (Some "b2")) (v 1%R);
    mkV None POther (Some None); mkV (Some "src") (PAt (Some "b1")) (Some (Some 7200%R)) ].
Proof. split; [repeat constructor; cbn; intuition discriminate|]. split; [repeat constructor; cbn; intuition discriminate|]. reflexivity. Qed.
