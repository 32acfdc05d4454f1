(** C140: the buses, switches and sources in the tables of the ePhasor writer. *)
From Coq Require Import Reals ZArith Lia Lra.
From Verif Require Import Base BaseFacts EphModel.
Local Open Scope string_scope.
Local Open Scope list_scope.

(** ** Specification *)

(** The phases of a node that are written, in lower case. *)
Definition abc (p : string) : list string := if in_dec string_dec (lower p) ["a"; "b"; "c"] then [lower p] else [].
Definition letters_of (n : enode) : list string := flat_map (fun o => match o with Some p => abc p | None => [] end) (en_phases n).
(** In the order of the alphabet, none twice. *)
Definition ordered (ls : list string) : Prop :=
  In ls [[]; ["a"]; ["b"]; ["c"]; ["a"; "b"]; ["a"; "c"]; ["b"; "c"]; ["a"; "b"; "c"]].
Definition has_angle (p : string) (z : Z) : Prop := In (p, z) [("a", 0%Z); ("b", 120%Z); ("c", (-120)%Z)].
(** The voltage to ground of a voltage between phases. *)
Definition ground_voltage (v w : option R) : Prop :=
  match v, w with Some x, Some y => (y * sqrt 3 = x)%R | None, None => True | _, _ => False end.
(** The row of a phase of a node. *)
Definition row_of (np : enode * string) (r : brow) : Prop :=
  exists name, en_name (fst np) = Some name /\ b_bus r = (name ++ "_" ++ snd np)%string /\
  ground_voltage (en_voltage (fst np)) (b_base r) /\ ground_voltage (en_voltage (fst np)) (b_volt r) /\ has_angle (snd np) (b_angle r) /\
  ((lower name = "sourcebus" /\ b_type r = "SLACK") \/ (lower name <> "sourcebus" /\ b_type r = "PQ")).
Definition node_phases (nodes : list enode) : list (enode * string) := flat_map (fun n => map (pair n) (letters_of n)) nodes.

(** The wires of switches that are written: those of lines with two ends, except the neutrals. *)
Definition phase_wires (l : eline) : list (eline * string * bool) :=
  match el_switch l, el_from l, el_to l, el_wires l with
  | true, Some _, Some _, Some ws =>
      flat_map (fun w => match ew_phase w with Some p => if string_dec p "N" then [] else [(l, p, ew_open w)] | None => [] end) ws
  | _, _, _, _ => []
  end.
Definition switch_of (x : eline * string * bool) (r : srow) : Prop :=
  let '(l, p, o) := x in
  exists f t n, el_from l = Some f /\ el_to l = Some t /\ el_name l = Some n /\
  s_from r = (f ++ "_" ++ lower p)%string /\ s_to r = (t ++ "_" ++ lower p)%string /\ s_name r = (n ++ "_" ++ lower p)%string /\
  (s_status r = "0" <-> o = true) /\ (s_status r = "1" <-> o = false).

Definition at_phase (s : esource) (p : string) (b : option string) : Prop :=
  forall x, b = Some x <-> (exists q, In (Some q) (es_phases s) /\ lower q = p) /\ exists e, es_element s = Some e /\ x = (e ++ "_" ++ p)%string.
Definition in_mega (v w : option R) : Prop :=
  match v, w with Some x, Some y => (y * 1000000 = x)%R | None, None => True | _, _ => False end.
Definition source_of (s : esource) (r : prow) : Prop :=
  at_phase s "a" (p_a r) /\ at_phase s "b" (p_b r) /\ at_phase s "c" (p_c r) /\ p_id r = es_name s /\
  (exists v, es_voltage s = Some v /\ (p_kv r * 1000 = v)%R) /\ p_angle r = es_angle s /\ in_mega (es_power s) (p_scl1 r) /\ in_mega (es_power s) (p_scl3 r).

(** ** Buses *)

Lemma letter_abc p : abc p = if letter (lower p) then [lower p] else [].
Proof.
  unfold abc, letter. destruct (in_dec string_dec (lower p) ["a"; "b"; "c"]) as [I|N].
  - destruct I as [<-|[<-|[<-|[]]]]; reflexivity.
  - destruct (String.eqb_spec (lower p) "a") as [E|]; [exfalso; apply N; rewrite E; cbn; tauto|].
    destruct (String.eqb_spec (lower p) "b") as [E|]; [exfalso; apply N; rewrite E; cbn; tauto|].
    destruct (String.eqb_spec (lower p) "c") as [E|]; [exfalso; apply N; rewrite E; cbn; tauto|]. reflexivity.
Qed.

Definition kind_of (nm : string) : string := if String.eqb (lower nm) "sourcebus" then "SLACK" else "PQ".
Definition lets (phs : list (option string)) : list string := flat_map (fun o => match o with Some p => abc p | None => [] end) phs.

Lemma phases_named n nm phs : en_name n = Some nm -> forall c seen,
  foldM (add_phase n) phs (c, seen) =
  Ok (mkColumns (c_bus c ++ map (fun p => nm ++ "_" ++ p)%string (lets phs)) (c_base c ++ map (fun _ => to_ground (en_voltage n)) (lets phs))
        (c_volt c ++ map (fun _ => to_ground (en_voltage n)) (lets phs)) (c_type c ++ map (fun _ => kind_of nm) (lets phs)) (c_angle c),
      rev (lets phs) ++ seen).
Proof.
  intros E. induction phs as [|[p|] phs IH]; intros c seen.
  - cbn. rewrite !app_nil_r. destruct c; reflexivity.
  - cbn [foldM add_phase]. unfold lets. cbn [flat_map]. fold (lets phs). rewrite letter_abc. destruct (letter (lower p)) eqn:L.
    + unfold join. rewrite E. cbn [bind of_opt fst snd]. rewrite IH. cbn [c_bus c_base c_volt c_type c_angle app map rev]. rewrite <- !app_assoc. reflexivity.
    + cbn [bind app]. apply IH.
  - cbn [foldM add_phase bind]. apply IH.
Qed.

Lemma phases_unnamed n phs : en_name n = None -> forall s s', foldM (add_phase n) phs s = Ok s' -> lets phs = [] /\ s' = s.
Proof.
  intros E. induction phs as [|[p|] phs IH]; intros s s' H.
  - cbn in H. injection H as <-. auto.
  - cbn [foldM add_phase] in H. unfold lets. cbn [flat_map]. fold (lets phs). rewrite letter_abc. destruct (letter (lower p)).
    + unfold join in H. rewrite E in H. discriminate H.
    + cbn [bind] in H. now apply IH.
  - cbn [foldM add_phase bind] in H. now apply IH.
Qed.

Lemma phases_none n phs : lets phs = [] -> forall s, foldM (add_phase n) phs s = Ok s.
Proof.
  induction phs as [|[p|] phs IH]; intros H s; [reflexivity| |].
  - unfold lets in H. cbn [flat_map] in H. fold (lets phs) in H. rewrite letter_abc in H. apply app_eq_nil in H. destruct H as [A B].
    cbn [foldM add_phase]. destruct (letter (lower p)); [discriminate A|]. cbn [bind]. now apply IH.
  - cbn [foldM add_phase bind]. now apply IH.
Qed.

Definition angle_of (p : string) : Z := if String.eqb p "a" then 0%Z else if String.eqb p "b" then 120%Z else (-120)%Z.

Lemma angles_ordered ls : ordered ls -> angles (rev ls ++ []) = map angle_of ls.
Proof. intros H. cbn in H. repeat (destruct H as [<-|H]; [reflexivity|]). destruct H. Qed.

Definition name_or (n : enode) : string := match en_name n with Some s => s | None => "" end.

Lemma node_value n c : ordered (letters_of n) -> (letters_of n <> [] -> en_name n <> None) ->
  add_node c n =
  Ok (mkColumns (c_bus c ++ map (fun np => name_or (fst np) ++ "_" ++ snd np)%string (map (pair n) (letters_of n)))
        (c_base c ++ map (fun np => to_ground (en_voltage (fst np))) (map (pair n) (letters_of n)))
        (c_volt c ++ map (fun np => to_ground (en_voltage (fst np))) (map (pair n) (letters_of n)))
        (c_type c ++ map (fun np => kind_of (name_or (fst np))) (map (pair n) (letters_of n)))
        (c_angle c ++ map (fun np => angle_of (snd np)) (map (pair n) (letters_of n)))).
Proof.
  intros HO HN. unfold add_node. rewrite !map_map. cbn [fst snd]. unfold letters_of in *. fold (lets (en_phases n)) in *.
  destruct (en_name n) as [nm|] eqn:E.
  - rewrite (phases_named n nm _ E). cbn [bind fst snd c_bus c_base c_volt c_type c_angle]. rewrite (angles_ordered _ HO). unfold name_or. rewrite E. reflexivity.
  - assert (L : lets (en_phases n) = []). { destruct (lets (en_phases n)); [reflexivity|]. exfalso. apply HN; [discriminate | reflexivity]. }
    rewrite (phases_none n _ L). cbn [bind fst snd]. rewrite L. cbn. rewrite !app_nil_r. destruct c; reflexivity.
Qed.

Lemma nodes_value nodes : (forall n, In n nodes -> ordered (letters_of n) /\ (letters_of n <> [] -> en_name n <> None)) -> forall c,
  foldM add_node nodes c =
  Ok (mkColumns (c_bus c ++ map (fun np => name_or (fst np) ++ "_" ++ snd np)%string (node_phases nodes))
        (c_base c ++ map (fun np => to_ground (en_voltage (fst np))) (node_phases nodes))
        (c_volt c ++ map (fun np => to_ground (en_voltage (fst np))) (node_phases nodes))
        (c_type c ++ map (fun np => kind_of (name_or (fst np))) (node_phases nodes))
        (c_angle c ++ map (fun np => angle_of (snd np)) (node_phases nodes))).
Proof.
  induction nodes as [|n nodes IH]; intros H c.
  - cbn. rewrite !app_nil_r. destruct c; reflexivity.
  - cbn [foldM]. destruct (H n (or_introl eq_refl)) as [HO HN]. rewrite (node_value n c HO HN). cbn [bind].
    rewrite IH by (intros m Hm; apply H; now right). cbn [c_bus c_base c_volt c_type c_angle]. unfold node_phases. cbn [flat_map].
    rewrite !map_app, <- !app_assoc. reflexivity.
Qed.

Lemma frame_map {A} (f : A -> string) g h k t (l : list A) :
  frame (map f l) (map g l) (map h l) (map k l) (map t l) = Ok (map (fun x => mkBrow (f x) (g x) (h x) (k x) (t x)) l).
Proof. induction l as [|x l IH]; [reflexivity|]. cbn [map frame]. rewrite IH. reflexivity. Qed.

Lemma ground_ok v : ground_voltage v (to_ground v).
Proof.
  destruct v as [x|]; cbn; [|exact I]. field. assert (0 < sqrt 3)%R by (apply sqrt_lt_R0; lra). lra.
Qed.

(** C140: for nodes whose phases are in order, the table of buses has one row for each phase of each node, in order, with
    the voltage to ground, the angle of the phase, and the slack type for the source bus only. *)
Theorem C140_bus : forall nodes,
  (forall n, In n nodes -> ordered (letters_of n) /\ (letters_of n <> [] -> en_name n <> None)) ->
  exists rows, bus nodes = Ok rows /\ Forall2 row_of (node_phases nodes) rows.
Proof.
  intros nodes H. unfold bus. rewrite (nodes_value nodes H). cbn [bind c_bus c_base c_volt c_type c_angle app]. rewrite frame_map.
  eexists. split; [reflexivity|].
  assert (P : forall np, In np (node_phases nodes) -> In (snd np) ["a"; "b"; "c"] /\ en_name (fst np) <> None).
  { intros np I. unfold node_phases in I. apply in_flat_map in I. destruct I as [n [N I]]. apply in_map_iff in I. destruct I as [p [<- I]]. cbn [fst snd].
    destruct (H n N) as [_ HN]. split; [|apply HN; intros E; rewrite E in I; destruct I].
    unfold letters_of in I. apply in_flat_map in I. destruct I as [[q|] [_ I]]; [|destruct I]. unfold abc in I.
    destruct (in_dec string_dec (lower q) ["a"; "b"; "c"]) as [Q|]; [|destruct I]. destruct I as [<-|[]]. exact Q. }
  induction (node_phases nodes) as [|[n p] l IH]; [constructor|]. cbn [map]. constructor; [|apply IH; intros np Hnp; apply P; now right].
  destruct (P (n, p) (or_introl eq_refl)) as [A B]. cbn [fst snd] in *. unfold row_of. cbn [fst snd b_bus b_base b_volt b_angle b_type].
  unfold name_or. destruct (en_name n) as [nm|]; [|congruence]. exists nm. split; [reflexivity|]. split; [reflexivity|].
  split; [apply ground_ok|]. split; [apply ground_ok|]. split.
  - unfold has_angle. destruct A as [<-|[<-|[<-|[]]]]; cbn; tauto.
  - unfold kind_of. destruct (String.eqb_spec (lower nm) "sourcebus"); [left | right]; auto.
Qed.
Print Assumptions C140_bus.

(** Refutation of "the angle in a row is that of its phase": with two phases that are not in the order of the alphabet each
    has the angle of the other. *)
Theorem C140_angle_refuted : forall name v p q zp zq,
  In (p, q) [("b", "a"); ("c", "a"); ("c", "b")] -> has_angle p zp -> has_angle q zq ->
  exists r1 r2, bus [mkEnode (Some name) v [Some p; Some q]] = Ok [r1; r2] /\
  b_bus r1 = (name ++ "_" ++ p)%string /\ b_angle r1 = zq /\ b_bus r2 = (name ++ "_" ++ q)%string /\ b_angle r2 = zp.
Proof.
  intros name v p q zp zq H HP HQ. cbn [In] in H.
  destruct H as [H|[H|[H|[]]]]; injection H as <- <-; cbn [has_angle In] in HP, HQ;
    repeat (destruct HP as [HP|HP]; [try discriminate HP|]); try (destruct HP; fail); injection HP as <-;
    repeat (destruct HQ as [HQ|HQ]; [try discriminate HQ|]); try (destruct HQ; fail); injection HQ as <-;
    eexists; eexists; repeat split; reflexivity.
Qed.
Print Assumptions C140_angle_refuted.

Lemma angle_count seen : length (angles seen) = length (filter (fun p => smem p seen) ["a"; "b"; "c"]).
Proof. unfold angles. cbn [filter]. destruct (smem "a" seen), (smem "b" seen), (smem "c" seen); reflexivity. Qed.

Lemma count_le ls : (length (angles (rev ls ++ [])) <= length ls)%nat /\ (length (angles (rev ls ++ [])) = length ls -> NoDup ls).
Proof.
  rewrite app_nil_r, angle_count. set (l := filter _ _).
  assert (ND : NoDup l) by (apply NoDup_filter; repeat constructor; cbn; intuition discriminate).
  assert (IN : incl l ls). { intros p I. apply filter_In in I. destruct I as [_ I]. apply smem_In in I. now apply in_rev. }
  split; [now apply NoDup_incl_length|]. intros E. apply (@NoDup_incl_NoDup _ l ls ND); [lia | exact IN].
Qed.

Lemma node_count c n c' : add_node c n = Ok c' ->
  exists k, length (c_bus c') = (length (c_bus c) + length (letters_of n))%nat /\ length (c_angle c') = (length (c_angle c) + k)%nat /\
  (k <= length (letters_of n))%nat /\ (k = length (letters_of n) -> NoDup (letters_of n)).
Proof.
  unfold add_node, letters_of. fold (lets (en_phases n)). intros H. exists (length (angles (rev (lets (en_phases n)) ++ []))).
  destruct (count_le (lets (en_phases n))) as [L N]. destruct (en_name n) as [nm|] eqn:E.
  - rewrite (phases_named n nm _ E) in H. cbn [bind fst snd] in H. injection H as <-. cbn [c_bus c_angle]. rewrite !app_length, map_length. auto.
  - destruct (foldM _ _ _) as [s|] eqn:F; cbn [bind] in H; [|discriminate]. apply (phases_unnamed n _ E) in F. destruct F as [Z ->]. cbn [fst snd] in H.
    injection H as <-. cbn [c_bus c_angle]. rewrite Z in *. cbn in *. rewrite app_nil_r. split; [lia|]. split; [lia|]. split; [lia|]. constructor.
Qed.

Lemma frame_lengths b : forall v w a t rows, frame b v w a t = Ok rows -> length a = length b.
Proof.
  induction b as [|x b IH]; intros [|? v] [|? w] [|? a] [|? t] rows H; cbn [frame] in H; try discriminate; [reflexivity|].
  destruct (frame b v w a t) eqn:E; cbn [bind] in H; [|discriminate]. cbn. f_equal. eapply IH. exact E.
Qed.

(** Refutation of "every network is written": a node that has a phase twice stops the writer, whatever the other nodes. *)
Theorem C140_twice_refuted : forall nodes n rows, In n nodes -> ~ NoDup (letters_of n) -> bus nodes <> Ok rows.
Proof.
  intros nodes n rows I ND H. unfold bus in H. destruct (foldM add_node nodes _) as [c|] eqn:E; cbn [bind] in H; [|discriminate].
  apply frame_lengths in H.
  assert (G : forall nodes c0 c, foldM add_node nodes c0 = Ok c -> exists a b, length (c_angle c) = (length (c_angle c0) + a)%nat /\
    length (c_bus c) = (length (c_bus c0) + b)%nat /\ (a <= b)%nat /\ (a = b -> forall m, In m nodes -> NoDup (letters_of m))).
  { clear. induction nodes as [|m nodes IH]; intros c0 c H.
    - cbn in H. injection H as <-. exists 0%nat, 0%nat. split; [lia|]. split; [lia|]. split; [lia|]. intros _ m [].
    - cbn [foldM] in H. destruct (add_node c0 m) as [c1|] eqn:E; cbn [bind] in H; [|discriminate].
      destruct (node_count _ _ _ E) as (k & A & B & L & N). destruct (IH _ _ H) as (a & b & A' & B' & L' & N').
      exists (k + a)%nat, (length (letters_of m) + b)%nat. split; [lia|]. split; [lia|]. split; [lia|].
      intros Q x [<-|X]; [apply N; lia | apply N'; [lia | exact X]]. }
  destruct (G _ _ _ E) as (a & b & A & B & L & N). cbn in A, B. apply ND. apply N; [lia | exact I].
Qed.
Print Assumptions C140_twice_refuted.

(** ** Switches *)

Definition wire_cells (l : eline) (ws : list ewire) : list (eline * string * bool) :=
  flat_map (fun w => match ew_phase w with Some p => if string_dec p "N" then [] else [(l, p, ew_open w)] | None => [] end) ws.

Lemma wires_rows l f t ws : el_from l = Some f -> el_to l = Some t -> forall rows rows',
  foldM (switch_wire l) ws rows = Ok rows' -> exists more, rows' = rows ++ more /\ Forall2 switch_of (wire_cells l ws) more.
Proof.
  intros EF ET. induction ws as [|w ws IH]; intros rows rows' H.
  - cbn in H. injection H as <-. exists []. split; [now rewrite app_nil_r | constructor].
  - cbn [foldM] in H. unfold switch_wire in H at 1. unfold wire_cells. cbn [flat_map]. fold (wire_cells l ws).
    destruct (ew_phase w) as [p|]; [|cbn [bind] in H; now apply IH].
    destruct (string_dec p "N") as [X|X].
    { apply String.eqb_eq in X. rewrite X in H. cbn [bind] in H. now apply IH. }
    apply String.eqb_neq in X. rewrite X in H. unfold join in H. rewrite EF, ET in H. cbn [bind] in H.
    destruct (el_name l) as [n|] eqn:EN; cbn [bind] in H; [|discriminate]. destruct (IH _ _ H) as (more & -> & F).
    eexists. rewrite <- app_assoc. split; [reflexivity|]. cbn [app]. constructor; [|exact F].
    exists f, t, n. cbn [s_from s_to s_name s_status]. repeat (split; [assumption || reflexivity|]). destruct (ew_open w); split; split; congruence.
Qed.

(** The table of switches has one row for each phase of each switch, in order: the phase is appended to the names of the
    switch and its ends, and the status is 0 exactly for open wires. *)
Theorem C140_switches : forall lines rows, switch lines = Ok rows -> Forall2 switch_of (flat_map phase_wires lines) rows.
Proof.
  intros lines. unfold switch.
  assert (G : forall rows rows', foldM switch_line lines rows = Ok rows' -> exists more, rows' = rows ++ more /\ Forall2 switch_of (flat_map phase_wires lines) more).
  { induction lines as [|l lines IH]; intros rows rows' H.
    - cbn in H. injection H as <-. exists []. split; [now rewrite app_nil_r | constructor].
    - cbn [foldM] in H. destruct (switch_line rows l) as [r1|] eqn:E; cbn [bind] in H; [|discriminate]. destruct (IH _ _ H) as (m2 & -> & F2).
      assert (X : exists m1, r1 = rows ++ m1 /\ Forall2 switch_of (phase_wires l) m1).
      { unfold switch_line in E. unfold phase_wires. destruct (el_switch l).
        - destruct (el_from l) as [f|] eqn:EF; [|injection E as <-; exists []; split; [now rewrite app_nil_r | constructor]].
          destruct (el_to l) as [t|] eqn:ET; [|injection E as <-; exists []; split; [now rewrite app_nil_r | constructor]].
          destruct (el_wires l) as [ws|]; [|injection E as <-; exists []; split; [now rewrite app_nil_r | constructor]].
          exact (wires_rows l f t ws EF ET _ _ E).
        - injection E as <-. exists []. split; [now rewrite app_nil_r | constructor]. }
      destruct X as (m1 & -> & F1). exists (m1 ++ m2). rewrite app_assoc. split; [reflexivity|]. cbn [flat_map]. now apply Forall2_app. }
  intros rows H. destruct (G [] rows H) as (more & -> & F). exact F.
Qed.
Print Assumptions C140_switches.

(** It is written when all switches have names. *)
Theorem C140_switches_written : forall lines, (forall l, In l lines -> el_switch l = true -> el_name l <> None) -> exists rows, switch lines = Ok rows.
Proof.
  intros lines. unfold switch. generalize (@nil srow). induction lines as [|l lines IH]; intros rows H; [cbn; eauto|]. cbn [foldM].
  assert (X : exists r, switch_line rows l = Ok r).
  { unfold switch_line. pose proof (H l (or_introl eq_refl)) as N. destruct (el_switch l); [|eauto]. specialize (N eq_refl).
    destruct (el_from l) as [f|] eqn:EF; [|eauto]. destruct (el_to l) as [t|] eqn:ET; [|eauto]. destruct (el_wires l) as [ws|]; [|eauto].
    destruct (el_name l) as [n|] eqn:EN; [|congruence]. clear - EF ET EN. revert rows. induction ws as [|w ws IH]; intros rows; [cbn; eauto|].
    cbn [foldM]. unfold switch_wire at 1. destruct (ew_phase w) as [p|]; [|cbn [bind]; apply IH]. destruct (String.eqb p "N"); [cbn [bind]; apply IH|].
    unfold join. rewrite EF, ET, EN. cbn [bind]. apply IH. }
  destruct X as [r ->]. cbn [bind]. apply IH. intros m M. apply H. now right.
Qed.
Print Assumptions C140_switches_written.

(** ** Sources *)

Definition said (phs : list (option string)) (p : string) : Prop := exists q, In (Some q) phs /\ lower q = p.
Definition slot (s : esource) (phs : list (option string)) (p : string) (old new : option string) : Prop :=
  (said phs p /\ exists e, es_element s = Some e /\ new = Some (e ++ "_" ++ p)%string) \/ (~ said phs p /\ new = old).

Lemma said_cons q phs p : said (Some q :: phs) p <-> lower q = p \/ said phs p.
Proof.
  unfold said. split.
  - intros (x & [E|I] & L); [left; now injection E as -> | right; eauto].
  - intros [L|(x & I & L)]; [exists q | exists x]; cbn; auto.
Qed.

Lemma slot_skip s q phs p old new : lower q <> p -> slot s phs p old new -> slot s (Some q :: phs) p old new.
Proof. intros N [[S E]|[S E]]; [left | right]; (split; [|exact E]); rewrite said_cons; tauto. Qed.
Lemma slot_set s q phs p old new e : lower q = p -> es_element s = Some e -> slot s phs p (Some (e ++ "_" ++ p)%string) new -> slot s (Some q :: phs) p old new.
Proof.
  intros L E [[S X]|[S X]]; left; (split; [rewrite said_cons; tauto|]); [exact X|]. eauto.
Qed.

Lemma source_slots s phs : forall r r', foldM (source_phase s) phs r = Ok r' ->
  slot s phs "a" (p_a r) (p_a r') /\ slot s phs "b" (p_b r) (p_b r') /\ slot s phs "c" (p_c r) (p_c r') /\
  p_id r' = p_id r /\ p_kv r' = p_kv r /\ p_angle r' = p_angle r /\ p_scl1 r' = p_scl1 r /\ p_scl3 r' = p_scl3 r.
Proof.
  induction phs as [|[q|] phs IH]; intros r r' H.
  - cbn in H. injection H as <-. assert (N : forall p, ~ said [] p) by (intros p (x & [] & _)). unfold slot. repeat split; auto.
  - cbn [foldM] in H. unfold source_phase in H at 1. cbn [of_opt bind] in H. destruct (letter (lower q)) eqn:L.
    + unfold join in H. destruct (es_element s) as [e|] eqn:E; cbn [bind] in H; [|discriminate].
      unfold letter in L. destruct (String.eqb_spec (lower q) "a") as [A|A].
      * rewrite A in H. destruct (IH _ _ H) as (X & Y & Z & T). cbn [p_a p_b p_c p_id p_kv p_angle p_scl1 p_scl3] in *.
        split; [now apply (slot_set s q phs "a" _ _ e)|]. split; [apply slot_skip; [congruence | exact Y]|]. split; [apply slot_skip; [congruence | exact Z] | exact T].
      * destruct (String.eqb_spec (lower q) "b") as [B|B].
        -- rewrite B in H. destruct (IH _ _ H) as (X & Y & Z & T). cbn [p_a p_b p_c p_id p_kv p_angle p_scl1 p_scl3] in *.
           split; [now apply slot_skip|]. split; [now apply (slot_set s q phs "b" _ _ e)|]. split; [apply slot_skip; [congruence | exact Z] | exact T].
        -- destruct (String.eqb_spec (lower q) "c") as [C|C]; [|discriminate L].
           rewrite C in H. destruct (IH _ _ H) as (X & Y & Z & T). cbn [p_a p_b p_c p_id p_kv p_angle p_scl1 p_scl3] in *.
           split; [now apply slot_skip|]. split; [now apply slot_skip|]. split; [now apply (slot_set s q phs "c" _ _ e) | exact T].
    + cbn [bind] in H. destruct (IH _ _ H) as (X & Y & Z & T). unfold letter in L.
      assert (A : lower q <> "a") by (intros A; rewrite A in L; discriminate L). assert (B : lower q <> "b") by (intros B; rewrite B in L; discriminate L).
      assert (C : lower q <> "c") by (intros C; rewrite C in L; discriminate L).
      split; [now apply slot_skip|]. split; [now apply slot_skip|]. split; [now apply slot_skip | exact T].
  - cbn [foldM] in H. discriminate H.
Qed.

Lemma slot_at s p b : slot s (es_phases s) p None b -> at_phase s p b.
Proof.
  intros [[S (e & E & ->)]|[S ->]] x; split.
  - intros H. injection H as <-. split; [exact S | eauto].
  - intros [_ (e' & E' & ->)]. congruence.
  - discriminate.
  - intros [C _]. now destruct S.
Qed.

(** The table of sources has one row for each source, in order: the buses of its phases, its voltage in kV, its angle, and
    its power in MVA. *)
Theorem C140_sources : forall ss rows, source ss = Ok rows -> Forall2 source_of ss rows.
Proof.
  unfold source. induction ss as [|s ss IH]; intros rows H; cbn [mapM] in H; [injection H as <-; constructor|].
  destruct (source_row s) as [r|] eqn:E; [|discriminate]. destruct (mapM source_row ss) as [rs|]; [|discriminate]. injection H as <-. constructor; [|now apply IH].
  unfold source_row in E. destruct (es_voltage s) as [v|] eqn:V; cbn [of_opt bind] in E; [|discriminate]. apply source_slots in E.
  cbn [p_a p_b p_c p_id p_kv p_angle p_scl1 p_scl3] in E. destruct E as (A & B & C & I & K & N & M1 & M3).
  assert (MG : in_mega (es_power s) (option_map (fun x => (x / 1000000)%R) (es_power s))) by (destruct (es_power s); cbn; [lra | exact Logic.I]).
  split; [now apply slot_at|]. split; [now apply slot_at|]. split; [now apply slot_at|]. split; [exact I|].
  split; [exists v; split; [exact V | rewrite K; lra]|]. split; [exact N|]. rewrite M1, M3. auto.
Qed.
Print Assumptions C140_sources.

(** It is written when all sources have a voltage, an element and known phases. *)
Theorem C140_sources_written : forall ss,
  (forall s, In s ss -> es_voltage s <> None /\ es_element s <> None /\ ~ In None (es_phases s)) -> exists rows, source ss = Ok rows.
Proof.
  unfold source. induction ss as [|s ss IH]; intros H; [cbn; eauto|]. cbn [mapM].
  destruct IH as [rs ->]; [intros x X; apply H; now right|]. destruct (H s (or_introl eq_refl)) as (V & E & P). unfold source_row.
  destruct (es_voltage s) as [v|]; [|congruence]. cbn [of_opt bind].
  assert (X : forall r, exists r', foldM (source_phase s) (es_phases s) r = Ok r').
  { destruct (es_element s) as [e|] eqn:EE; [|congruence]. clear - EE P. induction (es_phases s) as [|[q|] phs IH]; intros r; [cbn; eauto| |exfalso; apply P; now left].
    cbn [foldM]. unfold source_phase at 1. cbn [of_opt bind]. destruct (letter (lower q)); [unfold join; rewrite EE; cbn [bind]|cbn [bind]]; apply IH; intros I; apply P; now right. }
  match goal with |- context [foldM _ _ ?r] => destruct (X r) as [r' ->] end. eauto.
Qed.
Print Assumptions C140_sources_written.

(** The hypotheses are met. *)
Example C140_hypotheses_met :
  (exists r1 r2 r3, bus [mkEnode (Some "SourceBus") (Some 4160%R) [Some "A"; None; Some "N"; Some "C"]; mkEnode (Some "n") None [Some "b"]] = Ok [r1; r2; r3] /\
     b_bus r2 = "SourceBus_c" /\ b_angle r2 = (-120)%Z /\ b_type r2 = "SLACK" /\ b_type r3 = "PQ") /\
  ~ NoDup (letters_of (mkEnode (Some "n") None [Some "a"; Some "A"])) /\
  switch [mkEline (Some "l") (Some "u") (Some "v") true (Some [mkEwire (Some "A") true; mkEwire (Some "N") false])] = Ok [mkSrow "u_a" "v_a" "l_a" "0"] /\
  exists r, source [mkEsource (Some "s") (Some "u") (Some 4160%R) None None [Some "A"; Some "C"]] = Ok [r] /\ p_a r = Some "u_a" /\ p_b r = None /\ p_c r = Some "u_c".
Proof.
  split; [|split; [|split]].
  - eexists; eexists; eexists. split; [reflexivity|]. cbn. auto.
  - change (letters_of _) with ["a"; "a"]. intros H. inversion H as [|? ? N _]. apply N. now left.
  - reflexivity.
  - eexists. split; [reflexivity|]. cbn. auto.
Qed.
