(** C127: the lines, switches and devices of a Windmil file. *)
From Coq Require Import QArith.
From Verif Require Import Base BaseFacts UnitsModel WmLineModel WmLineSpec WmLineProofs.
Local Open Scope string_scope.
Local Open Scope list_scope.
Local Open Scope nat_scope.

(** C127: if the reader finishes and no line has more than one neutral, the Lines
    are those of the edges, in order: ends, names, feeders, positions, and for
    every phase and the neutral a wire of its own conductor with the data of that
    conductor, whatever lines were read before. *)
Theorem C127_lines : forall (M : Type) (v : env M) (es : list edge) tab ls,
  Forall (fun e => e_class e = "line" -> e_neutrals e <= 1) es ->
  parse_lines v es = Ok (tab, ls) ->
  Forall2 (line_ok v) (filter is_line es) ls.
Proof.
  intros M v es tab ls HF H.
  destruct (edges_ok v es HF _ _ _ tab_ok_start H) as [_ [ls' [E F]]].
  cbn in E. now subst ls'.
Qed.
Print Assumptions C127_lines.

(** C127: the reader finishes when every edge has known phases, a line has a length,
    four conductors and at most one neutral, and a device has its equipment. *)
Theorem C127_reads : forall (M : Type) (v : env M) (es : list edge),
  good v -> Forall (readable v) es -> exists s, parse_lines v es = Ok s.
Proof. intros M v es HG HR. exact (edges_total v es HG HR _ _ tab_ok_start). Qed.
Print Assumptions C127_reads.

(** Refutation of "a line with several neutrals is read": the first line with two
    or more neutrals stops the reader, as a line has four conductors. *)
Theorem C127_neutrals_refuted : forall (M : Type) (v : env M) (e : edge) (es : list edge),
  good v -> e_class e = "line" -> known (e_phases e) -> (exists q, e_length e = Ok q) ->
  length (e_conductors e) = 4 -> 2 <= e_neutrals e ->
  parse_lines v (e :: es) = Err EIndex.
Proof.
  intros M v e es HG Hc Hk [q Hq] H4 Hn. unfold parse_lines. cbn [foldM].
  unfold edge_step at 1. cbn [fst snd]. rewrite Hc. cbn [String.eqb Ascii.eqb eqb].
  replace (create_line v phase_2_index e) with (@Err (@dict (list nat) * line M) EIndex); [reflexivity|].
  symmetry. unfold create_line. rewrite Hq. cbn [bind].
  destruct (proj2 tab_ok_start _ Hk) as [l0 E0]. rewrite E0. cbn [of_opt bind].
  assert (l0 = map place (letters (e_phases e))) as ->.
  { destruct (known_cases _ Hk) as [K|[K|[K|[K|[K|[K|K]]]]]]; rewrite K in *; cbn in E0; injection E0 as <-; reflexivity. }
  rewrite combine_app_r by now rewrite map_length.
  rewrite combine_map.
  destruct (e_neutrals e) as [|[|n]] eqn:En; [lia|lia|].
  cbn [repeat seq combine].
  change ((map (fun x => (x, place x)) (letters (e_phases e)))
     ++ ("N", 3) :: ("N", 4) :: combine (repeat "N" n) (seq 5 n))
    with ((map (fun x => (x, place x)) (letters (e_phases e)))
     ++ [("N", 3)] ++ ("N", 4) :: combine (repeat "N" n) (seq 5 n)).
  rewrite app_assoc, foldM_app.
  replace (map (fun x => (x, place x)) (letters (e_phases e)) ++ [("N", 3)])
    with (map (fun x => (x, place x)) (letters (e_phases e) ++ ["N"])) by now rewrite map_app.
  destruct (line_loop_ok v e (letters (e_phases e) ++ ["N"]) (proj2 HG)) with (s0 := (@nil wire, @None M)) as [s Hs].
  { apply Forall_forall. intros p _. now apply line_wire_total. }
  match goal with |- context [foldM ?f ?l ?z] => replace (foldM f l z) with (@Ok (list wire * option M) s) end.
  cbn [foldM]. unfold line_step at 1. cbn [fst snd]. unfold line_wire, conductor_name.
  replace (nth_error (e_conductors e) 4) with (@None (option string)); [reflexivity|].
  symmetry. apply nth_error_None. lia.
Qed.
Print Assumptions C127_neutrals_refuted.

(** A library of one overhead conductor and one fuse, and no positions. *)
Definition ex_env : env nat :=
  mkEnv [mkRow "1/0 ACSR" (fun _ => Ok 2%Q)] [mkRow "CN 4.0" (fun _ => Ok 3%Q)]
        [mkRow "fuse 1" (fun _ => Ok 40%Q)]
        (fun n => if String.eqb n "node_b" then Some (1%Q, 2%Q) else None)
        (fun _ ws => Ok (length ws)).
Definition ex_line (n : nat) (ty : string) : edge :=
  mkEdge "node_a" "node_b" "line" "AC" n [Some "1/0 ACSR"; None; Some "CN 4.0"; None] ty
         (Ok 10%Q) (Some "f") None "" [] [].
Definition ex_device (c : bool) : edge :=
  mkEdge "node_b" "node_c" "device" "B" 0 [] "" (Ok 0%Q) None None ""
         [Some "fuse 1"; Some "fuse 1"; Some "fuse 1"] [c; c; c].
Definition ex_switch : edge :=
  mkEdge "node_c" "node_d" "switch" "ABC" 0 [] "" (Ok 0%Q) None None "O" [] [].

(** Refutation of "the wires of a line do not depend on the lines read before": a
    line with two neutrals stops the reader when it comes first, and is read, with
    one conductor for both neutrals, after a line of its phases with one neutral. *)
Theorem C127_order_refuted : exists (v : env nat) (e1 e2 : edge),
  parse_lines v [e2; e1] = Err EIndex
  /\ exists tab l1 l2, parse_lines v [e1; e2] = Ok (tab, [l1; l2])
       /\ map w_phase (l_wires l2) = ["A"; "C"; "N"; "N"].
Proof.
  exists ex_env, (ex_line 1 "overhead"), (ex_line 2 "overhead"). split; [vm_compute; reflexivity|].
  do 3 eexists. split; [vm_compute; reflexivity | reflexivity].
Qed.
Print Assumptions C127_order_refuted.

(** Refutation of "the wires of a device are open when the file says that they are
    not closed": they are open exactly when it says that they are closed. *)
Theorem C127_device_open_refuted : forall (M : Type) (v : env M) (e : edge) tab l,
  e_class e = "device" -> parse_lines v [e] = Ok (tab, [l]) ->
  Forall2 (fun p w => nth_error (e_closed e) (place p) = Some (w_open w))
          (letters (e_phases e)) (l_wires l).
Proof.
  intros M v e tab l Hc H. unfold parse_lines in H. cbn [foldM] in H.
  unfold edge_step in H. cbn [fst snd] in H. rewrite Hc in H. cbn [String.eqb Ascii.eqb eqb] in H.
  destruct (create_device v phase_2_index e) as [l'|] eqn:E; cbn [bind app] in H; [|discriminate].
  injection H as _ ->.
  unfold create_device in E.
  destruct (dget phase_2_index (e_phases e)) as [l0|] eqn:E0; cbn [bind of_opt] in E; [|discriminate].
  destruct (proj1 tab_ok_start _ _ E0) as [Hk [x [-> Hx]]]. rewrite combine_short in E.
  destruct (mapM (device_wire v e) _) as [ws|] eqn:Em; cbn [bind] in E; [|discriminate].
  injection E as <-. cbn [l_wires]. revert ws Em. clear.
  induction (letters (e_phases e)) as [|p ps IH]; intros ws Em; cbn [map mapM] in Em.
  - injection Em as <-. constructor.
  - destruct (device_wire v e (p, place p)) as [w|] eqn:Ew; [|discriminate].
    destruct (mapM (device_wire v e) (map (fun p => (p, place p)) ps)) as [ws'|] eqn:Em'; [|discriminate].
    injection Em as <-. constructor; [|now apply IH].
    unfold device_wire in Ew; cbn [fst snd] in Ew.
    destruct (nth_error (e_equipment e) (place p)) as [eq|]; cbn [bind of_opt] in Ew; [|discriminate].
    destruct eq as [name|]; cbn [bind of_opt] in Ew; [|discriminate].
    destruct (nth_error (e_closed e) (place p)) as [c|]; cbn [bind of_opt] in Ew; [|discriminate].
    destruct (first_row (v_dev v) name) as [r|]; cbn [bind of_opt] in Ew; [|discriminate].
    destruct (r_cell r "Current Rating") as [a|]; cbn [bind] in Ew; [|discriminate].
    destruct (r_cell r "Max Asymmetrical Fault") as [f|]; cbn [bind] in Ew; [|discriminate].
    injection Ew as <-. reflexivity.
Qed.
Print Assumptions C127_device_open_refuted.

(** Refutation of "the neutral of an underground cable has its resistance in ohms
    per metre and its insulation has its thickness": the ohms per mile are
    multiplied by 3.28084, and the thickness is the outer diameter. *)
Theorem C127_underground_refuted : forall (M : Type) (v : env M) (e : edge) p k w name r,
  e_type e = "underground" -> conductor_name e k = Ok name -> first_row (v_ug v) name = Some r ->
  line_wire v e p k = Ok w ->
  cell r "Concentric Neutral Resist Ohms/Mile" (328084 # 100000) (w_cn_resistance w)
  /\ cell r "OD of Cable Insulation In Feet" (3048 # 10000) (w_insulation w).
Proof.
  intros M v e p k w name r Ht Hn Hr H. unfold line_wire in H. rewrite Hn, Ht in H.
  cbn [bind String.eqb Ascii.eqb eqb] in H. rewrite Hr in H. unfold underground in H.
  destruct (r_cell r "Geometric Mean Radius In Feet") as [g|]; cbn [bind] in H; [|discriminate].
  destruct (r_cell r "GMR (Neutral) In Feed") as [cg|]; cbn [bind] in H; [|discriminate].
  destruct (r_cell r "Diameter of Conductor In Feet") as [d|]; cbn [bind] in H; [|discriminate].
  destruct (r_cell r "OD of Cable Insulation In Feet") as [i|] eqn:E4; cbn [bind] in H; [|discriminate].
  destruct (r_cell r "OD of Cable Including Neutral In Fee") as [cd|]; cbn [bind] in H; [|discriminate].
  destruct (r_cell r "Carrying Capacity In Amps") as [a|]; cbn [bind] in H; [|discriminate].
  destruct (r_cell r "Phase Conductor Resistance Ohms/Mile") as [z|]; cbn [bind] in H; [|discriminate].
  destruct (r_cell r "Concentric Neutral Resist Ohms/Mile") as [cz|] eqn:E8; cbn [bind] in H; [|discriminate].
  injection H as <-. split.
  - exists cz; eexists; split; [exact E8|]; split; [reflexivity | reflexivity].
  - exists i; eexists; split; [exact E4|]; split; [reflexivity | reflexivity].
Qed.
Print Assumptions C127_underground_refuted.

(** The hypotheses are met: lines with and without a neutral, a device, a switch. *)
Example C127_hypotheses_met :
  good ex_env
  /\ Forall (readable ex_env) [ex_line 1 "overhead"; ex_line 0 "underground"; ex_line 1 "underground";
                               ex_device true; ex_switch]
  /\ exists tab l1 l2 l3 l4 l5,
       parse_lines ex_env [ex_line 1 "overhead"; ex_line 0 "underground"; ex_line 1 "underground";
                           ex_device true; ex_switch] = Ok (tab, [l1; l2; l3; l4; l5])
       /\ map w_phase (l_wires l1) = ["A"; "C"; "N"] /\ map w_phase (l_wires l2) = ["A"; "C"]
       /\ map w_class (l_wires l3) = [Some "1/0_ACSR"; Some "CN_4_0"; Some "default_nt_cond"]
       /\ l_name l4 = "c" /\ map w_open (l_wires l4) = [true]
       /\ map w_open (l_wires l5) = [true; true; true].
Proof.
  split.
  { split; [|intros; eexists; reflexivity].
    intros r c [<-|[<-|[]]]; eexists; reflexivity. }
  split.
  { assert (HL : forall n ty, n <= 1 -> readable ex_env (ex_line n ty)).
    { intros n ty Hn. split; [unfold known; cbn; tauto|]. split; [|discriminate].
      intros _. split; [eexists; reflexivity|]. split; [reflexivity | exact Hn]. }
    constructor; [apply HL; lia|]. constructor; [apply HL; lia|]. constructor; [apply HL; lia|].
    constructor.
    { split; [unfold known; cbn; tauto|]. split; [discriminate|]. intros _ k Hk.
      exists "fuse 1", (mkRow "fuse 1" (fun _ => Ok 40%Q)), true.
      destruct k as [|[|[|k]]]; [| | | lia];
        (split; [reflexivity|]; split; [reflexivity|]; split; [reflexivity|]; split; eexists; reflexivity). }
    constructor; [|constructor]. split; [unfold known; cbn; tauto|]. split; discriminate. }
  do 6 eexists. split; [vm_compute; reflexivity|].
  split; [reflexivity|]. split; [reflexivity|]. split; [reflexivity|]. split; [reflexivity|]. split; reflexivity.
Qed.
