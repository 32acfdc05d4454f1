(** C113, C114: the switching devices and lines of the CYME reader. *)
From Coq Require Import List String Ascii Bool Arith ZArith Reals Lra Lia.
From Verif Require Import Base BaseFacts CymeMapModel CymeMapSpec CymeMapProofs CymeParseModel CymeParseSpec CymeLoadModel CymeLoadSpec CymeLoadProofs CymeCapModel CymeCapProps CymeLineModel CymeLineSpec CymeLineProofs.
Import ListNotations.
Local Open Scope string_scope.
Local Open Scope nat_scope.
Local Open Scope list_scope.
Notation record := CymeParseModel.record.

(** The settings of devices become one device each, in order. *)
Theorem C113_devices : forall num int_ T spaced settings, no_line_ids T -> Forall (proper T) settings ->
  Forall (fun e => ~ at_load (snd e) /\ exists k, dget (snd e) "type" = Some (device_name k)) settings ->
  exists ls, parse_lines num int_ T spaced settings = Ok ls /\
    Forall2 (fun e l => exists id s ps k cs, section_says T e id s ps /\ dget (snd e) "type" = Some (device_name k) /\ closed_says (snd e) cs /\ device_says num int_ T e id s ps k cs l) settings ls.
Proof.
  intros num int_ T spaced settings NL P D. destruct (lines_spec num int_ T spaced settings NL P [] None) as (os & b & E & F). exists (some_list os). split; [unfold parse_lines; rewrite E; reflexivity|].
  clear E P. induction F as [|e o settings os Y F IH]; [constructor|]. inversion D as [|? ? (NA & k & TY) D']; subst. destruct Y as [A|id s ps k' cs l _ SS TY' CS DS|id s ps t i data l _ _ LK _ _ _|_ NT _].
  - tauto.
  - cbn. constructor; [exists id, s, ps, k', cs; split; [exact SS|split; [exact TY'|split; [exact CS|exact DS]]]|now apply IH].
  - exfalso. exact (kinds_apart _ _ k LK TY).
  - exfalso. exact (NT k TY).
Qed.
Print Assumptions C113_devices.

(** Every setting becomes a device or a line, or nothing if it has no data or names a load. *)
Theorem C114_lines : forall num int_ T spaced settings, no_line_ids T -> Forall (proper T) settings ->
  exists os, parse_lines num int_ T spaced settings = Ok (some_list os) /\ Forall2 (yields num int_ T) settings os.
Proof.
  intros num int_ T spaced settings NL P. destruct (lines_spec num int_ T spaced settings NL P [] None) as (os & b & E & F). exists os. split; [|exact F]. unfold parse_lines. rewrite E. reflexivity.
Qed.
Print Assumptions C114_lines.

(** A device or line at a node whose name contains "load" is dropped. *)
Theorem C113_load_refuted : forall num int_ T spaced before e after f, dget (snd e) "fromnodeid" = Some f -> occurs "load" (lower f) ->
  parse_lines num int_ T spaced (before ++ e :: after) = parse_lines num int_ T spaced (before ++ after).
Proof.
  intros num int_ T spaced before e after f E O. unfold parse_lines. rewrite !foldM_app. destruct (foldM (line_step num int_ T spaced) before ([], None)) as [[ls b]|]; [|reflexivity]. cbn [bind foldM].
  assert (one_line num int_ T spaced b e = Ok (None, b)) as H. { unfold one_line. cbv zeta. apply substr_in_spec in O. setoid_rewrite E. setoid_rewrite O. reflexivity. }
  unfold line_step at 1. cbn [fst snd]. rewrite H. cbn [bind]. now rewrite app_nil_r.
Qed.
Print Assumptions C113_load_refuted.

Lemma steps_stuck num int_ T spaced settings e : In e settings -> (forall b, exists err, one_line num int_ T spaced b e = Err err) -> exists err, parse_lines num int_ T spaced settings = Err err.
Proof.
  intros I H. unfold parse_lines. assert (G : forall st, exists err, foldM (line_step num int_ T spaced) settings st = Err err).
  { induction settings as [|x l IH]; [destruct I|]. intros st. cbn [foldM]. destruct I as [->|I].
    - destruct (H (snd st)) as (err & E). unfold line_step at 1. rewrite E. cbn. eauto.
    - destruct (line_step num int_ T spaced st x); [now apply IH|eauto]. }
  destruct (G ([], None)) as (err & ->). cbn. eauto.
Qed.
(** One device with another code for its closed phases stops the reader. *)
Theorem C113_code_refuted : forall num int_ T spaced settings e k c, In e settings -> ~ at_load (snd e) -> dget (snd e) "type" = Some (device_name k) ->
  dget (snd e) "closedphase" = Some c -> (forall a n cs, In (a, n, cs) closed_table -> c <> a /\ c <> n) -> exists err, parse_lines num int_ T spaced settings = Err err.
Proof.
  intros num int_ T spaced settings [key d] k c I NA TY EC N. cbn [snd] in *. eapply steps_stuck; [exact I|]. intros b. unfold one_line. cbn [snd fst]. cbv zeta.
  assert ((exists err, match dget d "fromnodeid" with Some f => if substr_in "load" (lower f) then Ok true else do t <- of_opt EKey (dget d "tonodeid"); Ok (substr_in "load" (lower t)) | None => Ok false end = Err err) \/
          match dget d "fromnodeid" with Some f => if substr_in "load" (lower f) then Ok true else do t <- of_opt EKey (dget d "tonodeid"); Ok (substr_in "load" (lower t)) | None => Ok false end = Ok false) as S.
  { destruct (dget d "fromnodeid") as [f|] eqn:EF; [|now right]. destruct (substr_in "load" (lower f)) eqn:SF; [exfalso; apply NA; exists f, f; split; [exact EF|split; [now left|now apply substr_in_spec]]|]. destruct (dget d "tonodeid") as [t|] eqn:ET; [|left; cbn; eauto]. cbn.
    destruct (substr_in "load" (lower t)) eqn:ST; [exfalso; apply NA; exists f, t; split; [exact EF|split; [now right|now apply substr_in_spec]]|now right]. }
  destruct S as [(err & S)|S]; setoid_rewrite S; cbn [bind]; [eauto|]. destruct (dget (t_section_feeder T) (lower (strip_star key))); cbn [of_opt bind]; [|eauto].
  rewrite (shape_device d k TY), EC. assert (dget mapp_closed_phase c = None) as ->; [|cbn; eauto].
  destruct (N "0" "none" []) as [N1 N2]; [cbn; tauto|]. destruct (N "0" "NONE" []) as [_ N3]; [cbn; tauto|]. destruct (N "1" "A" ["A"]) as [N4 N5]; [cbn; tauto|]. destruct (N "2" "B" ["B"]) as [N6 N7]; [cbn; tauto|]. destruct (N "3" "C" ["C"]) as [N8 N9]; [cbn; tauto|].
  destruct (N "4" "AB" ["A"; "B"]) as [N10 N11]; [cbn; tauto|]. destruct (N "5" "AC" ["A"; "C"]) as [N12 N13]; [cbn; tauto|]. destruct (N "6" "BC" ["B"; "C"]) as [N14 N15]; [cbn; tauto|]. destruct (N "7" "ABC" ["A"; "B"; "C"]) as [N16 N17]; [cbn; tauto|].
  destruct (dget mapp_closed_phase c) as [x|] eqn:E; [|reflexivity]. exfalso. apply dget_Some_key in E. cbn in E. intuition congruence.
Qed.
Print Assumptions C113_code_refuted.

(** A section with a line and a device becomes the device only: the impedance of the line is lost. *)
Theorem C113_merged_refuted : forall num int_ T spaced e k i data ls, dget (snd e) "type" = Some (device_name k) -> dget (snd e) "linecableid" = Some i -> data_says T i data ->
  parse_lines num int_ T spaced [e] = Ok ls -> Forall (fun l => l_matrix l = None /\ l_kind l = Some k) ls /\ length ls <= 1.
Proof.
  intros num int_ T spaced [key d] k i data ls TY EI DS H. cbn [snd] in *. unfold parse_lines in H. cbn [foldM] in H. unfold line_step in H. cbn [fst snd app] in H.
  destruct (one_line num int_ T spaced None (key, d)) as [[o b]|] eqn:E; cbn [bind] in H; [|discriminate]. injection H as <-. unfold one_line in E. cbn [fst snd] in E. cbv zeta in E. rewrite (shape_device d k TY) in E.
  repeat match type of E with
  | bind ?r _ = Ok _ => destruct r; cbn [bind] in E; [|discriminate]
  | (if ?b then _ else _) = Ok _ => destruct b; [injection E as <- _; split; [constructor|cbn; lia]|]
  end.
  injection E as <- _. split; [constructor; [now split|constructor]|cbn; lia].
Qed.
Print Assumptions C113_merged_refuted.

(** No wire has a position, whatever the spacing says. *)
Theorem C114_positions_refuted : forall num int_ T spaced settings ls, parse_lines num int_ T spaced settings = Ok ls -> Forall (fun l => Forall (fun w => w_x w = None /\ w_y w = None) (l_wires l)) ls.
Proof.
  intros num int_ T spaced settings ls.
  assert (W : forall c s p k o, w_x (configure_wire num c s p k o) = None /\ w_y (configure_wire num c s p k o) = None) by (intros; now split).
  assert (MW : forall (f : string -> wire) ps, (forall p, w_x (f p) = None /\ w_y (f p) = None) -> Forall (fun w => w_x w = None /\ w_y w = None) (map f ps)) by (intros f ps H; induction ps; constructor; [apply H|assumption]).
  assert (DW : forall k c cl ps n, Forall (fun w => w_x w = None /\ w_y w = None) (device_wires num k c cl n ps)).
  { intros k c cl ps. induction ps as [|p ps IH]; intros n; cbn [device_wires]; [constructor|]. destruct (substr_in p cl && _); [constructor; [apply W|apply IH]|]. destruct (String.eqb p "N" && _); constructor; first [apply W|apply IH]. }
  assert (ONE : forall b e o b', one_line num int_ T spaced b e = Ok (o, b') -> forall l, o = Some l -> Forall (fun w => w_x w = None /\ w_y w = None) (l_wires l)).
  { intros b [key d] o b' E l ->. unfold one_line in E. cbn [fst snd] in E. cbv zeta in E.
    repeat match type of E with
    | bind ?r _ = Ok _ => let R := fresh "R" in destruct r eqn:R; cbn [bind] in E; [|discriminate]
    | (if ?b then _ else _) = Ok _ => destruct b; [discriminate|]
    | match shape_of d with _ => _ end = Ok _ => destruct (shape_of d)
    | match line_data_of T d with _ => _ end = Ok _ => destruct (line_data_of T d) as [[]|]; [| | |discriminate]
    end.
    all: injection E as <- _; cbn [l_wires].
    - unfold balanced_wires in *. match goal with H : bind ?r _ = Ok _ |- _ => destruct r; cbn [bind] in H; [|discriminate]; injection H as <- end. apply Forall_app. split; [apply MW; intros; apply W|constructor; [apply W|constructor]].
    - unfold unbalanced_wires. apply Forall_app. split; [apply MW; intros; apply W|]. repeat match goal with |- context[match refers_named ?t ?d ?k with _ => _ end] => destruct (refers_named t d k) end; repeat (apply Forall_cons; [apply W|]); constructor.
    - unfold spaced_wires. apply Forall_app. split; [apply MW; intros; apply W|]. match goal with |- context[match or_empty ?x with _ => _ end] => destruct (or_empty x) end; [constructor|constructor; [apply W|constructor]].
    - apply DW. }
  assert (ALL : forall l st st', Forall (fun l => Forall (fun w => w_x w = None /\ w_y w = None) (l_wires l)) (fst st) -> foldM (line_step num int_ T spaced) l st = Ok st' -> Forall (fun l => Forall (fun w => w_x w = None /\ w_y w = None) (l_wires l)) (fst st')).
  { induction l as [|e l IH]; intros st st' F E; cbn [foldM] in E; [injection E as <-; exact F|]. destruct (line_step num int_ T spaced st e) as [st1|] eqn:S; [|discriminate]. eapply IH; [|exact E]. unfold line_step in S. destruct (one_line num int_ T spaced (snd st) e) as [[o b]|] eqn:O; cbn [bind] in S; [|discriminate]. injection S as <-. cbn [fst].
    apply Forall_app. split; [exact F|]. destruct o as [x|]; [|constructor]. constructor; [eapply ONE; [exact O|reflexivity]|constructor]. }
  unfold parse_lines. destruct (foldM (line_step num int_ T spaced) settings ([], None)) as [[m w]|] eqn:E; cbn [bind]; [|discriminate]. intros H. injection H as <-. exact (ALL _ ([], None) (m, w) (Forall_nil _) E).
Qed.
Print Assumptions C114_positions_refuted.

(** On one phase the positive sequence impedance of a balanced line does not count. *)
Theorem C114_one_phase_refuted : forall num d r1 x1 r0 x0, number num d "r1" r1 -> number num d "x1" x1 -> number num d "r0" r0 -> number num d "x0" x0 -> r1 <> 0%R ->
  exists m, balanced_matrix num d 1 = Ok m /\ m = [[(r0 / 3000, x0 / 3000)%R]] /\ ~ entries (balanced_entry r1 x1 r0 x0) 1 m.
Proof.
  intros num d r1 x1 r0 x0 R1 X1 R0 X0 NZ. apply float_iff in R0. apply float_iff in X0. eexists. split; [unfold balanced_matrix; rewrite (complex_ok _ _ _ _ _ _ R0 X0); reflexivity|].
  assert (scale (1 / 3 * coeff) (r0, x0) = (r0 / 3000, x0 / 3000)%R) as -> by (unfold scale, coeff; cbn; f_equal; field). split; [reflexivity|]. intros [_ H]. destruct (H 0 0) as (row & z & ER & _ & EZ & EN); [lia|lia|]. cbn in ER. injection ER as <-. cbn in EZ. injection EZ as <-. unfold balanced_entry in EN. cbn in EN. injection EN as E _. apply NZ. lra.
Qed.
Print Assumptions C114_one_phase_refuted.

(** The reactance of an unbalanced line on one phase is a thousandth of what its table says. *)
Theorem C114_reactance_refuted : forall num d p r x, number num d ("r" ++ lower p)%string r -> number num d ("x" ++ lower p)%string x -> x <> 0%R ->
  exists m, unbalanced_matrix num d [p] = Ok m /\ m = [[(r / 1000, x / 1000000)%R]] /\ ~ entries (unbalanced_entry num d [p]) 1 m.
Proof.
  intros num d p r x HR HX NZ. pose proof HR as R'. pose proof HX as X'. apply float_iff in R'. apply float_iff in X'. eexists. split; [unfold unbalanced_matrix; rewrite R'; cbn [bind]; rewrite X'; reflexivity|].
  assert (scale coeff (r, coeff * x)%R = (r / 1000, x / 1000000)%R) as -> by (unfold scale, coeff; cbn; f_equal; field). split; [reflexivity|]. intros [_ H]. destruct (H 0 0) as (row & z & ER & _ & EZ & EN); [lia|lia|]. cbn in ER. injection ER as <-. cbn in EZ. injection EZ as <-.
  destruct EN as (p' & q' & cr & cx & r' & x' & E1 & E2 & C & _ & X2 & EZ). cbn in E1, E2. injection E1 as <-. injection E2 as <-. destruct C as [(_ & _ & ->)|(m & M & _)].
  - assert (x' = x) by (eapply number_fun; eassumption). subst x'. injection EZ as _ EZ. apply NZ. lra.
  - cbn in M. intuition congruence.
Qed.
Print Assumptions C114_reactance_refuted.

(** The rows of the matrix of two phases are those of the sorted phases, not those of the wires. *)
Theorem C114_order_refuted : forall num d m ra rb, unbalanced_matrix num d ["B"; "A"] = Ok m -> number num d "ra" ra -> number num d "rb" rb -> ra <> rb -> ~ unbalanced_says num d ["B"; "A"] (Some m).
Proof.
  intros num d m ra rb E A B NE [(M & EM & _ & H)|(EM & _)]; [|discriminate]. injection EM as <-. change (unbalanced_matrix num d ["B"; "A"]) with (unbalanced_matrix num d ["A"; "B"]) in E. rewrite matrix_ab in E.
  destruct (entry_cases num d "ra" "xa") as [(a1 & b1 & E1 & A1 & B1)|((e & E1) & _)]; rewrite E1 in E; cbn [bind] in E; [|discriminate]. destruct (entry num d "mutualresistanceab" "mutualreactanceab"); cbn [bind] in E; [|discriminate]. destruct (entry num d "rb" "xb"); cbn [bind] in E; [|discriminate]. injection E as <-.
  destruct (H 0 0) as (row & z & ER & _ & EZ & EN); [cbn; lia|cbn; lia|]. cbn in ER. injection ER as <-. cbn in EZ. injection EZ as <-. destruct EN as (p' & q' & cr & cx & r' & x' & F1 & F2 & C & R2 & _ & EZ). cbn in F1, F2. injection F1 as <-. injection F2 as <-.
  destruct C as [(_ & -> & _)|(mm & M & _)]; [|cbn in M; intuition congruence]. change ("r" ++ lower "B")%string with "rb" in R2. assert (r' = rb) by (eapply number_fun; eassumption). assert (a1 = ra) by (eapply number_fun; eassumption). subst. injection EZ as EZ _. apply NE. lra.
Qed.
Print Assumptions C114_order_refuted.

(** ** The hypotheses can be met *)
Definition num1 (s : string) : option R := if String.eqb s "1" then Some 1%R else if String.eqb s "2" then Some 2%R else None.
Definition tables0 : tables := mkTables [("s1", [("fromnodeid", "n1"); ("tonodeid", "n2"); ("phase", "ABC")]); ("s2", [("fromnodeid", "n2"); ("tonodeid", "n3"); ("phase", "AC")])] [("s1", "f"); ("s2", "f")]
  (fun k => match k with Switch => [("sw", [("id", "sw"); ("amps", "1"); ("kvll", "2")])] | _ => [] end) [] [("u", [("ra", "1"); ("xa", "2"); ("rc", "1"); ("xc", "2"); ("mutualresistanceca", "1"); ("mutualreactanceca", "1"); ("condid_a", "c"); ("condid_n", "c")])]
  [] [] [("c", [("id", "c"); ("gmr", "1")])] [].
Definition settings1 : list (string * record) := [("S1", [("sectionid", "S1"); ("eqid", "sw"); ("closedphase", "AC"); ("type", "switch")]); ("S2", [("sectionid", "S2"); ("linecableid", "u"); ("length", "2"); ("type", "overhead_unbalanced")])].
Example C113_hypotheses_met : no_line_ids tables0 /\ Forall (proper tables0) settings1 /\ (exists ls, parse_lines num1 (fun _ => None) tables0 (fun _ _ => Ok None) settings1 = Ok ls /\ map l_name ls = ["s1"; "s2"] /\
  map (fun l => map (fun w => (w_phase w, w_open w)) (l_wires l)) ls = [[("A", false); ("B", true); ("C", false); ("N", false)]; [("A", false); ("C", false); ("N", false)]]).
Proof.
  assert (B : bare "S1" /\ bare "S2"). { split; (split; [intros t H; discriminate|]); intros t H; destruct t as [|a [|b [|c t]]]; discriminate. }
  split; [repeat apply Forall_cons; try (intros i x H; discriminate); constructor|]. split; [|eexists; split; [reflexivity|split; reflexivity]].
  apply Forall_cons; [|apply Forall_cons; [|constructor]].
  - split; [intros H; exfalso; now apply H|]. split; [exists "S1"; eexists _, _, _; split; [split; [exists 0; reflexivity|split; [apply B|split; [reflexivity|eexists; split; reflexivity]]]|split; [|reflexivity]]|].
    + apply Forall_cons; [cbn; auto|apply Forall_cons; [cbn; auto|apply Forall_cons; [cbn; auto|constructor]]].
    + split; [right; left; exists Switch; reflexivity|]. split; [discriminate|]. split; [|reflexivity]. exists ["A"; "C"]. exists "5", "AC". split; [cbn; tauto|now right].
  - split; [intros H; exfalso; now apply H|]. split; [exists "S2"; eexists _, _, _; split; [split; [exists 0; reflexivity|split; [apply B|split; [reflexivity|eexists; split; reflexivity]]]|split; [|reflexivity]]|].
    + apply Forall_cons; [cbn; auto|apply Forall_cons; [cbn; auto|constructor]].
    + split; [right; right; exists "overhead"; right; split; [now right|reflexivity]|]. split; [discriminate|]. split; [|reflexivity]. exists ["A"; "B"; "C"]. reflexivity.
Qed.
Example C114_hypotheses_met : sorted_phases ["A"; "C"] /\ data_says tables0 "u" (Unbalanced [("ra", "1"); ("xa", "2"); ("rc", "1"); ("xc", "2"); ("mutualresistanceca", "1"); ("mutualreactanceca", "1"); ("condid_a", "c"); ("condid_n", "c")]) /\
  number num1 [("ra", "1"); ("xa", "2")] "xa" 2%R.
Proof. split; [cbn; auto|]. split; [apply data_unbalanced; reflexivity|exists "2"; split; reflexivity]. Qed.
