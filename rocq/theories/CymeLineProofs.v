From Coq Require Import List String Ascii Bool Arith ZArith Reals Lra Lia.
From Verif Require Import Base BaseFacts CymeMapModel CymeMapSpec CymeMapProofs CymeParseModel CymeParseSpec CymeLoadModel CymeLoadSpec CymeLoadProofs CymeCapModel CymeCapProps CymeLineModel CymeLineSpec.
Import ListNotations.
Local Open Scope string_scope.
Local Open Scope nat_scope.
Local Open Scope list_scope.

Section Proofs.
Variable num : string -> option R.
Variable int_ : string -> option Z.
Variable T : tables.
Variable spaced_matrix : CymeParseModel.record -> list string -> res (option matrix).
Notation record := CymeParseModel.record.

Lemma cell_spec d k : cell_says num d k (cell num d k).
Proof.
  intros x. unfold cell, attempt_. rewrite <- float_iff. destruct (float_of num d k); split; congruence.
Qed.
Lemma wire_spec k open c s p : wire_says num k open c p (configure_wire num c s p k open).
Proof.
  unfold wire_says, configure_wire; cbn. do 4 (split; [reflexivity|]). do 4 (split; [apply cell_spec|]). split.
  - intros N1 N2. destruct k as [[]|]; try congruence; apply cell_spec.
  - intros [-> | ->]; reflexivity.
Qed.
Lemma no_number d k : (forall x, ~ number num d k x) <-> exists e, float_of num d k = Err e.
Proof.
  destruct (float_of num d k) as [x|e] eqn:E; split.
  - intros H. apply float_iff in E. now destruct (H x).
  - intros [e H]. discriminate.
  - eauto.
  - intros _ x H. apply float_iff in H. congruence.
Qed.
Lemma refers_spec table d k : equipment_says table d k (or_empty (refers table d k)).
Proof.
  unfold refers, equipment_says. destruct (dget d k) as [i|] eqn:E; [|right; split; [intros i H; discriminate|reflexivity]].
  destruct (dget table i) as [c|] eqn:F; [left; eauto|right; split; [intros i' H; congruence|reflexivity]].
Qed.
Lemma named_spec d k c : refers_named (t_conductors T) d k = Some c <-> named T d k c.
Proof.
  unfold refers_named, named. destruct (dget d k) as [i|]; [|split; [discriminate|intros (i & E & _); discriminate]].
  destruct (String.eqb_spec (lower i) "none") as [E|N]; split; [discriminate|intros (i' & E1 & E2 & _); congruence| |intros (i' & E1 & _ & E2); congruence].
  intros H. exists i. now repeat split.
Qed.
Lemma named_none d k : refers_named (t_conductors T) d k = None <-> forall c, ~ named T d k c.
Proof.
  split; [intros H c N; apply named_spec in N; congruence|]. intros H. destruct (refers_named (t_conductors T) d k) as [c|] eqn:E; [|reflexivity]. apply named_spec in E. now destruct (H c).
Qed.

(** ** Devices *)
Lemma closed_code d cs : closed_says d cs -> exists closed, match dget d "closedphase" with Some c => of_opt EKey (dget mapp_closed_phase c) | None => Ok "ABC" end = Ok closed /\
  substr_in "N" closed && negb (String.eqb (lower closed) "none") = false /\
  forall p, In p ["A"; "B"; "C"] -> (substr_in p closed && negb (String.eqb (lower closed) "none") = true <-> In p cs).
Proof.
  unfold closed_says. destruct (dget d "closedphase") as [c|].
  - intros (a & n & I & E). unfold closed_table in I. cbn [In] in I.
    repeat match type of I with _ \/ _ => destruct I as [I|I]; [injection I as <- <- <-; destruct E as [-> | ->]; eexists; (split; [reflexivity|]); (split; [reflexivity|]); intros p [<-|[<-|[<-|[]]]]; cbn; intuition discriminate|] end. destruct I.
  - intros ->. exists "ABC". split; [reflexivity|]. split; [reflexivity|]. intros p [<-|[<-|[<-|[]]]]; cbn; intuition discriminate.
Qed.
Lemma device_wires_spec k c closed cs ps n : (forall p, In p ["A"; "B"; "C"] -> (substr_in p closed && negb (String.eqb (lower closed) "none") = true <-> In p cs)) ->
  substr_in "N" closed && negb (String.eqb (lower closed) "none") = false -> Forall (fun p => In p ["A"; "B"; "C"]) ps ->
  exists ws wn opens, device_wires num k c closed n (ps ++ ["N"]) = ws ++ [wn] /\ Forall2 (fun p o => o = true <-> ~ In p cs) ps opens /\ length ws = length ps /\
    (forall i p o w, nth_error ps i = Some p -> nth_error opens i = Some o -> nth_error ws i = Some w -> wire_says num (Some k) o c p w) /\
    exists on, (on = true <-> n = 0 /\ forall p, In p ps -> ~ In p cs) /\ wire_says num (Some k) on c "N" wn.
Proof.
  intros C NC. revert n. induction ps as [|p ps IH]; intros n F.
  - cbn [app device_wires]. rewrite NC. cbn [String.eqb Ascii.eqb Bool.eqb andb]. exists [], (configure_wire num c [] "N" (Some k) (negb (Nat.leb 1 n))), [].
    split; [destruct (Nat.leb 1 n); reflexivity|]. split; [constructor|]. split; [reflexivity|]. split; [intros [|i]; discriminate|]. exists (negb (Nat.leb 1 n)). split; [|apply wire_spec].
    destruct n; cbn; split; try discriminate; try (intros [H _]; discriminate); intros _; split; [reflexivity|intros p []|reflexivity..].
  - inversion F as [|? ? IP F']; subst. cbn [app device_wires]. specialize (C p IP). destruct (substr_in p closed && negb (lower closed =? "none")%string) eqn:E.
    + assert (I : In p cs) by now apply C. destruct (IH (S n) F') as (ws & wn & opens & EW & FO & L & W & on & ON & WN). exists (configure_wire num c [] p (Some k) false :: ws), wn, (false :: opens).
      split; [now rewrite EW|]. split; [constructor; [split; [discriminate|tauto]|exact FO]|]. split; [cbn; now rewrite L|]. split.
      * intros [|i] q o w EP EO EWW; cbn in *; [injection EP as <-; injection EO as <-; injection EWW as <-; apply wire_spec|eapply W; eassumption].
      * exists on. split; [|exact WN]. rewrite ON. split; [intros [H _]; discriminate|]. intros [_ H]. exfalso. apply (H p); [now left|exact I].
    + assert (NI : ~ In p cs). { intros I. apply C in I. discriminate. } assert (NN : String.eqb p "N" = false) by (destruct IP as [<-|[<-|[<-|[]]]]; reflexivity). rewrite NN. cbn [andb].
      destruct (IH n F') as (ws & wn & opens & EW & FO & L & W & on & ON & WN). exists (configure_wire num c [] p (Some k) true :: ws), wn, (true :: opens).
      split; [now rewrite EW|]. split; [constructor; [tauto|exact FO]|]. split; [cbn; now rewrite L|]. split.
      * intros [|i] q o w EP EO EWW; cbn in *; [injection EP as <-; injection EO as <-; injection EWW as <-; apply wire_spec|eapply W; eassumption].
      * exists on. split; [|exact WN]. rewrite ON. split; intros [Z H]; (split; [exact Z|]); [intros q [<-|I]; [exact NI|now apply H]|intros q I; apply H; now right].
Qed.
(** ** Impedances *)
Lemma entries_2 (E : nat -> nat -> R * R -> Prop) a b c d : E 0 0 a -> E 0 1 b -> E 1 0 c -> E 1 1 d -> entries E 2 [[a; b]; [c; d]].
Proof. intros. split; [reflexivity|]. intros [|[|i]] [|[|j]] Li Lj; try lia; eexists _, _; (split; [reflexivity|]); (split; [reflexivity|]); (split; [reflexivity|]); assumption. Qed.
Lemma entries_3 (E : nat -> nat -> R * R -> Prop) a b c d e f g h i : E 0 0 a -> E 0 1 b -> E 0 2 c -> E 1 0 d -> E 1 1 e -> E 1 2 f -> E 2 0 g -> E 2 1 h -> E 2 2 i -> entries E 3 [[a; b; c]; [d; e; f]; [g; h; i]].
Proof. intros. split; [reflexivity|]. intros [|[|[|i0]]] [|[|[|j]]] Li Lj; try lia; eexists _, _; (split; [reflexivity|]); (split; [reflexivity|]); (split; [reflexivity|]); assumption. Qed.
Lemma complex_ok d r x a b : float_of num d r = Ok a -> float_of num d x = Ok b -> complex_of num d r x = Ok (a, b).
Proof. intros H1 H2. unfold complex_of. now rewrite H1, H2. Qed.
Lemma balanced_spec d n : n = 2 \/ n = 3 -> balanced_says num d n (attempt_matrix (balanced_matrix num d n)).
Proof.
  intros N. unfold balanced_says.
  destruct (float_of num d "r1") as [r1|e] eqn:R1; [|right; split; [|exists "r1"; split; [cbn; auto|apply no_number; eauto]]; unfold balanced_matrix, complex_of; rewrite R1; destruct N as [-> | ->]; reflexivity].
  destruct (float_of num d "x1") as [x1|e] eqn:X1; [|right; split; [|exists "x1"; split; [cbn; auto|apply no_number; eauto]]; unfold balanced_matrix, complex_of; rewrite R1; cbn [bind]; rewrite X1; destruct N as [-> | ->]; reflexivity].
  pose proof (complex_ok _ _ _ _ _ R1 X1) as C1.
  destruct (float_of num d "r0") as [r0|e] eqn:R0; [|right; split; [|exists "r0"; split; [cbn; auto|apply no_number; eauto]]; unfold balanced_matrix; rewrite C1; cbn [bind]; unfold complex_of; rewrite R0; destruct N as [-> | ->]; reflexivity].
  destruct (float_of num d "x0") as [x0|e] eqn:X0; [|right; split; [|exists "x0"; split; [cbn; auto|apply no_number; eauto]]; unfold balanced_matrix; rewrite C1; cbn [bind]; unfold complex_of; rewrite R0; cbn [bind]; rewrite X0; destruct N as [-> | ->]; reflexivity].
  pose proof (complex_ok _ _ _ _ _ R0 X0) as C0. left.
  assert (D : scale (1 / 3 * coeff) (2 * r1 + r0, 2 * x1 + x0)%R = ((2 * r1 + r0) / 3000, (2 * x1 + x0) / 3000)%R) by (unfold scale, coeff; cbn; f_equal; field).
  assert (O : scale (1 / 3 * coeff) (r0 - r1, x0 - x1)%R = ((r0 - r1) / 3000, (x0 - x1) / 3000)%R) by (unfold scale, coeff; cbn; f_equal; field).
  exists r1, x1, r0, x0. unfold balanced_matrix. rewrite C1, C0. cbn [bind fst snd]. cbv zeta. rewrite D, O. destruct N as [-> | ->]; eexists; (do 4 (split; [now apply float_iff|])); (split; [reflexivity|]); [apply entries_2|apply entries_3]; reflexivity.
Qed.
Lemma entry_cases d r x : (exists a b, entry num d r x = Ok (a / 1000, b / 1000)%R /\ number num d r a /\ number num d x b) \/
  ((exists e, entry num d r x = Err e) /\ ((forall y, ~ number num d r y) \/ (forall y, ~ number num d x y))).
Proof.
  unfold entry, complex_of. destruct (float_of num d r) as [a|e] eqn:RR; [|right; split; [cbn; eauto|left; apply no_number; eauto]]. cbn [bind].
  destruct (float_of num d x) as [b|e] eqn:XX; [|right; split; [cbn; eauto|right; apply no_number; eauto]]. left. exists a, b. split; [|split; now apply float_iff]. cbn [bind]. unfold scale, coeff. cbn [fst snd]. assert (forall u : R, (/ 1000 * u)%R = (u / 1000)%R) as H by (intros; field). now rewrite !H.
Qed.
Lemma matrix_ab d : unbalanced_matrix num d ["A"; "B"] = do z1 <- entry num d "ra" "xa"; do m <- entry num d "mutualresistanceab" "mutualreactanceab"; do z2 <- entry num d "rb" "xb"; Ok [[z1; m]; [m; z2]].
Proof. reflexivity. Qed.
Lemma matrix_ac d : unbalanced_matrix num d ["A"; "C"] = do z1 <- entry num d "ra" "xa"; do m <- entry num d "mutualresistanceca" "mutualreactanceca"; do z2 <- entry num d "rc" "xc"; Ok [[z1; m]; [m; z2]].
Proof. reflexivity. Qed.
Lemma matrix_bc d : unbalanced_matrix num d ["B"; "C"] = do z1 <- entry num d "rb" "xb"; do m <- entry num d "mutualresistancebc" "mutualreactancebc"; do z2 <- entry num d "rc" "xc"; Ok [[z1; m]; [m; z2]].
Proof. reflexivity. Qed.
Lemma matrix_abc d : unbalanced_matrix num d ["A"; "B"; "C"] = do za <- entry num d "ra" "xa"; do ab <- entry num d "mutualresistanceab" "mutualreactanceab"; do ca <- entry num d "mutualresistanceca" "mutualreactanceca";
    do zb <- entry num d "rb" "xb"; do bc <- entry num d "mutualresistancebc" "mutualreactancebc"; do zc <- entry num d "rc" "xc"; Ok [[za; ab; ca]; [ab; zb; bc]; [ca; bc; zc]].
Proof. reflexivity. Qed.
Lemma unbalanced_spec d ps : sorted_phases ps -> unbalanced_says num d ps (attempt_matrix (unbalanced_matrix num d ps)).
Proof.
  intros S. unfold sorted_phases in S.
  assert (SELF : forall p, columns_of p p ("r" ++ lower p)%string ("x" ++ lower p)%string) by (intros p; left; now repeat split).
  assert (MUT : forall p q m, mutual p q m -> columns_of p q ("mutualresistance" ++ m)%string ("mutualreactance" ++ m)%string) by (intros p q m H; right; exists m; now repeat split).
  assert (ENT : forall i j p q cr cx a b, nth_error ps i = Some p -> nth_error ps j = Some q -> columns_of p q cr cx -> number num d cr a -> number num d cx b -> unbalanced_entry num d ps i j (a / 1000, b / 1000)%R) by (intros; exists p, q, cr, cx, a, b; repeat split; assumption).
  assert (BAD : forall p q cr cx, In p ps -> In q ps -> columns_of p q cr cx -> ((forall y, ~ number num d cr y) \/ (forall y, ~ number num d cx y)) -> attempt_matrix (unbalanced_matrix num d ps) = None -> unbalanced_says num d ps (attempt_matrix (unbalanced_matrix num d ps))).
  { intros p q cr cx Ip Iq C B E. right. split; [exact E|]. exists p, q, cr, cx. repeat split; assumption. }
  destruct S as [<-|[<-|[<-|[<-|[]]]]].
  - destruct (entry_cases d "ra" "xa") as [(a1 & b1 & E1 & A1 & B1)|((e & E1) & B)]; [|apply (BAD "A" "A" "ra" "xa"); [cbn; auto|cbn; auto|apply (SELF "A")|exact B|rewrite matrix_ab; rewrite E1; reflexivity]].
    destruct (entry_cases d "mutualresistanceab" "mutualreactanceab") as [(a2 & b2 & E2 & A2 & B2)|((e & E2) & B)]; [|apply (BAD "A" "B" "mutualresistanceab" "mutualreactanceab"); [cbn; auto|cbn; auto|apply (MUT "A" "B" "ab"); cbn; auto|exact B|rewrite matrix_ab; rewrite E1; cbn [bind]; now rewrite E2]].
    destruct (entry_cases d "rb" "xb") as [(a3 & b3 & E3 & A3 & B3)|((e & E3) & B)]; [|apply (BAD "B" "B" "rb" "xb"); [cbn; auto|cbn; auto|apply (SELF "B")|exact B|rewrite matrix_ab; rewrite E1; cbn [bind]; rewrite E2; cbn [bind]; now rewrite E3]].
    left. eexists. split; [rewrite matrix_ab; rewrite E1; cbn [bind]; rewrite E2; cbn [bind]; rewrite E3; reflexivity|]. apply entries_2.
    + eapply (ENT 0 0); [reflexivity|reflexivity|apply (SELF "A")|exact A1|exact B1].
    + eapply (ENT 0 1); [reflexivity|reflexivity|apply (MUT "A" "B" "ab"); cbn; auto|exact A2|exact B2].
    + eapply (ENT 1 0); [reflexivity|reflexivity|apply (MUT "B" "A" "ab"); cbn; auto|exact A2|exact B2].
    + eapply (ENT 1 1); [reflexivity|reflexivity|apply (SELF "B")|exact A3|exact B3].
  - destruct (entry_cases d "ra" "xa") as [(a1 & b1 & E1 & A1 & B1)|((e & E1) & B)]; [|apply (BAD "A" "A" "ra" "xa"); [cbn; auto|cbn; auto|apply (SELF "A")|exact B|rewrite matrix_ac; rewrite E1; reflexivity]].
    destruct (entry_cases d "mutualresistanceca" "mutualreactanceca") as [(a2 & b2 & E2 & A2 & B2)|((e & E2) & B)]; [|apply (BAD "A" "C" "mutualresistanceca" "mutualreactanceca"); [cbn; auto|cbn; auto|apply (MUT "A" "C" "ca"); cbn; tauto|exact B|rewrite matrix_ac; rewrite E1; cbn [bind]; now rewrite E2]].
    destruct (entry_cases d "rc" "xc") as [(a3 & b3 & E3 & A3 & B3)|((e & E3) & B)]; [|apply (BAD "C" "C" "rc" "xc"); [cbn; auto|cbn; auto|apply (SELF "C")|exact B|rewrite matrix_ac; rewrite E1; cbn [bind]; rewrite E2; cbn [bind]; now rewrite E3]].
    left. eexists. split; [rewrite matrix_ac; rewrite E1; cbn [bind]; rewrite E2; cbn [bind]; rewrite E3; reflexivity|]. apply entries_2.
    + eapply (ENT 0 0); [reflexivity|reflexivity|apply (SELF "A")|exact A1|exact B1].
    + eapply (ENT 0 1); [reflexivity|reflexivity|apply (MUT "A" "C" "ca"); cbn; tauto|exact A2|exact B2].
    + eapply (ENT 1 0); [reflexivity|reflexivity|apply (MUT "C" "A" "ca"); cbn; tauto|exact A2|exact B2].
    + eapply (ENT 1 1); [reflexivity|reflexivity|apply (SELF "C")|exact A3|exact B3].
  - destruct (entry_cases d "rb" "xb") as [(a1 & b1 & E1 & A1 & B1)|((e & E1) & B)]; [|apply (BAD "B" "B" "rb" "xb"); [cbn; auto|cbn; auto|apply (SELF "B")|exact B|rewrite matrix_bc; rewrite E1; reflexivity]].
    destruct (entry_cases d "mutualresistancebc" "mutualreactancebc") as [(a2 & b2 & E2 & A2 & B2)|((e & E2) & B)]; [|apply (BAD "B" "C" "mutualresistancebc" "mutualreactancebc"); [cbn; auto|cbn; auto|apply (MUT "B" "C" "bc"); cbn; tauto|exact B|rewrite matrix_bc; rewrite E1; cbn [bind]; now rewrite E2]].
    destruct (entry_cases d "rc" "xc") as [(a3 & b3 & E3 & A3 & B3)|((e & E3) & B)]; [|apply (BAD "C" "C" "rc" "xc"); [cbn; auto|cbn; auto|apply (SELF "C")|exact B|rewrite matrix_bc; rewrite E1; cbn [bind]; rewrite E2; cbn [bind]; now rewrite E3]].
    left. eexists. split; [rewrite matrix_bc; rewrite E1; cbn [bind]; rewrite E2; cbn [bind]; rewrite E3; reflexivity|]. apply entries_2.
    + eapply (ENT 0 0); [reflexivity|reflexivity|apply (SELF "B")|exact A1|exact B1].
    + eapply (ENT 0 1); [reflexivity|reflexivity|apply (MUT "B" "C" "bc"); cbn; tauto|exact A2|exact B2].
    + eapply (ENT 1 0); [reflexivity|reflexivity|apply (MUT "C" "B" "bc"); cbn; tauto|exact A2|exact B2].
    + eapply (ENT 1 1); [reflexivity|reflexivity|apply (SELF "C")|exact A3|exact B3].
  - destruct (entry_cases d "ra" "xa") as [(a1 & b1 & E1 & A1 & B1)|((e & E1) & B)]; [|apply (BAD "A" "A" "ra" "xa"); [cbn; auto|cbn; auto|apply (SELF "A")|exact B|rewrite matrix_abc; rewrite E1; reflexivity]].
    destruct (entry_cases d "mutualresistanceab" "mutualreactanceab") as [(a2 & b2 & E2 & A2 & B2)|((e & E2) & B)]; [|apply (BAD "A" "B" "mutualresistanceab" "mutualreactanceab"); [cbn; auto|cbn; auto|apply (MUT "A" "B" "ab"); cbn; auto|exact B|rewrite matrix_abc; rewrite E1; cbn [bind]; now rewrite E2]].
    destruct (entry_cases d "mutualresistanceca" "mutualreactanceca") as [(a3 & b3 & E3 & A3 & B3)|((e & E3) & B)]; [|apply (BAD "A" "C" "mutualresistanceca" "mutualreactanceca"); [cbn; auto|cbn; auto|apply (MUT "A" "C" "ca"); cbn; tauto|exact B|rewrite matrix_abc; rewrite E1; cbn [bind]; rewrite E2; cbn [bind]; now rewrite E3]].
    destruct (entry_cases d "rb" "xb") as [(a4 & b4 & E4 & A4 & B4)|((e & E4) & B)]; [|apply (BAD "B" "B" "rb" "xb"); [cbn; auto|cbn; auto|apply (SELF "B")|exact B|rewrite matrix_abc; rewrite E1; cbn [bind]; rewrite E2; cbn [bind]; rewrite E3; cbn [bind]; now rewrite E4]].
    destruct (entry_cases d "mutualresistancebc" "mutualreactancebc") as [(a5 & b5 & E5 & A5 & B5)|((e & E5) & B)]; [|apply (BAD "B" "C" "mutualresistancebc" "mutualreactancebc"); [cbn; auto|cbn; auto|apply (MUT "B" "C" "bc"); cbn; tauto|exact B|rewrite matrix_abc; rewrite E1; cbn [bind]; rewrite E2; cbn [bind]; rewrite E3; cbn [bind]; rewrite E4; cbn [bind]; now rewrite E5]].
    destruct (entry_cases d "rc" "xc") as [(a6 & b6 & E6 & A6 & B6)|((e & E6) & B)]; [|apply (BAD "C" "C" "rc" "xc"); [cbn; auto|cbn; auto|apply (SELF "C")|exact B|rewrite matrix_abc; rewrite E1; cbn [bind]; rewrite E2; cbn [bind]; rewrite E3; cbn [bind]; rewrite E4; cbn [bind]; rewrite E5; cbn [bind]; now rewrite E6]].
    left. eexists. split; [rewrite matrix_abc; rewrite E1; cbn [bind]; rewrite E2; cbn [bind]; rewrite E3; cbn [bind]; rewrite E4; cbn [bind]; rewrite E5; cbn [bind]; rewrite E6; reflexivity|]. apply entries_3.
    + eapply (ENT 0 0); [reflexivity|reflexivity|apply (SELF "A")|exact A1|exact B1].
    + eapply (ENT 0 1); [reflexivity|reflexivity|apply (MUT "A" "B" "ab"); cbn; tauto|exact A2|exact B2].
    + eapply (ENT 0 2); [reflexivity|reflexivity|apply (MUT "A" "C" "ca"); cbn; tauto|exact A3|exact B3].
    + eapply (ENT 1 0); [reflexivity|reflexivity|apply (MUT "B" "A" "ab"); cbn; tauto|exact A2|exact B2].
    + eapply (ENT 1 1); [reflexivity|reflexivity|apply (SELF "B")|exact A4|exact B4].
    + eapply (ENT 1 2); [reflexivity|reflexivity|apply (MUT "B" "C" "bc"); cbn; tauto|exact A5|exact B5].
    + eapply (ENT 2 0); [reflexivity|reflexivity|apply (MUT "C" "A" "ca"); cbn; tauto|exact A3|exact B3].
    + eapply (ENT 2 1); [reflexivity|reflexivity|apply (MUT "C" "B" "bc"); cbn; tauto|exact A5|exact B5].
    + eapply (ENT 2 2); [reflexivity|reflexivity|apply (SELF "C")|exact A6|exact B6].
Qed.

(** ** Wires of lines *)
Lemma phase_wires (P : string -> record -> Prop) (f : string -> record) s ps : (forall p, P p (f p)) ->
  Forall2 (fun p w => exists c, P p c /\ wire_says num None false c p w) ps (map (fun p => configure_wire num (f p) s p None false) ps).
Proof. intros H. induction ps as [|p ps IH]; constructor; [|exact IH]. exists (f p). split; [apply H|apply wire_spec]. Qed.
Lemma balanced_wires_spec d ps : dget d "linecableid" = None -> exists ws, balanced_wires num T d ps = Ok ws /\
  exists neutral, balanced_neutral T d neutral /\ wires_say num ps (fun _ => equipment_says (t_conductors T) d "phasecondid") neutral ws.
Proof.
  intros N. unfold balanced_wires. rewrite N. cbv zeta. set (c := or_empty (refers (t_conductors T) d "phasecondid")). assert ((match c with [] => Ok c | _ :: _ => Ok c end) = Ok c) as -> by (destruct c; reflexivity). cbn [bind]. eexists. split; [reflexivity|].
  exists [("N", or_empty (refers (t_conductors T) d "neutralcondid"))]. split; [eexists; split; [apply refers_spec|reflexivity]|].
  eexists _, _. split; [reflexivity|]. split; [|constructor; [apply wire_spec|constructor]].
  apply (phase_wires (fun _ => equipment_says (t_conductors T) d "phasecondid")). intros _. apply refers_spec.
Qed.
Lemma unbalanced_wires_spec d ps : exists neutral, unbalanced_neutral T d neutral /\ wires_say num ps (unbalanced_conductor T d) neutral (unbalanced_wires num T d ps).
Proof.
  unfold unbalanced_wires. set (s := or_empty (refers_named (t_spacings T) d "spacingid")).
  assert (PH : Forall2 (fun p w => exists c, unbalanced_conductor T d p c /\ wire_says num None false c p w) ps (map (fun p => configure_wire num (or_empty (refers_named (t_conductors T) d ("condid_" ++ lower p)%string)) s p None false) ps)).
  { apply (phase_wires (unbalanced_conductor T d)). intros p. unfold unbalanced_conductor. destruct (refers_named (t_conductors T) d ("condid_" ++ lower p)%string) as [c|] eqn:E; [left; now apply named_spec|right; split; [now apply named_none|reflexivity]]. }
  destruct (refers_named (t_conductors T) d "condid_n1") as [c1|] eqn:E1, (refers_named (t_conductors T) d "condid_n2") as [c2|] eqn:E2, (refers_named (t_conductors T) d "condid_n") as [c|] eqn:E0.
  1,2: exists [("N1", c1); ("N2", c2)]; (split; [apply neutral_two; now apply named_spec|]); eexists _, _; (split; [reflexivity|]); (split; [exact PH|]); constructor; [apply wire_spec|constructor; [apply wire_spec|constructor]].
  - exists [("N", c)]. split; [apply neutral_one; [intros a b [_ H]; apply (proj1 (named_none _ _) E2 _ H)|now apply named_spec]|]. eexists _, _. split; [reflexivity|]. split; [exact PH|constructor; [apply wire_spec|constructor]].
  - exists [("N", c1)]. split; [apply neutral_first; [now apply named_none|now apply named_none|now apply named_spec]|]. eexists _, _. split; [reflexivity|]. split; [exact PH|constructor; [apply wire_spec|constructor]].
  - exists [("N", c)]. split; [apply neutral_one; [intros a b [H _]; apply (proj1 (named_none _ _) E1 _ H)|now apply named_spec]|]. eexists _, _. split; [reflexivity|]. split; [exact PH|constructor; [apply wire_spec|constructor]].
  - exists []. split; [apply neutral_none; now apply named_none|]. eexists _, _. split; [reflexivity|]. split; [exact PH|constructor].
  - exists [("N", c)]. split; [apply neutral_one; [intros a b [H _]; apply (proj1 (named_none _ _) E1 _ H)|now apply named_spec]|]. eexists _, _. split; [reflexivity|]. split; [exact PH|constructor; [apply wire_spec|constructor]].
  - exists []. split; [apply neutral_none; now apply named_none|]. eexists _, _. split; [reflexivity|]. split; [exact PH|constructor].
Qed.

(** ** One section *)
Lemma data_of d i : dget d "linecableid" = Some i -> match line_data_of T d with Some x => data_says T i x | None => forall x, ~ data_says T i x end.
Proof.
  intros E. unfold line_data_of. rewrite E. destruct (dget (t_cables T) i) eqn:E1; [now apply data_cable|]. destruct (dget (t_concentric T) i) eqn:E2; [now apply data_concentric|].
  destruct (dget (t_unbalanced T) i) eqn:E3; [now apply data_unbalanced|]. destruct (dget (t_balanced T) i) eqn:E4; [now apply data_balanced|]. intros x H. inversion H; congruence.
Qed.
Lemma data_shape d i x : data_says T i x -> dget d "linecableid" = Some i -> line_data_of T d = Some x.
Proof. intros H E. unfold line_data_of. rewrite E. inversion H; subst; repeat match goal with H : dget _ i = _ |- _ => rewrite H; clear H end; reflexivity. Qed.
Lemma shape_device d k : dget d "type" = Some (device_name k) -> shape_of d = Device k.
Proof. intros E. unfold shape_of. rewrite E. destruct k; reflexivity. Qed.
Lemma shape_line d t : line_kind d t -> shape_of d = Plain (Some t).
Proof. intros [(E & ->)|([E|E] & ->)]; unfold shape_of; rewrite E; reflexivity. Qed.
Lemma kinds_apart d t k : line_kind d t -> dget d "type" <> Some (device_name k).
Proof. intros [(E & _)|([E|E] & _)]; rewrite E; destruct k; discriminate. Qed.

Lemma skip_spec d : (dget d "fromnodeid" <> None -> dget d "tonodeid" <> None) ->
  exists b, match dget d "fromnodeid" with
            | Some f => if substr_in "load" (lower f) then Ok true else do t <- of_opt EKey (dget d "tonodeid"); Ok (substr_in "load" (lower t))
            | None => Ok false
            end = Ok b /\ (b = true <-> at_load d).
Proof.
  intros W. destruct (dget d "fromnodeid") as [f|] eqn:EF; [|exists false; split; [reflexivity|]; split; [discriminate|intros (f & n & E & _); congruence]].
  destruct (substr_in "load" (lower f)) eqn:SF; [exists true; split; [reflexivity|]; split; [intros _|reflexivity]; exists f, f; split; [exact EF|]; split; [now left|now apply substr_in_spec]|].
  destruct (dget d "tonodeid") as [t|] eqn:ET; [|exfalso; apply W; congruence]. cbn [of_opt bind]. eexists. split; [reflexivity|]. split.
  - intros S. exists f, t. split; [exact EF|]. split; [now right|now apply substr_in_spec].
  - intros (f' & n & E1 & [-> |E2] & O); apply substr_in_spec in O; congruence.
Qed.
Lemma index_spec s k z : match dget s k with Some t => int_ t | None => None end = Some z <-> exists t, dget s k = Some t /\ int_ t = Some z.
Proof. destruct (dget s k) as [t|]; [|split; [discriminate|intros (t & E & _); discriminate]]. split; [eauto|intros (t' & E & H); congruence]. Qed.

Lemma one_line_spec e bound : no_line_ids T -> proper T e -> exists o b, one_line num int_ T spaced_matrix bound e = Ok (o, b) /\ yields num int_ T e o.
Proof.
  intros NL (WF & (id & s & ps & f & SS & FP & EF) & TY & TN & (cs & CL) & ND). destruct e as [key d]. cbn [snd fst] in *.
  destruct SS as ((k & EK) & B & ES & (t & ET & EP)) eqn:ESS. pose proof SS as SS'. clear ESS SS. cbn [fst] in EK. subst key. unfold one_line. cbn [fst snd]. destruct (skip_spec d WF) as (b & -> & AL). cbn [bind].
  destruct b; [exists None, bound; split; [reflexivity|apply yields_load; now apply AL]|]. assert (NAL : ~ at_load d) by (intros H; apply AL in H; discriminate).
  rewrite (strip_bare id k B), EF, ES, ET. cbn [of_opt bind].
  assert (LC : forall kk tt v ws m, line_common num int_ T ((id ++ stars k)%string, d) id s (mkLine (lower id) (dget s "fromnodeid") (dget s "tonodeid") match dget s "fromnodeindex" with Some t0 => int_ t0 | None => None end match dget s "tonodeindex" with Some t0 => int_ t0 | None => None end (cell num d "length") f (dget d "eqid") kk tt v ws m)).
  { intros. unfold line_common; cbn. do 3 (split; [reflexivity|]). split; [intros z; apply index_spec|]. split; [intros z; apply index_spec|]. split; [apply cell_spec|]. now split. }
  assert (EP' : letters t = ps) by now rewrite EP. rewrite EP'.
  destruct TY as [TY|[(kd & TY)|(lt & TY)]].
  - assert (shape_of d = Plain None) as -> by (unfold shape_of; now rewrite TY). assert (line_data_of T d = None) as -> by (unfold line_data_of; now rewrite (TN TY), ND). eexists _, _. split; [reflexivity|]. apply yields_nothing; cbn [snd]; [exact NAL|intros kd; congruence|intros i data H; rewrite (TN TY) in H; discriminate].
  - rewrite (shape_device d kd TY). destruct (closed_code d cs CL) as (closed & -> & NC & C). cbn [bind].
    eexists _, _. split; [reflexivity|]. eapply (yields_device _ _ _ _ id s ps kd cs); [exact NAL|exact SS'|exact TY|exact CL|]. split; [apply LC|]. do 3 (split; [reflexivity|]). eexists. split; [apply refers_spec|]. split.
    + intros v. cbn [l_voltage]. unfold kilo. split.
      * destruct (float_of num _ "kvll") as [x|] eqn:E; [|discriminate]. intros H. injection H as <-. exists x. split; [now apply float_iff|reflexivity].
      * intros (x & N & ->). apply float_iff in N. cbn [snd] in N. now rewrite N.
    + cbn [l_wires]. destruct (device_wires_spec kd (or_empty (refers (t_devices T kd) d "eqid")) closed cs ps 0 C NC FP) as (ws & wn & opens & EW & FO & L & W & on & ON & WN). exists ws, wn, opens. split; [exact EW|]. split; [exact FO|]. split; [exact L|]. split; [exact W|]. exists on. split; [|exact WN]. rewrite ON. intuition.
  - rewrite (shape_line d lt TY). destruct (dget d "linecableid") as [i|] eqn:EI.
    + pose proof (data_of d i EI) as DS. destruct (line_data_of T d) as [data|]; [|eexists _, _; split; [reflexivity|]; apply yields_nothing; cbn [snd]; [exact NAL|intros kd; now apply (kinds_apart d lt)|intros i' x H; assert (i' = i) by congruence; subst i'; apply DS]].
      assert (LI : forall x, data = Balanced x -> dget x "linecableid" = None). { intros x ->. unfold no_line_ids in NL. inversion NL as [|? ? N1 NL1]; subst. inversion NL1 as [|? ? N2 NL2]; subst. inversion NL2 as [|? ? N3 _]; subst. inversion DS; subst; eauto. }
      destruct data as [x|x|].
      * destruct (balanced_wires_spec x ps (LI x eq_refl)) as (ws & -> & neutral & BN & W). cbn [bind]. eexists _, _. split; [reflexivity|]. eapply (yields_line _ _ _ _ id s ps lt i (Balanced x)); [exact NAL|exact SS'|exact TY|exact EI|exact DS|].
        split; [apply LC|]. do 3 (split; [reflexivity|]). split; [apply balanced_spec|]. exists neutral. now split.
      * eexists _, _. split; [reflexivity|]. eapply (yields_line _ _ _ _ id s ps lt i (Unbalanced x)); [exact NAL|exact SS'|exact TY|exact EI|exact DS|]. split; [apply LC|]. do 3 (split; [reflexivity|]). split; [apply unbalanced_spec|]. apply unbalanced_wires_spec.
      * exfalso. inversion DS.
    + assert (line_data_of T d = None) as -> by (unfold line_data_of; now rewrite EI, ND). eexists _, _. split; [reflexivity|]. apply yields_nothing; cbn [snd]; [exact NAL|intros kd; now apply (kinds_apart d lt)|intros i data H; congruence].
Qed.

Definition some_list {A} (os : list (option A)) : list A := flat_map (fun o => match o with Some x => [x] | None => [] end) os.
Lemma lines_spec settings : no_line_ids T -> Forall (proper T) settings -> forall made bound, exists os b,
  foldM (line_step num int_ T spaced_matrix) settings (made, bound) = Ok (made ++ some_list os, b) /\ Forall2 (yields num int_ T) settings os.
Proof.
  intros NL. induction settings as [|e settings IH]; intros F made bound; [exists [], bound; split; [cbn; now rewrite app_nil_r|constructor]|].
  inversion F as [|? ? P F']; subst. destruct (one_line_spec e bound NL P) as (o & b & E & Y). cbn [foldM]. unfold line_step at 1. cbn [fst snd]. rewrite E. cbn [bind].
  destruct (IH F' (made ++ match o with Some l => [l] | None => [] end) b) as (os & b' & E' & FF). exists (o :: os), b'. split; [rewrite E', <- app_assoc; reflexivity|now constructor].
Qed.
End Proofs.
