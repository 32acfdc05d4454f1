(** C112: the capacitors of the CYME reader. *)
From Coq Require Import List String Ascii Bool Arith ZArith Reals Lra Lia.
From Verif Require Import Base BaseFacts CymeMapModel CymeMapSpec CymeMapProps CymeParseModel CymeParseSpec CymeLoadModel CymeLoadSpec CymeLoadProofs CymeCapModel CymeCapSpec HeadProofs.
Import ListNotations.
Local Open Scope string_scope.
Local Open Scope nat_scope.
Local Open Scope list_scope.

Section Proofs.
Variable num : string -> option R.
Notation record := CymeParseModel.record.

Lemma float_iff d k x : float_of num d k = Ok x <-> number num d k x.
Proof.
  unfold float_of, number. destruct (dget d k) as [t|]; cbn; [|split; [discriminate|intros (t & E & _); discriminate]].
  destruct (num t) eqn:N; cbn; (split; [intros H; exists t; split; [reflexivity|congruence]|intros (t' & E & H); congruence]).
Qed.
Lemma kilo_spec d k b : thousands num d k b (kilo num d k b).
Proof.
  unfold kilo. destruct (float_of num d k) as [x|e] eqn:E.
  - left. exists x. split; [now apply float_iff|reflexivity].
  - right. split; [|reflexivity]. intros x H. apply float_iff in H. congruence.
Qed.
Lemma number_fun d k x y : number num d k x -> number num d k y -> x = y.
Proof. intros (t & E & H) (t' & E' & H'). congruence. Qed.
Lemma mem_number d k x : number num d k x -> dmem d k = true.
Proof. intros (t & E & _). unfold dmem. now rewrite E. Qed.

Lemma given_none d a b c : no_power num d a b c -> given num d a b c = Ok false.
Proof.
  unfold given. intros [N|(x & y & z & (X & Y & Z) & LX & LY & LZ)].
  - unfold dmem. destruct (dget d a), (dget d b), (dget d c); try reflexivity. destruct N as [N|[N|N]]; discriminate.
  - rewrite (mem_number _ _ _ X), (mem_number _ _ _ Y), (mem_number _ _ _ Z). cbn [andb]. unfold some_positive. apply float_iff in X. apply float_iff in Y. apply float_iff in Z. rewrite X, Y, Z. cbn [bind].
    destruct (Rlt_dec 0 (Rmax x (Rmax y z))) as [L|]; [|reflexivity]. exfalso. assert (Rmax x (Rmax y z) <= 0)%R; [|lra]. apply Rmax_lub; [exact LX|now apply Rmax_lub].
Qed.
Lemma given_some d a b c x y z : some_power num d a b c x y z -> given num d a b c = Ok true.
Proof.
  intros ((X & Y & Z) & P). unfold given. rewrite (mem_number _ _ _ X), (mem_number _ _ _ Y), (mem_number _ _ _ Z). cbn [andb]. unfold some_positive. apply float_iff in X. apply float_iff in Y. apply float_iff in Z. rewrite X, Y, Z. cbn [bind].
  destruct (Rlt_dec 0 (Rmax x (Rmax y z))) as [|L]; [reflexivity|]. exfalso. apply L. pose proof (Rmax_l x (Rmax y z)). pose proof (Rmax_r x (Rmax y z)). pose proof (Rmax_l y z). pose proof (Rmax_r y z). destruct P as [P|[P|P]]; lra.
Qed.
Lemma of_phase_spec d a b c x y z p : three num d a b c x y z -> of_phase p x y z (power_of_phase num d a b c p).
Proof.
  intros (X & Y & Z). apply float_iff in X. apply float_iff in Y. apply float_iff in Z. unfold power_of_phase, kilo. rewrite X, Y, Z.
  destruct (String.eqb_spec p "A") as [->|NA]; [now left|]. destruct (String.eqb_spec p "B") as [->|NB]; [right; now left|]. destruct (String.eqb_spec p "C") as [->|NC]; [right; right; now left|].
  right; right; right. split; [|reflexivity]. intros [H|[H|[H|[]]]]; congruence.
Qed.
Lemma phase_spec d q p : readable num d -> exists v, phase_capacitor num d q p = Ok (p, v) /\ power_says num d q p v.
Proof.
  intros [[N|(x & y & z & S)] SW]; unfold phase_capacitor.
  - rewrite (given_none _ _ _ _ N). cbn [bind]. destruct SW as [M|(x & y & z & S)].
    + rewrite (given_none _ _ _ _ M). cbn [bind]. eexists. split; [reflexivity|]. apply says_equipment; [exact N|exact M|]. destruct q; [apply kilo_spec|reflexivity].
    + rewrite (given_some _ _ _ _ _ _ _ S). cbn [bind]. eexists. split; [reflexivity|]. eapply says_switched; [exact N|exact S|]. apply of_phase_spec. apply S.
  - rewrite (given_some _ _ _ _ _ _ _ S). cbn [bind]. eexists. split; [reflexivity|]. eapply says_fixed; [exact S|]. apply of_phase_spec. apply S.
Qed.
Lemma phases_spec d q t : readable num d -> exists l, mapM (phase_capacitor num d q) (letters t) = Ok l /\
  Forall2 (fun a pv => fst pv = String a "" /\ power_says num d q (fst pv) (snd pv)) (list_ascii_of_string t) l.
Proof.
  intros R. unfold letters. induction (list_ascii_of_string t) as [|a l IH]; [exists []; now split|]. destruct IH as (r & E & F). cbn [map mapM]. destruct (phase_spec d q (String a "") R) as (v & -> & P). rewrite E. eexists. split; [reflexivity|]. constructor; [now split|exact F].
Qed.
Lemma conn_spec d : connection_says d (match dget d "connection" with Some t => match capacitors_connection_mapping (VStr t) with Ok (VStr c) => Some c | _ => None end | None => None end).
Proof.
  unfold connection_says. destruct (dget d "connection") as [t|]; [|reflexivity]. destruct C61_bank as (T & _ & O).
  assert (D : (exists z a n r, In (z, a, n, r) bank_table /\ (t = a \/ t = n)) \/ (forall z a n r, In (z, a, n, r) bank_table -> t <> a /\ t <> n)).
  { unfold bank_table. induction [(0%Z, "0", "Y", "Y"); (1%Z, "1", "YNG", "Y"); (2%Z, "2", "D", "D")] as [|[[[z a] n] r] l IH]; [right; intros ? ? ? ? []|].
    destruct (string_dec t a) as [->|NA]; [left; exists z, a, n, r; split; [now left|now left]|]. destruct (string_dec t n) as [->|NN]; [left; exists z, a, n, r; split; [now left|now right]|].
    destruct IH as [(z' & a' & n' & r' & I & H)|H]; [left; exists z', a', n', r'; split; [now right|exact H]|]. right. intros z' a' n' r' [E|I]; [injection E as <- <- <- <-; now split|now apply (H z' a' n' r')]. }
  destruct D as [(z & a & n & r & I & [-> | ->])|H].
  - left. exists z, a, n, r. split; [exact I|]. split; [now left|]. now destruct (T _ _ _ _ I) as (_ & -> & _).
  - left. exists z, a, n, r. split; [exact I|]. split; [now right|]. now destruct (T _ _ _ _ I) as (_ & _ & ->).
  - right. split; [exact H|]. now rewrite (O t H).
Qed.
Lemma is_text_spec (c : option string) t : (match c with Some c => String.eqb c t | None => false end) = true <-> c = Some t.
Proof. destruct c as [c|]; [rewrite String.eqb_eq; split; congruence|split; discriminate]. Qed.
Lemma rated_spec d q c ps v0 : in_equipment num q "kv" v0 -> voltage_says num d q c (length ps) (rated num c ps d v0).
Proof.
  intros V. unfold rated, voltage_says, dmem. destruct (dget d "kv") as [t|] eqn:EK; [|right; split; [intros x (t & E & _); congruence|exact V]].
  destruct (float_of num d "kv") as [x|e] eqn:F; [|right; split; [intros x H; apply float_iff in H; congruence|exact V]]. left. exists x. split; [now apply float_iff|].
  pose proof (is_text_spec c "D") as TD. pose proof (is_text_spec c "Y") as TY. destruct (match c with Some c => String.eqb c "D" | None => false end), (match c with Some c => String.eqb c "Y" | None => false end); cbn [orb].
  - left. split; [left; now apply TD|reflexivity].
  - left. split; [left; now apply TD|reflexivity].
  - destruct (Nat.eqb_spec (length ps) 3) as [E|N]; [left; split; [now right|reflexivity]|]. right. left. split; [intros H; apply TD in H; discriminate|]. split; [exact N|]. split; [left; now apply TY|reflexivity].
  - destruct (Nat.eqb_spec (length ps) 3) as [E|N]; [left; split; [now right|reflexivity]|]. right.
    destruct (Nat.eqb_spec (length ps) 1) as [E|N']; [left|right].
    + split; [intros H; apply TD in H; discriminate|]. split; [exact N|]. split; [now right|reflexivity].
    + split; [intros H; apply TD in H; discriminate|]. split; [exact N|]. split; [intros H; apply TY in H; discriminate|]. split; [exact N'|exact V].
Qed.
Lemma letters_length t : length (letters t) = String.length t.
Proof. unfold letters. rewrite map_length. induction t as [|a t IH]; [reflexivity|]. cbn. now rewrite IH. Qed.
End Proofs.

(** Every setting of a capacitor becomes one capacitor, in order. *)
Theorem C112_capacitors : forall num section_phase section_feeder equipment settings,
  Forall (fun e => placed section_phase section_feeder e /\ readable num (snd e)) settings ->
  exists l, parse_capacitors num section_phase section_feeder equipment settings = Ok l /\ Forall2 (capacitor_says num section_phase section_feeder equipment) settings l.
Proof.
  intros num section_phase section_feeder equipment settings F. unfold parse_capacitors. induction F as [|[key d] settings ((id & k & s & t & f & EK & B & ES & ET & EF) & RD) F IH]; [exists []; now split|].
  destruct IH as (l & E & FF). cbn [mapM]. unfold one_capacitor at 1. cbn [fst snd] in *. rewrite EK, (strip_bare id k B), EF, ES. cbn [of_opt bind assign_text]. rewrite ET. cbn [of_opt bind].
  set (q := match _ with Some i => dget equipment i | None => None end). destruct (phases_spec num d q t RD) as (pcs & -> & FP). cbn [bind]. rewrite E. eexists. split; [reflexivity|]. constructor; [|exact FF].
  exists id, k, s, t, q. cbn [fst snd c_name c_element c_feeder c_connection c_reactance c_voltage c_phases]. split; [reflexivity|]. split; [exact B|]. split; [exact ES|]. split; [exact ET|]. split; [reflexivity|]. split; [reflexivity|]. split; [exact EF|]. split; [apply conn_spec|].
  split; [unfold equipment_says, q; destruct (dget d "eqid"); [reflexivity|]; now destruct (dget d "shuntcapacitorid")|]. split; [|split; [|exact FP]].
  - intros x. destruct q as [q'|]; [|split; [discriminate|intros (q' & H & _); discriminate]]. split.
    + intros H. exists q'. split; [reflexivity|]. apply float_iff. unfold attempt_ in H. destruct (float_of num q' "reactance"); congruence.
    + intros (q'' & H & N). injection H as <-. apply float_iff in N. unfold attempt_. now rewrite N.
  - rewrite <- letters_length. apply rated_spec. destruct q; [apply kilo_spec|reflexivity].
Qed.
Print Assumptions C112_capacitors.

(** No capacitor has a monitored phase or a position, whatever the settings say. *)
Theorem C112_monitor_refuted : forall num section_phase section_feeder equipment settings l,
  parse_capacitors num section_phase section_feeder equipment settings = Ok l -> Forall (fun c => c_monitored c = None /\ c_positions c = []) l.
Proof.
  intros num sp sf eq settings l E. apply mapM_Forall2 in E. induction E as [|e c settings l H F IH]; constructor; [|exact IH]. clear IH F. unfold one_capacitor, assign_text, append_position in H. cbv zeta in H.
  repeat match type of H with bind ?r _ = _ => destruct r; cbn [bind] in H; [|discriminate] end. injection H as <-. now split.
Qed.
Print Assumptions C112_monitor_refuted.

(** The switched power is lost where there is fixed power. *)
Theorem C112_switched_refuted : forall num d q v x y z x' y' z', power_says num d q "A" v ->
  some_power num d "fixedkvara" "fixedkvarb" "fixedkvarc" x y z -> some_power num d "switchedkvara" "switchedkvarb" "switchedkvarc" x' y' z' -> (0 < x')%R ->
  v = Some (x * 1000)%R /\ v <> Some ((x + x') * 1000)%R.
Proof.
  intros num d q v x y z x' y' z' P S S' L.
  assert (NN : ~ no_power num d "fixedkvara" "fixedkvarb" "fixedkvarc"). { intros N. apply given_none in N. apply given_some in S. congruence. }
  destruct P as [x1 y1 z1 ((X1 & _) & _) OP|? ? ? N|N]; [|tauto|tauto]. destruct S as ((X & _) & _). assert (x1 = x) by (eapply number_fun; eassumption). subst x1.
  destruct OP as [(_ & ->)|[(H & _)|[(H & _)|(H & _)]]]; try discriminate; [|destruct H; cbn; auto]. split; [reflexivity|]. intros H. injection H as H. lra.
Qed.
Print Assumptions C112_switched_refuted.

(** The rating of a capacitor on two phases without a known connection is ignored. *)
Theorem C112_two_phases_refuted : forall num d c v x, number num d "kv" x -> c <> Some "Y" -> c <> Some "D" -> voltage_says num d None c 2 v -> v = None.
Proof.
  intros num d c v x N NY ND [(y & _ & [([H|H] & _)|[(_ & _ & [H|H] & _)|(_ & _ & _ & _ & H)]])|(H & _)]; try congruence; try discriminate; try exact H. now destruct (H x).
Qed.
Print Assumptions C112_two_phases_refuted.

Lemma mapM_stuck {A B} (f : A -> res B) l x e : In x l -> f x = Err e -> exists err, mapM f l = Err err.
Proof.
  intros I E. induction l as [|y l IH]; [destruct I|]. cbn. destruct I as [->|I]; [rewrite E; eauto|]. destruct (f y); [|eauto]. destruct (IH I) as [err ->]. eauto.
Qed.
(** One capacitor on an unknown section stops the reader. *)
Theorem C112_section_refuted : forall num section_phase section_feeder equipment settings id k d, In ((id ++ stars k)%string, d) settings -> bare id ->
  dget section_feeder (lower id) = None -> exists err, parse_capacitors num section_phase section_feeder equipment settings = Err err.
Proof.
  intros num sp sf eq settings id k d I B N. eapply mapM_stuck; [exact I|]. unfold one_capacitor. cbn [fst snd]. rewrite (strip_bare id k B), N. reflexivity.
Qed.
Print Assumptions C112_section_refuted.

(** So does an empty cell among the fixed powers. *)
Theorem C112_empty_refuted : forall num section_phase section_feeder equipment settings e d, num "" = None -> In e settings -> placed section_phase section_feeder e -> snd e = d ->
  (forall id k s, fst e = (id ++ stars k)%string -> bare id -> dget section_phase (lower id) = Some s -> dget s "phase" <> Some "") ->
  dget d "fixedkvara" = Some "" -> dget d "fixedkvarb" <> None -> dget d "fixedkvarc" <> None ->
  exists err, parse_capacitors num section_phase section_feeder equipment settings = Err err.
Proof.
  intros num sp sf eq settings [key d'] d NE I (id & k & s & t & f & EK & B & ES & ET & EF) Ed NT EA NB NC. cbn [fst snd] in *. subst d'. eapply mapM_stuck; [exact I|]. unfold one_capacitor. cbn [fst snd]. rewrite EK, (strip_bare id k B), EF, ES. cbn [of_opt bind assign_text]. rewrite ET. cbn [of_opt bind].
  assert (NT' : t <> "") by (specialize (NT id k s EK B ES); congruence). destruct t as [|a t]; [congruence|]. unfold letters. cbn [list_ascii_of_string map mapM]. unfold phase_capacitor at 1, given at 1, dmem. rewrite EA. destruct (dget d "fixedkvarb"); [|congruence]. destruct (dget d "fixedkvarc"); [|congruence].
  cbn [andb]. unfold some_positive, float_of at 1. rewrite EA. cbn [of_opt bind]. rewrite NE. reflexivity.
Qed.
Print Assumptions C112_empty_refuted.

(** ** The hypotheses can be met *)
Definition num0 (s : string) : option R := if String.eqb s "100" then Some 100%R else if String.eqb s "0" then Some 0%R else if String.eqb s "7.2" then Some (7.2)%R else None.
Definition sections0 : list (string * CymeParseModel.record) := [("s1", [("fromnodeid", "n1"); ("tonodeid", "n2"); ("phase", "ABC")]); ("s2", [("fromnodeid", "n3"); ("tonodeid", "n2"); ("phase", "AC")])].
Definition settings0 : list (string * CymeParseModel.record) :=
  [("S1", [("sectionid", "S1"); ("connection", "YNG"); ("fixedkvara", "100"); ("fixedkvarb", "100"); ("fixedkvarc", "0"); ("kv", "7.2"); ("controllingphase", "A")]);
   ("S1*", [("sectionid", "S1"); ("eqid", "cap")]); ("s2", [("sectionid", "s2"); ("kv", "7.2"); ("shuntcapacitorid", "none")])].
Lemma met0 : Forall (fun e => placed sections0 [("s1", "f"); ("s2", "f")] e /\ readable num0 (snd e)) settings0.
Proof.
  assert (B : bare "S1" /\ bare "s2"). { split; (split; [intros t H; discriminate|]); intros t H; destruct t as [|a [|b [|c t]]]; discriminate. }
  unfold settings0. apply Forall_cons; [|apply Forall_cons; [|apply Forall_cons; [|constructor]]]; cbn [snd]; split.
  - exists "S1", 0. eexists _, _, _. split; [reflexivity|]. split; [apply B|]. split; [reflexivity|]. split; reflexivity.
  - split; [right; exists 100%R, 100%R, 0%R; split; [split; [|split]; eexists; split; reflexivity|left; lra]|left; left; now left].
  - exists "S1", 1. eexists _, _, _. split; [reflexivity|]. split; [apply B|]. split; [reflexivity|]. split; reflexivity.
  - split; left; left; now left.
  - exists "s2", 0. eexists _, _, _. split; [reflexivity|]. split; [apply B|]. split; [reflexivity|]. split; reflexivity.
  - split; left; left; now left.
Qed.
Example C112_hypotheses_met :
  Forall (fun e => placed sections0 [("s1", "f"); ("s2", "f")] e /\ readable num0 (snd e)) settings0 /\
  exists l, parse_capacitors num0 sections0 [("s1", "f"); ("s2", "f")] [("cap", [("reactance", "100")])] settings0 = Ok l /\ length l = 3.
Proof.
  split; [exact met0|]. destruct (C112_capacitors num0 sections0 _ [("cap", [("reactance", "100")])] settings0 met0) as (l & E & FF). exists l. split; [exact E|]. unfold settings0 in FF. inversion FF as [|? ? ? ? _ F1]; subst. inversion F1 as [|? ? ? ? _ F2]; subst. inversion F2 as [|? ? ? ? _ F3]; subst. now inversion F3.
Qed.
