(** C118: the regulators of the CYME reader. *)
From Coq Require Import List String Ascii Bool Arith ZArith Reals Lra Lia.
From Verif Require Import Base BaseFacts CymeMapModel CymeMapSpec CymeMapProps CymeParseModel CymeParseSpec CymeLoadModel CymeLoadSpec CymeLoadProofs CymeVregModel CymeVregSpec.
Import ListNotations.
Local Open Scope string_scope.
Local Open Scope nat_scope.
Local Open Scope list_scope.

Section Proofs.
Variable num : string -> option R.
Notation record := CymeParseModel.record.

Lemma float_iff d k x : float_of num d k = Ok x <-> number num d k x.
Proof.
  unfold float_of, number. destruct (dget d k) as [t|]; cbn; [|split; [discriminate|intros (t & E & _); discriminate]].
  destruct (num t) eqn:N; cbn; (split; [intros H; exists t; split; [reflexivity|congruence]|intros (t' & E & H); congruence]).
Qed.
Lemma attempt_spec d k : cell_says num d k (attempt (float_of num d k) None).
Proof. intros x. rewrite <- float_iff. unfold attempt. destruct (float_of num d k); split; congruence. Qed.
Lemma center_spec d p : center_says num d p (center_of num d p).
Proof.
  intros x. unfold center_of, of_phase. destruct (String.eqb_spec p "A") as [->|NA]; [|destruct (String.eqb_spec p "B") as [->|NB]; [|destruct (String.eqb_spec p "C") as [->|NC]]].
  - rewrite (attempt_spec d "vseta" x). split; [intros N; exists "vseta"; split; [now left|exact N]|]. intros (k & [H|[H|[H|[]]]] & N); [|discriminate|discriminate]. injection H as <-. exact N.
  - rewrite (attempt_spec d "vsetb" x). split; [intros N; exists "vsetb"; split; [right; now left|exact N]|]. intros (k & [H|[H|[H|[]]]] & N); [discriminate| |discriminate]. injection H as <-. exact N.
  - rewrite (attempt_spec d "vsetc" x). split; [intros N; exists "vsetc"; split; [right; right; now left|exact N]|]. intros (k & [H|[H|[H|[]]]] & N); [discriminate|discriminate|]. injection H as <-. exact N.
  - split; [discriminate|]. intros (k & [H|[H|[H|[]]]] & _); injection H; congruence.
Qed.
Definition rated_of (q : record) : res R := if dmem q "forwardbandwidth" then float_of num q "forwardbandwidth" else float_of num q "bandwidth".
Lemma rated_iff q x : rated_of q = Ok x <-> rated_bandwidth num q x.
Proof.
  unfold rated_of, rated_bandwidth, dmem. destruct (dget q "forwardbandwidth") as [t|] eqn:E.
  - rewrite float_iff. split; [now left|]. intros [H|[H _]]; [exact H|discriminate].
  - rewrite float_iff. split; [intros H; now right|]. intros [(t & H & _)|[_ H]]; [congruence|exact H].
Qed.
Lemma rated_none q e : rated_of q = Err e -> forall x, ~ rated_bandwidth num q x.
Proof. intros H x R. apply rated_iff in R. congruence. Qed.
Lemma bandwidth_spec d q p : bandwidth_says num d q p (bandwidth_of num d q p).
Proof.
  unfold bandwidth_of. cbn [bandwidth_steps]. unfold bandwidth_step. fold (rated_of q).
  destruct (String.eqb_spec p "A") as [->|NA].
  - cbn [String.eqb Ascii.eqb Bool.eqb andb]. unfold dmem at 1. destruct (dget d "bandwidtha") as [t|] eqn:E.
    + destruct (float_of num d "bandwidtha") as [y|e] eqn:F.
      * apply float_iff in F. destruct (rated_of q) as [x|e] eqn:Q; [apply rated_iff in Q; apply bandwidth_rated; [exact Q|discriminate|eauto]|]. apply bandwidth_a; [reflexivity|exact (rated_none _ _ Q)|exact F].
      * unfold float_of in F. rewrite E in F. cbn in F. destruct (num t) eqn:N; [discriminate|]. now apply (bandwidth_spoilt num d q "A" t).
    + destruct (rated_of q) as [x|e] eqn:Q; [apply rated_iff in Q; apply bandwidth_rated; [exact Q|discriminate|auto]|]. apply bandwidth_none; [exact (rated_none _ _ Q)|]. intros _ y (t & H & _). congruence.
  - cbn [andb]. destruct (rated_of q) as [x|e] eqn:Q; [|apply bandwidth_none; [exact (rated_none _ _ Q)|congruence]]. apply rated_iff in Q as RQ.
    destruct (String.eqb_spec p "B") as [->|NB].
    + cbn [String.eqb Ascii.eqb Bool.eqb andb]. destruct (dmem d "bandwidthb"); [destruct (float_of num d "bandwidthb")|]; (apply bandwidth_rated; [exact RQ|discriminate|discriminate]).
    + cbn [andb]. destruct (String.eqb_spec p "C") as [->|NC].
      * cbn [andb]. unfold dmem. destruct (dget d "bandwidthc") as [t|] eqn:E.
        -- destruct (float_of num d "bandwidthc") as [y|e] eqn:F; [apply float_iff in F; now apply bandwidth_c with x|]. apply bandwidth_rated; [exact RQ| |discriminate]. intros _ y H. apply float_iff in H. congruence.
        -- apply bandwidth_rated; [exact RQ| |discriminate]. intros _ y (t & H & _). congruence.
      * cbn [andb]. apply bandwidth_rated; [exact RQ|congruence|congruence].
Qed.
Lemma connection_either t : (exists z a n r, In (z, a, n, r) connection_table /\ spelt a n t) \/ forall z a n r, In (z, a, n, r) connection_table -> ~ spelt a n t.
Proof.
  generalize connection_table as tb. induction tb as [|[[[z a] n] r] tb [(z' & a' & n' & r' & I & S)|N]]; [now right|left; exists z', a', n', r'; split; [now right|exact S]|].
  unfold spelt. destruct (string_dec t a) as [E|E]; [left; exists z, a, n, r; split; [now left|now left]|].
  destruct (string_dec (lower t) n) as [F|F]; [left; exists z, a, n, r; split; [now left|now right]|].
  right. intros z' a' n' r' [H|H]; [injection H as <- <- <- <-; tauto|now apply (N z' a' n' r')].
Qed.
Lemma conn_spec d : connection_says d (match dget d "conn" with Some t => match connection_configuration_mapping (VStr t) with Ok (Some c) => Some c | _ => None end | None => None end).
Proof.
  unfold connection_says. destruct (dget d "conn") as [t|] eqn:F; [|right; split; [discriminate|reflexivity]].
  destruct C61_connection as (T & _ & ERR & _ & NO). destruct (connection_either t) as [(z & a & n & r & I & S)|N].
  - left. exists t, z, a, n, r. split; [reflexivity|]. split; [exact I|]. split; [exact S|]. destruct (T z a n r I) as [_ TS]. now rewrite (TS t S).
  - right. split; [intros t' z a n r H2; injection H2 as <-; apply N|].
    assert (Q : spelt "6" "ct" t \/ spelt "7" "dg" t \/ (~ spelt "6" "ct" t /\ ~ spelt "7" "dg" t)).
    { unfold spelt. destruct (string_dec t "6"); [tauto|]. destruct (string_dec (lower t) "ct"); [tauto|]. destruct (string_dec t "7"); [tauto|]. destruct (string_dec (lower t) "dg"); tauto. }
    destruct Q as [Q|[Q|[Q1 Q2]]]; [rewrite ERR by tauto|rewrite ERR by tauto|rewrite NO by assumption]; reflexivity.
Qed.
Lemma winding_spec d q p : winding_says num d q p (winding_of num d q p).
Proof.
  split; [|split; [apply conn_spec|split; [apply attempt_spec|reflexivity]]]. intros x. cbn [winding_of w_power]. destruct (float_of num q "kva") as [y|e] eqn:F.
  - apply float_iff in F as N. split; [intros H; injection H as <-; now exists y|]. intros (y' & N' & ->). apply float_iff in N'. congruence.
  - split; [discriminate|]. intros (y' & N' & _). apply float_iff in N'. congruence.
Qed.
Lemma mapM_chars {B} (f : option string -> res B) (P : ascii -> B -> Prop) t : (forall a, exists b, f (Some (String a "")) = Ok b /\ P a b) -> exists l, mapM f (map Some (chars t)) = Ok l /\ Forall2 P (list_ascii_of_string t) l.
Proof.
  intros H. induction t as [|a t (l & E & F)]; [exists []; split; [reflexivity|constructor]|]. destruct (H a) as (b & EB & PB). exists (b :: l). cbn [chars map mapM list_ascii_of_string]. rewrite EB, E. split; [reflexivity|now constructor].
Qed.
End Proofs.

(** Every setting becomes a regulator for each phase that is on, in order. *)
Theorem C118_regulators : forall num section_phase section_feeder equipment settings, Forall (placed section_phase section_feeder) settings ->
  exists ls, parse_regulators num section_phase section_feeder equipment settings = Ok (concat ls) /\ Forall2 (setting_says num section_phase section_feeder equipment) settings ls.
Proof.
  intros num sp sf eq settings F. unfold parse_regulators.
  assert (exists ls, mapM (one_setting num sp sf eq) settings = Ok ls /\ Forall2 (setting_says num sp sf eq) settings ls) as (ls & E & FF); [|exists ls; rewrite E; now split].
  induction F as [|[key d] settings (id & k & s & t & o & f & EK & B & ES & ET & EO & EF) F (ls & E & FF)]; [exists []; split; [reflexivity|constructor]|]. cbn [mapM]. cbn [fst snd] in *.
  set (q := match dget d "eqid" with Some i => match dget eq i with Some q => q | None => [] end | None => [] end).
  destruct (mapM_chars (fun p => do p' <- of_opt EType p; one_regulator num sp sf (lower id) d q p') (fun a g => regulator_says num sf id s d q (String a "") g) o) as (gs & EG & FG).
  { intros a. cbn [of_opt bind]. unfold one_regulator. rewrite EF, ES. cbn [of_opt bind position_of]. eexists. split; [reflexivity|]. unfold regulator_says. cbn [g_name g_feeder g_from g_to g_phase g_pt g_ct g_center g_bandwidth g_windings].
    split; [reflexivity|]. split; [exact EF|]. split; [reflexivity|]. split; [reflexivity|]. split; [reflexivity|]. split; [apply attempt_spec|]. split; [apply attempt_spec|]. split; [apply center_spec|]. split; [apply bandwidth_spec|]. eexists _, _. split; [reflexivity|]. split; apply winding_spec. }
  exists (gs :: ls). unfold one_setting at 1. cbn [fst snd]. rewrite EK, (strip_bare id k B), ES. cbn [of_opt bind]. rewrite ET. cbn [of_opt bind]. rewrite EO. cbn [of_opt bind].
  assert (phase_mapping (VStr o) = Ok (map Some (chars o))) as -> by reflexivity. cbn [bind]. fold q. rewrite EG, E. split; [reflexivity|]. constructor; [|exact FF].
  exists id, k, s, o, q. cbn [fst snd]. split; [reflexivity|]. split; [exact B|]. split; [exact ES|]. split; [exact EO|]. split; [|exact FG].
  unfold equipment_says, q. destruct (dget d "eqid") as [i|]; [destruct (dget eq i) as [q'|] eqn:Q; [left; eauto|right; split; [intros i' H; congruence|reflexivity]]|right; split; [discriminate|reflexivity]].
Qed.
Print Assumptions C118_regulators.

(** Its own bandwidth does not count for the phases A and B if the equipment has one. *)
Theorem C118_bandwidth_refuted : forall num d q p v x, p = "A" \/ p = "B" -> rated_bandwidth num q x -> bandwidth_says num d q p v -> forall t y, of_phase "bandwidtha" "bandwidthb" "bandwidthc" p t -> number num d t y -> v = Some x /\ (x <> y -> v <> Some y).
Proof.
  intros num d q p v x P RX S t y T N. assert (v = Some x) as ->; [|split; [reflexivity|congruence]].
  destruct S as [x' y' -> _ _|y' -> NR _|x' RX' _ _|NR _|t' -> ET NT]; [destruct P; discriminate|now destruct (NR x)| |now destruct (NR x)|].
  - f_equal. apply rated_iff in RX, RX'. congruence.
  - exfalso. destruct T as [T|[T|[T|[]]]]; try discriminate. injection T as <-. destruct N as (t'' & E & M). congruence.
Qed.
Print Assumptions C118_bandwidth_refuted.

(** The bandwidths of the phases B and C are lost if the equipment has none. *)
Theorem C118_lost_bandwidth_refuted : forall num d q p v, p = "B" \/ p = "C" -> (forall x, ~ rated_bandwidth num q x) -> bandwidth_says num d q p v -> v = None.
Proof. intros num d q p v P NR S. destruct S as [x' y' _ R _|y' -> _ _|x' R _ _|_ _|t' _ _ _]; try reflexivity; try (now destruct (NR _ R)). destruct P; discriminate. Qed.
Print Assumptions C118_lost_bandwidth_refuted.

(** The voltage of a winding is in kilovolts, that of other objects in volts. *)
Theorem C118_voltage_refuted : forall num d q p w x, winding_says num d q p w -> number num q "kvln" x -> (x <> 0)%R -> w_voltage w = Some x /\ w_voltage w <> Some (x * 1000)%R.
Proof. intros num d q p w x (_ & _ & V & _) N NZ. apply V in N. rewrite N. split; [reflexivity|]. intros H. injection H as H. lra. Qed.
Print Assumptions C118_voltage_refuted.

(** The code of three phases becomes one regulator on a phase named after the code. *)
Theorem C118_code_refuted : forall num section_phase section_feeder equipment e gs, setting_says num section_phase section_feeder equipment e gs -> dget (snd e) "phaseon" = Some "7" -> exists g, gs = [g] /\ g_phase g = "7" /\ g_center g = None.
Proof.
  intros num sp sf eq e gs (id & k & s & t & q & _ & _ & _ & ET & _ & F) E. assert (t = "7") by congruence. subst t. inversion F as [|? g ? l R F']; subst. inversion F'; subst. exists g. destruct R as (_ & _ & _ & _ & P & _ & _ & C & _). split; [reflexivity|]. split; [exact P|].
  destruct (g_center g) as [x|] eqn:G; [|reflexivity]. exfalso. destruct (proj1 (C x) eq_refl) as (k' & [H|[H|[H|[]]]] & _); discriminate.
Qed.
Print Assumptions C118_code_refuted.

(** No regulator has a position, whatever the settings say. *)
Theorem C118_position_refuted : forall num section_phase section_feeder equipment settings l, parse_regulators num section_phase section_feeder equipment settings = Ok l -> Forall (fun g => g_positions g = []) l.
Proof.
  intros num sp sf eq settings l E. unfold parse_regulators in E. destruct (mapM _ settings) as [ls|] eqn:M; cbn [bind] in E; [|discriminate]. injection E as <-. apply mapM_Forall2 in M. induction M as [|e gs settings ls H F IH]; [constructor|]. cbn [concat]. apply Forall_app. split; [|exact IH]. clear IH F.
  unfold one_setting in H. destruct (dget sp _) as [s|]; cbn [of_opt bind] in H; [|discriminate]. destruct (dget s "phase"); cbn [of_opt bind] in H; [|discriminate]. destruct (dget _ "phaseon"); cbn [of_opt bind] in H; [|discriminate]. destruct (phase_mapping _); cbn [bind] in H; [|discriminate].
  apply mapM_Forall2 in H. induction H as [|p g ps gs H F IH]; constructor; [|exact IH]. destruct p as [p|]; cbn [of_opt bind] in H; [|discriminate]. unfold one_regulator in H. destruct (dget sf _); cbn [of_opt bind] in H; [|discriminate]. injection H as <-. reflexivity.
Qed.
Print Assumptions C118_position_refuted.

(** ** The hypotheses can be met *)
Definition num0 (s : string) : option R := if String.eqb s "2" then Some 2%R else if String.eqb s "3" then Some 3%R else if String.eqb s "122" then Some 122%R else None.
Definition sections0 : list (string * CymeParseModel.record) := [("s1", [("fromnodeid", "n1"); ("tonodeid", "n2"); ("phase", "ABC")])].
Definition settings0 : list (string * CymeParseModel.record) :=
  [("S1", [("sectionid", "S1"); ("eqid", "r"); ("phaseon", "AC"); ("bandwidtha", "3"); ("bandwidthc", "3"); ("vseta", "122"); ("conn", "YG")]); ("S1*", [("sectionid", "S1"); ("phaseon", "B"); ("bandwidthb", "3")])].
Example C118_hypotheses_met : Forall (placed sections0 [("s1", "f")]) settings0 /\
  exists g1 g2 g3, parse_regulators num0 sections0 [("s1", "f")] [("r", [("bandwidth", "2"); ("kvln", "2")])] settings0 = Ok [g1; g2; g3] /\
    g_name g1 = "Reg_s1_A" /\ g_bandwidth g1 = Some 2%R /\ g_center g1 = Some 122%R /\ g_name g2 = "Reg_s1_C" /\ g_bandwidth g2 = Some 3%R /\ g_bandwidth g3 = None.
Proof.
  split.
  - assert (B : bare "S1"). { split; [intros t H; discriminate|]; intros t H; destruct t as [|a [|b [|c t]]]; discriminate. }
    constructor; [|constructor; [|constructor]]; [exists "S1", 0|exists "S1", 1]; eexists _, _, _, _; (split; [reflexivity|]); (split; [exact B|]); (split; [reflexivity|]); (split; [reflexivity|]); split; reflexivity.
  - eexists _, _, _. split; [reflexivity|]. cbn. repeat (split; [reflexivity|]). reflexivity.
Qed.
