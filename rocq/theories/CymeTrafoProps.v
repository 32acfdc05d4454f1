(** C120 and C121: the transformers of the CYME reader and their load tap changers. *)
From Coq Require Import List String Ascii Bool Arith ZArith Reals Lra Lia.
From Verif Require Import Base BaseFacts CymeMapModel CymeMapSpec CymeParseModel CymeParseSpec CymeLoadModel CymeLoadSpec CymeSrcModel CymeTrafoModel CymeTrafoSpec CymeTrafoProofs.
Import ListNotations.
Local Open Scope string_scope.
Local Open Scope nat_scope.
Local Open Scope list_scope.

(** Every setting becomes one transformer, in order, with the windings and the regulator of its type and equipment. *)
Theorem C120_transformers : forall num int_ section_phase section_feeder equipment grounding settings,
  Forall (fun e => placed section_phase section_feeder e /\ readable num equipment (snd e)) settings ->
  exists l, parse_transformers num int_ section_phase section_feeder equipment grounding settings = Ok l /\ Forall2 (transformer_says num int_ section_phase section_feeder equipment grounding) settings l.
Proof.
  intros num int_ sp sf eq gr settings F. unfold parse_transformers. induction F as [|e settings [P R] F (l & E & FF)]; [exists []; split; [reflexivity|constructor]|]. destruct (one_spec num int_ sp sf eq gr e P R) as (r & E1 & S). exists (r :: l). cbn [mapM]. rewrite E1, E. split; [reflexivity|now constructor].
Qed.
Print Assumptions C120_transformers.

(** The inverse of the matrix of the symmetrical components. *)
Theorem C120_inverse : forall i j, i < 3 -> j < 3 -> product T T_inv i j = if Nat.eqb i j then (1, 0)%R else (0, 0)%R.
Proof.
  pose proof sqrt_3 as S. intros i j I J. assert (CA : cmul ca ca = (- (1 / 2), - (sqrt 3 / 2))%R). { unfold cmul, ca. cbn [fst snd]. f_equal; lra. }
  destruct i as [|[|[|i]]]; try lia; destruct j as [|[|[|j]]]; try lia; unfold product, cplus, T, T_inv, third; rewrite ?CA; unfold cmul, ca, c1; cbn [fst snd Nat.eqb]; f_equal; lra.
Qed.
Print Assumptions C120_inverse.

(** The arrays are multiplied entry by entry: the positive sequence impedance does not count, where the matrix product
    would give a third of the sum of all three. *)
Theorem C120_product_refuted : forall z1 z0 xr xr0, percent z1 z0 xr xr0 = (fst (sequence z0 xr0) / 3, snd (sequence z0 xr0) / 3)%R /\
  product (product T (diagonal (sequence z0 xr0) (sequence z1 xr))) T_inv 0 0 = ((fst (sequence z0 xr0) + 2 * fst (sequence z1 xr)) / 3, (snd (sequence z0 xr0) + 2 * snd (sequence z1 xr)) / 3)%R.
Proof.
  intros z1 z0 xr xr0. split; [apply percent_spec|]. unfold product, diagonal, T, T_inv, third, c1, cplus, cmul. cbn [Nat.eqb fst snd]. f_equal; field.
Qed.
Print Assumptions C120_product_refuted.

(** An autotransformer or a phase shifter becomes a transformer without windings. *)
Theorem C120_auto_refuted : forall num int_ section_phase section_feeder equipment grounding e r u, transformer_says num int_ section_phase section_feeder equipment grounding e r -> dget (snd e) "type" = Some u -> u = "auto_transformer" \/ u = "phase_shifter_transformer" -> t_windings (fst r) = [] /\ snd r = None.
Proof.
  intros num int_ sp sf eq gr e r u (id & k & s & t & u' & n & _ & _ & _ & _ & EU & _ & _ & _ & _ & _ & _ & W & R) E U. assert (u' = u) by congruence. subst u'. split.
  - destruct W as [w1 w2 w3 [T|T] _ _ _ _ _|q T _ _|q w1 w2 T _ _ _ _ _|_ _ _ _ ->]; try reflexivity; destruct U; congruence.
  - destruct R as [(q & g & T & _)|[_ ->]]; [destruct U; congruence|reflexivity].
Qed.
Print Assumptions C120_auto_refuted.

(** The windings of a transformer with three windings have no rated power, as this is not among the settings. *)
Theorem C120_three_power_refuted : forall num int_ section_phase section_feeder equipment grounding e r u, transformer_says num int_ section_phase section_feeder equipment grounding e r -> dget (snd e) "type" = Some u -> three_type u ->
  (forall k, In k ["primaryratedcapacity"; "secondaryratedcapacity"; "tertiaryratedcapacity"] -> dget (snd e) k = None) -> length (t_windings (fst r)) = 3 /\ Forall (fun w => w_power w = None) (t_windings (fst r)).
Proof.
  intros num int_ sp sf eq gr e r u (id & k & s & t & u' & n & _ & _ & _ & _ & EU & _ & _ & _ & _ & _ & _ & W & _) E U N. assert (u' = u) by congruence. subst u'.
  destruct W as [w1 w2 w3 _ -> _ P1 P2 P3|q -> _ _|q w1 w2 -> _ _ _ _ _|T _ _ _ _]; [|destruct U; discriminate|destruct U; discriminate|contradiction].
  assert (Z : forall which w, three_says num int_ (snd e) t which w -> dget (snd e) (which ++ "ratedcapacity")%string = None -> w_power w = None).
  { intros which w (P & _) D. destruct (w_power w) as [x|] eqn:X; [|reflexivity]. destruct (proj1 (P x) eq_refl) as (y & (v & V & _) & _). congruence. }
  split; [reflexivity|]. constructor; [|constructor; [|constructor; [|constructor]]]; (eapply Z; [eassumption|]); apply N; cbn; auto.
Qed.
Print Assumptions C120_three_power_refuted.

(** No transformer has a connection index, whatever the section says. *)
Theorem C120_index_refuted : forall num int_ section_phase section_feeder equipment grounding settings l, parse_transformers num int_ section_phase section_feeder equipment grounding settings = Ok l -> Forall (fun r => t_from_index (fst r) = None /\ t_to_index (fst r) = None) l.
Proof.
  intros num int_ sp sf eq gr settings l E. apply mapM_Forall2 in E. induction E as [|e r settings l H F IH]; constructor; [|exact IH]. clear IH F. unfold one_transformer in H. cbv zeta in H.
  do 4 (match type of H with bind ?r _ = _ => destruct r; cbn [bind] in H; [|discriminate] end). destruct (smem _ _); [injection H as <-; now split|]. destruct (String.eqb _ "transformer").
  - do 7 (match type of H with bind ?r _ = _ => destruct r; cbn [bind] in H; [|discriminate] end). injection H as <-. now split.
  - destruct (String.eqb _ "grounding_transformer"); [|injection H as <-; now split]. match type of H with bind ?r _ = _ => destruct r; cbn [bind] in H; [|discriminate] end. injection H as <-. now split.
Qed.
Print Assumptions C120_index_refuted.

(** A transformer with a load tap changer, and only such a one, gets a regulator with its settings, as far as the cell isltc
    tells by being empty or not. *)
Theorem C121_ltc : forall num int_ section_phase section_feeder equipment grounding settings l, Forall2 (transformer_says num int_ section_phase section_feeder equipment grounding) settings l ->
  Forall2 (fun (e : string * CymeParseModel.record) r => forall id k q, fst e = (id ++ stars k)%string -> bare id -> dget (snd e) "type" = Some "transformer" -> data_of equipment (snd e) q ->
    (marked q -> exists g, snd r = Some g /\ ltc_says num section_feeder id (snd e) q g) /\ (~ marked q -> snd r = None)) settings l.
Proof.
  intros num int_ sp sf eq gr settings l F. induction F as [|e r settings l S F IH]; constructor; [|exact IH]. intros id k q EK B EU DQ. destruct S as (id' & k' & s & t & u & n & EK' & B' & _ & _ & EU' & _ & _ & _ & _ & _ & _ & _ & R). assert (u = "transformer") by (rewrite EU in EU'; now injection EU'). subst u.
  assert (id' = id). { rewrite <- (CymeLoadProofs.strip_bare id k B), <- (CymeLoadProofs.strip_bare id' k' B'). congruence. } subst id'.
  destruct R as [(q' & g & _ & DQ' & MK & -> & L)|(N & ->)].
  - rewrite (data_fun _ _ _ _ DQ' DQ) in *. split; [intros _; exists g; auto|contradiction].
  - split; [intros MK; exfalso; now apply (N eq_refl q)|reflexivity].
Qed.
Print Assumptions C121_ltc.

(** The cell says 0 for a transformer without a load tap changer: it gets a regulator nevertheless. *)
Theorem C121_zero_refuted : forall num section_feeder equipment id d q o, regulator_says num section_feeder equipment id d "transformer" o -> data_of equipment d q -> dget q "isltc" = Some "0" -> exists g, o = Some g.
Proof.
  intros num sf eq id d q o [(q' & g & _ & _ & _ & -> & _)|(N & _)] DQ E; [now exists g|]. exfalso. apply (N eq_refl q DQ). exists "0". split; [exact E|discriminate].
Qed.
Print Assumptions C121_zero_refuted.

(** The most it can lower is the highest step, the most it can raise the lowest one. *)
Theorem C121_steps_refuted : forall num section_feeder id d q g buck boost, ltc_says num section_feeder id d q g -> number num d "maxbuck" buck -> number num d "maxboost" boost -> (0 <= buck)%R -> (buck + 1 <= boost)%R -> (g_high g < g_low g)%Z.
Proof.
  intros num sf id d q g buck boost (s & lo & up & b1 & b2 & pt & ct & _ & _ & _ & _ & _ & _ & _ & _ & N1 & T1 & N2 & T2 & _) M1 M2 L1 L2.
  assert (b1 = buck) by (destruct N1 as (t & E & N), M1 as (t' & E' & N'); congruence). assert (b2 = boost) by (destruct N2 as (t & E & N), M2 as (t' & E' & N'); congruence). subst. apply lt_IZR. destruct T1 as [T1 _], T2 as [T2 _]. specialize (T1 L1). assert (0 <= boost)%R as L3 by lra. specialize (T2 L3). lra.
Qed.
Print Assumptions C121_steps_refuted.

(** ** The hypotheses can be met *)
Definition num0 (s : string) : option R := if String.eqb s "2" then Some 2%R else if String.eqb s "0" then Some 0%R else if String.eqb s "10" then Some 10%R else None.
Definition sections0 : list (string * CymeParseModel.record) := [("s1", [("fromnodeid", "n1"); ("tonodeid", "n2"); ("phase", "ABC")]); ("s2", [("fromnodeid", "n2"); ("tonodeid", "n3"); ("phase", "A")])].
Definition equipment0 : list (string * CymeParseModel.record) :=
  [("x", [("z1", "2"); ("z0", "2"); ("xr", "0"); ("xr0", "10"); ("isltc", "0"); ("taps", "2"); ("lowerbandwidth", "2"); ("upperbandwidth", "2"); ("conn", "D_Y"); ("kvllprim", "10")]); ("DEFAULT", [("z1", "2"); ("z0", "2"); ("xr", "0"); ("xr0", "0")])].
Definition settings0 : list (string * CymeParseModel.record) :=
  [("S1", [("sectionid", "S1"); ("eqid", "x"); ("type", "transformer"); ("maxbuck", "0"); ("maxboost", "10"); ("setpoint", "2"); ("ct", "2"); ("pt", "2")]); ("S1*", [("sectionid", "S1"); ("type", "three_winding_transformer")]);
   ("S2", [("sectionid", "S2"); ("eqid", "y"); ("type", "transformer")]); ("S2*", [("sectionid", "S2"); ("equipmentid", "y"); ("type", "grounding_transformer")])].
Example C120_hypotheses_met : Forall (fun e => placed sections0 [("s1", "f"); ("s2", "f")] e /\ readable num0 equipment0 (snd e)) settings0.
Proof.
  assert (B : bare "S1" /\ bare "S2"). { split; (split; [intros t H; discriminate|]); intros t H; destruct t as [|a [|b [|c t]]]; discriminate. } destruct B as [B1 B2].
  assert (NB : forall d k t x, dget d k = Some t -> num0 t = Some x -> exists y, number num0 d k y) by (intros d k t x E N; exists x, t; auto).
  unfold settings0. apply Forall_cons; [|apply Forall_cons; [|apply Forall_cons; [|apply Forall_cons; [|constructor]]]]; cbn [snd]; split.
  - exists "S1", 0. eexists _, _, _, _, _. split; [reflexivity|]. split; [exact B1|]. repeat (split; [reflexivity|]). reflexivity.
  - split; [|discriminate]. intros _. eexists. split; [exists "x"; split; [reflexivity|left; reflexivity]|]. split; [|intros _; split].
    + intros k [<-|[<-|[<-|[<-|[]]]]]; eapply NB; reflexivity.
    + intros k [<-|[<-|[<-|[]]]]; eapply NB; reflexivity.
    + intros k [<-|[<-|[<-|[<-|[<-|[]]]]]]; eapply NB; reflexivity.
  - exists "S1", 1. eexists _, _, _, _, _. split; [reflexivity|]. split; [exact B1|]. repeat (split; [reflexivity|]). reflexivity.
  - split; discriminate.
  - exists "S2", 0. eexists _, _, _, _, _. split; [reflexivity|]. split; [exact B2|]. repeat (split; [reflexivity|]). reflexivity.
  - split; [|discriminate]. intros _. eexists. split; [exists "y"; split; [reflexivity|right; split; reflexivity]|]. split; [|intros (t & H & _); discriminate].
    intros k [<-|[<-|[<-|[<-|[]]]]]; eapply NB; reflexivity.
  - exists "S2", 1. eexists _, _, _, _, _. split; [reflexivity|]. split; [exact B2|]. repeat (split; [reflexivity|]). reflexivity.
  - split; [discriminate|]. intros _. eexists. reflexivity.
Qed.
(** So there are four transformers, the first with a regulator though it has no load tap changer. *)
Example C121_hypotheses_met : exists l r, parse_transformers num0 (fun _ => None) sections0 [("s1", "f"); ("s2", "f")] equipment0 [] settings0 = Ok (r :: l) /\ length l = 3 /\ exists g, snd r = Some g /\ g_name g = "Reg_S1" /\ (g_high g < g_low g)%Z.
Proof.
  destruct (C120_transformers num0 (fun _ => None) sections0 [("s1", "f"); ("s2", "f")] equipment0 [] settings0 C120_hypotheses_met) as (l & E & F). pose proof (C121_ltc _ _ _ _ _ _ _ _ F) as L. unfold settings0 in F, L.
  inversion F as [|? r ? l1 _ F1]; subst. inversion F1 as [|? r2 ? l2 _ F2]; subst. inversion F2 as [|? r3 ? l3 _ F3]; subst. inversion F3 as [|? r4 ? l4 _ F4]; subst. inversion F4; subst. exists [r2; r3; r4], r. split; [exact E|]. split; [reflexivity|].
  inversion L as [|? ? ? ? H _]; subst. assert (B : bare "S1"). { split; [intros t K; discriminate|]; intros t K; destruct t as [|a [|b [|c t]]]; discriminate. }
  destruct (H "S1" 0 (snd (hd ("", []) equipment0)) eq_refl B eq_refl) as [G _]; [exists "x"; split; [reflexivity|left; reflexivity]|]. destruct G as (g & EG & S); [exists "0"; split; [reflexivity|discriminate]|].
  exists g. split; [exact EG|]. split.
  - destruct S as (s & lo & up & b1 & b2 & pt & ct & ES & EN & _). injection ES as <-. exact EN.
  - eapply C121_steps_refuted; [exact S|eexists; split; reflexivity|eexists; split; reflexivity|lra|lra].
Qed.
