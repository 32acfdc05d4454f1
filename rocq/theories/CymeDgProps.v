(** C122 and C123: the photovoltaics and batteries of the CYME reader. *)
From Coq Require Import List String Ascii Bool Arith ZArith Reals Lra Lia.
From Verif Require Import Base BaseFacts CymeMapModel CymeParseModel CymeParseSpec CymeLoadModel CymeLoadSpec CymeLoadProofs CymeDgModel CymeDgSpec CymeDgProofs.
Import ListNotations.
Local Open Scope string_scope.
Local Open Scope nat_scope.
Local Open Scope list_scope.

(** What the setting alone says. *)
Definition pv_base sp sf num (e : entry) (p : pv) : Prop :=
  exists n, dget (snd e) "devicenumber" = Some n /\ p_name p = ("PV_" ++ lower n)%string /\ dget sf (lower (fst e)) = Some (p_feeder p) /\
    cell_says num (snd e) "ambienttemperature" (p_temperature p) /\ (forall t, dget (snd e) "eqphase" = Some t -> p_phases p = letters t) /\ (dget (snd e) "eqphase" = None -> p_phases p = []) /\ element_says sp (fst e) (p_element p) /\ p_inverter p = inverter0.
Lemma make_pv_spec num sp sf e : placed sf e -> exists n p, make_pv num sp sf e = Ok (n, p) /\ of_device n e /\ pv_base sp sf num e p.
Proof.
  intros (n & f & EN & EF). unfold make_pv. rewrite EN, EF. cbn [of_opt bind]. eexists _, _. split; [reflexivity|]. split; [now exists n|]. exists n. cbn [p_name p_feeder p_temperature p_phases p_element p_inverter].
  split; [exact EN|]. split; [reflexivity|]. split; [exact EF|]. split; [apply attempt_spec|]. split; [intros t E; rewrite E; apply chars_letters|]. split; [intros E; now rewrite E|]. split; [apply from_node_spec|reflexivity].
Qed.
Definition storage_base sp sf num bat (e : entry) (s : storage) : Prop :=
  exists n ps o, dget (snd e) "devicenumber" = Some n /\ s_name s = ("BESS_" ++ lower n)%string /\ dget sf (lower (fst e)) = Some (s_feeder s) /\
    storage_phases (snd e) ps /\ share_says num bat (snd e) (length ps) o /\ s_phases s = map (fun a => (a, o)) ps /\
    (forall x, s_rated_kwh s = Some x <-> exists q, battery_of bat (snd e) q /\ number num q "ratedstorageenergy" x) /\
    cell_says num (snd e) "maximumsoc" (s_reserve s) /\
    (forall x, s_stored s = Some x <-> exists r y, s_rated_kwh s = Some r /\ number num (snd e) "initialsoc" y /\ x = (y / 100 * r)%R) /\
    element_says sp (fst e) (s_element s) /\ s_converter s = converter0.
Lemma mapM_some (l : list string) : mapM (of_opt EType) (map Some l) = Ok l.
Proof. induction l as [|x l IH]; [reflexivity|]. cbn. now rewrite IH. Qed.
Lemma limit_iff num q k o : limit num q k = Ok o <-> (exists x, number num q k x /\ o = Some x) \/ (dget q k = None /\ o = None).
Proof.
  unfold limit, dmem. destruct (dget q k) as [t|] eqn:E.
  - destruct (float_of num q k) as [x|] eqn:F; cbn.
    + apply float_iff in F as N. split; [intros H; injection H as <-; left; now exists x|]. intros [(y & NY & ->)|[H _]]; [|discriminate]. apply float_iff in NY. congruence.
    + split; [discriminate|]. intros [(y & NY & ->)|[H _]]; [|discriminate]. apply float_iff in NY. congruence.
  - split; [intros H; injection H as <-; now right|]. intros [(y & (t & H & _) & _)|[_ ->]]; [congruence|reflexivity].
Qed.
Lemma number_some num q k x : number num q k x -> dget q k <> None.
Proof. intros (t & E & _). congruence. Qed.
Lemma number_fun num (q : CymeParseModel.record) k x y : number num q k x -> number num q k y -> x = y.
Proof. intros (t & E & N) (t' & E' & N'). congruence. Qed.
Lemma average_spec num q n x : average num q n = Ok (Some x) <-> exists y, limits_say num q y /\ n <> 0 /\ x = (y * 1000 / INR n)%R.
Proof.
  unfold average. split.
  - destruct (limit num q "maxchargingpower") as [a|] eqn:A; cbn [bind]; [|discriminate]. destruct (limit num q "maxdischargingpower") as [b|] eqn:B; cbn [bind]; [|discriminate].
    apply limit_iff in A, B. destruct A as [(u & NU & ->)|[U ->]]; destruct B as [(v & NV & ->)|[V ->]]; try discriminate; destruct (Nat.eqb_spec n 0); try discriminate; intros H; injection H as <-; eexists; (split; [|split; [assumption|reflexivity]]).
    + left. eauto.
    + right. left. auto.
    + right. right. auto.
  - intros (y & L & NZ & ->). apply Nat.eqb_neq in NZ. destruct L as [(a & b & A & B & ->)|[[A B]|[A B]]].
    + rewrite (proj2 (limit_iff num q "maxchargingpower" (Some a))) by (left; eauto). rewrite (proj2 (limit_iff num q "maxdischargingpower" (Some b))) by (left; eauto). cbn [bind]. now rewrite NZ.
    + rewrite (proj2 (limit_iff num q "maxchargingpower" (Some y))) by (left; eauto). rewrite (proj2 (limit_iff num q "maxdischargingpower" None)) by (right; auto). cbn [bind]. now rewrite NZ.
    + rewrite (proj2 (limit_iff num q "maxchargingpower" None)) by (right; auto). rewrite (proj2 (limit_iff num q "maxdischargingpower" (Some y))) by (left; eauto). cbn [bind]. now rewrite NZ.
Qed.
Lemma battery_iff bat d q : battery_of bat d q <-> match dget d "equipmentid" with Some i => dget bat i | None => None end = Some q.
Proof.
  unfold battery_of. destruct (dget d "equipmentid") as [i|]; [|split; [intros (i & E & _); discriminate|discriminate]].
  split; [intros (i' & E & H); now injection E as <-|]. intros H. now exists i.
Qed.
Lemma make_storage_spec num sp sf bat e : placed sf e -> exists n s, make_storage num sp sf bat e = Ok (n, s) /\ of_device n e /\ storage_base sp sf num bat e s.
Proof.
  intros (n & f & EN & EF). unfold make_storage. rewrite EN, EF. cbn [of_opt bind].
  assert (exists ps, storage_phases (snd e) ps /\ match dget (snd e) "phase" with Some t => phase_mapping (VStr t) | None => Ok [Some "A"; Some "B"; Some "C"] end = Ok (map Some ps)) as (ps & SP & ->).
  { unfold storage_phases. destruct (dget (snd e) "phase") as [t|]; [exists (letters t); split; [left; eauto|rewrite <- chars_letters; reflexivity]|exists ["A"; "B"; "C"]; split; [now right|reflexivity]]. }
  cbn [bind]. rewrite mapM_some. cbn [bind]. eexists _, _. split; [reflexivity|]. split; [now exists n|].
  pose proof (battery_iff bat (snd e)) as BI. set (q := match dget (snd e) "equipmentid" with Some i => dget bat i | None => None end) in *. clearbody q.
  exists n, ps. eexists. cbn [s_name s_feeder s_phases s_rated_kwh s_charging s_discharging s_reserve s_stored s_element s_converter].
  split; [exact EN|]. split; [reflexivity|]. split; [exact EF|]. split; [exact SP|]. split; [|split; [reflexivity|]].
  { intros x. destruct q as [q|].
    - split.
      + destruct (average num q (length ps)) as [o|] eqn:A; [|discriminate]. intros ->. apply average_spec in A as (y & L & NZ & ->). exists q, y. split; [now apply BI|auto].
      + intros (q' & y & B & L & NZ & ->). apply BI in B. injection B as <-. now rewrite (proj2 (average_spec num q (length ps) _) (ex_intro _ y (conj L (conj NZ eq_refl)))).
    - split; [discriminate|]. intros (q' & y & B & _). apply BI in B. discriminate. }
  split.
  { intros x. destruct q as [q|].
    - rewrite (attempt_spec num q "ratedstorageenergy" x). split; [intros H; exists q; split; [now apply BI|exact H]|]. intros (q' & B & H). apply BI in B. now injection B as <-.
    - split; [discriminate|]. intros (q' & B & _). apply BI in B. discriminate. }
  split; [apply attempt_spec|]. split; [|split; [apply from_node_spec|reflexivity]].
  intros x. match goal with |- context [match ?rr with Some r => attempt (float_of num (snd e) "initialsoc") _ _ | None => None end] => destruct rr as [r|] end; [|split; [discriminate|intros (r & y & E & _); discriminate]].
  unfold attempt. destruct (float_of num (snd e) "initialsoc") as [y|] eqn:F.
  - cbv beta. apply float_iff in F. split; [intros H; injection H as <-; exists r, y; split; [reflexivity|]; split; [exact F|field]|]. intros (r' & y' & E & N & ->). injection E as <-. rewrite (number_fun _ _ _ _ _ N F). f_equal. field.
  - split; [discriminate|]. intros (r' & y' & _ & N & _). apply float_iff in N. congruence.
Qed.

(** ** The loops *)
Lemma generations_fold num devs dg pvs : (forall e, In e dg -> exists i, dget devs (device e) = Some i) ->
  generations num devs dg pvs = Ok (fold_left (fun l e => match dget devs (device e) with Some i => alter i (on_inverter (set_generation num (snd e))) l | None => l end) dg pvs).
Proof.
  unfold generations. revert pvs. induction dg as [|e dg IH]; intros pvs H; [reflexivity|]. cbn [foldM fold_left]. destruct (H e (or_introl eq_refl)) as [i E]. rewrite E. cbn [of_opt bind]. apply IH. intros e' I. apply H. now right.
Qed.
Lemma converters_split num devs bdevs conv st :
  converters num devs bdevs conv st =
  (fold_left (fun l e => match dget devs (device e) with Some i => alter i (on_inverter (set_inverter num (snd e))) l | None => l end) conv (fst st),
   fold_left (fun l e => match match dget devs (device e) with Some _ => None | None => dget bdevs (device e) end with Some i => alter i (on_converter (set_converter num (snd e))) l | None => l end) conv (snd st)).
Proof.
  unfold converters. revert st. induction conv as [|e conv IH]; intros st; [now destruct st|]. cbn [fold_left]. rewrite IH. destruct (dget devs (device e)); [reflexivity|]. destruct (dget bdevs (device e)); reflexivity.
Qed.
Definition hit (sel : entry -> option nat) (j : nat) (e : entry) : bool := match sel e with Some i => Nat.eqb i j | None => false end.
Lemma inverter_fold sel j (f : CymeParseModel.record -> inverter -> inverter) es p :
  fold_left (fun p e => match sel e with Some i => if Nat.eqb i j then on_inverter (f (snd e)) p else p | None => p end) es p = on_inverter (sweep (hit sel j) f es) p.
Proof.
  revert p. induction es as [|e es IH]; intros p; [now destruct p|]. cbn [fold_left]. rewrite IH. change (sweep (hit sel j) f (e :: es)) with (fun v => sweep (hit sel j) f es (if hit sel j e then f (snd e) v else v)). destruct (hit sel j e) eqn:H; unfold hit in H; (destruct (sel e) as [i|]; [rewrite H|try discriminate]); reflexivity.
Qed.
Lemma converter_fold sel j (f : CymeParseModel.record -> converter -> converter) es p :
  fold_left (fun p e => match sel e with Some i => if Nat.eqb i j then on_converter (f (snd e)) p else p | None => p end) es p = on_converter (sweep (hit sel j) f es) p.
Proof.
  revert p. induction es as [|e es IH]; intros p; [now destruct p|]. cbn [fold_left]. rewrite IH. change (sweep (hit sel j) f (e :: es)) with (fun v => sweep (hit sel j) f es (if hit sel j e then f (snd e) v else v)). destruct (hit sel j e) eqn:H; unfold hit in H; (destruct (sel e) as [i|]; [rewrite H|try discriminate]); reflexivity.
Qed.
Lemma of_device_dec dev e : of_device dev e \/ ~ of_device dev e.
Proof.
  unfold of_device. destruct (dget (snd e) "devicenumber") as [n|]; [|right; intros (n & E & _); discriminate].
  destruct (string_dec (lower n) dev) as [E|E]; [left; now exists n|right; intros (n' & H & L); congruence].
Qed.
Lemma some_device dev (l : list entry) : (exists e, In e l /\ of_device dev e) \/ forall e, In e l -> ~ of_device dev e.
Proof.
  induction l as [|a l [(e & I & D)|N]]; [right; intros e []|left; exists e; split; [now right|exact D]|]. destruct (of_device_dec dev a) as [D|D]; [left; exists a; split; [now left|exact D]|right; intros e [<-|I]; [exact D|now apply N]].
Qed.
Lemma last_exists settings dev : (exists e, In e settings /\ of_device dev e) -> exists i, last_at settings dev i.
Proof.
  induction settings as [|a l IH] using rev_ind; intros (e & I & D); [destruct I|]. destruct (of_device_dec dev a) as [DA|NA]; [exists (length l); apply last_snoc; left; now split|].
  apply in_app_or in I as [I|[->|[]]]; [|contradiction]. destruct (IH (ex_intro _ e (conj I D))) as [i L]. exists i. apply last_snoc. right. now split.
Qed.
Lemma last_here l1 e l2 dev d' : of_device dev e -> last_at (l1 ++ e :: l2) d' (length l1) <-> d' = dev /\ forall e', In e' l2 -> ~ of_device dev e'.
Proof.
  intros D. split.
  - intros (m1 & a & m2 & E & L & DA & N). assert (m1 = l1 /\ a :: m2 = e :: l2) as [-> X].
    { clear -E L. revert m1 L E. induction l1 as [|x l1 IH]; intros [|y m1] L E; try discriminate; [now split|]. cbn in E, L. injection E as <- E. injection L as L. destruct (IH m1 L (eq_sym E)) as [-> ->] || (destruct (IH m1 L E) as [-> ->]); now split. }
    injection X as -> ->. assert (d' = dev) as -> by (destruct D as (n & E1 & L1); destruct DA as (n' & E2 & L2); congruence). now split.
  - intros [-> N]. exists l1, e, l2. auto.
Qed.
Lemma Forall2_middle {A B} (P : A -> B -> Prop) l1 a l2 m : Forall2 P (l1 ++ a :: l2) m -> exists b, nth_error m (length l1) = Some b /\ P a b.
Proof. revert m. induction l1 as [|x l1 IH]; intros m F; inversion F; subst; [eexists; split; [reflexivity|assumption]|]. cbn. now apply IH. Qed.

(** ** What the reader makes of the tables *)
Lemma parse_dg_run num sp sf bat pv_settings bess_settings dg conv ctl :
  Forall (placed sf) pv_settings -> Forall (placed sf) bess_settings -> (forall e, In e dg -> exists e', In e' pv_settings /\ of_device (device e) e') ->
  exists pvs bs, parse_dg num sp sf bat pv_settings bess_settings dg conv ctl = Ok (pvs, bs) /\ length pvs = length pv_settings /\ length bs = length bess_settings /\
  exists pvs0 bs0 sel bsel, Forall2 (pv_base sp sf num) pv_settings pvs0 /\ Forall2 (storage_base sp sf num bat) bess_settings bs0 /\
    (forall e i, sel e = Some i <-> last_at pv_settings (device e) i) /\ (forall e i, bsel e = Some i <-> (forall j, ~ last_at pv_settings (device e) j) /\ last_at bess_settings (device e) i) /\
    (forall j, nth_error pvs j = option_map (on_inverter (fun v => sweep (hit sel j) (set_control num) ctl (sweep (hit sel j) (set_inverter num) conv (sweep (hit sel j) (set_generation num) dg v)))) (nth_error pvs0 j)) /\
    (forall j, nth_error bs j = option_map (on_converter (sweep (hit bsel j) (set_converter num) conv)) (nth_error bs0 j)).
Proof.
  intros FP FB HG. unfold parse_dg.
  destruct (create_spec (make_pv num sp sf) (pv_base sp sf num) pv_settings) as (pvs0 & devs & E1 & F1 & D1); [eapply Forall_impl; [|exact FP]; intros e P; now apply make_pv_spec|].
  destruct (create_spec (make_storage num sp sf bat) (storage_base sp sf num bat) bess_settings) as (bs0 & bdevs & E2 & F2 & D2); [eapply Forall_impl; [|exact FB]; intros e P; now apply make_storage_spec|].
  rewrite E1. cbn [bind]. rewrite E2. cbn [bind]. rewrite generations_fold.
  2: { intros e I. destruct (HG e I) as (e' & I' & D'). destruct (last_exists pv_settings (device e) (ex_intro _ e' (conj I' D'))) as [i L]. exists i. now apply D1. }
  cbn [bind]. rewrite converters_split. cbn [fst snd]. eexists _, _. split; [reflexivity|].
  assert (LA : forall A (sel : entry -> option nat) (f : entry -> A -> A) es l, length (fold_left (fun l e => match sel e with Some i => alter i (f e) l | None => l end) es l) = length l).
  { intros A sel f es. induction es as [|e es IH]; intros l; [reflexivity|]. cbn. rewrite IH. destruct (sel e) as [i|]; [|reflexivity]. clear. revert i. induction l as [|x l IH]; intros i; [now destruct i|]. destruct i; cbn; [reflexivity|]. now rewrite IH. }
  unfold controls.
  set (sel := fun e : entry => dget devs (device e)). set (bsel := fun e : entry => match dget devs (device e) with Some _ => None | None => dget bdevs (device e) end).
  split.
  { rewrite (LA pv sel (fun e => on_inverter (set_control num (snd e)))). rewrite (LA pv sel (fun e => on_inverter (set_inverter num (snd e)))). rewrite (LA pv sel (fun e => on_inverter (set_generation num (snd e)))). clear -F1. induction F1; cbn; congruence. }
  split.
  { rewrite (LA storage bsel (fun e => on_converter (set_converter num (snd e)))). clear -F2. induction F2; cbn; congruence. }
  exists pvs0, bs0, sel, bsel. split; [exact F1|]. split; [exact F2|]. split; [intros e i; apply D1|]. split.
  { intros e i. unfold bsel. destruct (dget devs (device e)) as [k|] eqn:E.
    - split; [discriminate|]. intros [N _]. apply D1 in E. now destruct (N k).
    - rewrite D2. split; [|tauto]. intros H. split; [|exact H]. intros j L. apply D1 in L. congruence. }
  split.
  - intros j. rewrite (runs_nth sel (fun e => on_inverter (set_control num (snd e)))). rewrite (runs_nth sel (fun e => on_inverter (set_inverter num (snd e)))). rewrite (runs_nth sel (fun e => on_inverter (set_generation num (snd e)))).
    destruct (nth_error pvs0 j) as [p|]; [|reflexivity]. cbn [option_map]. rewrite !inverter_fold. reflexivity.
  - intros j. rewrite (runs_nth bsel (fun e => on_converter (set_converter num (snd e)))). destruct (nth_error bs0 j) as [s|]; [|reflexivity]. cbn [option_map]. now rewrite converter_fold.
Qed.

(** Every setting becomes a photovoltaic; the tables about a device go to the last one with its number. *)
Theorem C122_photovoltaics : forall num section_phase section_feeder batteries pv_settings bess_settings dg conv ctl,
  Forall (placed section_feeder) pv_settings -> Forall (placed section_feeder) bess_settings ->
  (forall e, In e dg \/ In e conv \/ In e ctl -> named e) -> (forall e, In e dg -> exists dev e', about dev e /\ In e' pv_settings /\ of_device dev e') ->
  exists pvs bs, parse_dg num section_phase section_feeder batteries pv_settings bess_settings dg conv ctl = Ok (pvs, bs) /\ length pvs = length pv_settings /\
    forall l1 e l2, pv_settings = l1 ++ e :: l2 -> exists p, nth_error pvs (length l1) = Some p /\ pv_says num section_phase section_feeder dg conv ctl e l2 p.
Proof.
  intros num sp sf bat ps bs_ dg conv ctl FP FB NM HG. destruct (parse_dg_run num sp sf bat ps bs_ dg conv ctl FP FB) as (pvs & bs & E & LP & _ & pvs0 & bs0 & sel & bsel & F1 & _ & SEL & _ & NP & _).
  { intros e I. destruct (HG e I) as (dev & e' & A & I' & D). exists e'. split; [exact I'|]. apply about_iff in A; [now rewrite A|]. apply NM. now left. }
  exists pvs, bs. split; [exact E|]. split; [exact LP|]. intros l1 e l2 ES. pose proof F1 as F1'. rewrite ES in F1'. apply Forall2_middle in F1' as (p0 & E0 & n & EN & N1 & N2 & N3 & N4 & N5 & N6 & N7).
  rewrite NP, E0. cbn [option_map]. eexists. split; [reflexivity|]. exists n. unfold on_inverter. cbn [p_name p_feeder p_temperature p_phases p_element p_inverter]. rewrite N7.
  split; [exact EN|]. split; [exact N1|]. split; [exact N2|]. split; [exact N3|]. split; [exact N4|]. split; [exact N5|]. split; [exact N6|].
  assert (DE : of_device (lower n) e) by (now exists n).
  assert (HT : forall e', hit sel (length l1) e' = true <-> device e' = lower n /\ forall x, In x l2 -> ~ of_device (lower n) x).
  { intros e'. rewrite <- (last_here l1 e l2 (lower n) (device e') DE), <- ES, <- SEL. unfold hit. destruct (sel e') as [i|]; [rewrite Nat.eqb_eq; split; congruence|split; discriminate]. }
  split.
  - intros NL. apply inverter_spec. intros e' I. rewrite HT, (about_iff e' (lower n) (NM e' I)). tauto.
  - intros (e' & I & D). assert (Z : forall x, hit sel (length l1) x = false). { intros x. destruct (hit sel (length l1) x) eqn:H; [|reflexivity]. apply HT in H as [_ H]. now destruct (H e' I). }
    rewrite !sweep_none; [reflexivity| | |]; intros x _; apply Z.
Qed.
Print Assumptions C122_photovoltaics.

(** Every setting becomes a storage with the shares of its battery; the converter goes to the last one with its number,
    unless this is the number of a photovoltaic. *)
Theorem C123_storages : forall num section_phase section_feeder batteries pv_settings bess_settings dg conv ctl,
  Forall (placed section_feeder) pv_settings -> Forall (placed section_feeder) bess_settings ->
  (forall e, In e dg \/ In e conv \/ In e ctl -> named e) -> (forall e, In e dg -> exists dev e', about dev e /\ In e' pv_settings /\ of_device dev e') ->
  exists pvs bs, parse_dg num section_phase section_feeder batteries pv_settings bess_settings dg conv ctl = Ok (pvs, bs) /\ length bs = length bess_settings /\
    forall l1 e l2, bess_settings = l1 ++ e :: l2 -> exists s, nth_error bs (length l1) = Some s /\ storage_says num section_phase section_feeder batteries pv_settings conv e l2 s.
Proof.
  intros num sp sf bat ps bs_ dg conv ctl FP FB NM HG. destruct (parse_dg_run num sp sf bat ps bs_ dg conv ctl FP FB) as (pvs & bs & E & _ & LB & pvs0 & bs0 & sel & bsel & _ & F2 & _ & SEL & _ & NB).
  { intros e I. destruct (HG e I) as (dev & e' & A & I' & D). exists e'. split; [exact I'|]. apply about_iff in A; [now rewrite A|]. apply NM. now left. }
  exists pvs, bs. split; [exact E|]. split; [exact LB|]. intros l1 e l2 ES. pose proof F2 as F2'. rewrite ES in F2'. apply Forall2_middle in F2' as (s0 & E0 & n & qs & o & EN & N1 & N2 & N3 & N4 & N5 & N6 & N7 & N8 & N9 & N10).
  rewrite NB, E0. cbn [option_map]. eexists. split; [reflexivity|]. exists n, qs, o. unfold on_converter. cbn [s_name s_feeder s_phases s_rated_kwh s_reserve s_stored s_element s_converter]. rewrite N10.
  split; [exact EN|]. split; [exact N1|]. split; [exact N2|]. split; [exact N3|]. split; [exact N4|]. split; [exact N5|]. split; [exact N6|]. split; [exact N7|]. split; [exact N8|]. split; [exact N9|].
  assert (DE : of_device (lower n) e) by (now exists n).
  assert (HT : forall e', hit bsel (length l1) e' = true <-> (device e' = lower n /\ forall x, In x l2 -> ~ of_device (lower n) x) /\ forall j, ~ last_at ps (device e') j).
  { intros e'. rewrite <- (last_here l1 e l2 (lower n) (device e') DE), <- ES. unfold hit. split.
    - destruct (bsel e') as [i|] eqn:B; [|discriminate]. intros X. apply Nat.eqb_eq in X. subst i. apply SEL in B. tauto.
    - intros [L N]. rewrite (proj2 (SEL e' (length l1)) (conj N L)). apply Nat.eqb_refl. }
  split.
  - intros NL NPV. apply converter_spec. intros e' I. rewrite HT, (about_iff e' (lower n)) by (apply NM; auto). split; [tauto|]. intros D. split; [tauto|]. intros j (m1 & a & m2 & EP & _ & DA & _). rewrite D in DA. apply (NPV a); [rewrite EP; apply in_or_app; right; now left|exact DA].
  - intros (e' & I & D). rewrite sweep_none; [reflexivity|]. intros x _. destruct (hit bsel (length l1) x) eqn:H; [|reflexivity]. exfalso. apply HT in H as [[H1 H2] H3]. destruct I as [I|I]; [now apply (H2 e')|]. rewrite H1 in H3. destruct (last_exists ps (lower n) (ex_intro _ e' (conj I D))) as [j L]. now apply (H3 j).
Qed.
Print Assumptions C123_storages.

(** ** What goes wrong *)
Lemma create_stuck {O} (make : entry -> res (string * O)) settings e err : In e settings -> make e = Err err -> exists err', create make settings = Err err'.
Proof.
  intros I M. unfold create. generalize (@nil O, @nil (string * nat)). induction settings as [|a l IH]; intros st; [destruct I|]. cbn [foldM]. destruct I as [->|I]; [rewrite M; cbn [bind]; eauto|]. destruct (make a); cbn [bind]; [apply (IH I)|eauto].
Qed.
Lemma lower_app a b : lower (a ++ b)%string = (lower a ++ lower b)%string.
Proof. induction a as [|c a IH]; [reflexivity|]. cbn. now rewrite IH. Qed.
(** A second photovoltaic of a section, whose key ends in a star, stops the reader. *)
Theorem C122_two_refuted : forall num section_phase section_feeder batteries pv_settings bess_settings dg conv ctl e id, In e pv_settings -> fst e = (id ++ "*")%string ->
  (forall t, dget section_feeder (t ++ "*")%string = None) -> exists err, parse_dg num section_phase section_feeder batteries pv_settings bess_settings dg conv ctl = Err err.
Proof.
  intros num sp sf bat ps bs_ dg conv ctl e id I EK N. unfold parse_dg. assert (exists err, make_pv num sp sf e = Err err) as [err M].
  { unfold make_pv. destruct (dget (snd e) "devicenumber"); cbn [of_opt bind]; [|eauto]. rewrite EK, lower_app. change (lower "*") with "*". rewrite N. cbn. eauto. }
  destruct (create_stuck (make_pv num sp sf) ps e err I M) as [err' ->]. cbn. eauto.
Qed.
Print Assumptions C122_two_refuted.

(** So does a generation model of any device that is not a photovoltaic, such as a battery. *)
Theorem C122_generator_refuted : forall num section_phase section_feeder batteries pv_settings bess_settings dg conv ctl e dev, In e dg -> named e -> about dev e ->
  (forall e', In e' pv_settings -> ~ of_device dev e') -> exists err, parse_dg num section_phase section_feeder batteries pv_settings bess_settings dg conv ctl = Err err.
Proof.
  intros num sp sf bat ps bs_ dg conv ctl e dev I NE A N. apply (about_iff e dev NE) in A. unfold parse_dg.
  destruct (create (make_pv num sp sf) ps) as [[pvs devs]|err] eqn:E1; cbn [bind]; [|eauto]. destruct (create (make_storage num sp sf bat) bs_) as [[bs bdevs]|err]; cbn [bind]; [|eauto].
  assert (D : dget devs dev = None).
  { revert pvs devs E1. unfold create. induction ps as [|a l IH] using rev_ind; intros pvs devs E1; [injection E1 as <- <-; reflexivity|]. rewrite foldM_app in E1. destruct (foldM _ l _) as [[o d]|] eqn:F; [|discriminate]. cbn [foldM] in E1. destruct (make_pv num sp sf a) as [[n p]|] eqn:M; cbn [bind fst snd] in E1; [|discriminate]. injection E1 as <- <-.
    rewrite dget_dset_other; [apply (IH (fun e' I' => N e' (in_or_app _ _ _ (or_introl I'))) o d eq_refl)|]. intros ->. apply (N a); [apply in_or_app; right; now left|]. unfold make_pv in M. destruct (dget (snd a) "devicenumber") as [m|] eqn:X; cbn [of_opt bind] in M; [|discriminate]. destruct (dget sf _); cbn [of_opt bind] in M; [|discriminate]. injection M as <- _. now exists m. }
  assert (exists err, generations num devs dg pvs = Err err) as [err ->]; [|cbn; eauto]. clear E1. unfold generations. induction dg as [|a l IH] in pvs, I |- *; [destruct I|]. cbn [foldM]. destruct I as [->|I]; [rewrite A, D; cbn; eauto|]. destruct (dget devs (device a)); cbn [of_opt bind]; [apply (IH I)|eauto].
Qed.
Print Assumptions C122_generator_refuted.

Lemma alter_Forall {A} (P : A -> Prop) i f l : (forall x, P x -> P (f x)) -> Forall P l -> Forall P (alter i f l).
Proof. intros H F. revert i. induction F as [|x l PX F IH]; intros i; [destruct i; constructor|]. destruct i; cbn; constructor; auto. Qed.
Lemma create_Forall {O} (make : entry -> res (string * O)) (P : O -> Prop) settings objs devs : (forall e n o, make e = Ok (n, o) -> P o) -> create make settings = Ok (objs, devs) -> Forall P objs.
Proof.
  intros H. unfold create. revert objs devs. induction settings as [|a l IH] using rev_ind; intros objs devs E; [injection E as <- <-; constructor|]. rewrite foldM_app in E. destruct (foldM _ l _) as [[o d]|] eqn:F; [|discriminate]. cbn [foldM] in E. destruct (make a) as [[n p]|] eqn:M; cbn [bind fst snd] in E; [|discriminate]. injection E as <- <-.
  apply Forall_app. split; [now apply (IH o d)|]. constructor; [now apply (H a n)|constructor].
Qed.
Definition plain (p : pv) : Prop := let v := p_inverter p in i_voltvar v = "DEFAULT VOLT-VAR" /\ i_voltwatt v = "DEFAULT VOLT-WATT" /\ i_wattpf v = "DEFAULT WATT-PF" /\ i_min_factor v = None.
(** No photovoltaic gets its control curve nor its least power factor, whatever the files say. *)
Theorem C122_curves_refuted : forall num section_phase section_feeder batteries pv_settings bess_settings dg conv ctl pvs bs, parse_dg num section_phase section_feeder batteries pv_settings bess_settings dg conv ctl = Ok (pvs, bs) ->
  Forall (fun p => let v := p_inverter p in i_voltvar v = "DEFAULT VOLT-VAR" /\ i_voltwatt v = "DEFAULT VOLT-WATT" /\ i_wattpf v = "DEFAULT WATT-PF" /\ i_min_factor v = None) pvs.
Proof.
  intros num sp sf bat ps bs_ dg conv ctl pvs bs E. change (Forall plain pvs). unfold parse_dg in E. destruct (create (make_pv num sp sf) ps) as [[pvs0 devs]|err] eqn:E1; cbn [bind] in E; [|discriminate].
  destruct (create (make_storage num sp sf bat) bs_) as [[bs0 bdevs]|err]; cbn [bind] in E; [|discriminate]. destruct (generations num devs dg pvs0) as [pvs1|] eqn:G; cbn [bind] in E; [|discriminate].
  rewrite converters_split in E. cbn [fst snd] in E. injection E as <- _.
  assert (F0 : Forall plain pvs0). { eapply create_Forall; [|exact E1]. intros e n o M. unfold make_pv in M. destruct (dget (snd e) _); cbn [of_opt bind] in M; [|discriminate]. destruct (dget sf _); cbn [of_opt bind] in M; [|discriminate]. injection M as <- <-. unfold plain. cbn. auto. }
  assert (F1 : Forall plain pvs1).
  { clear E1. unfold generations in G. revert pvs0 F0 G. induction dg as [|e l IH]; intros pvs0 F0 G; [now injection G as <-|]. cbn [foldM] in G. destruct (dget devs (device e)) as [i|]; cbn [of_opt bind] in G; [|discriminate].
    eapply IH; [|exact G]. apply alter_Forall; [|exact F0]. intros x PX. unfold plain, on_inverter in *. cbn [p_inverter]. unfold set_generation. destruct (dget (snd e) "loadmodelname") as [m|]; [|exact PX]. destruct (String.eqb _ _); exact PX. }
  assert (F2 : Forall plain (fold_left (fun l e => match dget devs (device e) with Some i => alter i (on_inverter (set_inverter num (snd e))) l | None => l end) conv pvs1)).
  { clear -F1. revert pvs1 F1. induction conv as [|e l IH]; intros pvs1 F1; [exact F1|]. cbn [fold_left]. apply IH. destruct (dget devs (device e)); [|exact F1]. apply alter_Forall; [|exact F1]. intros x PX. exact PX. }
  revert F2. generalize (fold_left (fun l e => match dget devs (device e) with Some i => alter i (on_inverter (set_inverter num (snd e))) l | None => l end) conv pvs1). clear. unfold controls. induction ctl as [|e l IH]; intros pvs1 F1; [exact F1|]. cbn [fold_left]. apply IH. destruct (dget devs (device e)); [|exact F1]. apply alter_Forall; [|exact F1].
  intros x PX. unfold plain, on_inverter, set_control in *. cbn [p_inverter i_voltvar i_voltwatt i_wattpf i_min_factor]. rewrite curves_id. exact PX.
Qed.
Print Assumptions C122_curves_refuted.

(** No storage gets the efficiencies of its battery. *)
Theorem C123_efficiency_refuted : forall num section_phase section_feeder batteries pv_settings bess_settings dg conv ctl pvs bs, parse_dg num section_phase section_feeder batteries pv_settings bess_settings dg conv ctl = Ok (pvs, bs) ->
  Forall (fun s => s_charging s = None /\ s_discharging s = None) bs.
Proof.
  intros num sp sf bat ps bs_ dg conv ctl pvs bs E. unfold parse_dg in E. destruct (create (make_pv num sp sf) ps) as [[pvs0 devs]|err]; cbn [bind] in E; [|discriminate].
  destruct (create (make_storage num sp sf bat) bs_) as [[bs0 bdevs]|err] eqn:E1; cbn [bind] in E; [|discriminate]. destruct (generations num devs dg pvs0) as [pvs1|]; cbn [bind] in E; [|discriminate].
  rewrite converters_split in E. cbn [fst snd] in E. injection E as _ <-.
  assert (F0 : Forall (fun s => s_charging s = None /\ s_discharging s = None) bs0).
  { eapply create_Forall; [|exact E1]. intros e n o M. unfold make_storage in M. do 4 (match type of M with bind ?r _ = _ => destruct r; cbn [bind] in M; [|discriminate] end). injection M as <- <-. now split. }
  clear E1. revert bs0 F0. induction conv as [|e l IH]; intros bs0 F0; [exact F0|]. cbn [fold_left]. apply IH. destruct (match dget devs (device e) with Some _ => None | None => dget bdevs (device e) end); [|exact F0]. apply alter_Forall; [|exact F0]. intros x PX. exact PX.
Qed.
Print Assumptions C123_efficiency_refuted.

(** The reserve is the largest state of charge and not the least one. *)
Theorem C123_reserve_refuted : forall num section_phase section_feeder batteries pv_settings conv e later s x y, storage_says num section_phase section_feeder batteries pv_settings conv e later s ->
  number num (snd e) "maximumsoc" x -> number num (snd e) "minimumsoc" y -> x <> y -> s_reserve s = Some x /\ s_reserve s <> Some y.
Proof.
  intros num sp sf bat ps conv e later s x y (n & qs & o & _ & _ & _ & _ & _ & _ & _ & R & _) X Y D. apply R in X. rewrite X. split; [reflexivity|congruence].
Qed.
Print Assumptions C123_reserve_refuted.

(** ** The hypotheses can be met *)
Definition num0 (s : string) : option R := if String.eqb s "2" then Some 2%R else if String.eqb s "3" then Some 3%R else if String.eqb s "90" then Some 90%R else if String.eqb s "10" then Some 10%R else None.
Definition sections0 : list (string * CymeParseModel.record) := [("s1", [("fromnodeid", "n1"); ("tonodeid", "n2")]); ("s2", [("fromnodeid", "n2")])].
Definition feeders0 : list (string * string) := [("s1", "f"); ("s2", "f")].
Definition pv0 : list entry := [("S1", [("devicenumber", "D1"); ("eqphase", "AB")])].
Definition bess0 : list entry := [("S2", [("devicenumber", "D2"); ("equipmentid", "b"); ("maximumsoc", "90"); ("minimumsoc", "10"); ("initialsoc", "10")])].
Definition batteries0 : list entry := [("b", [("ratedstorageenergy", "10"); ("maxchargingpower", "3"); ("maxdischargingpower", "2")])].
Definition dg0 : list entry := [("D1", [("loadmodelname", "DEFAULT"); ("activegeneration", "2"); ("powerfactor", "90")]); ("D1*", [("loadmodelname", "Peak"); ("activegeneration", "3")])].
Definition conv0 : list entry := [("D1", [("activepowerrating", "3")]); ("D2", [("activepowerrating", "2")])].
Definition ctl0 : list entry := [("D1", [("controltype", "5"); ("convertercontrolid", "2")])].
Lemma bare0 : bare "D1" /\ bare "D2".
Proof. split; (split; [intros t H; discriminate|]; intros t H; destruct t as [|a [|b [|c t]]]; discriminate). Qed.
Example C122_hypotheses_met : Forall (placed feeders0) pv0 /\ Forall (placed feeders0) bess0 /\ (forall e, In e dg0 \/ In e conv0 \/ In e ctl0 -> named e) /\ (forall e, In e dg0 -> exists dev e', about dev e /\ In e' pv0 /\ of_device dev e') /\
  exists p s, parse_dg num0 sections0 feeders0 batteries0 pv0 bess0 dg0 conv0 ctl0 = Ok ([p], [s]) /\ p_name p = "PV_d1" /\ p_element p = Some "n1" /\ i_active (p_inverter p) = Some (2 * 1000)%R /\ i_rated (p_inverter p) = Some (3 * 1000)%R /\ i_control (p_inverter p) = Some "voltwatt" /\
    s_name s = "BESS_d2" /\ s_reserve s = Some 90%R /\ c_rated (s_converter s) = Some (2 * 1000)%R.
Proof.
  split; [constructor; [eexists _, _; split; reflexivity|constructor]|]. split; [constructor; [eexists _, _; split; reflexivity|constructor]|]. destruct bare0 as [B1 B2]. split; [|split].
  - intros e [I|[I|I]]; cbn in I; repeat (destruct I as [<-|I]; [first [exists "D1", 0; split; [reflexivity|exact B1]|exists "D1", 1; split; [reflexivity|exact B1]|exists "D2", 0; split; [reflexivity|exact B2]]|]); destruct I.
  - intros e I. exists "d1", ("S1", [("devicenumber", "D1"); ("eqphase", "AB")]). split; [|split; [now left|exists "D1"; split; reflexivity]]. cbn in I. destruct I as [<-|[<-|[]]]; [exists "D1", 0|exists "D1", 1]; (split; [reflexivity|]; split; [exact B1|reflexivity]).
  - eexists _, _. split; [reflexivity|]. cbn. repeat (split; [reflexivity|]). reflexivity.
Qed.
Example C123_hypotheses_met : number num0 (snd (hd ("", []) bess0)) "maximumsoc" 90 /\ number num0 (snd (hd ("", []) bess0)) "minimumsoc" 10 /\
  (forall t, dget feeders0 (t ++ "*")%string = None) /\ exists err, parse_dg num0 sections0 feeders0 batteries0 (pv0 ++ [("S1*", [("devicenumber", "D3")])]) bess0 [] [] [] = Err err.
Proof.
  split; [eexists; split; reflexivity|]. split; [eexists; split; reflexivity|]. split; [|eexists; reflexivity]. intros t. unfold feeders0. cbn [dget].
  assert (N : forall s, In s ["s1"; "s2"] -> (s =? t ++ "*")%string = false). { intros s I. apply String.eqb_neq. intros H. destruct I as [<-|[<-|[]]]; destruct t as [|a [|b [|c t]]]; discriminate. }
  rewrite (N "s1") by (now left). rewrite (N "s2") by (right; now left). reflexivity.
Qed.
