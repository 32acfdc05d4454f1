(** C101: the regulators of the OpenDSS reader. *)
From Verif Require Import Base BaseFacts CsvModel TextModel DssNameModel DssNameSpec DssTextModel DssTextSpec DssTextProofs DssLoadSpec DssNodeSpec DssNodeProofs DssRdLoadModel DssRdLoadSpec DssRdLoadProofs DssRdLoadProps DssRdCapSpec DssRdCapProofs DssRdCapProps
  DssRdTransModel DssRdTransSpec DssRdTransProofs DssRdTransProps DssRdRegModel DssRdRegSpec DssRdRegProofs.
From Verif Require Import DssRegModel.
From Verif Require DssRegSpec.
From Coq Require Import Reals QArith Qreals Lia Lra.
Local Open Scope string_scope.
Local Open Scope nat_scope.
Local Open Scope list_scope.

(** C101: each enabled control of a transformer of the circuit becomes one regulator, in order, with its numbers, the ends and
    reactances of the transformer that was read before, and windings made of those of the transformer. *)
Theorem C101_regulators : forall int_ num source trans read rs, Forall (good_reg_report int_ num trans) rs ->
  exists l, parse_regulators int_ num source trans read rs = Ok l /\ Forall2 (reg_read_of int_ num source trans read) (filter (fun x => enabled (snd x)) rs) l.
Proof.
  intros int_ num source trans read rs. unfold parse_regulators. generalize (mkRv None None None None). intros v F. revert v. induction F as [|[full d] rs [En Rp] F IH]; intros v; [exists []; split; [reflexivity|constructor]|].
  cbn [parse_all_regs filter]. cbn [fst snd] in *. destruct (enabled d) eqn:E.
  - destruct (Rp eq_refl) as (n & tn & t & bs & conns & kvs & R). destruct (reg_read int_ num source trans read v full d n tn t bs conns kvs E R) as (v' & r & -> & T). cbn [bind fst snd].
    destruct (IH v') as (l & -> & L). cbn [bind]. exists (r :: l). split; [reflexivity|]. constructor; [|exact L]. exists n, tn, t, bs, conns, kvs. auto.
  - assert (parse_reg int_ num source trans read v full d = Ok (v, None)) as ->.
    { unfold parse_reg. unfold enabled in E. destruct (d "enabled") as [[s|s]|]; [cbn [of_opt bind]; now rewrite E|reflexivity|congruence]. }
    cbn [bind fst snd]. destruct (IH v) as (l & -> & L). cbn [bind]. exists l. auto.
Qed.
Print Assumptions C101_regulators.

Lemma int_unique int_ d k z o : ints int_ d k o -> whole int_ d k z -> o = Some z.
Proof. intros S (s & D & N). destruct o as [r|]; [|destruct (S z); exists s; auto]. destruct S as (s' & D' & N'). congruence. Qed.
(** A control that the writer wrote comes back: its winding, ratios, delay, limit, and its band center when it has no set point. *)
Theorem C101_read_back : forall int_ num source ts trans read v r n e d full tn t bs conns kvs, reads_ints int_ -> written_reg int_ num ts trans r n e d full tn t bs conns kvs ->
  exists v' q, parse_reg int_ (real_of num) source trans read v full d = Ok (v', Some q) /\ rr_name q = Some ("regulator_" ++ lower n)%string /\ rr_trans q = Some tn /\
    rr_winding q = Some (match rg_winding r with Some w => w | None => 2%Z end) /\ equal_to (rg_ct r) (rr_ct q) /\ equal_to (rg_delay r) (rr_delay q) /\ equal_to (rg_pt r) (rr_pt q) /\ equal_to (rg_vlimit r) (rr_limit q) /\
    (rg_set r = None -> equal_to (rg_center r) (rr_center q)) /\ (forall s, rg_set r = Some s -> rr_center q = Some (Q2R (s / 100 * 120))) /\
    (forall b, rg_band r = Some b -> rr_band q = Some (Q2R (b * 120 / 100))).
Proof.
  intros int_ num source ts trans read v r n e d full tn t bs conns kvs (Iz & Is) [[_ _ _ Cw Cc Cd Cp Cb Cv _ Cl _ _ _] [Eon _ Ew _ Ec Ed Ep Eb Ev El] Nm Rp].
  assert (On : enabled d = true) by (unfold enabled; now rewrite Eon). destruct (reg_read int_ (real_of num) source trans read v full d n tn t bs conns kvs On Rp) as (v' & q & E & [A1 _ A3 A4 _ A6 A7 A8 A9 A10 A11 _ _ _ _ _ _ _ _ _]).
  exists v', q. split; [exact E|]. split; [exact A1|]. split; [exact A3|]. split.
  { apply (int_unique _ _ _ _ _ A4). eexists. split; [exact (Ew _ Cw)|]. destruct (rg_winding r); [apply Iz|apply (Is 2)]. }
  split; [exact (passed_gives _ _ _ _ _ _ _ Cc Ec A6)|]. split; [exact (passed_gives _ _ _ _ _ _ _ Cd Ed A7)|]. split; [exact (passed_gives _ _ _ _ _ _ _ Cp Ep A8)|]. split; [exact (passed_gives _ _ _ _ _ _ _ Cl El A11)|].
  split; [intros S; rewrite S in Cv; exact (passed_gives _ _ _ _ _ _ _ Cv Ev A10)|]. split; [intros s S; rewrite S in Cv; exact (passed_gives _ _ _ _ _ _ _ Cv Ev A10 _ eq_refl)|].
  intros b B. rewrite B in Cb. exact (passed_gives _ _ _ _ _ _ _ Cb Eb A9 _ eq_refl).
Qed.
Print Assumptions C101_read_back.

(** The name that comes back is not the one that was written. *)
Theorem C101_name_refuted : forall int_ num source ts trans read v r n e d full tn t bs conns kvs, reads_ints int_ -> written_reg int_ num ts trans r n e d full tn t bs conns kvs ->
  exists v' q, parse_reg int_ (real_of num) source trans read v full d = Ok (v', Some q) /\ rr_name q <> rg_name r.
Proof.
  intros int_ num source ts trans read v r n e d full tn t bs conns kvs I W. destruct (C101_read_back int_ num source ts trans read v r n e d full tn t bs conns kvs I W) as (v' & q & E & N & _). exists v', q. split; [exact E|]. rewrite N, (wr_name _ _ _ _ _ _ _ _ _ _ _ _ _ _ W).
  intros X. injection X as X. apply (f_equal String.length) in X. assert (L : forall s, String.length (lower s) = String.length s) by (clear; induction s as [|c s IH]; cbn; congruence). cbn in X. rewrite L in X. lia.
Qed.
Print Assumptions C101_name_refuted.

(** The band is written for 120 V and read as if it were for 100 V: it comes back larger by a fifth. *)
Theorem C101_band_refuted : forall int_ num source ts trans read v r n e d full tn t bs conns kvs b, reads_ints int_ -> written_reg int_ num ts trans r n e d full tn t bs conns kvs -> rg_band r = Some b -> ~ (b == 0)%Q ->
  exists v' q x, parse_reg int_ (real_of num) source trans read v full d = Ok (v', Some q) /\ rr_band q = Some x /\ (x = 6 / 5 * Q2R b)%R /\ x <> Q2R b.
Proof.
  intros int_ num source ts trans read v r n e d full tn t bs conns kvs b I W B NZ. destruct (C101_read_back int_ num source ts trans read v r n e d full tn t bs conns kvs I W) as (v' & q & E & _ & _ & _ & _ & _ & _ & _ & _ & _ & H). exists v', q, (Q2R (b * 120 / 100)). split; [exact E|]. split; [exact (H b B)|].
  assert (X : (Q2R (b * 120 / 100) = 6 / 5 * Q2R b)%R). { rewrite Q2R_div by (intros X; discriminate X). rewrite Q2R_mult. assert (Q2R 120 = 120%R) as -> by (unfold Q2R; cbn; lra). assert (Q2R 100 = 100%R) as -> by (unfold Q2R; cbn; lra). field. }
  split; [exact X|]. rewrite X. intros Y. apply NZ, eqR_Qeq. assert (Q2R 0 = 0%R) as -> by (unfold Q2R; cbn; lra). lra.
Qed.
Print Assumptions C101_band_refuted.

(** The set point is kept in percent, written in volts and not read as percent: it never comes back; and the band center is lost to it. *)
Theorem C101_setpoint_refuted : forall int_ num source ts trans read v r n e d full tn t bs conns kvs s, reads_ints int_ -> ints_are_numbers int_ (real_of num) -> written_reg int_ num ts trans r n e d full tn t bs conns kvs -> rg_set r = Some s -> ~ (s == 0)%Q ->
  exists v' q, parse_reg int_ (real_of num) source trans read v full d = Ok (v', Some q) /\ (forall z, rr_set q = Some z -> IZR z <> Q2R s) /\ (forall c, rg_center r = Some c -> ~ (c == s / 100 * 120)%Q -> rr_center q <> Some (Q2R c)).
Proof.
  intros int_ num source ts trans read v r n e d full tn t bs conns kvs s I Ia W S NZ. destruct (C101_read_back int_ num source ts trans read v r n e d full tn t bs conns kvs I W) as (v' & q & E & _ & _ & _ & _ & _ & _ & _ & _ & H & _). specialize (H s S). exists v', q. split; [exact E|].
  assert (On : enabled d = true) by (unfold enabled; now rewrite (er_on _ _ _ (wr_engine _ _ _ _ _ _ _ _ _ _ _ _ _ _ W))). destruct (reg_read int_ (real_of num) source trans read v full d n tn t bs conns kvs On (wr_reports _ _ _ _ _ _ _ _ _ _ _ _ _ _ W)) as (v2 & q2 & E2 & Q). rewrite E in E2. injection E2 as <- <-. split.
  - intros z Z. pose proof (ex_set _ _ _ _ _ _ _ _ _ _ _ _ Q) as X. rewrite Z in X. destruct X as (w & D & Iw). pose proof (ex_center _ _ _ _ _ _ _ _ _ _ _ _ Q) as C. rewrite H in C. destruct C as (w' & D' & Nw). rewrite D in D'. injection D' as <-. rewrite (Ia _ _ Iw) in Nw. injection Nw as ->.
    rewrite Q2R_mult, Q2R_div by (intros X; discriminate X). assert (Q2R 120 = 120%R) as -> by (unfold Q2R; cbn; lra). assert (Q2R 100 = 100%R) as -> by (unfold Q2R; cbn; lra). intros Y. apply NZ, eqR_Qeq. assert (Q2R 0 = 0%R) as -> by (unfold Q2R; cbn; lra). lra.
  - intros c _ N X. rewrite H in X. injection X as X. apply N. symmetry. now apply eqR_Qeq.
Qed.
Print Assumptions C101_setpoint_refuted.

(** The phase of the sensor is written as a node and read as a position among the nodes of the last terminal: at a terminal with one
    node the phases B and C do not come back. *)
Theorem C101_phase_refuted : forall int_ num source ts trans read v r n e d full tn t bs conns kvs p b m, reads_ints int_ -> written_reg int_ num ts trans r n e d full tn t bs conns kvs ->
  rg_phase r = Some p -> p = "B" \/ p = "C" -> nth_error bs (length bs - 1) = Some (b, [m]) ->
  exists v' q, parse_reg int_ (real_of num) source trans read v full d = Ok (v', Some q) /\ rr_phase q = None.
Proof.
  intros int_ num source ts trans read v r n e d full tn t bs conns kvs p b m (Iz & Is) W P BC L.
  assert (On : enabled d = true) by (unfold enabled; now rewrite (er_on _ _ _ (wr_engine _ _ _ _ _ _ _ _ _ _ _ _ _ _ W))). destruct (reg_read int_ (real_of num) source trans read v full d n tn t bs conns kvs On (wr_reports _ _ _ _ _ _ _ _ _ _ _ _ _ _ W)) as (v' & q & E & Q). exists v', q. split; [exact E|].
  pose proof (DssRegSpec.co_phase _ _ _ _ (wr_is _ _ _ _ _ _ _ _ _ _ _ _ _ _ W)) as C. rewrite P in C. destruct C as (k & A & K). pose proof (er_phase _ _ _ (wr_engine _ _ _ _ _ _ _ _ _ _ _ _ _ _ W) _ K) as D.
  destruct BC as [-> | ->]; inversion A; subst k; [apply (ex_no_phase _ _ _ _ _ _ _ _ _ _ _ _ Q 2%Z b [m])|apply (ex_no_phase _ _ _ _ _ _ _ _ _ _ _ _ Q 3%Z b [m])]; try lia; try exact L; try reflexivity; eexists; (split; [exact D|]); [apply (Is 2)|apply (Is 3)].
Qed.
Print Assumptions C101_phase_refuted.

(** When the transformer of the first enabled control is not found, a control of no transformer that OpenDSS knows under its name in lower case, the reading stops. *)
Theorem C101_missing_refuted : forall int_ num source trans read off full d rest, Forall (fun x => snd x "enabled" <> None /\ enabled (snd x) = false) off -> enabled d = true -> find_trans trans d = Ok None ->
  parse_regulators int_ num source trans read (off ++ (full, d) :: rest) = Err EName.
Proof.
  intros int_ num source trans read off full d rest F En N. unfold parse_regulators. induction F as [|[f o] off [Eo Ef] F IH]; cbn [app parse_all_regs].
  - unfold parse_reg. unfold enabled in En. destruct (d "enabled") as [[en|en]|]; try discriminate. cbn [of_opt bind]. rewrite En, N. reflexivity.
  - cbn [snd] in Eo, Ef. assert (parse_reg int_ num source trans read (mkRv None None None None) f o = Ok (mkRv None None None None, None)) as ->.
    { unfold parse_reg. unfold enabled in Ef. destruct (o "enabled") as [[s|s]|]; [cbn [of_opt bind]; now rewrite Ef|reflexivity|congruence]. }
    cbn [bind fst snd]. rewrite IH. reflexivity.
Qed.
Print Assumptions C101_missing_refuted.

(** After a control of a transformer with two or three windings, one whose transformer is not found stops the reading too: the variable holds what is left of the one before. *)
Theorem C101_missing_later_refuted : forall int_ num source trans read v full d z t, (z = 2 \/ z = 3)%Z -> v_n v = Some z -> v_trans v = Some t -> enabled d = true -> find_trans trans d = Ok None ->
  exists k, parse_reg int_ num source trans read v full d = Err k.
Proof.
  intros int_ num source trans read v full d z t Z Vn Vt En N. unfold parse_reg. unfold enabled in En. destruct (d "enabled") as [[en|en]|]; try discriminate. cbn [of_opt bind]. rewrite En, N. cbn [bind]. rewrite Vn, Vt. unfold reg_types. cbn [of_opt bind].
  assert ((z =? 2)%Z || (z =? 3)%Z = true)%bool as -> by (destruct Z as [-> | ->]; reflexivity). destruct t as [td|]; [|cbn; eauto]. unfold types_of.
  destruct Z as [-> | ->]; cbn [Z.eqb Pos.eqb].
  - destruct (kv_item num td 0) as [a|k]; [|cbn; eauto]. cbn [bind]. destruct (kv_item num td 1) as [b|k]; [|cbn; eauto]. cbn [bind]. destruct (Rle_dec b a); cbn; eauto.
  - destruct (kv_item num td 0) as [a|k]; [|cbn; eauto]. cbn [bind]. destruct (kv_max num td) as [m|k]; [|cbn; eauto]. cbn [bind]. destruct (Req_EM_T a m); [cbn; eauto|]. destruct (kv_item num td 1) as [b|k]; [|cbn; eauto]. cbn [bind]. destruct (Req_EM_T b m); cbn; eauto.
Qed.
Print Assumptions C101_missing_later_refuted.

(** The lowest step of a regulator is set to its highest. *)
Theorem C101_step_refuted : forall int_ num source trans read v full d v' q, parse_reg int_ num source trans read v full d = Ok (v', Some q) -> rr_low q = rr_high q.
Proof.
  intros int_ num source trans read v full d v' q E. unfold parse_reg in E. destruct (d "enabled") as [en|]; [|discriminate]. cbn [of_opt bind] in E. destruct (match en with PText s => String.eqb s "Yes" | PList _ => false end); [|discriminate].
  destruct (find_trans trans d) as [o|]; [|discriminate]. cbn [bind] in E. match type of E with (do x <- ?y; _) = _ => destruct y as [[[v1 sh] ws]|]; [|discriminate] end. cbn [bind] in E. destruct (reg_types _ _ _ _); [|discriminate]. cbn [bind] in E. injection E as _ <-. reflexivity.
Qed.
Print Assumptions C101_step_refuted.

(** ** Cases that meet the hypotheses *)
Definition ex_reg_trans : list (string * data) := [("Transformer.t0", ex_t2); ("Transformer.t1", ex_t1)].
Definition ex_r1 : data := tbl [("enabled", "Yes"); ("transformer", "T1"); ("winding", "2"); ("vreg", "612/5"); ("band", "12/5"); ("PTphase", "2"); ("R", "3/1"); ("maxtapchange", "16")].
Definition ex_reg_reports : list (string * data) := [("RegControl.old", tbl [("enabled", "No")]); ("RegControl.Reg1", ex_r1)].
Lemma t1_stands : stands DssStoreModel.read_int num_r ex_t1 [("b1", ["1"; "2"; "3"]); ("b2", ["1"; "2"; "3"; "0"])] ["delta"; "wye"] [Q2R (12 # 1); Q2R (4 # 1)].
Proof.
  constructor.
  - now left.
  - exists "2". split; reflexivity.
  - exists ["b1.1.2.3"; "b2.1.2.3.0"]. split; [reflexivity|]. repeat constructor.
  - intros b ns m [[= <- <-]|[[= <- <-]|[]]] I X; cbn in I, X; intuition congruence.
  - exists ["Delta"; "wye"]. split; [reflexivity|]. split; [reflexivity|]. split; [reflexivity|]. intros c [<-|[<-|[]]]; tauto.
  - exists ["12/1"; "4/1"]. split; [reflexivity|]. split; [|reflexivity]. repeat constructor.
  - right. intros [|[|i]] L; cbn in L; [| |lia]; eexists _, ["1/1"; "41/40"], _; repeat split.
Qed.
Lemma r1_reports : reports_reg DssStoreModel.read_int num_r ex_reg_trans "RegControl.Reg1" ex_r1 "Reg1" "t1" ex_t1 [("b1", ["1"; "2"; "3"]); ("b2", ["1"; "2"; "3"; "0"])] ["delta"; "wye"] [Q2R (12 # 1); Q2R (4 # 1)].
Proof.
  constructor.
  - exists "RegControl". split; [reflexivity|]. split; cbn; intuition discriminate.
  - exists "T1". split; reflexivity.
  - exists ("Transformer.t1", ex_t1). split; [|reflexivity]. apply fn_later; [discriminate|]. now apply fn_here.
  - exact t1_stands.
  - intros X. discriminate X.
Qed.
Example C101_hypotheses_met : Forall (good_reg_report DssStoreModel.read_int num_r ex_reg_trans) ex_reg_reports /\
  exists r, parse_regulators DssStoreModel.read_int num_r "src" ex_reg_trans [] ex_reg_reports = Ok [r] /\ rr_name r = Some "regulator_reg1" /\ rr_phase r = Some "B" /\ rr_high r = Some 16%Z /\ rr_shift r = Some (-30)%Z /\ rr_set r = None /\ rr_center r = Some (Q2R (612 # 5)).
Proof.
  split. { constructor; [split; [discriminate|intros X; discriminate X]|]. constructor; [split; [discriminate|intros _; do 6 eexists; exact r1_reports]|constructor]. }
  destruct (reg_read DssStoreModel.read_int num_r "src" ex_reg_trans [] (mkRv None None None None) _ ex_r1 _ _ _ _ _ _ eq_refl r1_reports) as (v & r & E & Q). exists r.
  split. { unfold parse_regulators, ex_reg_reports. cbn [parse_all_regs]. change (parse_reg DssStoreModel.read_int num_r "src" ex_reg_trans [] (mkRv None None None None) "RegControl.old" (tbl [("enabled", "No")])) with (Ok (mkRv None None None None, @None rreg)). cbn [bind fst snd]. rewrite E. reflexivity. }
  split; [exact (ex_name _ _ _ _ _ _ _ _ _ _ _ _ Q)|]. split.
  { destruct (ex_phase _ _ _ _ _ _ _ _ _ _ _ _ Q 2%Z "b2" ["1"; "2"; "3"; "0"] "2") as [(x & X & ->)|(X & _)]; try reflexivity; try lia; [exists "2"; split; reflexivity|inversion X; reflexivity|destruct (X "B" ltac:(constructor))]. }
  split; [apply (int_unique _ _ _ _ _ (ex_step _ _ _ _ _ _ _ _ _ _ _ _ Q)); exists "16"; split; reflexivity|].
  split; [destruct (ex_shift _ _ _ _ _ _ _ _ _ _ _ _ Q) as (z & (a & b & l & [= <- <- <-] & [(X & _)|(_ & ->)]) & H); [discriminate X|exact H]|].
  split; [pose proof (ex_set _ _ _ _ _ _ _ _ _ _ _ _ Q) as X; destruct (rr_set r) as [z|]; [destruct X as (s & D & I); vm_compute in D; injection D as <-; discriminate I|reflexivity]|].
  apply (same_number _ _ _ _ _ (ex_center _ _ _ _ _ _ _ _ _ _ _ _ Q)). eexists. split; reflexivity.
Qed.
Definition ex_reg : regulator := mkReg (Some "Reg1") (Some "T1") None None [] [] (Some 2%Z) None None None None (Some 2%Q) (Some 121%Q) (Some "B") None (Some 102%Q).
Definition ex_reg_elt : element := Eval vm_compute in match reg_group DssTextProps.show_q (hd 0%Q) [] [ex_reg] with Ok (t, _) => match read_dss t with Some [e] => e | _ => mkElement "" "" [] end | _ => mkElement "" "" [] end.
Definition ex_r2 : data := tbl [("enabled", "Yes"); ("transformer", "T1"); ("winding", "2"); ("vreg", "12240/100"); ("band", "24/10"); ("PTphase", "2")].
Definition ex_single : data := lists [("buses", ["b1.2"; "b2.2"]); ("conns", ["wye"; "wye"]); ("kVs", ["12/1"; "12/1"])] (tbl [("windings", "2"); ("phases", "1")]).
Lemma ex_reg_written : written_reg DssStoreModel.read_int DssTextProps.num_q [] [("Transformer.t1", ex_single)] ex_reg "Reg1" ex_reg_elt ex_r2 "RegControl.Reg1" "t1" ex_single [("b1", ["2"]); ("b2", ["2"])] ["wye"; "wye"] [Q2R (12 # 1); Q2R (12 # 1)].
Proof.
  constructor.
  - constructor; try reflexivity; try (eexists; split; [reflexivity|vm_compute; reflexivity]).
    + exists "2". split; [constructor|reflexivity].
    + left. split; [|reflexivity]. intros q (t & w & p & [] & _).
    + left. split; [|reflexivity]. intros q (t & w & p & [] & _).
    + intros k v P. rewrite prop_look in P. apply look_In in P as (k' & I & L). rewrite <- L. cbn in I. repeat (destruct I as [[= <- <-]|I]; [cbn; tauto|]). destruct I.
  - constructor; try reflexivity; try (intros s P; vm_compute in P; injection P as <-; reflexivity); intros s r P N; vm_compute in P; (discriminate P || (injection P as <-; eexists; split; [reflexivity|exact N])).
  - reflexivity.
  - constructor.
    + exists "RegControl". split; [reflexivity|]. split; cbn; intuition discriminate.
    + exists "T1". split; reflexivity.
    + exists ("Transformer.t1", ex_single). split; [|reflexivity]. now apply fn_here.
    + constructor.
      * now left.
      * exists "2". split; reflexivity.
      * exists ["b1.2"; "b2.2"]. split; [reflexivity|]. repeat constructor.
      * intros b ns m [[= <- <-]|[[= <- <-]|[]]] I X; cbn in I, X; intuition congruence.
      * exists ["wye"; "wye"]. split; [reflexivity|]. split; [reflexivity|]. split; [reflexivity|]. intros c [<-|[<-|[]]]; tauto.
      * exists ["12/1"; "12/1"]. split; [reflexivity|]. split; [|reflexivity]. repeat constructor.
      * now left.
    + intros _. now left.
Qed.
Example C101_refuted_met : rg_band ex_reg = Some 2%Q /\ rg_set ex_reg = Some 102%Q /\ rg_phase ex_reg = Some "B" /\ nth_error [("b1", ["2"]); ("b2", ["2"])] (2 - 1) = Some ("b2", ["2"]) /\ find_trans [("Transformer.t1", ex_single)] (tbl [("transformer", "t7")]) = Ok None.
Proof. repeat split. Qed.
Example C101_band_met : exists v' q x, parse_reg DssStoreModel.read_int num_r "src" [("Transformer.t1", ex_single)] [] (mkRv None None None None) "RegControl.Reg1" ex_r2 = Ok (v', Some q) /\ rr_band q = Some x /\ (x = 6 / 5 * Q2R 2)%R /\ x <> Q2R 2.
Proof. exact (C101_band_refuted _ _ "src" _ _ [] (mkRv None None None None) _ _ _ _ _ _ _ _ _ _ 2%Q ints_read ex_reg_written eq_refl ltac:(discriminate)). Qed.
