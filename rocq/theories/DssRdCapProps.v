(** Theorems about the capacitors of the OpenDSS reader (C96). *)
From Verif Require Import Base BaseFacts CsvModel TextModel DssNameModel DssNameSpec DssTextModel DssTextSpec DssTextProofs DssLoadSpec DssNodeSpec DssNodeProofs DssRdLoadModel DssRdLoadSpec DssRdLoadProofs DssRdLoadProps DssRdCapModel DssRdCapSpec DssRdCapProofs.
From Coq Require Import Reals QArith Qreals Lra Lia.
Local Open Scope string_scope.
Local Open Scope nat_scope.
Local Open Scope list_scope.

(** One capacitor is read for each enabled capacitor of the circuit, in
    order, with its bus, its voltage, its phases and the settings of the first
    control that names it; its phases have together the kvar of its steps. *)
Theorem C96_capacitors : forall int_ num source cl caps, reads_nodes int_ -> told cl -> Forall (good_cap_report int_ num) caps ->
  exists l, parse_caps int_ num source cl caps = Ok l /\ Forall2 (cap_read_of int_ num source cl) (filter (fun x => enabled (snd x)) caps) l.
Proof.
  intros int_ num source cl caps I T G. unfold parse_caps.
  assert (X : exists os, mapM (fun x => parse_cap int_ num source cl (fst x) (snd x)) caps = Ok os /\ Forall2 (cap_read_of int_ num source cl) (filter (fun x => enabled (snd x)) caps) (kept_caps os)); [|destruct X as (os & -> & F); cbn [bind]; eauto].
  induction G as [|[full d] caps (Ge & Gr) G (os & E & F)]; [exists []; split; [reflexivity|constructor]|]. cbn [fst snd] in *. cbn [mapM filter fst snd]. destruct (enabled d) eqn:En.
  - destruct (Gr eq_refl) as (n & b & conn & ps & steps & Rp). destruct (cap_read int_ num source I cl full d n b conn ps steps T En Rp) as (r & El & Rl). rewrite El. cbn [bind]. rewrite E. cbn [bind]. eexists. split; [reflexivity|].
    cbn [kept_caps]. constructor; [|exact F]. exists n, b, conn, ps, steps. auto.
  - assert (Ed : parse_cap int_ num source cl full d = Ok None). { unfold parse_cap. unfold enabled in En. destruct (d "enabled") as [[s|s]|]; [|reflexivity|congruence]. cbn [of_opt bind]. now rewrite En. }
    rewrite Ed. cbn [bind]. rewrite E. cbn [bind]. eexists. split; [reflexivity|]. exact F.
Qed.
Print Assumptions C96_capacitors.

Lemma control_unique n cl c c' : control_of n cl c -> control_of n cl c' -> c = c'.
Proof.
  intros H. destruct H as [l H|a x z H X]; intros H'.
  - inversion H' as [|a x z H2 X2]; subst; [reflexivity|]. destruct (H x); [apply in_or_app; right; now left|exact X2].
  - inversion H' as [l H2|a' x' z' H2 X2 E]; subst; [destruct (H2 x); [apply in_or_app; right; now left|exact X]|]. f_equal.
    clear H'. revert a' E H2. induction a as [|y a IH]; intros [|y' a'] E H2; cbn in E.
    + now injection E as ->.
    + injection E as -> _. destruct (H2 x); [now left|exact X].
    + injection E as <- _. destruct (H x'); [now left|exact X2].
    + injection E as _ E. apply (IH (fun q Hq => H q (or_intror Hq)) a' E (fun q Hq => H2 q (or_intror Hq))).
Qed.
(** What belongs to a capacitor that was written: a capacitor, and a control if it has settings. *)
Definition written num cl (c : capacitor) (n : string) (e : element) (d : data) (o : option data) : Prop :=
  cap_is num c e /\ engine_cap (real_of num) e d /\ cp_name c = Some n /\ control_of n cl o /\
  match o with Some dk => controlled c /\ exists k, control_is num c k /\ engine_control (real_of num) k dk | None => ~ controlled c end.
Definition one_or_three (c : capacitor) (ps : list string) : Prop :=
  map pc_phase (cp_phases c) = map Some ps /\ (ps = ["A"; "B"; "C"] \/ exists p, ps = [p] /\ In p ["A"; "B"; "C"]).
Lemma passed_gives num k d K key q o : gives num k key q -> passed (real_of num) k d key K -> states (real_of num) d K o -> equal_to q o.
Proof. intros G P S x ->. apply (same_number _ _ _ _ _ S). exact (number_gives num k key x d K G P). Qed.
(** A capacitor with one or three phases that the writer wrote comes back:
    bus, voltage, connection, phases, reactive power, and the numbers of its
    control; the mode when it is one by reactive power or by time. *)
Theorem C96_read_back : forall int_ num source cl c n e d o ps, reads_ints int_ -> told cl -> written num cl c n e d o -> ~ has "apacitor." n -> cp_bus c <> None -> one_or_three c ps ->
  (cp_conn c = Some "Y" \/ cp_conn c = Some "D") ->
  exists r x y l vs, parse_cap int_ (real_of num) source cl ("Capacitor." ++ n) d = Ok (Some r) /\
    rc_name r = lower n /\ cp_bus c = Some x /\ kept x y /\ rc_bus r = Some y /\ rc_conn r = cp_conn c /\ equal_to (cp_kv c) (rc_kv r) /\
    rc_phases r = Some l /\ map fst l = map pc_phase (cp_phases c) /\ map snd l = map Some vs /\ total vs = Q2R (sum (given (map pc_var (cp_phases c)))) /\
    (forall v, In v vs -> (v * INR (length ps) = Q2R (sum (given (map pc_var (cp_phases c)))))%R) /\
    equal_to (cp_delay c) (rc_delay r) /\ equal_to (cp_low c) (rc_low r) /\ equal_to (cp_high c) (rc_high r) /\ equal_to (cp_pt c) (rc_pt r) /\ equal_to (cp_ct c) (rc_ct r) /\
    (forall p, cp_ptphase c = Some p -> p <> "N" -> rc_ptphase r = Some p) /\
    (forall m, cp_mode c = Some m -> In (lower m) ["reactivepower"; "timescheduled"] -> option_map lower (rc_mode r) = Some (lower m)) /\
    (forall z, controlled c -> cp_element c = Some z -> rc_element r = Some ("Line." ++ z)%string).
Proof.
  intros int_ num source cl c n e d o ps (Iz & Is) T (Ci & En & Nm & Co & Ct) Plain Bus (Ph & P13) Conn.
  assert (I : reads_nodes int_) by (split; [apply (Iz 1%Z)|split; [apply (Iz 2%Z)|apply (Iz 3%Z)]]).
  destruct Ci as [_ _ (ns & Cn & Cb) Cp Ck Cc Cv _]. destruct En as [Eon Eb Ec Ep Ek Ev]. destruct (cp_bus c) as [x|] eqn:Ebus; [|congruence]. destruct Cb as (t & y & Pb & Tt & Kx).
  assert (Len : length (cp_phases c) = length ps) by (rewrite <- (map_length pc_phase), Ph; apply map_length).
  set (conn := if match cp_conn c with Some c => String.eqb c "D" | None => false end then "delta" else "wye").
  assert (On : exists k, whole int_ d "phases" (Z.of_nat k) /\ cap_on k ns ps).
  { destruct P13 as [-> | (p & -> & Hp)].
    - exists 3. split; [eexists; split; [apply (Ep _ Cp)|rewrite Len; cbn; apply (Is 3)]|]. destruct Cn as [(_ & ->)|(N3 & _)]; [right; repeat split|rewrite Len in N3; now contradiction N3].
    - exists 1. split; [eexists; split; [apply (Ep _ Cp)|rewrite Len; cbn; apply (Is 1)]|]. left. split; [discriminate|]. destruct Cn as [(N3 & _)|(_ & nss & F & ->)]; [rewrite Len in N3; discriminate N3|].
      rewrite Ph in F. inversion F as [|? a ? bs H1 F1]; subst. inversion F1; subst. cbn [concat]. rewrite app_nil_r. destruct Hp as [<-|[<-|[<-|[]]]]; inversion H1; subst; try congruence; (split; [reflexivity|repeat constructor]). }
  destruct On as (k & Wk & On). destruct Cv as (v & V & Vq). unfold value in V. destruct (prop e "kvar") as [s|] eqn:Ps; [|discriminate].
  destruct (Ev s (Q2R v) eq_refl) as (s' & Ds & Ns); [unfold real_of; now rewrite V|].
  assert (Kq : (Q2R v * 1000 = Q2R (sum (given (map pc_var (cp_phases c)))))%R). { rewrite (Qeq_eqR _ _ Vq). rewrite Q2R_div by (intros X; discriminate X). assert (Q2R 1000 = 1000%R) as -> by (unfold Q2R; cbn; lra). field. }
  assert (Rp : reports_cap int_ (real_of num) ("Capacitor." ++ n) d n y conn ps [Q2R v]).
  { constructor; try reflexivity; try exact Plain.
    - eexists. split; [exact Ec|]. unfold defaults, conn. rewrite Cc. destruct Conn as [-> | ->]; cbn; auto.
    - exists t, ns, k. split; [apply Eb, Pb|]. split; [exact Tt|]. split; [exact Wk|exact On].
    - exists [s']. split; [exact Ds|]. constructor; [exact Ns|constructor].
    - now left. }
  assert (On' : enabled d = true) by (unfold enabled; now rewrite Eon).
  destruct (cap_read int_ (real_of num) source I cl _ d n y conn ps _ T On' Rp) as (r & Er & [R1 R2 R3 R4 (w & R5 & R5') (c' & R6 & Q1 & Q2 & Q3 & Q4 & Q5 & Q6 & Q7 & Q8) (l & vs & R7 & R8 & R9 & R10 & R11)]).
  rewrite (control_unique _ _ _ _ R6 Co) in *. clear R6 c'. exists r, x, y, l, vs. split; [exact Er|]. split; [exact R1|]. split; [reflexivity|]. split; [exact Kx|]. split; [exact R3|].
  split; [rewrite R4; unfold conn; destruct Conn as [-> | ->]; reflexivity|].
  split. { intros q Q. rewrite Q in Ck. pose proof (same_number _ _ _ _ _ R5 (number_gives num e "kv" _ d "kv" Ck Ek)) as E. rewrite R5', E. cbn [option_map]. f_equal. rewrite Q2R_div by (intros X; discriminate X). assert (Q2R 1000 = 1000%R) as -> by (unfold Q2R; cbn; lra). field. }
  assert (Tv : (total [Q2R v] * 1000 = Q2R (sum (given (map pc_var (cp_phases c)))))%R) by (cbn; lra).
  split; [exact R7|]. split; [now rewrite R8, Ph|]. split; [exact R9|]. split; [now rewrite R10|]. split; [intros z Hz; rewrite <- Tv; now apply R11|].
  destruct o as [dk|]; cbn [of_control] in *.
  - destruct Ct as (Ct & kx & [_ _ _ Xe _ Xd Xt Xl Xh Xp Xc Xph _] & [Yc Ye Yt Yp Yd Yl Yh Ypt Yct]).
    split; [exact (passed_gives _ _ _ _ _ _ _ Xd Yd Q1)|]. split; [exact (passed_gives _ _ _ _ _ _ _ Xl Yl Q2)|]. split; [exact (passed_gives _ _ _ _ _ _ _ Xh Yh Q3)|]. split; [exact (passed_gives _ _ _ _ _ _ _ Xp Ypt Q4)|]. split; [exact (passed_gives _ _ _ _ _ _ _ Xc Yct Q5)|].
    split. { intros p P Np. rewrite P in Xph. destruct Xph as (m & Hm & Pm). assert (NL : node_letter m p) by (destruct Hm; try constructor; congruence). destruct NL.
      - apply (Q8 "1" "A" 1%Z); [constructor|apply (Iz 1%Z)|eexists; split; [exact (Yp _ Pm)|apply (Iz 1%Z)]].
      - apply (Q8 "2" "B" 2%Z); [constructor|apply (Iz 2%Z)|eexists; split; [exact (Yp _ Pm)|apply (Iz 2%Z)]].
      - apply (Q8 "3" "C" 3%Z); [constructor|apply (Iz 3%Z)|eexists; split; [exact (Yp _ Pm)|apply (Iz 3%Z)]]. }
    split. { intros m M Hm. rewrite M in Xt. destruct Xt as (t0 & Ht & Pt). destruct Hm as [Hm|[Hm|[]]]; rewrite <- Hm in Ht |- *; inversion Ht; subst.
      - rewrite (Q7 _ _ (Yt _ Pt) me_kvar). reflexivity.
      - rewrite (Q7 _ _ (Yt _ Pt) me_time). reflexivity. }
    intros z _ Z. rewrite Z in Xe. apply Q6. exact (Ye _ Xe).
  - assert (No : cp_delay c = None /\ cp_mode c = None /\ cp_low c = None /\ cp_high c = None /\ cp_pt c = None /\ cp_ct c = None /\ cp_ptphase c = None).
    { unfold controlled in Ct. repeat split; match goal with |- ?f c = None => destruct (f c) eqn:?; [exfalso; apply Ct; intuition congruence|reflexivity] end. }
    destruct No as (-> & -> & -> & -> & -> & -> & ->). repeat split; try (intros ? X; discriminate X). intros z X. contradiction.
Qed.
Print Assumptions C96_read_back.

(** The parts of a capacitor that is read. *)
Lemma cap_shape int_ num source cl full d b ms z s k r : cap_at d = Some (b, ms) -> whole int_ d "phases" z -> z <> 0%Z -> d "kvar" = Some (PList s) -> hd_error s = Some k -> length s <> length ms ->
  parse_cap int_ num source cl full d = Ok (Some r) -> exists l, rc_phases r = Some l /\ map fst l = map r_phase_str ms /\ forall v, In v (map snd l) -> v = option_map (fun x => x / IZR z * 1000)%R (num k).
Proof.
  intros At W Z0 D H L E. unfold parse_cap in E. destruct (d "enabled") as [en|]; [|discriminate]. cbn [of_opt bind] in E. destruct (match en with PText s => String.eqb s "Yes" | PList _ => false end); [|discriminate].
  destruct (find_control _ cl) as [c|]; [|discriminate]. cbn [bind] in E. rewrite At, (int_whole _ _ _ _ W) in E.
  match type of E with context [phase_caps num d ?pt ?c ?z ?p ms] => destruct (phase_caps_ok num d pt c z (PList s) ms D p) as (l & El & F1 & F2); rewrite El in E end. cbn [bind] in E. injection E as <-. cbn [rc_phases].
  exists l. split; [reflexivity|]. split; [exact F1|]. rewrite F2. intros v Hv. apply in_map_iff in Hv. destruct Hv as (i & <- & _). unfold var_of. destruct (Nat.eqb_spec (length s) (length ms)); [contradiction|].
  destruct s as [|k' s]; [discriminate|]. injection H as ->. unfold over. destruct (num k); [|reflexivity]. destruct (Z.eqb_spec z 0); [contradiction|reflexivity].
Qed.
(** A capacitor with two phases that the writer wrote comes back with twice
    its reactive power. *)
Theorem C96_two_phases_refuted : forall int_ num source cl c n e d p q r, reads_ints int_ -> cap_is num c e -> engine_cap (real_of num) e d -> cp_bus c <> None ->
  map pc_phase (cp_phases c) = [Some p; Some q] -> In p ["A"; "B"; "C"] -> In q ["A"; "B"; "C"] -> parse_cap int_ (real_of num) source cl n d = Ok (Some r) ->
  exists l vs, rc_phases r = Some l /\ map fst l = [Some p; Some q] /\ map snd l = map Some vs /\ total vs = (2 * Q2R (sum (given (map pc_var (cp_phases c)))))%R.
Proof.
  intros int_ num source cl c n e d p q r (Iz & Is) Ci En Bus Ph Hp Hq E. destruct Ci as [_ _ (ns & Cn & Cb) Cp _ _ Cv _]. destruct En as [_ Eb _ Ep _ Ev]. destruct (cp_bus c) as [x|]; [|congruence]. destruct Cb as (t & y & Pb & Tt & _).
  assert (Len : length (cp_phases c) = 2) by (rewrite <- (map_length pc_phase), Ph; reflexivity). rewrite Len in *.
  assert (F : Forall2 node_letter ns [p; q]).
  { destruct Cn as [(N3 & _)|(_ & nss & F & ->)]; [lia|]. rewrite Ph in F. inversion F as [|? a ? bs H1 F1]; subst. inversion F1 as [|? a' ? bs' H2 F2]; subst. inversion F2; subst.
    destruct Hp as [<-|[<-|[<-|[]]]]; inversion H1; subst; try congruence; destruct Hq as [<-|[<-|[<-|[]]]]; inversion H2; subst; try congruence; repeat constructor. }
  assert (At : cap_at d = Some (y, ns)). { unfold cap_at, text_of. rewrite (Eb _ Pb), split_pieces. unfold terminal in Tt. destruct (pieces (Ascii.eqb ".") t) as [|b1 ns'] eqn:Epc; [destruct (pieces_nonempty _ _ Epc)|]. injection Tt as <- ->. inversion F; subst. reflexivity. }
  destruct Cv as (v & V & Vq). unfold value in V. destruct (prop e "kvar") as [s|] eqn:Ps; [|discriminate].
  destruct (Ev s (Q2R v) eq_refl) as (s' & Ds & Ns); [unfold real_of; now rewrite V|].
  assert (W : whole int_ d "phases" 1) by (eexists; split; [exact (Ep _ Cp)|apply (Iz 1%Z)]).
  assert (Ln : length ns = 2) by exact (F2_length _ _ _ F).
  destruct (cap_shape int_ (real_of num) source cl n d y ns 1%Z [s'] s' r At W ltac:(discriminate) Ds eq_refl ltac:(rewrite Ln; discriminate) E) as (l & L1 & L2 & L3).
  exists l, [Q2R v / 1 * 1000; Q2R v / 1 * 1000]%R. split; [exact L1|]. rewrite L2. split; [exact (letters_str _ _ F)|]. rewrite Ns in L3. cbn [option_map] in L3.
  assert (Ll : length l = 2) by (rewrite <- (map_length fst), L2, map_length; exact Ln). destruct l as [|l1 [|l2 [|? ?]]]; try discriminate Ll. split; [cbn [map] in *; rewrite (L3 (snd l1)), (L3 (snd l2)) by (cbn; auto); reflexivity|].
  assert (Kq : (Q2R v * 1000 = Q2R (sum (given (map pc_var (cp_phases c)))))%R). { rewrite (Qeq_eqR _ _ Vq). rewrite Q2R_div by (intros X; discriminate X). assert (Q2R 1000 = 1000%R) as -> by (unfold Q2R; cbn; lra). field. }
  cbn [total fold_right]. lra.
Qed.
Print Assumptions C96_two_phases_refuted.
(** A capacitor of one phase whose terminal names no node gets its kvar
    three times, once on each phase. *)
Theorem C96_unnamed_refuted : forall int_ num source cl full d t s k r, d "bus1" = Some (PText t) -> snd (terminal t) = [] -> whole int_ d "phases" 1 -> d "kvar" = Some (PList [s]) -> num s = Some k ->
  parse_cap int_ num source cl full d = Ok (Some r) -> rc_phases r = Some [(Some "A", Some (k / 1 * 1000)%R); (Some "B", Some (k / 1 * 1000)%R); (Some "C", Some (k / 1 * 1000)%R)].
Proof.
  intros int_ num source cl full d t s k r Db T W Dk N E.
  assert (At : cap_at d = Some (t, ["1"; "2"; "3"])). { unfold cap_at, text_of. rewrite Db, split_pieces. unfold terminal in T. destruct (pieces (Ascii.eqb ".") t) as [|b1 ns'] eqn:Epc; [destruct (pieces_nonempty _ _ Epc)|]. cbn in T. now subst ns'. }
  destruct (cap_shape int_ num source cl full d t ["1"; "2"; "3"] 1%Z [s] s r At W ltac:(discriminate) Dk eq_refl ltac:(discriminate) E) as (l & L1 & L2 & L3). rewrite L1. rewrite N in L3. cbn [option_map] in L3.
  destruct l as [|[a1 b1] [|[a2 b2] [|[a3 b3] [|? ?]]]]; try discriminate L2. cbn in L2. injection L2 as -> -> ->. cbn [map snd] in L3. rewrite (L3 b1), (L3 b2), (L3 b3) by (cbn; auto). reflexivity.
Qed.
Print Assumptions C96_unnamed_refuted.
(** Only the first step of a capacitor counts, unless it has as many steps
    as phases. *)
Theorem C96_steps_refuted : forall int_ num source cl full d t b ns ps k s rest x r, d "bus1" = Some (PText t) -> terminal t = (b, ns) -> cap_on k ns ps -> whole int_ d "phases" (Z.of_nat k) ->
  d "kvar" = Some (PList (s :: rest)) -> length (s :: rest) <> k -> num s = Some x -> parse_cap int_ num source cl full d = Ok (Some r) ->
  exists l vs, rc_phases r = Some l /\ map snd l = map Some vs /\ total vs = (x * 1000)%R.
Proof.
  intros int_ num source cl full d t b ns ps k s rest x r Db T On W Dk L N E. destruct (cap_at_on d t b ns k ps Db T On) as (ms & At & _ & Lm & K0 & _).
  destruct (cap_shape int_ num source cl full d b ms (Z.of_nat k) (s :: rest) s r At W ltac:(lia) Dk eq_refl ltac:(lia) E) as (l & L1 & L2 & L3). rewrite N in L3. cbn [option_map] in L3. rewrite <- INR_IZR_INZ in L3.
  assert (Ll : length l = k) by (rewrite <- (map_length fst), L2, map_length; exact Lm). set (w := (x / INR k * 1000)%R) in *. exists l, (map (fun _ => w) l). split; [exact L1|]. split.
  - rewrite map_map. apply map_ext_in. intros y Hy. apply L3. now apply in_map.
  - apply share_total; [intros X; rewrite X in Ll; cbn in Ll; congruence|]. intros y _. rewrite Ll. unfold w. field. now apply not_0_INR.
Qed.
Print Assumptions C96_steps_refuted.
(** The writer writes the control types in lower case and the reader wants
    a capital: a control by voltage or by current is read without mode; so is
    one by power factor. *)
Theorem C96_mode_refuted : forall int_ num source cl full d r n dk t, second_piece "apacitor." full = Some n -> told cl -> control_of n cl (Some dk) -> dk "type" = Some (PText t) ->
  (exists m, In m ["currentflow"; "voltage"; "activepower"] /\ control_type m t) -> parse_cap int_ num source cl full d = Ok (Some r) -> rc_mode r = None.
Proof.
  intros int_ num source cl full d r n dk t Sn T Co Dt (m & Hm & Ct) E. unfold parse_cap in E. destruct (d "enabled") as [en|]; [|discriminate]. cbn [of_opt bind] in E. destruct (match en with PText s => String.eqb s "Yes" | PList _ => false end); [|discriminate].
  rewrite Sn in E. destruct (found n cl T) as (c & Fc & Cc). rewrite (control_unique _ _ _ _ Cc Co) in *. rewrite Fc in E. cbn [bind] in E. match type of E with context [bind ?x _] => destruct x as [pcs|]; [|discriminate] end. cbn [bind] in E. injection E as <-. cbn [rc_mode]. unfold text_of. rewrite Dt.
  destruct Hm as [<-|[<-|[<-|[]]]]; inversion Ct; subst; reflexivity.
Qed.
Print Assumptions C96_mode_refuted.
(** The element that a control measures comes back with a prefix. *)
Theorem C96_element_refuted : forall int_ num source cl c n e d dk ps z, reads_ints int_ -> told cl -> written num cl c n e d (Some dk) -> ~ has "apacitor." n -> cp_bus c <> None -> one_or_three c ps ->
  (cp_conn c = Some "Y" \/ cp_conn c = Some "D") -> cp_element c = Some z -> exists r, parse_cap int_ (real_of num) source cl ("Capacitor." ++ n) d = Ok (Some r) /\ rc_element r <> cp_element c.
Proof.
  intros int_ num source cl c n e d dk ps z I T W Pl B O Cn Z. assert (Ct : controlled c) by (destruct W as (_ & _ & _ & _ & Ct & _); exact Ct). destruct (C96_read_back int_ num source cl c n e d _ ps I T W Pl B O Cn) as (r & x & y & l & vs & E & H). exists r. split; [exact E|].
  destruct H as (_ & _ & _ & _ & _ & _ & _ & _ & _ & _ & _ & _ & _ & _ & _ & _ & _ & _ & H). rewrite (H z Ct Z), Z. intros X. injection X as X. apply (f_equal String.length) in X. cbn in X. lia.
Qed.
Print Assumptions C96_element_refuted.

(** ** Cases that meet the hypotheses *)
Definition with_kvar (l : list string) (t : data) : data := fun k => if String.eqb k "kvar" then Some (PList l) else t k.
Definition ex_c1 : data := with_kvar ["2/1"] (tbl [("enabled", "Yes"); ("conn", "Wye"); ("bus1", "bus_3"); ("phases", "3"); ("kv", "104/25")]).
Definition ex_c2 : data := with_kvar ["1/1"; "2/1"] (tbl [("enabled", "Yes"); ("conn", "delta"); ("bus1", "b.3.1"); ("phases", "2"); ("kv", "12/5")]).
Definition ex_c3 : data := with_kvar ["1/1"] (tbl [("enabled", "No")]).
Definition ex_k1 : data := tbl [("capacitor", "C1"); ("element", "Line.l7"); ("type", "kvar"); ("Vmin", "118/1"); ("Vmax", "122/1"); ("PTratio", "20/1"); ("PTPhase", "2"); ("Delay", "30/1"); ("CTratio", "60/1")].
Definition ex_controls : list (string * data) := [("CapControl.k0", tbl [("capacitor", "other")]); ("CapControl.k1", ex_k1)].
Definition ex_cap_reports : list (string * data) := [("Capacitor.c1", ex_c1); ("Capacitor.off", ex_c3); ("Capacitor.c2", ex_c2)].
Lemma ex_told : told ex_controls.
Proof. intros x [<-|[<-|[]]]; eexists; reflexivity. Qed.
Lemma c1_reports : reports_cap DssStoreModel.read_int num_r "Capacitor.c1" ex_c1 "c1" "bus_3" "wye" ["A"; "B"; "C"] [Q2R (2 # 1)].
Proof.
  constructor; try reflexivity.
  - cbn. intuition discriminate.
  - exists "Wye". repeat split. now left.
  - exists "bus_3", [], 3. split; [reflexivity|]. split; [reflexivity|]. split; [exists "3"; split; reflexivity|]. right. repeat split.
  - exists ["2/1"]. split; [reflexivity|]. repeat constructor.
  - now left.
Qed.
Lemma c2_reports : reports_cap DssStoreModel.read_int num_r "Capacitor.c2" ex_c2 "c2" "b" "delta" ["C"; "A"] [Q2R (1 # 1); Q2R (2 # 1)].
Proof.
  constructor; try reflexivity.
  - cbn. intuition discriminate.
  - exists "delta". repeat split. now right.
  - exists "b.3.1", ["3"; "1"], 2. split; [reflexivity|]. split; [reflexivity|]. split; [exists "2"; split; reflexivity|]. left. split; [discriminate|]. split; [reflexivity|repeat constructor].
  - exists ["1/1"; "2/1"]. split; [reflexivity|]. repeat constructor.
  - now right.
Qed.
Example C96_hypotheses_met : told ex_controls /\ Forall (good_cap_report DssStoreModel.read_int num_r) ex_cap_reports /\
  exists a b, parse_caps DssStoreModel.read_int num_r "src" ex_controls ex_cap_reports = Ok [a; b] /\ rc_name a = "c1" /\ rc_name b = "c2" /\ rc_mode a = Some "reactivePower" /\ rc_ptphase a = Some "B" /\ rc_element a = Some "Line.l7" /\ rc_mode b = None /\
    option_map (map fst) (rc_phases b) = Some [Some "C"; Some "A"].
Proof.
  split; [exact ex_told|]. assert (I : reads_nodes DssStoreModel.read_int) by (repeat split).
  split. { constructor; [split; [discriminate|intros _; do 5 eexists; exact c1_reports]|]. constructor; [split; [discriminate|intros X; discriminate X]|]. constructor; [split; [discriminate|intros _; do 5 eexists; exact c2_reports]|constructor]. }
  destruct (cap_read DssStoreModel.read_int num_r "src" I ex_controls _ ex_c1 _ _ _ _ _ ex_told eq_refl c1_reports) as (a & Ea & Ra). destruct (cap_read DssStoreModel.read_int num_r "src" I ex_controls _ ex_c2 _ _ _ _ _ ex_told eq_refl c2_reports) as (b & Eb & Rb).
  exists a, b. split. { unfold parse_caps, ex_cap_reports. cbn [mapM fst snd]. rewrite Ea. cbn [bind]. change (parse_cap DssStoreModel.read_int num_r "src" ex_controls "Capacitor.off" ex_c3) with (Ok (@None rcap)). cbn [bind]. rewrite Eb. reflexivity. }
  assert (Ca : control_of "c1" ex_controls (Some ex_k1)). { apply (co_some "c1" [("CapControl.k0", tbl [("capacitor", "other")])] ("CapControl.k1", ex_k1) []); [intros y [<-|[]] (s & S & L); vm_compute in S; injection S as <-; discriminate L|]. exists "C1". split; reflexivity. }
  assert (Cb : control_of "c2" ex_controls None). { apply co_none. intros y [<-|[<-|[]]] (s & S & L); vm_compute in S; injection S as <-; discriminate L. }
  destruct Ra as [A1 _ _ _ _ (c & A & _ & _ & _ & _ & _ & A6 & A7 & A8) _]. rewrite (control_unique _ _ _ _ A Ca) in *. destruct Rb as [B1 _ _ _ _ (c' & B & _ & _ & _ & _ & _ & _ & B7 & _) (l & vs & B8 & B9 & _)]. rewrite (control_unique _ _ _ _ B Cb) in *.
  split; [exact A1|]. split; [exact B1|]. split; [exact (A7 "kvar" _ eq_refl me_kvar)|]. split; [apply (A8 "2" "B" 2%Z); [constructor|reflexivity|eexists; split; reflexivity]|]. split; [exact (A6 _ eq_refl)|]. split; [exact B7|]. rewrite B8. cbn [option_map]. now rewrite B9.
Qed.
(** a capacitor, its text and what OpenDSS reports of it *)
Definition ex_bank : capacitor := DssTextProps.plain_cap [mkPC (Some "A") (Some 1000%Q); mkPC (Some "B") (Some 1000%Q); mkPC (Some "C") None] (Some "reactivePower").
Definition ex_bank_control : data := tbl [("capacitor", "c1"); ("element", "Line.l7"); ("type", "kvar"); ("Vmin", "118/1"); ("Vmax", "122/1"); ("PTratio", "20/1"); ("PTPhase", "2"); ("Delay", "15/1"); ("CTratio", "60/1")].
Lemma ex_written : exists txt e k, cap_text DssTextProps.show_q ex_bank = Some txt /\ read_dss txt = Some [e; k] /\ written DssTextProps.num_q [("CapControl.c1", ex_bank_control)] ex_bank "c1" e ex_c1 (Some ex_bank_control).
Proof.
  assert (G : good_cap ex_bank). { split; [exists "c1"; split; [reflexivity | split; [discriminate | reflexivity]]|]. split; [discriminate|]. split; [intros x Q; injection Q as <-; split; [discriminate | reflexivity]|]. split; [|intros p Q; injection Q as <-; eexists; constructor]. intros m Q. injection Q as <-. exists "kvar". constructor. }
  destruct (DssTextProps.C83_capacitors DssTextProps.show_q DssTextProps.num_q [ex_bank] DssTextProps.faithful_q (Forall_cons _ G (Forall_nil _))) as (ts & els & T & R & F).
  cbn [map] in T. destruct ts as [|txt [|? ?]]; try discriminate T. injection T as T. cbn [String.concat] in R. vm_compute in T. subst txt.
  inversion F as [|c cs e es Nc _ _ E1 E2|c cs e k es Hc Ci Ki F' E1 E2]; [subst; destruct Nc; right; left; discriminate|]. inversion F'; subst.
  eexists _, e, k. split; [reflexivity|]. split; [exact R|]. split; [exact Ci|]. vm_compute in R. injection R as <- <-.
  split. { clear. constructor; try reflexivity; try (intros s P; vm_compute in P; injection P as <-; reflexivity).
    - intros s r P N. vm_compute in P. injection P as <-. vm_compute in N. injection N as <-. eexists. split; [reflexivity|]. unfold num_r, real_of. cbn. f_equal. unfold Q2R. cbn. lra.
    - intros s r P N. vm_compute in P. injection P as <-. vm_compute in N. injection N as <-. eexists. split; [reflexivity|]. unfold num_r, real_of. cbn. f_equal. unfold Q2R. cbn. lra. }
  split; [reflexivity|]. split; [apply (co_some "c1" [] ("CapControl.c1", ex_bank_control) []); [intros y []|]; exists "c1"; split; reflexivity|]. split; [exact Hc|]. eexists. split; [exact Ki|]. clear.
  constructor; try (intros s P; vm_compute in P; injection P as <-; reflexivity); intros s r P N; vm_compute in P; (discriminate P || (injection P as <-; vm_compute in N; injection N as <-; eexists; split; reflexivity)).
Qed.
Example C96_read_back_met : exists txt e k r, cap_text DssTextProps.show_q ex_bank = Some txt /\ read_dss txt = Some [e; k] /\ parse_cap DssStoreModel.read_int num_r "src" [("CapControl.c1", ex_bank_control)] "Capacitor.c1" ex_c1 = Ok (Some r) /\
  option_map lower (rc_mode r) = Some "reactivepower" /\ rc_ptphase r = Some "B" /\ rc_low r = Some (Q2R 118) /\ rc_element r = Some "Line.l7" /\ cp_element ex_bank = Some "l7".
Proof.
  destruct ex_written as (txt & e & k & T & R & W).
  assert (Tl : told [("CapControl.c1", ex_bank_control)]) by (intros x [<-|[]]; eexists; reflexivity).
  destruct (C96_read_back DssStoreModel.read_int DssTextProps.num_q "src" _ ex_bank "c1" e ex_c1 _ ["A"; "B"; "C"] ints_read Tl W ltac:(cbn; intuition discriminate) ltac:(discriminate) (conj eq_refl (or_introl eq_refl)) (or_introl eq_refl)) as (r & x & y & l & vs & E & H).
  destruct H as (_ & _ & _ & _ & _ & _ & _ & _ & _ & _ & _ & _ & L & _ & _ & _ & P & M & Z). exists txt, e, k, r. split; [exact T|]. split; [exact R|]. split; [exact E|]. split; [exact (M "reactivePower" eq_refl (or_introl eq_refl))|]. split; [apply P; [reflexivity|discriminate]|]. split; [exact (L _ eq_refl)|]. split; [|reflexivity]. apply Z; [right; left; discriminate|reflexivity].
Qed.
Example C96_refuted_met : (exists r, parse_cap DssStoreModel.read_int num_r "src" [] "Capacitor.x" (with_kvar ["2/1"] (tbl [("enabled", "Yes"); ("conn", "Wye"); ("bus1", "b.1.2"); ("phases", "1"); ("kv", "12/5")])) = Ok (Some r)) /\
  (exists r, parse_cap DssStoreModel.read_int num_r "src" [] "Capacitor.x" (with_kvar ["2/1"] (tbl [("enabled", "Yes"); ("conn", "Wye"); ("bus1", "b"); ("phases", "1"); ("kv", "12/5")])) = Ok (Some r)) /\
  (exists r, parse_cap DssStoreModel.read_int num_r "src" [] "Capacitor.x" (with_kvar ["2/1"; "3/1"] (tbl [("enabled", "Yes"); ("conn", "Wye"); ("bus1", "b"); ("phases", "3"); ("kv", "12/5")])) = Ok (Some r)) /\
  exists r, parse_cap DssStoreModel.read_int num_r "src" [("k", tbl [("capacitor", "X"); ("type", "current")])] "Capacitor.x" ex_c1 = Ok (Some r).
Proof. repeat split; eexists; reflexivity. Qed.
