(** C102: the lines of the OpenDSS reader. *)
From Verif Require Import Base BaseFacts CsvModel TextModel DssNameModel DssNameSpec UnitsSpec UnitsProofs MatrixSpec DssTextModel DssTextSpec DssTextProofs DssLoadSpec DssNodeSpec DssNodeProofs
  DssRdLoadModel DssRdLoadSpec DssRdLoadProofs DssRdLoadProps DssRdTransModel DssRdTransProofs DssRdTransProps DssRdLineModel DssRdLineSpec DssRdLineProofs.
From Verif Require GlmSpec DssRdRegProofs DssTextProps DssStoreModel.
From Coq Require Import QArith Lia.
Local Open Scope string_scope.
Local Open Scope nat_scope.
Local Open Scope list_scope.

(** C102: each line that is enabled, or is a switch, becomes one line, in order: its name, ends, length in metres, kind, impedances
    and capacitances per metre, and one wire for each phase. *)
Theorem C102_lines : forall int_ num source fuses reclosers linecodes geometries wiredata cndata ls, watching fuses -> watching reclosers -> Forall (good_line_report int_ num geometries) ls ->
  exists l, parse_lines int_ num source fuses reclosers linecodes geometries wiredata cndata ls = Ok l /\ Forall2 (line_read_of int_ num source geometries fuses reclosers) (filter (fun x => counts (snd x)) ls) l.
Proof.
  intros int_ num source fuses reclosers linecodes geometries wiredata cndata ls Wf Wr F. unfold parse_lines. destruct (watched_read fuses Wf) as (fs & -> & Fs). destruct (watched_read reclosers Wr) as (rs & -> & Rs). cbn [bind].
  generalize (mkWv None None). intros v. induction F as [|[full d] ls (Sw & En & Rp) F (l & E & L)]; [exists []; split; [reflexivity|constructor]|]. cbn [parse_all_lines filter]. cbn [fst snd] in *. destruct (counts d) eqn:C.
  - destruct (Rp eq_refl) as (n & b1 & b2 & zs & f & k & mr & mx & mc & R). destruct (line_read int_ num source fuses reclosers linecodes geometries wiredata cndata fs rs v full d n b1 b2 zs f k mr mx mc Fs Rs Sw En C R) as (r & -> & T & _).
    cbn [bind fst snd]. rewrite E. cbn [bind]. exists (r :: l). split; [reflexivity|]. constructor; [|exact L]. exists n, b1, b2, zs, f, k, mr, mx, mc. auto.
  - assert (parse_line int_ num source linecodes geometries wiredata cndata fs rs v full d = Ok (v, None)) as ->.
    { unfold parse_line, counts, enabled in *. destruct (d "Switch") as [sw|]; [|congruence]. destruct (d "enabled") as [e|]; [|congruence]. cbn [of_opt bind]. destruct sw as [s|s]; cbn [is_yes]; [destruct (String.eqb s "Yes"); [discriminate C|]|]; cbn [orb bind] in *; (destruct e as [t|t]; cbn [is_yes]; [rewrite C|]; reflexivity). }
    cbn [bind fst snd]. rewrite E. cbn [bind]. exists l. auto.
Qed.
Print Assumptions C102_lines.

Lemma phases_nodes ps ns : line_nodes ps ns -> Forall2 (fun p m => at_node p m /\ ~ neutral p) (phases_in_order ps) ns.
Proof.
  induction 1 as [|r ns H IH|p r ns N H IH|p m r ns N A H IH]; cbn [phases_in_order]; [constructor|exact IH| |].
  - assert (existsb (String.eqb p) ["N"; "N1"; "N2"] = true) as ->; [|exact IH]. apply existsb_exists. exists p. split; [exact N|apply String.eqb_refl].
  - assert (existsb (String.eqb p) ["N"; "N1"; "N2"] = false) as ->; [|constructor; auto]. destruct (existsb _ _) eqn:E; [|reflexivity]. apply existsb_exists in E as (x & I & X). apply String.eqb_eq in X. subst x. destruct (N I).
Qed.
Lemma nth_same {A} : forall l r : list A, (forall i, nth_error l i = nth_error r i) -> l = r.
Proof. induction l as [|x l IH]; intros [|y r] H; [reflexivity|specialize (H 0); discriminate|specialize (H 0); discriminate|]. pose proof (H 0) as H0. cbn in H0. injection H0 as ->. f_equal. apply IH. intros i. exact (H (S i)). Qed.
Lemma counts_present num e d : engine_line num e d -> d "Switch" <> None /\ d "enabled" <> None.
Proof. intros E. split; [rewrite (el_switch _ _ _ E)|rewrite (el_on _ _ _ E)]; discriminate. Qed.

(** A line that the writer wrote comes back: its name, ends, length, the phases of its wires, and a switch with its state. *)
Theorem C102_read_back : forall int_ num source fuses reclosers linecodes geometries wiredata cndata fs rs v l e full d n b1 b2 zs f k mr mx mc,
  reads_ints int_ -> watched_by fuses fs -> watched_by reclosers rs -> counts d = true -> written_line int_ num geometries l e full d n b1 b2 zs f k mr mx mc ->
  exists q, parse_line int_ num source linecodes geometries wiredata cndata fs rs v full d = Ok (v, Some q) /\ rn_name q = lower n /\
    (exists x y, ln_from l = Some x /\ rn_from q = Some y /\ kept x y) /\ (exists x y, ln_to l = Some x /\ rn_to q = Some y /\ kept x y) /\
    (forall x, ln_length l = Some x -> exists y, rn_length q = Some y /\ (y == if Qle_bool 1 x then x else 1)%Q) /\
    map rw_node (rn_wires q) = map Some (phases_in_order (map lw_phase (ln_wires l))) /\
    (unremarkable fuses reclosers n -> rn_kind q = if ln_switch l || ln_breaker l then Some KSwitch else None) /\
    (forall w, In w (rn_wires q) -> rn_kind q = Some KSwitch -> (rw_open w = Some true <-> all_open l)).
Proof.
  intros int_ num source fuses reclosers linecodes geometries wiredata cndata fs rs v l e full d n b1 b2 zs f k mr mx mc (Iz & Is) Fs Rs C [[Lc Ln Lu Ll (ns & Ns & Cf & Ct & Lp) Ls Lon Loff _ _] En Nm Rp].
  destruct (counts_present _ _ _ En) as (P1 & P2). destruct (line_read int_ num source fuses reclosers linecodes geometries wiredata cndata fs rs v full d n b1 b2 zs f k mr mx mc Fs Rs P1 P2 C Rp) as (q & E & [A1 _ _ A4 A5 A6 A7 _ _ _ A11 A12] & _).
  exists q. split; [exact E|]. split; [exact A1|]. destruct (ri_bus1 _ _ _ _ _ _ _ _ _ _ _ _ _ _ Rp) as (t1 & m1 & D1 & T1 & Z1). destruct (ri_bus2 _ _ _ _ _ _ _ _ _ _ _ _ _ _ Rp) as (t2 & m2 & D2 & T2 & _).
  rewrite (el_bus1 _ _ _ En) in D1. rewrite (el_bus2 _ _ _ En) in D2. unfold connects in Cf, Ct. 
  destruct (ln_from l) as [x1|]; [|rewrite Cf in D1; discriminate D1]. destruct Cf as (w1 & y1 & Pw1 & Tw1 & K1). rewrite Pw1 in D1. injection D1 as ->. rewrite Tw1 in T1. injection T1 as -> <-.
  destruct (ln_to l) as [x2|]; [|rewrite Ct in D2; discriminate D2]. destruct Ct as (w2 & y2 & Pw2 & Tw2 & K2). rewrite Pw2 in D2. injection D2 as ->. rewrite Tw2 in T2. injection T2 as -> <-.
  split; [exists x1, b1; auto|]. split; [exists x2, b2; auto|]. split.
  { intros x X. rewrite X in Ll. destruct Ll as (y & Vy & Ey). destruct (el_length _ _ _ En y Vy) as (z & Z & Ez). destruct A4 as (ql & xl & Ql & Xl & Vl). exists xl. split; [exact Xl|].
    assert (ql = z) as -> by (destruct Ql as (s & S1 & S2), Z as (s' & S1' & S2'); congruence).
    assert (Ff : f = 1000%Q). { destruct (ri_unit _ _ _ _ _ _ _ _ _ _ _ _ _ _ Rp) as (u & U & W). rewrite (el_units _ _ _ En), Lu in U. injection U as <-. destruct W as [W|[_ W]]; [|exact W]. apply unit_worth_inv in W. cbn in W. intuition discriminate || intuition congruence. }
    rewrite Vl, Ff, Ez, Ey. destruct (Qle_bool 1 x); unfold Qdiv; rewrite <- Qmult_assoc; [setoid_replace (/ 1000 * 1000)%Q with 1%Q by reflexivity; apply Qmult_1_r|reflexivity]. }
  assert (Lk : k = length ns). { destruct (ri_phases _ _ _ _ _ _ _ _ _ _ _ _ _ _ Rp) as (s & S1 & S2). rewrite (el_phases _ _ _ En), Lp in S1. injection S1 as <-. rewrite Is in S2. injection S2 as S2. lia. }
  pose proof (phases_nodes _ _ Ns) as Ph. split.
  { apply nth_same. intros i. rewrite !nth_error_map. destruct (nth_error (rn_wires q) i) as [w|] eqn:W.
    - cbn [option_map]. assert (Li : i < length ns) by (rewrite <- Lk, <- A11; apply nth_error_Some; congruence). destruct (nth_error ns i) as [m|] eqn:M; [|apply nth_error_None in M; lia].
      destruct (F2_nth _ _ _ Ph _ _ M) as (p & -> & At & Nn). cbn [option_map]. f_equal. destruct Z1 as [(-> & _)|(_ & Z1)]; [destruct i; discriminate M|].
      destruct (F2_nth_l _ _ _ Z1 _ _ M) as (z & Ez & Iz'). destruct (rx_phase _ _ _ _ _ _ (A12 _ _ W)) as [(z' & Ez' & Pz)|(L & _)]; [|rewrite <- (F2_length _ _ _ Z1) in L; lia].
      rewrite Ez in Ez'. injection Ez' as <-. pose proof (Is 1) as I1. pose proof (Is 2) as I2. pose proof (Is 3) as I3. cbn in I1, I2, I3.
      inversion At; subst p m; [| | |destruct Nn; now left]; [rewrite I1 in Iz'|rewrite I2 in Iz'|rewrite I3 in Iz']; injection Iz' as <-; inversion Pz; try reflexivity; subst; lia.
    - cbn [option_map]. apply nth_error_None in W. symmetry. assert (nth_error (phases_in_order (map lw_phase (ln_wires l))) i = None) as ->; [|reflexivity]. apply nth_error_None. rewrite (F2_length _ _ _ Ph). lia. }
  split.
  - intros (U1 & U2 & U3). assert (Y : yes d "Switch" <-> ln_switch l || ln_breaker l = true). { unfold yes. rewrite (el_switch _ _ _ En), Ls. destruct (ln_switch l || ln_breaker l); cbn; split; congruence. }
    inversion A7 as [x I W|_ [(x & I & W)|H]|_ _ _ H|_ _ _ _ H|_ _ _ _ H]; try (exfalso; eauto; fail).
    + destruct (U1 x (or_introl I) W).
    + destruct (U1 x (or_intror I) W).
    + apply Y in H. now rewrite H.
    + destruct (ln_switch l || ln_breaker l); [destruct (H (proj2 Y eq_refl))|reflexivity].
  - intros w I K. apply In_nth_error in I as (i & I). rewrite (proj1 (rx_open _ _ _ _ _ _ (A12 _ _ I)) K). unfold all_open. rewrite <- Loff. unfold enabled. rewrite (el_on _ _ _ En).
    destruct (prop e "enabled") as [s|] eqn:Pe; [|cbn; split; intros X; discriminate X]. destruct (String.eqb_spec s "n") as [->|Ne]; [cbn; tauto|].
    cbn. split; intros X; congruence.
Qed.
Print Assumptions C102_read_back.

(** A line that is no switch and is open on all its phases, such as an open fuse, is written as not enabled and is not read. *)
Theorem C102_lost_refuted : forall int_ num source linecodes geometries wiredata cndata fs rs v l e full d, line_is num l e -> engine_line num e d -> ln_switch l = false -> ln_breaker l = false -> all_open l ->
  parse_line int_ num source linecodes geometries wiredata cndata fs rs v full d = Ok (v, None).
Proof.
  intros int_ num source linecodes geometries wiredata cndata fs rs v l e full d I E S B O. apply (ni_off _ _ _ I) in O. unfold parse_line. rewrite (el_switch _ _ _ E), (ni_switch _ _ _ I), S, B. cbn [of_opt bind orb String.eqb Ascii.eqb Bool.eqb is_yes].
  rewrite (el_on _ _ _ E), O. reflexivity.
Qed.
Print Assumptions C102_lost_refuted.

(** A breaker comes back as a switch, unless its name says that it is one. *)
Theorem C102_breaker_refuted : forall int_ num source fuses reclosers linecodes geometries wiredata cndata fs rs v l e full d n b1 b2 zs f k mr mx mc,
  reads_ints int_ -> watched_by fuses fs -> watched_by reclosers rs -> written_line int_ num geometries l e full d n b1 b2 zs f k mr mx mc -> ln_breaker l = true -> unremarkable fuses reclosers n ->
  exists q, parse_line int_ num source linecodes geometries wiredata cndata fs rs v full d = Ok (v, Some q) /\ rn_kind q = Some KSwitch.
Proof.
  intros int_ num source fuses reclosers linecodes geometries wiredata cndata fs rs v l e full d n b1 b2 zs f k mr mx mc I Fs Rs W B U.
  assert (C : counts d = true). { unfold counts. rewrite (el_switch _ _ _ (wl_engine _ _ _ _ _ _ _ _ _ _ _ _ _ _ _ _ W)), (ni_switch _ _ _ (wl_is _ _ _ _ _ _ _ _ _ _ _ _ _ _ _ _ W)), B, Bool.orb_true_r. reflexivity. }
  destruct (C102_read_back int_ num source fuses reclosers linecodes geometries wiredata cndata fs rs v l e full d n b1 b2 zs f k mr mx mc I Fs Rs C W) as (q & E & _ & _ & _ & _ & _ & K & _). exists q. split; [exact E|]. rewrite (K U), B, Bool.orb_true_r. reflexivity.
Qed.
Print Assumptions C102_breaker_refuted.

Lemma phases_fewer w ws : In w ws -> (exists p, lw_phase w = Some p /\ neutral p) \/ lw_phase w = None -> length (phases_in_order (map lw_phase ws)) < length ws.
Proof.
  intros I H. assert (Le : forall l, length (phases_in_order l) <= length l). { induction l as [|[p|] l IH]; cbn [phases_in_order length]; [lia| |lia]. destruct (existsb _ _); cbn [length]; lia. }
  induction ws as [|x ws IH]; [destruct I|]. cbn [map phases_in_order length]. destruct I as [->|I].
  - specialize (Le (map lw_phase ws)). rewrite map_length in Le. destruct H as [(p & -> & N)| -> ]; [|lia]. assert (existsb (String.eqb p) ["N"; "N1"; "N2"] = true) as -> by (apply existsb_exists; exists p; split; [exact N|apply String.eqb_refl]). lia.
  - specialize (IH I). destruct (lw_phase x) as [p|]; [destruct (existsb _ _)|]; cbn [length]; lia.
Qed.
(** The neutral wire of a line does not come back. *)
Theorem C102_neutral_refuted : forall int_ num source fuses reclosers linecodes geometries wiredata cndata fs rs v l e full d n b1 b2 zs f k mr mx mc w p,
  reads_ints int_ -> watched_by fuses fs -> watched_by reclosers rs -> counts d = true -> written_line int_ num geometries l e full d n b1 b2 zs f k mr mx mc -> In w (ln_wires l) -> lw_phase w = Some p -> neutral p ->
  exists q, parse_line int_ num source linecodes geometries wiredata cndata fs rs v full d = Ok (v, Some q) /\ length (rn_wires q) < length (ln_wires l) /\ forall x y, In x (rn_wires q) -> rw_node x = Some y -> ~ neutral y.
Proof.
  intros int_ num source fuses reclosers linecodes geometries wiredata cndata fs rs v l e full d n b1 b2 zs f k mr mx mc w p I Fs Rs C W In_ P N.
  destruct (C102_read_back int_ num source fuses reclosers linecodes geometries wiredata cndata fs rs v l e full d n b1 b2 zs f k mr mx mc I Fs Rs C W) as (q & E & _ & _ & _ & _ & Ph & _ & _). exists q. split; [exact E|].
  split. { pose proof (f_equal (@length _) Ph) as L. rewrite !map_length in L. rewrite L. apply (phases_fewer w); eauto. }
  intros x y X Y Ny. assert (J : In (rw_node x) (map rw_node (rn_wires q))) by now apply in_map. rewrite Ph, Y in J. apply in_map_iff in J as (z & Z & J). injection Z as ->.
  clear - J Ny. induction (map lw_phase (ln_wires l)) as [|[a|] r IH]; cbn [phases_in_order] in J; [destruct J| |exact (IH J)]. destruct (existsb _ _) eqn:B; [exact (IH J)|]. destruct J as [->|J]; [|exact (IH J)].
  enough (existsb (String.eqb y) ["N"; "N1"; "N2"] = true) by congruence. apply existsb_exists. exists y. split; [exact Ny|apply String.eqb_refl].
Qed.
Print Assumptions C102_neutral_refuted.

(** A line shorter than one metre comes back with one metre. *)
Theorem C102_short_refuted : forall int_ num source fuses reclosers linecodes geometries wiredata cndata fs rs v l e full d n b1 b2 zs f k mr mx mc x,
  reads_ints int_ -> watched_by fuses fs -> watched_by reclosers rs -> counts d = true -> written_line int_ num geometries l e full d n b1 b2 zs f k mr mx mc -> ln_length l = Some x -> (x < 1)%Q ->
  exists q y, parse_line int_ num source linecodes geometries wiredata cndata fs rs v full d = Ok (v, Some q) /\ rn_length q = Some y /\ (y == 1)%Q /\ ~ (y == x)%Q.
Proof.
  intros int_ num source fuses reclosers linecodes geometries wiredata cndata fs rs v l e full d n b1 b2 zs f k mr mx mc x I Fs Rs C W X Lt.
  destruct (C102_read_back int_ num source fuses reclosers linecodes geometries wiredata cndata fs rs v l e full d n b1 b2 zs f k mr mx mc I Fs Rs C W) as (q & E & _ & _ & _ & L & _). destruct (L x X) as (y & Y & V). exists q, y. split; [exact E|]. split; [exact Y|].
  assert (Qle_bool 1 x = false) as B. { destruct (Qle_bool 1 x) eqn:B; [|reflexivity]. apply Qle_bool_iff in B. destruct (Qlt_not_le _ _ Lt B). }
  rewrite B in V. split; [exact V|]. rewrite V. intros Z. rewrite <- Z in Lt. exact (Qlt_irrefl _ Lt).
Qed.
Print Assumptions C102_short_refuted.

Lemma piece_free p s m : In m (pieces p s) -> free p m.
Proof.
  revert m. induction s as [|c s IH]; intros m; cbn [pieces]; [intros [<-|[]]; reflexivity|]. destruct (p c) eqn:E.
  - intros [<-|I]; [reflexivity|exact (IH _ I)].
  - destruct (pieces p s) as [|h r] eqn:R; [intros [<-|[]]; unfold free; cbn; now rewrite E|]. intros [<-|I]; [|apply IH; now right]. unfold free. cbn [all_chars]. rewrite E. cbn. apply (IH h). now left.
Qed.
(** The wires of a fuse are not marked as fuses, and those of a fuse that is an open switch are not open. *)
Theorem C102_fuse_refuted : forall int_ num source fuses reclosers linecodes geometries wiredata cndata fs rs v full d n b1 b2 zs f k mr mx mc x,
  watched_by fuses fs -> watched_by reclosers rs -> d "Switch" <> None -> d "enabled" <> None -> counts d = true -> reports_line int_ num geometries full d n b1 b2 zs f k mr mx mc -> In x fuses -> watches x (lower n) ->
  exists q, parse_line int_ num source linecodes geometries wiredata cndata fs rs v full d = Ok (v, Some q) /\ rn_kind q = Some KFuse /\ length (rn_wires q) = k /\ Forall (fun w => rw_fuse w = false /\ rw_open w = None) (rn_wires q).
Proof.
  intros int_ num source fuses reclosers linecodes geometries wiredata cndata fs rs v full d n b1 b2 zs f k mr mx mc x Fs Rs P1 P2 C Rp I W.
  destruct (line_read int_ num source fuses reclosers linecodes geometries wiredata cndata fs rs v full d n b1 b2 zs f k mr mx mc Fs Rs P1 P2 C Rp) as (q & E & [_ _ _ _ _ _ A7 _ _ _ A11 A12] & Fu). exists q. split; [exact E|].
  assert (K : rn_kind q = Some KFuse). { inversion A7 as [y Y Z|N|N|N|N]; try reflexivity; destruct (N x I W). }
  split; [exact K|]. split; [exact A11|]. apply Forall_forall. intros w J. split.
  - rewrite Forall_forall in Fu. rewrite (Fu w J). apply smem_not_In. intros X. apply Fs in X as (y & _ & s & _ & Y). apply nth_error_In, piece_free in Y. rewrite (ri_name _ _ _ _ _ _ _ _ _ _ _ _ _ _ Rp) in Y. discriminate Y.
  - apply In_nth_error in J as (i & J). apply (rx_open _ _ _ _ _ _ (A12 _ _ J)). rewrite K. discriminate.
Qed.
Print Assumptions C102_fuse_refuted.

Lemma cut_shorter w s a b : w <> "" -> cut_at w s = Some (a, b) -> String.length a < String.length s.
Proof.
  intros W. revert a b. induction s as [|c s IH]; intros a b; cbn [cut_at].
  - destruct w; [congruence|discriminate].
  - destruct (String.prefix w (String c s)); [intros X; injection X as <- _; cbn; lia|]. destruct (cut_at w s) as [[x y]|]; [|discriminate]. intros X. injection X as <- _. specialize (IH x y eq_refl). cbn. lia.
Qed.
(** The name of a line is cut where it has "ine." again, so that several lines may get the same name. *)
Theorem C102_name_refuted : forall int_ num source linecodes geometries wiredata cndata fs rs v n d v' q, has "ine." n -> parse_line int_ num source linecodes geometries wiredata cndata fs rs v ("Line." ++ n) d = Ok (v', Some q) -> rn_name q <> lower n.
Proof.
  intros int_ num source linecodes geometries wiredata cndata fs rs v n d v' q H E. unfold parse_line in E. destruct (d "Switch") as [sw|]; [|discriminate]. cbn [of_opt bind] in E.
  match type of E with (do x <- ?y; _) = _ => destruct y as [on|]; [|discriminate] end. cbn [bind] in E. destruct on; [|discriminate]. cbn [negb] in E. unfold second_piece in E. rewrite line_cut in E.
  destruct (cut_at "ine." n) as [[a b]|] eqn:Cu; [|exfalso; revert Cu; apply cut_at_has; now right]. cbn [of_opt bind] in E. destruct (code_of linecodes d); [|discriminate]. cbn [bind] in E. destruct (unit_of d _); [|discriminate]. cbn [bind] in E.
  destruct (end_of int_ d "bus1"). destruct (check_ends int_ d); [|discriminate]. cbn [bind] in E. destruct (imped_of _ _ _ _); [|discriminate]. cbn [bind] in E. destruct (cap_of _ _ _ _); [|discriminate]. cbn [bind] in E. destruct (conductors _ _ _); [|discriminate]. cbn [bind] in E.
  match type of E with (do x <- ?y; _) = _ => destruct y as [[[[? ?] ?] ?]|]; [|discriminate] end. cbn [bind] in E. injection E as _ <-. cbn [rn_name]. intros X. apply (f_equal String.length) in X.
  assert (L : forall s, String.length (lower s) = String.length s) by (clear; induction s as [|c s IH]; cbn; congruence). rewrite !L in X. assert (NE : "ine." <> "") by discriminate. pose proof (cut_shorter _ _ _ _ NE Cu). lia.
Qed.
Print Assumptions C102_name_refuted.

(** A fuse that watches nothing stops the reading of all lines. *)
Theorem C102_unwatched_refuted : forall int_ num source fuses reclosers linecodes geometries wiredata cndata ls (x : string * data) s, In x fuses -> snd x "MonitoredObj" = Some (PText s) -> ~ has "." (lower s) ->
  exists e, parse_lines int_ num source fuses reclosers linecodes geometries wiredata cndata ls = Err e.
Proof.
  intros int_ num source fuses reclosers linecodes geometries wiredata cndata ls x s I D H. unfold parse_lines. enough (exists e, watched_all fuses = Err e) as (e & ->) by (cbn [bind]; eauto).
  induction fuses as [|y l IH]; [destruct I|]. unfold watched_all in *. cbn [mapM map]. destruct I as [->|I].
  - assert (watched (snd x) = Err EIndex) as ->; [|cbn; eauto]. unfold watched. rewrite D. cbn [of_opt bind]. rewrite split_pieces. rewrite DssRdRegProofs.pieces_plain by exact H. reflexivity.
  - destruct (watched (snd y)); [|cbn; eauto]. destruct (IH I) as (e & ->). cbn. eauto.
Qed.
Print Assumptions C102_unwatched_refuted.

(** ** Cases that meet the hypotheses *)
Definition ex_rd (ms : list (string * list string)) (ps : list (string * string)) : data := lists ms (tbl ps).
Definition ex_mats : list (string * list string) := [("rmatrix", ["1/10 |1/50 1/10 "]); ("xmatrix", ["3/10 |1/25 3/10 "]); ("cmatrix", ["10/1 |-2/1 10/1 "])].
Definition ex_l1 : data := ex_rd ex_mats [("Switch", "No"); ("enabled", "Yes"); ("linecode", "c1"); ("units", "kft"); ("length", "2/1"); ("bus1", "b1.3.1"); ("bus2", "b2.3.1"); ("phases", "2"); ("faultrate", "1/10"); ("normamps", "400/1"); ("geometry", "")].
Definition ex_l2 : data := ex_rd ex_mats [("Switch", "Yes"); ("enabled", "No"); ("linecode", ""); ("units", "none"); ("length", "1/1000"); ("bus1", "b2.3.1"); ("bus2", "b3.3.1"); ("phases", "2"); ("faultrate", "1/10"); ("geometry", "")].
Definition ex_fuse : list (string * data) := [("Fuse.f1", tbl [("MonitoredObj", "Line.L1")])].
Definition ex_line_reports : list (string * data) := [("Line.L1", ex_l1); ("Line.off", tbl [("Switch", "No"); ("enabled", "No")]); ("Line.s2", ex_l2)].
Lemma mats : matrix_text DssTextProps.num_q (PList ["1/10 |1/50 1/10 "]) [[1 # 10]; [1 # 50; 1 # 10]] /\ matrix_text DssTextProps.num_q (PList ["3/10 |1/25 3/10 "]) [[3 # 10]; [1 # 25; 3 # 10]] /\ matrix_text DssTextProps.num_q (PList ["10/1 |-2/1 10/1 "]) [[10%Q]; [(-2)%Q; 10%Q]].
Proof.
  assert (T : forall (p q r : Q), lower_triangular [[p]; [q; r]]). { intros p q r [|[|i]] row R; cbn in R; [injection R as <-; reflexivity|injection R as <-; reflexivity|destruct i; discriminate R]. }
  split; [|split]; right; eexists; (split; [reflexivity|]; split; [vm_compute; tauto|]; split; [|apply T]); cbn; (constructor; [|constructor; [|constructor]]).
  - exists "", ["1/10"], " ". repeat split; try discriminate; repeat constructor; discriminate.
  - exists "", ["1/50"; "1/10"], " ". repeat split; try discriminate; repeat constructor; discriminate.
  - exists "", ["3/10"], " ". repeat split; try discriminate; repeat constructor; discriminate.
  - exists "", ["1/25"; "3/10"], " ". repeat split; try discriminate; repeat constructor; discriminate.
  - exists "", ["10/1"], " ". repeat split; try discriminate; repeat constructor; discriminate.
  - exists "", ["-2/1"; "10/1"], " ". repeat split; try discriminate; repeat constructor; discriminate.
Qed.
Lemma l1_reports : reports_line DssStoreModel.read_int DssTextProps.num_q [] "Line.L1" ex_l1 "L1" "b1" "b2" [3; 1]%Z (304 + 8 / 10)%Q 2 [[1 # 10]; [1 # 50; 1 # 10]] [[3 # 10]; [1 # 25; 3 # 10]] [[10%Q]; [(-2)%Q; 10%Q]].
Proof.
  destruct mats as (M1 & M2 & M3). constructor.
  - reflexivity.
  - cbn. intuition discriminate.
  - right. now exists "c1".
  - exists "kft". split; [reflexivity|]. left. apply unit_worth_lower. cbn. tauto.
  - exists 2%Q. exists "2/1". split; reflexivity.
  - exists "b1.3.1", ["3"; "1"]. split; [reflexivity|]. split; [reflexivity|]. right. split; [discriminate|]. repeat constructor.
  - exists "b2.3.1", ["3"; "1"]. split; [reflexivity|]. split; [reflexivity|]. intros X. discriminate X.
  - exists "2". split; reflexivity.
  - discriminate.
  - eexists. split; [reflexivity|exact M1].
  - eexists. split; [reflexivity|exact M2].
  - eexists. split; [reflexivity|exact M3].
  - reflexivity.
  - right. exists "". split; [reflexivity|now left].
Qed.
Lemma l2_reports : reports_line DssStoreModel.read_int DssTextProps.num_q [] "Line.s2" ex_l2 "s2" "b2" "b3" [3; 1]%Z 1000%Q 2 [[1 # 10]; [1 # 50; 1 # 10]] [[3 # 10]; [1 # 25; 3 # 10]] [[10%Q]; [(-2)%Q; 10%Q]].
Proof.
  destruct mats as (M1 & M2 & M3). constructor.
  - reflexivity.
  - cbn. intuition discriminate.
  - right. now exists "".
  - exists "none". split; [reflexivity|]. right. split; [|reflexivity]. intros x X. apply unit_worth_lower in X. cbn in X. intuition discriminate.
  - exists (1 # 1000). exists "1/1000". split; reflexivity.
  - exists "b2.3.1", ["3"; "1"]. split; [reflexivity|]. split; [reflexivity|]. right. split; [discriminate|]. repeat constructor.
  - exists "b3.3.1", ["3"; "1"]. split; [reflexivity|]. split; [reflexivity|]. intros X. discriminate X.
  - exists "2". split; reflexivity.
  - discriminate.
  - eexists. split; [reflexivity|exact M1].
  - eexists. split; [reflexivity|exact M2].
  - eexists. split; [reflexivity|exact M3].
  - reflexivity.
  - right. exists "". split; [reflexivity|now left].
Qed.
Example C102_hypotheses_met : watching ex_fuse /\ Forall (good_line_report DssStoreModel.read_int DssTextProps.num_q []) ex_line_reports /\
  exists a b, parse_lines DssStoreModel.read_int DssTextProps.num_q "src" ex_fuse [] [] [] [] [] ex_line_reports = Ok [a; b] /\
    rn_name a = "l1" /\ rn_kind a = Some KFuse /\ map rw_node (rn_wires a) = [Some "C"; Some "A"] /\ rn_kind b = Some KSwitch /\ map rw_open (rn_wires b) = [Some true; Some true].
Proof.
  split. { intros x [<-|[]]. exists "l1". exists "Line.L1". split; reflexivity. }
  split. { constructor; [|constructor; [|constructor; [|constructor]]]; (split; [discriminate|split; [discriminate|]]).
    - intros _. do 9 eexists. exact l1_reports.
    - intros X. discriminate X.
    - intros _. do 9 eexists. exact l2_reports. }
  vm_compute. do 2 eexists. repeat split.
Qed.
Definition ex_short : dline := mkDL (Some "s2") (Some (1 # 2)) (Some "b2") (Some "b3") false true false [mkLW (Some "C") (Some true) None; mkLW (Some "A") (Some true) None; mkLW (Some "N") None None] false (Some "c2") [].
Definition ex_short_e : element := Eval vm_compute in match line_text DssTextProps.show_q ex_short with Ok (Some t) => match read_dss t with Some [e] => e | _ => mkElement "" "" [] end | _ => mkElement "" "" [] end.
Definition ex_l3 : data := ex_rd ex_mats [("Switch", "Yes"); ("enabled", "No"); ("linecode", "c2"); ("units", "km"); ("length", "1/1000"); ("bus1", "b2.3.1"); ("bus2", "b3.3.1"); ("phases", "2"); ("faultrate", "1/10"); ("geometry", "")].
Lemma ex_short_is : line_is DssTextProps.num_q ex_short ex_short_e.
Proof.
  assert (G : good_line ex_short). { split; [exists "s2"; split; [reflexivity|split; [discriminate|reflexivity]]|]. split; [discriminate|]. split; [discriminate|]. split; [exists "c2"; split; [reflexivity|split; [discriminate|reflexivity]]|]. intros w p I P. cbn in I. repeat (destruct I as [<-|I]; [injection P as <-; cbn; tauto|]). destruct I. }
  destruct (DssTextProps.C82_lines DssTextProps.show_q DssTextProps.num_q [ex_short] DssTextProps.faithful_q (Forall_cons _ G (Forall_nil _))) as (ts & els & M & R & L). inversion L as [|l0 ls e es Fu Is Rest E1 E2|l0 ls e f es Fu Is If Rest E1 E2]; subst; [|discriminate Fu]. inversion Rest; subst.
  vm_compute in M. injection M as M. destruct ts as [|t [|t' ts]]; try discriminate M. injection M as M. subst t. vm_compute in R. injection R as <-. exact Is.
Qed.
Example C102_read_back_met : written_line DssStoreModel.read_int DssTextProps.num_q [] ex_short ex_short_e "Line.s2" ex_l3 "s2" "b2" "b3" [3; 1]%Z 1000%Q 2 [[1 # 10]; [1 # 50; 1 # 10]] [[3 # 10]; [1 # 25; 3 # 10]] [[10%Q]; [(-2)%Q; 10%Q]] /\
  reads_ints DssStoreModel.read_int /\ counts ex_l3 = true /\ watched_by ex_fuse ["l1"] /\ watched_by [] [] /\ unremarkable ex_fuse [] "s2" /\ ln_breaker ex_short = true /\ ln_length ex_short = Some (1 # 2) /\ all_open ex_short.
Proof.
  split.
  { constructor; [exact ex_short_is| |reflexivity|].
    - constructor; try reflexivity. intros q Vq. vm_compute in Vq. injection Vq as <-. exists (1 # 1000). split; [exists "1/1000"; split; reflexivity|reflexivity].
    - destruct l2_reports as [A1 A2 _ _ _ A6 A7 A8 A9 A10 A11 A12 A13 A14]. constructor; auto.
      + right. now exists "c2".
      + exists "km". split; [reflexivity|]. left. apply unit_worth_lower. cbn. tauto.
      + exists (1 # 1000). exists "1/1000". split; reflexivity. }
  split; [exact ints_read|]. split; [reflexivity|]. split. { intros m. split; [intros [<-|[]]; eexists; split; [now left|]; exists "Line.L1"; split; reflexivity|]. intros (x & [<-|[]] & s & S1 & S2). injection S1 as <-. vm_compute in S2. injection S2 as <-. now left. }
  split. { intros m. split; [intros []|intros (x & [] & _)]. }
  split. { split; [intros x [[<-|[]]|[]] (s & S1 & S2); injection S1 as <-; vm_compute in S2; discriminate S2|]. split; cbn; intuition discriminate. }
  split; [reflexivity|]. split; [reflexivity|]. split; [discriminate|]. intros w [<-|[<-|[<-|[]]]] (p & P & N); try reflexivity. injection P as <-. destruct N. now left.
Qed.
Example C102_refuted_met : (exists n, has "ine." n /\ n = "spine.7") /\ (exists x s, In x [("Fuse.f", tbl [("MonitoredObj", "")])] /\ snd x "MonitoredObj" = Some (PText s) /\ ~ has "." (lower s)) /\
  (exists x, In x ex_fuse /\ watches x (lower "L1")) /\ all_open (mkDL (Some "f") None (Some "a") (Some "b") false false true [mkLW (Some "A") (Some true) None] false (Some "c") []) /\
  match parse_lines DssStoreModel.read_int DssTextProps.num_q "src" [] [] [] [] [] [] [("Line.spine.7", ex_l1); ("Line.spine.8", ex_l1)] with Ok l => map rn_name l = ["sp"; "sp"] | Err _ => False end.
Proof.
  split; [exists "spine.7"; split; [cbn; tauto|reflexivity]|]. split; [eexists _, ""; split; [now left|]; split; [reflexivity|cbn; discriminate]|]. split; [eexists; split; [now left|]; exists "Line.L1"; split; reflexivity|].
  split; [split; [discriminate|]; intros w [<-|[]] _; reflexivity|]. vm_compute. reflexivity.
Qed.
