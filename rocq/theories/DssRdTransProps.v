(** C100: the transformers of the OpenDSS reader. *)
From Verif Require Import Base BaseFacts CsvModel TextModel DssNameModel DssNameSpec DssTextModel DssTextSpec DssTextProofs DssLoadSpec DssTransModel DssNodeSpec DssNodeProofs DssRdLoadModel DssRdLoadSpec DssRdLoadProofs DssRdLoadProps DssRdCapSpec DssRdCapProofs DssRdCapProps DssRdTransSpec DssRdTransProofs.
From Verif Require Import DssRdTransModel DssTransSpec.
From Coq Require Import Reals QArith Qreals Lia Lra.
Local Open Scope string_scope.
Local Open Scope nat_scope.
Local Open Scope list_scope.

(** C100: each enabled transformer of two or three windings becomes one transformer, in order, with its name, its ends, its
    losses and ratings, its reactances, the shift of its angle, and for each winding its connection, voltage, power, resistance,
    ground, taps and the settings of the last control; the phases of the windings are those of the first bus. *)
Theorem C100_transformers : forall int_ num source regs ts, Forall (fun x => sound_control num (snd x)) regs -> Forall (good_trans_report int_ num) ts ->
  exists l, parse_transformers int_ num source regs ts = Ok l /\ Forall2 (trans_read_of int_ num source regs) (filter (fun x => enabled (snd x)) ts) l.
Proof.
  intros int_ num source regs ts G. unfold parse_transformers. generalize (None : vars). intros v F. revert v. induction F as [|[full d] ts [En Rp] F IH]; intros v; [exists []; split; [reflexivity|constructor]|].
  cbn [parse_all filter]. cbn [fst snd] in *. destruct (enabled d) eqn:E.
  - destruct (Rp eq_refl) as (n & bs & conns & kvs & xs & ph & R). destruct (trans_read int_ num source regs v full d n bs conns kvs xs ph G E R) as (v' & t & -> & T). cbn [bind fst snd].
    destruct (IH v') as (l & -> & L). cbn [bind]. exists (t :: l). split; [reflexivity|]. constructor; [|exact L]. exists n, bs, conns, kvs, xs, ph. auto.
  - assert (parse_trans int_ num source regs v full d = Ok (v, None)) as ->.
    { unfold parse_trans. unfold enabled in E. destruct (d "enabled") as [[s|s]|]; [cbn [of_opt bind]; now rewrite E|reflexivity|congruence]. }
    cbn [bind fst snd]. destruct (IH v) as (l & -> & L). cbn [bind]. exists l. auto.
Qed.
Print Assumptions C100_transformers.

(** ** What the writer wrote *)
Lemma gives_at num e1 e2 d k K q : listed_numbers (real_of num) e1 e2 d k K -> (gives num e1 k (Some q) -> number_at (real_of num) d K 0 (Q2R q)) /\ (gives num e2 k (Some q) -> number_at (real_of num) d K 1 (Q2R q)).
Proof.
  intros (l1 & l2 & D & H1 & H2).
  split; intros (y & V & E); unfold value in V; [destruct (prop e1 k) as [s|] eqn:P|destruct (prop e2 k) as [s|] eqn:P]; try discriminate; rewrite <- (Qeq_eqR _ _ E); eexists [l1; l2], _;
    (split; [exact D|]); (split; [reflexivity|]); [apply (H1 s)|apply (H2 s)]; try reflexivity; unfold real_of; now rewrite V.
Qed.
Lemma same_at num d k i q o : states_at num d k i o -> number_at num d k i q -> o = Some q.
Proof. intros S (l & s & D & N & R). destruct o as [r|]; [|destruct (S q); exists l, s; auto]. destruct S as (l' & s' & D' & N' & R'). rewrite D in D'. injection D' as <-. congruence. Qed.
Lemma two_digits w ns m : two_nodes_are w ns -> In m ns -> In m ["0"; "1"; "2"; "3"].
Proof.
  intros (ms & -> & H) I. apply in_app_or in I as [I|I]; [|destruct (wd_ground w); [destruct I as [<-|[]]; now left|destruct I]].
  destruct H as [(_ & ->)|(_ & ns & F & [(_ & _ & a & b & -> & Nx & ->)|(_ & ->)])]; [destruct I| |].
  - destruct I as [<-|[<-|[]]]; destruct Nx; cbn; tauto.
  - clear - F I. induction F as [|x y l r A F IH]; [destruct I|]. destruct I as [<-|I]; [destruct A; cbn; tauto|auto].
Qed.
Lemma thousand q : ((q / 1000) * 1000 == q)%Q.
Proof. field. Qed.
Lemma thousand_r q : (Q2R (q / 1000) * 1000 = Q2R q)%R.
Proof. rewrite Q2R_div by (intros X; discriminate X). assert (Q2R 1000 = 1000%R) as -> by (unfold Q2R; cbn; lra). field. Qed.
Lemma written_reports int_ num taps t n w1 w2 v1 v2 x e d c : reads_ints int_ -> written_trans num taps t n w1 w2 v1 v2 x e d -> ~ has "ransformer." n ->
  exists x1 x2 y1 y2 ns1 ns2 q, tr_from t = Some x1 /\ tr_to t = Some x2 /\ kept x1 y1 /\ kept x2 y2 /\ two_nodes_are w1 ns1 /\ two_nodes_are w2 ns2 /\ (q == x)%Q /\
    winding_is num taps w1 (tr_from t) ns1 (winding_of e 1) /\ gives num (winding_of e 1) "%r" (wd_res w1) /\ winding_is num taps w2 (tr_to t) ns2 (winding_of e 2) /\ gives num (winding_of e 2) "%r" (wd_res w2) /\
    reports_trans int_ (real_of num) (String c ("ransformer." ++ n)%string) d n [(y1, ns1); (y2, ns2)] (map (fun w => if match wd_conn w with Some s => String.eqb s "D" | None => false end then "delta" else "wye") [w1; w2])
      [Q2R (v1 / 1000); Q2R (v2 / 1000)] [Q2R q] (Z.of_nat (length (wd_phases w1))).
Proof.
  intros (_ & Is) [[Hd Ws Xh _] En Nm Wn Fr To C1 C2 V1 V2 Rc] Pl. destruct Ws as (a1 & a2 & ns1 & ns2 & Wn' & T1 & T2 & W1 & R1 & W2 & R2 & Ph). rewrite Wn in Wn'. injection Wn' as <- <-.
  destruct (tr_from t) as [x1|] eqn:Ef; [|congruence]. destruct (tr_to t) as [x2|] eqn:Et; [|congruence]. rewrite Rc in Xh. destruct Xh as (q & Xv & Xq). unfold value in Xv. destruct (prop e "xhl") as [sx|] eqn:Px; [|discriminate].
  pose proof (wi_bus _ _ _ _ _ _ W1) as (t1 & y1 & B1 & Tm1 & K1). pose proof (wi_bus _ _ _ _ _ _ W2) as (t2 & y2 & B2 & Tm2 & K2). exists x1, x2, y1, y2, ns1, ns2, q. do 11 (split; [assumption || reflexivity|]).
  destruct En as [Eon Ew Ep Eb Ec Ek Ekva Er El Enl Eno Ex]. constructor.
  - eexists. reflexivity.
  - exact Pl.
  - now left.
  - eexists. split; [apply Ew; rewrite (hi_windings _ _ _ Hd), Wn; reflexivity|]. apply (Is 2).
  - eexists. split; [apply Ep; exact Ph|]. apply Is.
  - exists [t1; t2]. split; [exact (Eb _ _ B1 B2)|]. constructor; [exact Tm1|]. constructor; [exact Tm2|constructor].
  - intros b ns m I M. assert (In m ["0"; "1"; "2"; "3"]) as D by (destruct I as [[= <- <-]|[[= <- <-]|[]]]; [exact (two_digits _ _ _ T1 M)|exact (two_digits _ _ _ T2 M)]). intros L. cbn in D, L. intuition congruence.
  - pose proof (wi_conn _ _ _ _ _ _ W1) as Q1. pose proof (wi_conn _ _ _ _ _ _ W2) as Q2. destruct C1 as [C1|C1], C2 as [C2|C2]; rewrite C1 in Q1; rewrite C2 in Q2; cbn in Q1, Q2;
      (eexists [_; _]; split; [exact (Ec _ _ Q1 Q2)|]); rewrite ?C1, ?C2; (split; [cbn [map]; rewrite ?C1, ?C2; reflexivity|]); (split; [reflexivity|]); intros c0 [<-|[<-|[]]]; rewrite ?C1, ?C2; cbn; tauto.
  - pose proof (wi_kv _ _ _ _ _ _ W1) as Q1. pose proof (wi_kv _ _ _ _ _ _ W2) as Q2. rewrite V1 in Q1. rewrite V2 in Q2. destruct (proj1 (gives_at _ _ _ _ _ _ _ Ek) Q1) as (l & s & D & N & X). destruct (proj2 (gives_at _ _ _ _ _ _ _ Ek) Q2) as (l' & s' & D' & N' & X'). rewrite D in D'. injection D' as <-.
    destruct Ek as (l1 & l2 & D' & _). rewrite D in D'. injection D' as ->. injection N as <-. injection N' as <-. exists [l1; l2]. split; [exact D|]. split; [|reflexivity]. constructor; [exact X|]. constructor; [exact X'|constructor].
  - left. destruct (Ex sx (Q2R q) Px) as (s' & rest & w & D & Wd & Nw); [unfold real_of; now rewrite Xv|]. exists s', rest. split; [exact D|]. rewrite Wd. constructor; [exact Nw|constructor].
Qed.
Lemma clean_phases w ns ps l : two_nodes_are w ns -> clean w ps -> phases_at ns l -> l = map Some ps.
Proof.
  intros (ms & -> & H) (Gr & Ph & Cl) P. rewrite Gr, app_nil_r in P. assert (Len : length (wd_phases w) = length ps) by (rewrite <- (map_length pw_phase), Ph; apply map_length). rewrite Len in H. destruct Cl as [-> | (L3 & Ne & Lt & Dl)].
  - destruct H as [(_ & ->)|(X & _)]; [|now contradiction X]. destruct P as [(_ & ->)|(X & _)]; [reflexivity|congruence].
  - destruct H as [(X & _)|(_ & ns & F & H)]; [contradiction|]. rewrite Ph, given_some in F. rewrite Ph, map_length in H.
    assert (ms = ns) as -> by (destruct H as [(X & Y & _)|(_ & H)]; [destruct Dl; contradiction|exact H]). clear H.
    destruct P as [(-> & _)|(_ & P)]; [inversion F; congruence|]. clear - F Lt P. revert l P. induction F as [|p m ps ns A F IH]; intros l P; inversion P as [|? q ? l' N P' E1 E2]; [reflexivity|]. cbn [map]. f_equal; [|apply IH; [intros z Z; apply Lt; now right|exact P']].
    assert (node_letter m p) as L by (destruct (Lt p (or_introl eq_refl)) as [<-|[<-|[<-|[]]]]; inversion A; constructor).
    destruct N as [(y & Y & ->)|(N & _)]; [|destruct (N p L)]. f_equal. destruct L; inversion Y; reflexivity.
Qed.
(** A transformer of two windings that the writer wrote comes back: its ends, losses, rating, reactance, and for each winding
    its connection, voltage, power and resistance; the phases are those of its first winding. *)
Theorem C100_read_back : forall int_ num source regs taps v t n w1 w2 v1 v2 x e d c ps, reads_ints int_ -> Forall (fun x => sound_control (real_of num) (snd x)) regs ->
  written_trans num taps t n w1 w2 v1 v2 x e d -> ~ has "ransformer." n -> clean w1 ps ->
  exists v' r x1 x2 y1 y2 u1 u2, parse_trans int_ (real_of num) source regs v (String c ("ransformer." ++ n)%string) d = Ok (v', Some r) /\
    rt_name r = lower n /\ tr_from t = Some x1 /\ kept x1 y1 /\ rt_from r = Some y1 /\ tr_to t = Some x2 /\ kept x2 y2 /\ rt_to r = Some y2 /\
    equal_to (tr_loss t) (rt_loss r) /\ equal_to (tr_noload t) (rt_noload r) /\ equal_to (tr_norm t) (rt_norm r) /\ rt_reacs r = [Q2R x] /\ rt_center r = false /\ rt_windings r = [u1; u2] /\
    (forall w u, (w = w1 /\ u = u1) \/ (w = w2 /\ u = u2) -> rw_conn u = wd_conn w /\ equal_to (wd_v w) (rw_kv u) /\ equal_to (wd_va w) (rw_va u) /\ equal_to (wd_res w) (rw_res u) /\ map rw_phase (rw_phases u) = map Some ps).
Proof.
  intros int_ num source regs taps v t n w1 w2 v1 v2 x e d c ps I G W Pl Cl. destruct (written_reports int_ num taps t n w1 w2 v1 v2 x e d c I W Pl) as (x1 & x2 & y1 & y2 & ns1 & ns2 & q & F & T & K1 & K2 & T1 & T2 & Xq & W1 & R1 & W2 & R2 & Rp).
  destruct W as [[Hd _ _ _] En Nm Wn _ _ C1 C2 V1 V2 _]. assert (On : enabled d = true) by (unfold enabled; now rewrite (et_on _ _ _ En)).
  destruct (trans_read int_ (real_of num) source regs v _ d n _ _ _ _ _ G On Rp) as (v' & r & E & [A1 _ A3 A4 A5 A6 A7 A8 A9 _ _ A12 A13]).
  destruct (rt_windings r) as [|u1 [|u2 [|]]] eqn:U; try discriminate A12. exists v', r, x1, x2, y1, y2, u1, u2. split; [exact E|]. split; [exact A1|]. split; [exact F|]. split; [exact K1|].
  destruct A3 as (b & rest & [= <- _] & ->). destruct A4 as (b' & b2 & rest' & [= _ <- _] & ->). split; [reflexivity|]. split; [exact T|]. split; [exact K2|]. split; [reflexivity|].
  split; [exact (passed_gives _ _ _ _ _ _ _ (hi_loss _ _ _ Hd) (et_loss _ _ _ En) A5)|]. split; [exact (passed_gives _ _ _ _ _ _ _ (hi_noload _ _ _ Hd) (et_noload _ _ _ En) A7)|]. split; [exact (passed_gives _ _ _ _ _ _ _ (hi_norm _ _ _ Hd) (et_norm _ _ _ En) A6)|].
  split; [rewrite A8; f_equal; apply Qeq_eqR, Xq|]. split; [destruct (rt_center r); [destruct (proj1 A9 eq_refl) as (X & _); discriminate X|reflexivity]|]. split; [exact U|].
  assert (Wd : forall i w u b ns k, nth_error [w1; w2] i = Some w -> nth_error [u1; u2] i = Some u -> winding_is num taps w b ns (winding_of e k) -> gives num (winding_of e k) "%r" (wd_res w) -> connected w -> (i = 0 /\ k = 1 \/ i = 1 /\ k = 2) ->
    rw_conn u = wd_conn w /\ equal_to (wd_v w) (rw_kv u) /\ equal_to (wd_va w) (rw_va u) /\ equal_to (wd_res w) (rw_res u) /\ map rw_phase (rw_phases u) = map Some ps).
  { intros i w u b ns k Wi Ui Ws Rs Cn K. destruct (A13 i u Ui) as [B1 B2 (va & B3 & B3') _ B5 _ (b0 & ns0 & rest0 & [= <- <- _] & B7) _ _].
    assert (At : forall key K0 p o, listed_numbers (real_of num) (winding_of e 1) (winding_of e 2) d key K0 -> gives num (winding_of e k) key (Some p) -> states_at (real_of num) d K0 i o -> o = Some (Q2R p)).
    { intros key K0 p o L Gv St. apply (same_at _ _ _ _ _ _ St). destruct K as [(-> & ->)|(-> & ->)]; [exact (proj1 (gives_at _ _ _ _ _ _ _ L) Gv)|exact (proj2 (gives_at _ _ _ _ _ _ _ L) Gv)]. }
    split; [|split; [|split; [|split]]].
    - rewrite (B1 (if match wd_conn w with Some s => String.eqb s "D" | None => false end then "delta" else "wye")); [destruct Cn as [-> | ->]; reflexivity|]. rewrite nth_error_map, Wi. reflexivity.
    - intros p Ep. assert (nth_error [Q2R (v1 / 1000); Q2R (v2 / 1000)] i = Some (Q2R (p / 1000))) as Ni. { destruct K as [(-> & _)|(-> & _)]; injection Wi as <-; cbn; congruence. } rewrite (B2 _ Ni). f_equal. apply thousand_r.
    - intros p Ep. pose proof (wi_kva _ _ _ _ _ _ Ws) as Q. rewrite Ep in Q. cbn [thousandth] in Q. rewrite B3', (At _ _ _ _ (et_kvas _ _ _ En) Q B3). cbn [option_map]. f_equal. apply thousand_r.
    - intros p Ep. rewrite Ep in Rs. exact (At _ _ _ _ (et_rs _ _ _ En) Rs B5).
    - exact (clean_phases _ _ _ _ T1 Cl B7). }
  intros w u [(-> & ->)|(-> & ->)]; [exact (Wd 0 w1 u1 _ _ 1 eq_refl eq_refl W1 R1 C1 (or_introl (conj eq_refl eq_refl)))|exact (Wd 1 w2 u2 _ _ 2 eq_refl eq_refl W2 R2 C2 (or_intror (conj eq_refl eq_refl)))].
Qed.
Print Assumptions C100_read_back.

(** ** What is lost *)
Lemma pw_phases num regs name d i : forall l ps, mapM (pw_of num regs name d i) l = Ok ps -> map rw_phase ps = map r_phase_str l.
Proof.
  induction l as [|m l IH]; intros ps E; cbn [mapM] in E; [now injection E as <-|]. destruct (pw_of num regs name d i m) as [p|] eqn:P; [|discriminate]. cbn [bind] in E. destruct (mapM (pw_of num regs name d i) l) as [qs|]; [|discriminate]. cbn [bind] in E. injection E as <-.
  cbn [map]. rewrite (IH qs eq_refl). f_equal. unfold pw_of in P. destruct (foldM _ _ _); [|discriminate]. cbn [bind] in P. now injection P as <-.
Qed.
Lemma with_types_in w : forall ws ts, In w (with_types ws ts) -> exists w0, In w0 ws /\ rw_phases w = rw_phases w0.
Proof.
  induction ws as [|a ws IH]; intros ts I; [destruct ts; destruct I|]. destruct ts as [|t ts]; cbn [with_types] in I; [exists w; auto|].
  destruct I as [<-|I]; [exists a; split; [now left|reflexivity]|]. destruct (IH _ I) as (w0 & W & E). exists w0. split; [now right|exact E].
Qed.
Lemma windings_phases int_ num source regs v full d v' t : parse_trans int_ num source regs v full d = Ok (v', Some t) -> v' = ends_of v d /\ rt_from t = fst (from_to v' d) /\ rt_to t = snd (from_to v' d) /\
  forall w, In w (rt_windings t) -> exists b ns c, v' = Some (b, ns, c) /\ map rw_phase (rw_phases w) = map r_phase_str ns.
Proof.
  intros E. unfold parse_trans in E. destruct (d "enabled") as [en|]; [|discriminate]. cbn [of_opt bind] in E. destruct (match en with PText s => String.eqb s "Yes" | PList _ => false end); [|discriminate].
  destruct (reacs_of _ _ _); [|discriminate]. cbn [bind] in E. destruct (shift_of _ _); [|discriminate]. cbn [bind] in E.
  match type of E with context [mapM ?f ?l] => destruct (mapM f l) as [ws|] eqn:Ew; [|discriminate] end. cbn [bind] in E. destruct (types_of _ _ _) as [tys|]; [|discriminate]. cbn [bind] in E. injection E as <- <-. cbn [rt_from rt_to rt_windings].
  split; [reflexivity|]. split; [reflexivity|]. split; [reflexivity|]. intros w I. destruct (with_types_in _ _ _ I) as (w0 & I0 & ->). destruct (In_nth_error _ _ I0) as (i & N). destruct (proj2 (mapM_nth _ _ _ Ew) i w0 N) as (j & _ & Wj).
  unfold DssRdTransModel.winding_of in Wj. destruct (item d "buses" j); [|discriminate]. cbn [bind] in Wj. destruct (ends_of v d) as [[[b ns] c]|]; [|discriminate]. cbn [of_opt bind] in Wj.
  match type of Wj with context [mapM ?f ?l] => destruct (mapM f l) as [ps|] eqn:Ep; [|discriminate] end. cbn [bind] in Wj. injection Wj as <-. exists b, ns, c. split; [reflexivity|]. exact (pw_phases _ _ _ _ _ _ _ Ep).
Qed.
(** All windings of a transformer that is read have the same phases: those of its first bus, whatever the others are. *)
Theorem C100_phases_refuted : forall int_ num source regs v full d v' t u w, parse_trans int_ num source regs v full d = Ok (v', Some t) -> In u (rt_windings t) -> In w (rt_windings t) ->
  map rw_phase (rw_phases u) = map rw_phase (rw_phases w).
Proof.
  intros int_ num source regs v full d v' t u w E U W. destruct (windings_phases _ _ _ _ _ _ _ _ _ E) as (_ & _ & _ & H). destruct (H u U) as (b & ns & c & -> & ->). destruct (H w W) as (b' & ns' & c' & [= <- <- <-] & ->). reflexivity.
Qed.
Print Assumptions C100_phases_refuted.

(** A three-phase transformer whose first winding is grounded comes back with a single phase, without a name, on both windings. *)
Theorem C100_ground_refuted : forall int_ num source regs taps v t n w1 w2 v1 v2 x e d c, reads_ints int_ -> Forall (fun x => sound_control (real_of num) (snd x)) regs ->
  written_trans num taps t n w1 w2 v1 v2 x e d -> ~ has "ransformer." n -> wd_ground w1 = true -> length (wd_phases w1) = 3 ->
  exists v' r, parse_trans int_ (real_of num) source regs v (String c ("ransformer." ++ n)%string) d = Ok (v', Some r) /\ length (rt_windings r) = 2 /\ forall u, In u (rt_windings r) -> map rw_phase (rw_phases u) = [None].
Proof.
  intros int_ num source regs taps v t n w1 w2 v1 v2 x e d c I G W Pl Gr L3. destruct (written_reports int_ num taps t n w1 w2 v1 v2 x e d c I W Pl) as (x1 & x2 & y1 & y2 & ns1 & ns2 & q & F & T & K1 & K2 & T1 & T2 & Xq & W1 & R1 & W2 & R2 & Rp).
  assert (On : enabled d = true) by (unfold enabled; now rewrite (et_on _ _ _ (wt_engine _ _ _ _ _ _ _ _ _ _ _ W))).
  destruct (trans_read int_ (real_of num) source regs v _ d n _ _ _ _ _ G On Rp) as (v' & r & E & [_ _ _ _ _ _ _ _ _ _ _ A12 A13]). exists v', r. split; [exact E|]. split; [exact A12|].
  intros u U. destruct (In_nth_error _ _ U) as (i & N). destruct (rv_phases _ _ _ _ _ _ _ _ _ (A13 i u N)) as (b0 & ns0 & rest0 & [= <- <- _] & P).
  destruct T1 as (ms & -> & [(_ & ->)|(X & _)]); [|contradiction]. rewrite Gr in P. cbn in P. destruct P as [(X & _)|(_ & P)]; [discriminate X|]. inversion P as [|? p ? l H P' E1 E2]. inversion P'. f_equal. destruct H as [(z & Z & _)|(_ & ->)]; [inversion Z|reflexivity].
Qed.
Print Assumptions C100_ground_refuted.

(** A transformer with one bus or more than three takes the ends of the transformer before it; as the first one it stops the reading. *)
Theorem C100_ends_refuted : forall int_ num source regs x y bx by_, list_of (snd x) "buses" = Some bx -> length bx = 2 \/ length bx = 3 -> list_of (snd y) "buses" = Some by_ -> length by_ <> 2 -> length by_ <> 3 ->
  (forall t u, parse_transformers int_ num source regs [x; y] = Ok [t; u] -> rt_from u = rt_from t /\ rt_to u = rt_to t) /\
  (forall z, enabled (snd y) = true -> whole int_ (snd y) "windings" z -> (0 < z)%Z -> exists k, parse_transformers int_ num source regs [y] = Err k).
Proof.
  intros int_ num source regs [fx dx] [fy dy] bx by_ Bx Lx By N2 N3. cbn [snd] in *. assert (Ey : forall v, ends_of v dy = v). { intros v. unfold ends_of. rewrite By. destruct by_ as [|? [|? [|? [|]]]]; try reflexivity; [now contradiction N2|now contradiction N3]. }
  split.
  - intros t u E. unfold parse_transformers in E. cbn [parse_all] in E. destruct (parse_trans int_ num source regs None fx dx) as [[vx ox]|] eqn:X; [|discriminate]. cbn [bind fst snd] in E.
    destruct (parse_trans int_ num source regs vx fy dy) as [[vy oy]|] eqn:Y; [|discriminate]. cbn [bind fst snd] in E. destruct ox as [t'|], oy as [u'|]; try discriminate. injection E as <- <-.
    destruct (windings_phases _ _ _ _ _ _ _ _ _ X) as (Vx & -> & -> & _). destruct (windings_phases _ _ _ _ _ _ _ _ _ Y) as (Vy & -> & -> & _). rewrite Ey in Vy. subst vy. unfold from_to. rewrite Bx, By. auto.
  - intros z En (s & W & Z) P. unfold parse_transformers. cbn [parse_all]. destruct (parse_trans int_ num source regs None fy dy) as [[v o]|k] eqn:Y; [|exists k; reflexivity]. exfalso.
    unfold parse_trans in Y. unfold enabled in En. destruct (dy "enabled") as [[en|en]|]; try discriminate. cbn [of_opt bind] in Y. rewrite En, Ey in Y. rewrite (int_whole int_ dy "windings" z) in Y by (exists s; auto).
    destruct (reacs_of _ _ _); [|discriminate]. cbn [bind] in Y. destruct (shift_of _ _); [|discriminate]. cbn [bind] in Y. destruct (Z.to_nat z) as [|k] eqn:K; [lia|]. cbn [seq mapM] in Y.
    assert (exists k, DssRdTransModel.winding_of num regs (match second_piece "ransformer." fy with Some x => lower x | None => "" end) dy z None 0 = Err k) as (k' & Ek). { unfold DssRdTransModel.winding_of. destruct (item dy "buses" 0); cbn; eauto. }
    rewrite Ek in Y. discriminate.
Qed.
Print Assumptions C100_ends_refuted.

(** The settings of the compensator are taken from controls that are disabled too. *)
Theorem C100_control_refuted : forall int_ num source regs val ts, let off := fun x : string * data => (fst x, fun k => if String.eqb k "enabled" then val else snd x k) in
  parse_transformers int_ num source (map off regs) ts = parse_transformers int_ num source regs ts.
Proof.
  intros int_ num source regs val ts off.
  assert (S : forall name l s, foldM (control_step num name) (map off l) s = foldM (control_step num name) l s).
  { induction l as [|x l IH]; intros s; [reflexivity|]. cbn [map foldM]. assert (control_step num name s (off x) = control_step num name s x) as -> by reflexivity. destruct (control_step num name s x); cbn [bind]; auto. }
  assert (W : forall name d n ns i, DssRdTransModel.winding_of num (map off regs) name d n ns i = DssRdTransModel.winding_of num regs name d n ns i).
  { intros. unfold DssRdTransModel.winding_of. destruct (item d "buses" i); [|reflexivity]. cbn [bind]. destruct ns as [ns|]; [|reflexivity]. cbn [of_opt bind]. assert (forall l, mapM (pw_of num (map off regs) name d i) l = mapM (pw_of num regs name d i) l) as M; [|now rewrite M].
    induction l as [|m l IH]; [reflexivity|]. cbn [mapM]. rewrite IH. assert (pw_of num (map off regs) name d i m = pw_of num regs name d i m) as ->; [|reflexivity]. unfold pw_of. now rewrite S. }
  unfold parse_transformers. generalize (None : vars). induction ts as [|[full d] ts IH]; intros v; [reflexivity|]. cbn [parse_all].
  assert (parse_trans int_ num source (map off regs) v full d = parse_trans int_ num source regs v full d) as ->; [|destruct (parse_trans int_ num source regs v full d); [|reflexivity]; cbn [bind]; now rewrite IH].
  unfold parse_trans. destruct (d "enabled") as [en|]; [|reflexivity]. cbn [of_opt bind]. destruct (match en with PText s => String.eqb s "Yes" | PList _ => false end); [|reflexivity].
  destruct (reacs_of _ _ _); [|reflexivity]. cbn [bind]. destruct (shift_of _ _); [|reflexivity]. cbn [bind].
  assert (M : forall nm n ns l, mapM (DssRdTransModel.winding_of num (map off regs) nm d n ns) l = mapM (DssRdTransModel.winding_of num regs nm d n ns) l); [|now rewrite M].
  intros nm n ns l. induction l as [|i l IHl]; [reflexivity|]. cbn [mapM]. now rewrite W, IHl.
Qed.
Print Assumptions C100_control_refuted.

(** ** Cases that meet the hypotheses *)
Definition lists (l : list (string * list string)) (t : data) : data := fun k => match find (fun x => String.eqb (fst x) k) l with Some x => Some (PList (snd x)) | None => t k end.
Definition ex_t1 : data := lists [("buses", ["b1.1.2.3"; "b2.1.2.3.0"]); ("conns", ["Delta"; "wye"]); ("kVs", ["12/1"; "4/1"]); ("kVAs", ["500/1"; "500/1"]); ("%Rs", ["1/2"; "1/2"]); ("taps", ["1/1"; "41/40"]); ("Xscarray", ["7/1"])]
  (tbl [("enabled", "Yes"); ("windings", "2"); ("phases", "3"); ("%loadloss", "1/1")]).
Definition ex_t2 : data := lists [("buses", ["b1.2"; "h.1.0"; "h.0.2"]); ("conns", ["wye"; "wye"; "wye"]); ("kVs", ["7/1"; "1/8"; "1/8"]); ("kVAs", ["25/1"; "25/1"; "25/1"]); ("Xscarray", ["2/1 2/1 1/1"])]
  (tbl [("enabled", "Yes"); ("windings", "3"); ("phases", "1")]).
Definition ex_t3 : data := tbl [("enabled", "No")].
Definition ex_four : data := lists [("buses", ["q1"; "q2"; "q3"; "q4"]); ("conns", ["wye"; "wye"; "wye"; "wye"])] (tbl [("enabled", "Yes"); ("windings", "4"); ("phases", "3")]).
Definition ex_trans : list (string * data) := [("Transformer.T1", ex_t1); ("Transformer.old", ex_t3); ("transformer.ct", ex_t2)].
Definition ex_regs : list (string * data) := [("RegControl.r1", tbl [("transformer", "t1"); ("R", "3/1"); ("X", "5/1")]); ("RegControl.r2", tbl [("transformer", "T1"); ("R", "4/1")])].
Lemma t1_reports : reports_trans DssStoreModel.read_int num_r "Transformer.T1" ex_t1 "T1" [("b1", ["1"; "2"; "3"]); ("b2", ["1"; "2"; "3"; "0"])] ["delta"; "wye"] [Q2R (12 # 1); Q2R (4 # 1)] [Q2R (7 # 1)] 3.
Proof.
  constructor.
  - exists "T"%char. reflexivity.
  - cbn. intuition discriminate.
  - now left.
  - exists "2". split; reflexivity.
  - exists "3". split; reflexivity.
  - exists ["b1.1.2.3"; "b2.1.2.3.0"]. split; [reflexivity|]. repeat constructor.
  - intros b ns m [[= <- <-]|[[= <- <-]|[]]] I X; cbn in I, X; intuition congruence.
  - exists ["Delta"; "wye"]. split; [reflexivity|]. split; [reflexivity|]. split; [reflexivity|]. intros c [<-|[<-|[]]]; tauto.
  - exists ["12/1"; "4/1"]. split; [reflexivity|]. split; [|reflexivity]. repeat constructor.
  - left. exists "7/1", []. split; [reflexivity|]. repeat constructor.
Qed.
Lemma t2_reports : reports_trans DssStoreModel.read_int num_r "transformer.ct" ex_t2 "ct" [("b1", ["2"]); ("h", ["1"; "0"]); ("h", ["0"; "2"])] ["wye"; "wye"; "wye"] [Q2R (7 # 1); Q2R (1 # 8); Q2R (1 # 8)] [Q2R (2 # 1); Q2R (2 # 1); Q2R (1 # 1)] 1.
Proof.
  constructor.
  - exists "t"%char. reflexivity.
  - cbn. intuition discriminate.
  - now right.
  - exists "3". split; reflexivity.
  - exists "1". split; reflexivity.
  - exists ["b1.2"; "h.1.0"; "h.0.2"]. split; [reflexivity|]. repeat constructor.
  - intros b ns m [[= <- <-]|[[= <- <-]|[[= <- <-]|[]]]] I X; cbn in I, X; intuition congruence.
  - exists ["wye"; "wye"; "wye"]. split; [reflexivity|]. split; [reflexivity|]. split; [reflexivity|]. intros c [<-|[<-|[<-|[]]]]; tauto.
  - exists ["7/1"; "1/8"; "1/8"]. split; [reflexivity|]. split; [|reflexivity]. repeat constructor.
  - left. exists "2/1 2/1 1/1", []. split; [reflexivity|]. repeat constructor.
Qed.
Lemma ex_sound : Forall (fun x => sound_control num_r (snd x)) ex_regs.
Proof.
  constructor; [|constructor; [|constructor]]; (split; [eexists; reflexivity|]); intros k [<-|[<-|[]]]; cbn [snd]; [right; exists (Q2R (3 # 1))|right; exists (Q2R (5 # 1))|right; exists (Q2R (4 # 1))|left; reflexivity]; eexists; split; reflexivity.
Qed.
Example C100_hypotheses_met : Forall (fun x => sound_control num_r (snd x)) ex_regs /\ Forall (good_trans_report DssStoreModel.read_int num_r) ex_trans /\ exists a b, parse_transformers DssStoreModel.read_int num_r "src" ex_regs ex_trans = Ok [a; b] /\ rt_name a = "t1" /\ rt_from a = Some "b1" /\ rt_to b = Some "h" /\ rt_center b = true /\ rt_shift a = Some (-30)%Z /\   (forall w, In w (rt_windings b) -> map rw_phase (rw_phases w) = [Some "B"]) /\ (forall w p, In w (rt_windings a) -> In p (rw_phases w) -> rw_r p = Some (Q2R (4 # 1))).
Proof.
  split; [exact ex_sound|]. split. { constructor; [split; [discriminate|intros _; do 6 eexists; exact t1_reports]|]. constructor; [split; [discriminate|intros X; discriminate X]|]. constructor; [split; [discriminate|intros _; do 6 eexists; exact t2_reports]|constructor]. }
  destruct (trans_read DssStoreModel.read_int num_r "src" ex_regs None _ ex_t1 _ _ _ _ _ _ ex_sound eq_refl t1_reports) as (va & a & Ea & Ra). destruct (trans_read DssStoreModel.read_int num_r "src" ex_regs va _ ex_t2 _ _ _ _ _ _ ex_sound eq_refl t2_reports) as (vb & b & Eb & Rb).
  exists a, b. split. { unfold parse_transformers, ex_trans. cbn [parse_all]. rewrite Ea. cbn [bind fst snd]. change (parse_trans DssStoreModel.read_int num_r "src" ex_regs va "Transformer.old" ex_t3) with (Ok (va, @None rtrans)). cbn [bind fst snd]. rewrite Eb. reflexivity. }
  destruct Ra as [A1 _ (x & r & [= <- <-] & A3) _ _ _ _ _ _ (z & (c1 & c2 & rc & [= <- <- <-] & S) & A10) _ _ A13]. destruct Rb as [_ _ _ (y & y2 & r' & [= <- <- <-] & B4) _ _ _ _ B9 _ _ _ B13].
  split; [exact A1|]. split; [exact A3|]. split; [exact B4|]. split; [apply B9; split; reflexivity|]. split; [rewrite A10; destruct S as [(X & _)|(_ & ->)]; [discriminate X|reflexivity]|]. split.
  - intros w I. destruct (In_nth_error _ _ I) as (i & N). destruct (rv_phases _ _ _ _ _ _ _ _ _ (B13 i w N)) as (b0 & ns0 & rest0 & [= <- <- _] & P). destruct P as [(X & _)|(_ & P)]; [discriminate X|]. inversion P as [|? p ? l H P' E1 E2]. inversion P'. f_equal. destruct H as [(q & Q & ->)|(H & _)]; [inversion Q; reflexivity|destruct (H "B" ltac:(constructor))].
  - intros w p I J. destruct (In_nth_error _ _ I) as (i & N). destruct (rv_settings _ _ _ _ _ _ _ _ _ (A13 i w N) p J) as (S1 & _). destruct (rw_r p) as [q|].
    + destruct S1 as (l & y0 & rr & E & _ & (s & D & Nm) & L). destruct l as [|? [|? [|]]]; inversion E; subst.
      * specialize (L _ (or_introl eq_refl)). assert (X : regulates (snd ("RegControl.r2", tbl [("transformer", "T1"); ("R", "4/1")])) "T1") by (eexists; split; reflexivity). discriminate (L X).
      * cbn in D. injection D as <-. vm_compute in Nm. injection Nm as <-. reflexivity.
    + assert (X : regulates (snd ("RegControl.r2", tbl [("transformer", "T1"); ("R", "4/1")])) "T1") by (eexists; split; reflexivity). discriminate (S1 _ (or_intror (or_introl eq_refl)) X).
Qed.
(** a transformer, its text and what OpenDSS reports of it *)
Definition ex_pw (p : string) : phase_winding := mkPW (Some p) None None None.
Definition ex_wd (c : string) (v : Q) (g : bool) : winding := mkWd (Some c) (Some v) (Some 300000%Q) None (Some (6 # 10)) g [ex_pw "A"; ex_pw "B"; ex_pw "C"].
Definition ex_step (g : bool) : transformer := mkTr (Some "t3") (Some "sub 1") (Some "bus-7") None (Some (1 # 5)) None [ex_wd "Y" 12470%Q g; ex_wd "D" 480%Q false] (Some [2%Q]) false.
Definition ex_step_data (b : string) : data := lists [("buses", [b; "bus_7"]); ("conns", ["wye"; "delta"]); ("kVs", ["12470/1000"; "480/1000"]); ("kVAs", ["300000/1000"; "300000/1000"]); ("%Rs", ["6/10"; "6/10"]); ("Xscarray", ["2/1"])]
  (tbl [("enabled", "Yes"); ("windings", "2"); ("phases", "3"); ("%noloadloss", "1/5")]).
Lemma ex_trans_written g : written_trans DssTextProps.num_q false (ex_step g) "t3" (ex_wd "Y" 12470%Q g) (ex_wd "D" 480%Q false) 12470%Q 480%Q 2%Q
  (mkElement "Transformer" "t3" (match read_dss (match trans_text DssTextProps.show_q false (ex_step g) with Ok x => x | Err _ => "" end) with Some [e] => e_props e | _ => [] end)) (ex_step_data (if g then "sub_1.0" else "sub_1")).
Proof.
  assert (G : good_two false (ex_step g)).
  { split; [split; [exists "t3"; split; [reflexivity|split; [discriminate|reflexivity]]|split; [exists "sub 1"|exists "bus-7"]; (split; [reflexivity|discriminate])]|]. split; [reflexivity|].
    split; [|repeat constructor; intros X; discriminate X]. constructor; [|constructor; [|constructor]]; intros p x [<-|[<-|[<-|[]]]] [= <-]; eexists; constructor. }
  destruct (DssTransProofs.two_reads DssTextProps.show_q DssTextProps.num_q DssTextProps.faithful_q false (ex_step g) G) as (x & e & T & I & R). specialize (R "" [] eq_refl). rewrite app_nil_s in R.
  assert (e = mkElement "Transformer" "t3" (match read_dss (match trans_text DssTextProps.show_q false (ex_step g) with Ok x => x | Err _ => "" end) with Some [e] => e_props e | _ => [] end)) as Ee.
  { rewrite T, R. destruct e as [c n ps]. pose proof (hi_class _ _ _ (ti_header _ _ _ _ I)) as H1. pose proof (hi_name _ _ _ (ti_header _ _ _ _ I)) as H2. cbn in H1, H2 |- *. now injection H2 as <-; subst c. }
  rewrite <- Ee. constructor; try reflexivity; try discriminate; [exact I| |now left|now right]. rewrite Ee. clear. destruct g; constructor; try reflexivity; try (intros s P; vm_compute in P; injection P as <-; reflexivity); try (intros s1 s2 P1 P2; vm_compute in P1; vm_compute in P2; injection P1 as <-; injection P2 as <-; reflexivity);
    try (eexists _, _; split; [reflexivity|]; split; intros s r P N; vm_compute in P; injection P as <-; exact N);
    try (intros s r P N; vm_compute in P; (discriminate P || (injection P as <-; eexists; split; [reflexivity|exact N])));
    intros s r P N; vm_compute in P; injection P as <-; eexists _, _, _; (split; [reflexivity|]); (split; [reflexivity|exact N]).
Qed.
Example C100_read_back_met : exists e, written_trans DssTextProps.num_q false (ex_step false) "t3" (ex_wd "Y" 12470%Q false) (ex_wd "D" 480%Q false) 12470%Q 480%Q 2%Q e (ex_step_data "sub_1") /\ clean (ex_wd "Y" 12470%Q false) ["A"; "B"; "C"] /\ ~ has "ransformer." "t3".
Proof. eexists. split; [exact (ex_trans_written false)|]. split; [|cbn; intuition discriminate]. split; [reflexivity|]. split; [reflexivity|]. now left. Qed.
Example C100_refuted_met : (exists e, written_trans DssTextProps.num_q false (ex_step true) "t3" (ex_wd "Y" 12470%Q true) (ex_wd "D" 480%Q false) 12470%Q 480%Q 2%Q e (ex_step_data "sub_1.0") /\ length (wd_phases (ex_wd "Y" 12470%Q true)) = 3) /\ (list_of ex_t1 "buses" = Some ["b1.1.2.3"; "b2.1.2.3.0"] /\ list_of ex_four "buses" = Some ["q1"; "q2"; "q3"; "q4"] /\ enabled ex_four = true) /\ exists t u, parse_transformers DssStoreModel.read_int num_r "src" [] [("Transformer.T1", ex_t1); ("Transformer.q", ex_four)] = Ok [t; u] /\ rt_from u = Some "b1" /\ rt_to u = Some "b2" /\ length (rt_windings u) = 4.
Proof.
  split; [eexists; split; [exact (ex_trans_written true)|reflexivity]|]. split; [repeat split|].
  destruct (trans_read DssStoreModel.read_int num_r "src" [] None _ ex_t1 _ _ _ _ _ _ (Forall_nil _) eq_refl t1_reports) as (va & a & Ea & Ra). assert (va = Some ("b1", ["1"; "2"; "3"], "b2")) as -> by (destruct (windings_phases _ _ _ _ _ _ _ _ _ Ea) as (-> & _); reflexivity).
  exists a. eexists. split; [unfold parse_transformers; cbn [parse_all]; rewrite Ea; reflexivity|]. repeat split.
Qed.
