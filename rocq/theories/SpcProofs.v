(** Proofs about the impedance matrix of a spacing. *)
From Coq Require Import Reals Lra Lia.
From Verif Require Import Base BaseFacts MatrixModel MatrixSpec ImpedModel ImpedSpec CarsonProofs PtDistModel PtDistProps SpcModel SpcSpec.
Local Open Scope string_scope.
Local Open Scope list_scope.
Local Open Scope R_scope.

Definition xy (w : conductor) : R * R := (c_x w, c_y w).
Definition pt (p : R * R) : point := (Some (fst p), Some (snd p)).
Definition dd (p q : R * R) : R :=
  328084 / 100000 * sqrt ((fst p - fst q) * (fst p - fst q) + (snd p - snd q) * (snd p - snd q)).
Definition Dm (pts : list (R * R)) : list (list R) := map (fun p => map (dd p) pts) pts.

Lemma mapM_all {A B} (h : A -> res B) (g : A -> B) l : (forall x, In x l -> h x = Ok (g x)) -> mapM h l = Ok (map g l).
Proof.
  induction l as [|x l IH]; intros H; [reflexivity|]. cbn [mapM map]. rewrite (H x (or_introl eq_refl)), IH; [reflexivity|].
  intros y Hy. apply H. now right.
Qed.

Lemma mapM_seq_is {A} (f : nat -> res A) l : forall a, (forall i y, nth_error l i = Some y -> f (a + i)%nat = Ok y) ->
  mapM f (seq a (length l)) = Ok l.
Proof.
  induction l as [|x l IH]; intros a H; [reflexivity|]. cbn [length seq mapM].
  pose proof (H 0%nat x eq_refl) as H0. rewrite Nat.add_0_r in H0. rewrite H0, IH; [reflexivity|].
  intros i y Hy. specialize (H (S i) y Hy). now rewrite Nat.add_succ_r in H.
Qed.

Lemma point_dd p q : (do d <- point_distance (pt p) (pt q); Ok (328084 / 100000 * d)) = Ok (dd p q).
Proof.
  unfold point_distance, pt, dd. destruct p as [a b], q as [c d]. cbn [fst snd].
  assert (E : distance [a; b] [c; d] = Ok (sqrt (sq [a; b] [c; d]))) by (apply distance_sq; split; reflexivity).
  rewrite E. cbn [bind sq]. rewrite Rplus_0_r. reflexivity.
Qed.

Lemma distance_matrix_ok pts : distance_matrix (map pt pts) = Ok (Dm pts).
Proof.
  unfold distance_matrix, Dm.
  assert (M : forall {A B D} (h : B -> res D) (g : A -> B) l, mapM h (map g l) = mapM (fun x => h (g x)) l).
  { intros A B D h g l. induction l as [|x l IH]; [reflexivity|]. cbn [map mapM]. now rewrite IH. }
  rewrite M. apply mapM_all. intros p _. rewrite M. apply mapM_all. intros q _. apply point_dd.
Qed.

Lemma Dm_get pts i j a b : nth_error pts i = Some a -> nth_error pts j = Some b -> get2 (Dm pts) i j = Some (dd a b).
Proof.
  intros Ha Hb. unfold get2, Dm. rewrite nth_error_map, Ha. cbn [option_map]. now rewrite nth_error_map, Hb.
Qed.

Lemma Dm_cell pts i j d : cell (Dm pts) i j d -> exists a b, nth_error pts i = Some a /\ nth_error pts j = Some b /\ d = dd a b.
Proof.
  intros [r [H1 H2]]. unfold Dm in H1. rewrite nth_error_map in H1. destruct (nth_error pts i) as [a|]; [|discriminate].
  injection H1 as <-. rewrite nth_error_map in H2. destruct (nth_error pts j) as [b|]; [|discriminate].
  injection H2 as <-. eauto 6.
Qed.

Lemma sub_Dm pts extra : 
  mapM (fun i => mapM (fun j => of_opt EIndex (get2 (Dm (pts ++ extra)) i j)) (seq 0 (length pts))) (seq 0 (length pts))
  = Ok (Dm pts).
Proof.
  assert (L : length pts = length (Dm pts)) by (unfold Dm; now rewrite map_length).
  match goal with |- mapM ?F _ = _ => pose proof (mapM_seq_is F (Dm pts) 0) as G end.
  rewrite <- L in G. apply G. clear G L. intros i row Hi. cbn [plus]. unfold Dm in Hi. rewrite nth_error_map in Hi.
  destruct (nth_error pts i) as [a|] eqn:Ea; [|discriminate]. injection Hi as <-.
  rewrite <- (map_length (dd a) pts). apply mapM_seq_is. intros j d Hj. rewrite nth_error_map in Hj.
  destruct (nth_error pts j) as [b|] eqn:Eb; [|discriminate]. injection Hj as <-. cbn [plus].
  rewrite (Dm_get _ i j a b); [reflexivity| |]; (rewrite nth_error_app1; [assumption|]); apply nth_error_Some; congruence.
Qed.

Lemma filter_all {A} (f : A -> bool) l : (forall x, In x l -> f x = true) -> filter f l = l.
Proof.
  induction l as [|x l IH]; intros H; [reflexivity|]. cbn [filter]. rewrite (H x (or_introl eq_refl)), IH; [reflexivity|].
  intros y Hy. apply H. now right.
Qed.

Lemma not_removed gs rest i : (i < length gs)%nat -> removed (map (@Some R) gs ++ rest) i = false.
Proof.
  intros H. unfold removed. rewrite nth_error_app1 by (now rewrite map_length). rewrite nth_error_map.
  destruct (nth_error gs i) eqn:E; [reflexivity|]. apply nth_error_None in E. lia.
Qed.

Lemma restrict_ok gs rest pts extra : pts <> [] -> length gs = length pts ->
  extra = [] \/ (exists n, extra = [n] /\ rest = [None]) ->
  restrict (map (@Some R) gs ++ rest) (Dm (pts ++ extra)) = Ok (Dm pts).
Proof.
  intros HN HL HX. unfold restrict.
  assert (K : filter (fun i => negb (removed (map (@Some R) gs ++ rest) i)) (seq 0 (length (Dm (pts ++ extra)))) = seq 0 (length pts)).
  { unfold Dm. rewrite map_length, app_length, seq_app, filter_app.
    rewrite filter_all; [|intros i Hi; apply in_seq in Hi; rewrite not_removed by lia; reflexivity].
    destruct HX as [->|[n [-> ->]]]; cbn [length seq filter plus]; [now rewrite app_nil_r|].
    unfold removed. rewrite nth_error_app2; rewrite map_length; [|lia]. rewrite HL, Nat.sub_diag. cbn. now rewrite app_nil_r. }
  rewrite K. pose proof (sub_Dm pts extra) as S. destruct (Dm (pts ++ extra)) as [|x y] eqn:E; [|exact S].
  destruct pts; [congruence | discriminate E].
Qed.

Lemma per_meter_cell m i j z : cell m i j z -> cell (map (map per_meter) m) i j (per_meter z).
Proof.
  intros [r [H1 H2]]. exists (map per_meter r). rewrite !nth_error_map, H1, H2. auto.
Qed.

Lemma per_meter_dims m r c : dims m r c -> dims (map (map per_meter) m) r c.
Proof.
  intros [H1 H2]. split; [now rewrite map_length|]. intros row Hr. apply in_map_iff in Hr as [x [<- Hx]].
  rewrite map_length. auto.
Qed.

Lemma dd_between a b : dd (xy a) (xy b) = 3.28084 * between a b.
Proof. unfold dd, between, xy. cbn [fst snd]. lra. Qed.

Definition gof (w : conductor) : R := gmr_of (c_gmr w, c_r w).
Definition rof (w : conductor) : R := res_of (c_gmr w, c_r w).

(** Carson's equations for a list of conductors, whatever follows in the lists. *)
Lemma primitive_wires ws rest1 rest2 m :
  get_primitive_impedance_matrix (Dm (map xy ws)) (map (@Some R) (map gof ws) ++ rest1) (map (@Some R) (map rof ws) ++ rest2) = Ok m ->
  carson_matrix ws (map (map per_meter) m).
Proof.
  intros H. apply primitive_result in H. cbv zeta in H.
  assert (L : length (Dm (map xy ws)) = length ws) by (unfold Dm; now rewrite !map_length).
  rewrite L in H. destruct H as [HD [HS [HM _]]].
  assert (Some' : forall i a, nth_error ws i = Some a -> (i < length ws)%nat) by (intros i a Ha; apply nth_error_Some; congruence).
  assert (NG : forall f i a rest, nth_error ws i = Some a -> nth_error (map (@Some R) (map f ws) ++ rest) i = Some (Some (f a))).
  { intros f i a rest Ha. rewrite nth_error_app1 by (rewrite !map_length; eauto). now rewrite !nth_error_map, Ha. }
  split; [now apply per_meter_dims|]. split.
  - intros i a Ha. destruct (HS i (Some' _ _ Ha)) as [r [g [Hr [Hg [_ HC]]]]].
    rewrite (NG rof i a rest2 Ha) in Hr. rewrite (NG gof i a rest1 Ha) in Hg. injection Hr as <-. injection Hg as <-.
    apply per_meter_cell in HC. replace (self_z a) with (per_meter (carson_self (rof a) (gof a))); [exact HC|].
    unfold per_meter, carson_self, self_z, rof, gof, res_of, gmr_of. cbn [fst snd].
    replace (328084 / 10000000 * c_gmr a) with (0.0328084 * c_gmr a) by lra.
    apply f_equal2; [|set (l := ln _)]; lra.
  - intros i j a b Ha Hb N. destruct (HM i j (Some' _ _ Ha) (Some' _ _ Hb) N) as [d [Hd [_ HC]]].
    apply Dm_cell in Hd as [a' [b' [Ea [Eb ->]]]]. rewrite nth_error_map, Ha in Ea. rewrite nth_error_map, Hb in Eb.
    injection Ea as <-. injection Eb as <-. apply per_meter_cell in HC. rewrite dd_between in HC.
    replace (mutual_z a b) with (per_meter (carson_mutual (3.28084 * between a b))); [exact HC|].
    unfold per_meter, carson_mutual, mutual_z. cbn [fst snd].
    apply f_equal2; [|set (l := ln _)]; lra.
Qed.

Lemma primitive_total ws rest1 rest2 :
  (forall w, In w ws -> 0 < c_gmr w) ->
  (forall i j a b, i <> j -> nth_error ws i = Some a -> nth_error ws j = Some b -> xy a <> xy b) ->
  exists m, get_primitive_impedance_matrix (Dm (map xy ws)) (map (@Some R) (map gof ws) ++ rest1) (map (@Some R) (map rof ws) ++ rest2) = Ok m.
Proof.
  intros HG HX. unfold get_primitive_impedance_matrix.
  assert (L : length (Dm (map xy ws)) = length ws) by (unfold Dm; now rewrite !map_length). rewrite L.
  assert (NG : forall f i a rest, nth_error ws i = Some a -> nth_error (map (@Some R) (map f ws) ++ rest) i = Some (Some (f a))).
  { intros f i a rest Ha. rewrite nth_error_app1; [now rewrite !nth_error_map, Ha|]. rewrite !map_length. apply nth_error_Some. congruence. }
  apply mapM_total. intros i Hi. apply mapM_total. intros j Hj. apply in_seq in Hi. apply in_seq in Hj.
  destruct (nth_error ws i) as [a|] eqn:Ea; [|apply nth_error_None in Ea; lia].
  destruct (nth_error ws j) as [b|] eqn:Eb; [|apply nth_error_None in Eb; lia].
  destruct (Nat.eqb_spec i j) as [E|E].
  - rewrite (NG rof i a rest2 Ea), (NG gof i a rest1 Ea). cbn [of_opt bind]. unfold carson_equation_self.
    assert (P : 0 < gof a) by (unfold gof, gmr_of; cbn [fst]; pose proof (HG a (nth_error_In _ _ Ea)); lra).
    destruct (Req_EM_T (gof a) 0); [lra|]. destruct (Rlt_dec 0 (gof a)); [eauto | lra].
  - rewrite (Dm_get _ i j (xy a) (xy b)); [|now rewrite nth_error_map, Ea | now rewrite nth_error_map, Eb].
    cbn [of_opt bind]. unfold carson_equation.
    assert (P : 0 < dd (xy a) (xy b)).
    { unfold dd. apply Rmult_lt_0_compat; [lra|]. apply sqrt_lt_R0. specialize (HX i j a b E Ea Eb). unfold xy in *. cbn [fst snd].
      set (u := c_x a - c_x b). set (v := c_y a - c_y b).
      destruct (Req_dec u 0) as [U|U]; [destruct (Req_dec v 0) as [V|V]|].
      - exfalso. apply HX. unfold u, v in *. f_equal; lra.
      - pose proof (Rsqr_pos_lt v V) as P1. pose proof (Rle_0_sqr u) as P2. unfold Rsqr in *. lra.
      - pose proof (Rsqr_pos_lt u U) as P1. pose proof (Rle_0_sqr v) as P2. unfold Rsqr in *. lra. }
    destruct (Req_EM_T (dd (xy a) (xy b)) 0); [lra|]. destruct (Rlt_dec 0 (dd (xy a) (xy b))); [eauto | lra].
Qed.

Lemma phase_parts cs settings sp phases ph : phase_wires cs settings sp phases ph ->
  map (fun i => cond_pos (sp_cond sp (i + 1))) (seq 0 (length phases)) = map pt (map xy ph)
  /\ mapM (phase_conductor cs settings) phases = Ok (map (fun w => (c_gmr w, c_r w)) ph).
Proof.
  intros [HL H]. split.
  - assert (HP : forall i w, nth_error ph i = Some w -> placed (sp_cond sp (S (0 + i))) w).
    { intros i w Hw. destruct (nth_error phases i) as [p|] eqn:Ep; [now destruct (H i p w Ep Hw)|].
      apply nth_error_None in Ep. assert (i < length ph)%nat by (apply nth_error_Some; congruence). lia. }
    rewrite <- HL, map_map. clear HL H.
    assert (G : forall l a, (forall i w, nth_error l i = Some w -> placed (sp_cond sp (S (a + i))) w) ->
      map (fun i => cond_pos (sp_cond sp (i + 1))) (seq a (length l)) = map (fun w => pt (xy w)) l); [|now apply G].
    clear ph HP. induction l as [|w l IH]; intros a HP; [reflexivity|]. cbn [length seq map]. f_equal.
    + specialize (HP 0%nat w eq_refl). rewrite Nat.add_0_r in HP. replace (a + 1)%nat with (S a) by lia. rewrite HP. reflexivity.
    + apply IH. intros i w' Hw. specialize (HP (S i) w' Hw). now rewrite Nat.add_succ_r in HP.
  - assert (HP : forall i p w, nth_error phases i = Some p -> nth_error ph i = Some w ->
      phase_conductor cs settings p = Ok (c_gmr w, c_r w)).
    { intros i p w Hp Hw. destruct (H i p w Hp Hw) as [_ [id [E1 E2]]]. unfold phase_conductor, or_default. now rewrite E1, E2. }
    clear H. revert ph HL HP. induction phases as [|p phases IH]; intros [|w ph] HL HP; try discriminate HL; [reflexivity|].
    cbn [mapM map]. rewrite (HP 0%nat p w eq_refl eq_refl), (IH ph); [reflexivity | now injection HL|].
    intros i p' w' Hp Hw. now apply (HP (S i)).
Qed.

Lemma has_neutral_ok cs settings gr : has_neutral cs settings gr -> neutral_conductor cs settings = Ok (Some gr).
Proof.
  unfold neutral_conductor, or_default. intros [[id [-> ->]]|[-> [id [-> [N ->]]]]]; [reflexivity|].
  apply String.eqb_neq in N. now rewrite N.
Qed.

Lemma no_neutral_ok cs settings : no_neutral settings -> neutral_conductor cs settings = Ok None.
Proof.
  unfold neutral_conductor. intros [-> H]. destruct (dget settings "condid_n1") as [id|]; [|reflexivity].
  rewrite (H id eq_refl). reflexivity.
Qed.

Lemma filter_pt ps : filter is_valid (map pt ps) = map pt ps.
Proof. apply filter_all. intros p Hp. apply in_map_iff in Hp as [x [<- _]]. reflexivity. Qed.

Lemma map_some f (ph : list conductor) :
  map (fun c => Some (f c)) (map (fun w => (c_gmr w, c_r w)) ph) = map (@Some R) (map (fun w => f (c_gmr w, c_r w)) ph).
Proof. now rewrite !map_map. Qed.

(** The matrix of a line in terms of that of its wires. *)
Lemma spacing_wires cs settings sp phases ws : line_wires cs settings sp phases ws ->
  exists rest1 rest2,
  spacing_matrix cs settings sp phases =
  (do z <- get_primitive_impedance_matrix (Dm (map xy ws)) (map (@Some R) (map gof ws) ++ rest1) (map (@Some R) (map rof ws) ++ rest2);
   Ok (map (map per_meter) z)).
Proof.
  intros [HN [H2 [ph [HP HC]]]]. destruct (phase_parts _ _ _ _ _ HP) as [E1 E2].
  assert (PN : map xy ph <> []).
  { destruct HP as [HL _]. destruct ph; [|discriminate]. destruct phases; [congruence | discriminate]. }
  assert (LG : forall l, length (map gof l) = length (map xy l)) by (intros; now rewrite !map_length).
  unfold spacing_matrix, positions. rewrite E1, H2, filter_app, filter_pt.
  destruct HC as [[w [Hw [Hp ->]]]|[[Hw [Hp ->]]|[gr [Hw [Hp ->]]]]].
  - exists [], []. rewrite Hp. cbn [n1_pos n2_pos is_absent is_blank fst snd orb both num filter is_valid].
    change [(Some (c_x w), Some (c_y w))] with (map pt [xy w]). rewrite <- map_app, distance_matrix_ok. cbn [bind].
    rewrite E2. cbn [bind]. rewrite (has_neutral_ok _ _ _ Hw). cbn [bind]. rewrite !map_some. cbn [option_map].
    change (map xy ph ++ [xy w]) with (map xy ph ++ map xy [w]). rewrite <- map_app.
    change [Some (gmr_of (c_gmr w, c_r w))] with (map (@Some R) (map gof [w])).
    change [Some (res_of (c_gmr w, c_r w))] with (map (@Some R) (map rof [w])).
    fold gof. fold rof. rewrite <- !map_app, !app_nil_r.
    pose proof (restrict_ok (map gof (ph ++ [w])) [] (map xy (ph ++ [w])) []) as R. rewrite !app_nil_r in R.
    rewrite R; [reflexivity | | apply LG | now left]. rewrite map_app. destruct (map xy ph); discriminate.
  - exists [None], [None]. rewrite (no_neutral_ok cs _ Hw).
    destruct Hp as [Hp|[x [y Hp]]]; rewrite Hp; cbn [n1_pos n2_pos is_absent is_blank fst snd orb both num filter is_valid].
    + rewrite app_nil_r, distance_matrix_ok. cbn [bind]. rewrite E2. cbn [bind]. rewrite !map_some. cbn [option_map]. fold gof. fold rof.
      pose proof (restrict_ok (map gof ph) [None] (map xy ph) [] PN (LG ph)) as R. rewrite app_nil_r in R.
      rewrite R by (now left). reflexivity.
    + change [(Some x, Some y)] with (map pt [(x, y)]). rewrite <- map_app, distance_matrix_ok. cbn [bind]. rewrite E2. cbn [bind].
      rewrite !map_some. cbn [option_map]. fold gof. fold rof.
      rewrite (restrict_ok (map gof ph) [None] (map xy ph) [(x, y)] PN (LG ph)) by (right; eauto). reflexivity.
  - exists [Some (gmr_of gr)], [Some (res_of gr)]. rewrite (has_neutral_ok _ _ _ Hw). rewrite Hp.
    cbn [n1_pos n2_pos is_absent is_blank fst snd orb both num filter is_valid].
    rewrite app_nil_r, distance_matrix_ok. cbn [bind]. rewrite E2. cbn [bind]. rewrite !map_some. cbn [option_map]. fold gof. fold rof.
    pose proof (restrict_ok (map gof ph) [Some (gmr_of gr)] (map xy ph) [] PN (LG ph)) as R. rewrite app_nil_r in R.
    rewrite R by (now left). reflexivity.
Qed.
