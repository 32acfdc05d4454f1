(** Lemmas about the conductor positions. *)
From Verif Require Import Base BaseFacts SpacingModel SpacingSpec.
From Coq Require Import Reals Lra Lia.
Local Open Scope R_scope.

Lemma dist2_nonneg p q : 0 <= dist2 p q.
Proof. unfold dist2. apply Rplus_le_le_0_compat; apply Rle_0_sqr. Qed.
Lemma pdist_nonneg p q : 0 <= pdist p q.
Proof. apply sqrt_pos. Qed.
Lemma pdist_sq p q : pdist p q * pdist p q = dist2 p q.
Proof. unfold pdist. apply sqrt_sqrt, dist2_nonneg. Qed.
Lemma dist2_sym p q : dist2 p q = dist2 q p.
Proof. unfold dist2. ring. Qed.
Lemma pdist_sym p q : pdist p q = pdist q p.
Proof. unfold pdist. now rewrite dist2_sym. Qed.
Lemma pdist_self p : pdist p p = 0.
Proof. unfold pdist, dist2. replace (_ + _) with 0 by ring. apply sqrt_0. Qed.
Lemma dist2_zero p q : dist2 p q = 0 -> p = q.
Proof.
  destruct p as [a b], q as [c d]. unfold dist2. cbn. intros H. apply Rplus_sqr_eq_0 in H. destruct H. f_equal; lra.
Qed.

(** ** The matrix *)
Definition five (b0 b1 b2 b3 b4 : bool) (i : nat) : bool :=
  match i with 0 => b0 | 1 => b1 | 2 => b2 | 3 => b3 | 4 => b4 | _ => false end%nat.
Definition gstep (z : R) (s : spacing) (m : mat) (p : nat * nat) : mat :=
  let '(i, j) := p in match s i j with None => m | Some d => upd (upd (upd (upd m i j d) j i d) i i z) j j z end.
Lemma gentries (b0 b1 b2 b3 e : bool) (v : nat -> nat -> R) (z n : R) i j :
  (2 <= length (filter (five b0 b1 b2 b3 e) [0; 1; 2; 3; 4]))%nat -> (i < 5)%nat -> (j < 5)%nat ->
  fold_left (gstep z (fun i j => if (five b0 b1 b2 b3 e i && five b0 b1 b2 b3 e j)%bool then Some (v i j) else None)) pairs (fun _ _ => n) i j =
  if (five b0 b1 b2 b3 e i && five b0 b1 b2 b3 e j)%bool then (if Nat.eqb i j then z else if Nat.ltb i j then v i j else v j i) else n.
Proof.
  destruct b0, b1, b2, b3, e; cbn [filter five length]; intros N Hi Hj; try lia; clear N;
  (do 5 (destruct i as [|i]; [do 5 (destruct j as [|j]; [vm_compute; reflexivity|]); lia|])); lia.
Qed.
Lemma five_count (b0 b1 b2 b3 e : bool) : (2 <= length (filter (five b0 b1 b2 b3 false) [0; 1; 2; 3]) + if e then 1 else 0)%nat ->
  (2 <= length (filter (five b0 b1 b2 b3 e) [0; 1; 2; 3; 4]))%nat.
Proof. destruct b0, b1, b2, b3, e; cbn; lia. Qed.
Section Scan.
Variable present : nat -> bool.
Variable earth : bool.
Variable P : nat -> R * R.
Hypothesis N2 : (2 <= how_many present + if earth then 1 else 0)%nat.
Hypothesis ABOVE : forall i, (i < 4)%nat -> present i = true -> 0 <= snd (P i).
Let sp := spacing_of present earth P.

Definition stepD (m : mat) (p : nat * nat) : mat :=
  let '(i, j) := p in
  match sp i j with None => m | Some d => upd (upd (upd (upd m i j d) j i d) i i 0) j j 0 end.
Lemma scan1_dist st p : s_dist (scan1 sp st p) = stepD (s_dist st) p.
Proof. destruct p as [i j]. unfold scan1, stepD. destruct (sp i j); [|reflexivity]. destruct (if Rlt_dec _ _ then _ else _); reflexivity. Qed.
Lemma scan_dist : s_dist (scan_all sp) = fold_left stepD pairs (fun _ _ => -1).
Proof.
  unfold scan_all. change (fun _ _ : nat => -1) with (s_dist scan0). generalize scan0. generalize pairs.
  induction l as [|p l IH]; intros st; cbn [fold_left]; [reflexivity|]. rewrite IH. f_equal. apply scan1_dist.
Qed.
(** the entries: E counts as present with [earth] *)
Definition pr (i : nat) : bool := if Nat.eqb i 4 then earth else present i.
Definition val (i j : nat) : R :=
  if Nat.eqb i j then 0 else if Nat.eqb j 4 then snd (P i) else if Nat.eqb i 4 then snd (P j)
  else if Nat.ltb i j then pdist (P i) (P j) else pdist (P j) (P i).
Lemma sp_pairs i j : (i < j)%nat -> (j < 5)%nat -> sp i j = if (pr i && pr j)%bool then Some (val i j) else None.
Proof.
  intros L J. unfold sp, spacing_of, pr, val. destruct (Nat.eqb_spec i 4); [lia|]. destruct (Nat.eqb_spec i j); [lia|].
  assert (LB : Nat.ltb i j = true) by now apply Nat.ltb_lt. rewrite LB.
  destruct (Nat.ltb_spec j 4), (Nat.eqb_spec j 4); try lia; cbn [andb]; destruct (present i); cbn [andb]; try reflexivity; destruct (present j); reflexivity.
Qed.
Lemma entries i j : (i < 5)%nat -> (j < 5)%nat -> s_dist (scan_all sp) i j = if (pr i && pr j)%bool then val i j else -1.
Proof.
  intros Hi Hj. rewrite scan_dist.
  assert (E : fold_left stepD pairs (fun _ _ => -1) = fold_left (gstep 0 (fun i j => if (five (pr 0) (pr 1) (pr 2) (pr 3) (pr 4) i && five (pr 0) (pr 1) (pr 2) (pr 3) (pr 4) j)%bool then Some (val i j) else None)) pairs (fun _ _ => -1)).
  { unfold pairs. cbn [fold_left]. unfold stepD. rewrite !sp_pairs by lia. reflexivity. }
  rewrite E, gentries by (try assumption; apply five_count; exact N2).
  assert (F : forall k, (k < 5)%nat -> five (pr 0) (pr 1) (pr 2) (pr 3) (pr 4) k = pr k).
  { intros k Hk. do 5 (destruct k as [|k]; [reflexivity|]). lia. }
  rewrite !F by assumption. destruct (pr i && pr j)%bool; [|reflexivity].
  unfold val. destruct (Nat.eqb_spec i j); [reflexivity|]. destruct (Nat.ltb_spec i j); [reflexivity|].
  destruct (Nat.eqb_spec j i); [lia|]. assert (LB : Nat.ltb j i = true) by (apply Nat.ltb_lt; lia). rewrite LB.
  destruct (Nat.eqb_spec j 4), (Nat.eqb_spec i 4); try lia; try reflexivity.
Qed.
Lemma val_nonneg i j : (i < 5)%nat -> (j < 5)%nat -> pr i = true -> pr j = true -> 0 <= val i j.
Proof.
  unfold pr, val. intros Hi Hj Pi Pj. destruct (Nat.eqb_spec i j); [lra|].
  destruct (Nat.eqb_spec j 4), (Nat.eqb_spec i 4); try (apply ABOVE; [lia|assumption]); try lia.
  destruct (Nat.ltb i j); apply pdist_nonneg.
Qed.
Lemma earth_seen : has_earth (s_dist (scan_all sp)) = earth.
Proof.
  unfold has_earth. cbn [existsb]. rewrite !entries by lia. unfold pr. cbn [Nat.eqb].
  destruct earth; cbn [andb].
  - assert (H : val 4 4 = 0) by reflexivity. rewrite H. destruct (Rlt_dec (-1) 0); [|lra]. rewrite !Bool.orb_true_r. reflexivity.
  - destruct (Rlt_dec (-1) (-1)); [lra|]. reflexivity.
Qed.
Lemma count_seen : n_entries (s_dist (scan_all sp)) = how_many present.
Proof.
  unfold n_entries. rewrite earth_seen.
  replace (filter (known (s_dist (scan_all sp))) indices) with (filter (fun p => (pr (fst p) && pr (snd p))%bool) indices).
  - assert (F : forall k, (k < 5)%nat -> pr k = five (present 0%nat) (present 1%nat) (present 2%nat) (present 3%nat) earth k).
    { intros k Hk. unfold pr. do 5 (destruct k as [|k]; [reflexivity|]). lia. }
    rewrite (filter_ext_in (fun p => (pr (fst p) && pr (snd p))%bool) (fun p =>
      (five (present 0%nat) (present 1%nat) (present 2%nat) (present 3%nat) earth (fst p) && five (present 0%nat) (present 1%nat) (present 2%nat) (present 3%nat) earth (snd p))%bool)).
    2: { intros [i j] H. unfold indices in H. apply in_prod_iff in H. destruct H as [Hi Hj]. cbn [fst snd].
      rewrite !F; [reflexivity| |]; [cbn in Hj|cbn in Hi]; intuition lia. }
    replace (how_many present) with (length (filter (five (present 0%nat) (present 1%nat) (present 2%nat) (present 3%nat) false) [0; 1; 2; 3]%nat)) by reflexivity.
    destruct (present 0%nat), (present 1%nat), (present 2%nat), (present 3%nat), earth; vm_compute; reflexivity.
  - apply filter_ext_in. intros [i j] H. unfold indices in H. apply in_prod_iff in H. destruct H as [Hi Hj].
    assert (Hi' : (i < 5)%nat) by (cbn in Hi; intuition lia). assert (Hj' : (j < 5)%nat) by (cbn in Hj; intuition lia).
    unfold known. cbn [fst snd]. rewrite entries by assumption. destruct (pr i) eqn:Pi, (pr j) eqn:Pj; cbn [andb];
    try (destruct (Req_EM_T (-1) (-1)); [reflexivity|contradiction]).
    pose proof (val_nonneg i j Hi' Hj' Pi Pj). destruct (Req_EM_T (val i j) (-1)); [lra|reflexivity].
Qed.

(** ** The two furthest conductors *)
Definition far_ok (done : list (nat * nat)) (st : scan) : Prop :=
  (forall i j, In (i, j) done -> present i = true -> present j = true -> (j < 4)%nat -> pdist (P i) (P j) <= s_max st) /\
  (s_max st = -100 \/
   exists i j, s_from st = Some i /\ s_to st = Some j /\ (i < j)%nat /\ (j < 4)%nat /\ present i = true /\ present j = true /\ s_max st = pdist (P i) (P j)).
Lemma far_step done st i j : (i < j)%nat -> far_ok done st -> far_ok (done ++ [(i, j)]) (scan1 sp st (i, j)).
Proof.
  intros L [H1 H2]. unfold scan1, sp, spacing_of.
  destruct (Nat.ltb j 4) eqn:J4, (present i) eqn:Pi, (present j) eqn:Pj; cbn [andb].
  1: {
    apply Nat.ltb_lt in J4. assert (I4 : Nat.ltb i 4 = true) by (apply Nat.ltb_lt; lia).
    destruct (Rlt_dec (s_max st) (pdist (P i) (P j))) as [B|B].
    - rewrite I4. cbn [andb]. split; cbn.
      + intros a b HI Pa Pb B4. apply in_app_iff in HI. destruct HI as [HI|[Q|[]]].
        * pose proof (H1 _ _ HI Pa Pb B4). lra.
        * injection Q as <- <-. lra.
      + right. exists i, j. repeat split; auto.
    - split; cbn.
      + intros a b HI Pa Pb B4. apply in_app_iff in HI. destruct HI as [HI|[Q|[]]]; [now apply H1|]. injection Q as <- <-. lra.
      + exact H2. }
  all: assert (G : forall st', s_max st' = s_max st -> s_from st' = s_from st -> s_to st' = s_to st -> far_ok (done ++ [(i, j)]) st').
  all: try (intros st' E1 E2 E3; split; rewrite ?E1, ?E2, ?E3; [|exact H2];
    intros a b HI Pa Pb B4; apply in_app_iff in HI; destruct HI as [HI|[Q|[]]]; [now apply H1|];
    injection Q as <- <-; try congruence; apply Nat.ltb_ge in J4; lia).
  all: try (destruct (Nat.eqb_spec j 4)); try (apply Nat.ltb_lt in J4; exfalso; lia); cbn [andb]; try (destruct earth); cbn [andb]; rewrite ?Bool.andb_false_r; try (apply G; reflexivity).
  all: try (destruct (Rlt_dec (s_max st) (snd (P i)))); try (destruct (Nat.ltb i 4)); cbn [andb]; apply G; reflexivity.
Qed.
Lemma far_all : far_ok pairs (scan_all sp).
Proof.
  assert (H : forall l done st, Forall (fun p => (fst p < snd p)%nat) l -> far_ok done st -> far_ok (done ++ l) (fold_left (scan1 sp) l st)).
  { induction l as [|[i j] l IH]; intros done st F H; cbn [fold_left]; [now rewrite app_nil_r|].
    apply Forall_cons_iff in F. destruct F as [L F]. replace (done ++ (i, j) :: l)%list with ((done ++ [(i, j)]) ++ l)%list by (rewrite <- app_assoc; reflexivity).
    apply IH; [assumption|]. now apply far_step. }
  apply (H pairs [] scan0).
  - unfold pairs. repeat (apply Forall_cons; [cbn; lia|]). apply Forall_nil.
  - split; [intros i j []|]. now left.
Qed.
Lemma in_pairs i j : (i < j)%nat -> (j < 5)%nat -> In (i, j) pairs.
Proof. intros L J. do 5 (destruct j as [|j]; [do 5 (destruct i as [|i]; [first [lia|cbn; tauto]|]); lia|]). lia. Qed.
Lemma two_present : (2 <= how_many present)%nat -> exists i j, (i < j)%nat /\ (j < 4)%nat /\ present i = true /\ present j = true.
Proof.
  unfold how_many. cbn [filter].
  destruct (present 0%nat) eqn:E0, (present 1%nat) eqn:E1, (present 2%nat) eqn:E2, (present 3%nat) eqn:E3; cbn [length]; intros N; try lia.
  all: first [exists 0%nat, 1%nat; repeat split; auto; lia | exists 0%nat, 2%nat; repeat split; auto; lia | exists 0%nat, 3%nat; repeat split; auto; lia
    | exists 1%nat, 2%nat; repeat split; auto; lia | exists 1%nat, 3%nat; repeat split; auto; lia | exists 2%nat, 3%nat; repeat split; auto; lia].
Qed.
Lemma furthest : (2 <= how_many present)%nat ->
  exists f t, s_from (scan_all sp) = Some f /\ s_to (scan_all sp) = Some t /\ (f < t)%nat /\ (t < 4)%nat /\ present f = true /\ present t = true /\
  s_max (scan_all sp) = pdist (P f) (P t) /\
  forall i j, (i < 4)%nat -> (j < 4)%nat -> present i = true -> present j = true -> pdist (P i) (P j) <= pdist (P f) (P t).
Proof.
  intros N. destruct far_all as [H1 H2]. destruct (two_present N) as (i & j & L & J & Pi & Pj).
  pose proof (H1 i j (in_pairs i j L ltac:(lia)) Pi Pj J) as G. pose proof (pdist_nonneg (P i) (P j)).
  destruct H2 as [H2|(f & t & H2)]; [lra|]. exists f, t.
  destruct H2 as (A1 & A2 & A3 & A4 & A5 & A6 & A7). repeat split; auto.
  intros a b Ha Hb Pa Pb. rewrite <- A7. destruct (Nat.lt_trichotomy a b) as [Q|[Q|Q]].
  - apply (H1 a b); auto. apply in_pairs; lia.
  - subst b. rewrite pdist_self. pose proof (pdist_nonneg (P i) (P j)). lra.
  - rewrite pdist_sym. apply (H1 b a); auto. apply in_pairs; lia.
Qed.
End Scan.

(** ** Geometry *)
Definition cross (q t : R * R) : R := fst q * snd t - snd q * fst t.
Definition dot (q t : R * R) : R := fst q * fst t + snd q * snd t.
Definition vec (f p : R * R) : R * R := (fst p - fst f, snd p - snd f).
(** the isometry that puts [f] at the origin and [t] at (0, -M) *)
Definition iso (e : R) (f t q : R * R) : R * R :=
  (e * cross (vec f q) (vec f t) / pdist f t, - dot (vec f q) (vec f t) / pdist f t).

Lemma iso_dist e f t p q : e * e = 1 -> pdist f t <> 0 -> dist2 (iso e f t p) (iso e f t q) = dist2 p q.
Proof.
  intros He HM. unfold iso. set (M := pdist f t) in *. assert (MM : M * M = dist2 f t) by apply pdist_sq.
  unfold dist2 at 1. cbn [fst snd].
  replace ((e * cross (vec f p) (vec f t) / M - e * cross (vec f q) (vec f t) / M) * (e * cross (vec f p) (vec f t) / M - e * cross (vec f q) (vec f t) / M) +
    (- dot (vec f p) (vec f t) / M - - dot (vec f q) (vec f t) / M) * (- dot (vec f p) (vec f t) / M - - dot (vec f q) (vec f t) / M))
    with ((e * e * (cross (vec f p) (vec f t) - cross (vec f q) (vec f t)) * (cross (vec f p) (vec f t) - cross (vec f q) (vec f t)) +
      (dot (vec f p) (vec f t) - dot (vec f q) (vec f t)) * (dot (vec f p) (vec f t) - dot (vec f q) (vec f t))) / (M * M)) by (field; assumption).
  rewrite He. apply Rmult_eq_reg_r with (M * M); [|nra]. unfold Rdiv. rewrite Rmult_assoc, Rinv_l by nra. rewrite Rmult_1_r.
  rewrite MM. unfold dist2, cross, dot, vec. cbn [fst snd]. ring.
Qed.
Lemma iso_from e f t : iso e f t f = (0, 0).
Proof. unfold iso, cross, dot, vec. cbn [fst snd]. unfold Rdiv. f_equal; ring. Qed.
Lemma iso_to e f t : pdist f t <> 0 -> iso e f t t = (0, 0 - pdist f t).
Proof.
  intros HM. unfold iso. f_equal; [unfold cross, Rdiv; ring|].
  apply Rmult_eq_reg_r with (pdist f t); [|assumption]. unfold Rdiv. rewrite Rmult_assoc, Rinv_l by assumption.
  replace ((0 - pdist f t) * pdist f t) with (- (pdist f t * pdist f t)) by ring. rewrite pdist_sq. unfold dot, vec, dist2. cbn [fst snd]. ring.
Qed.

Lemma psqrt_sq x y : x = y * y -> psqrt x = Ok (Rabs y).
Proof.
  intros ->. unfold psqrt. destruct (Rlt_dec (y * y) 0); [nra|]. f_equal. change (y * y) with (Rsqr y). apply sqrt_Rsqr_abs.
Qed.
Lemma rabs_div x m : 0 < m -> Rabs (x / m) = Rabs x / m.
Proof. intros H. unfold Rdiv. rewrite Rabs_mult. f_equal. apply Rabs_right. left. now apply Rinv_0_lt_compat. Qed.

(** lines 165-176: Heron's formula gives the third corner *)
Lemma corner_at st i a b f t q :
  s_dist st i (at_ (s_from st)) = a -> s_dist st i (at_ (s_to st)) = b -> s_max st = pdist f t ->
  a = pdist q f -> b = pdist q t -> b <= pdist f t -> 0 < pdist f t ->
  corner st i = Ok (Rabs (cross (vec f q) (vec f t)) / pdist f t, - dot (vec f q) (vec f t) / pdist f t).
Proof.
  intros Ea Eb EM Ha Hb Hle HM. unfold corner. rewrite Ea, Eb, EM. set (M := pdist f t) in *.
  assert (MM : M * M = dist2 f t) by apply pdist_sq.
  assert (AA : a * a = dist2 q f) by (rewrite Ha; apply pdist_sq). assert (BB : b * b = dist2 q t) by (rewrite Hb; apply pdist_sq).
  assert (A0 : 0 <= a) by (rewrite Ha; apply pdist_nonneg). assert (B0 : 0 <= b) by (rewrite Hb; apply pdist_nonneg).
  set (c := cross (vec f q) (vec f t)). set (d := dot (vec f q) (vec f t)).
  assert (D2 : a * a + M * M - b * b = 2 * d) by (rewrite AA, BB, MM; unfold d, dist2, dot, vec; cbn [fst snd]; ring).
  assert (LAG : c * c + d * d = (a * a) * (M * M)) by (rewrite AA, MM; unfold c, d, dist2, cross, dot, vec; cbn [fst snd]; ring).
  assert (D0 : 0 <= d) by nra.
  set (p := (a + b + M) / 2).
  assert (HER : p * (p - a) * (p - b) * (p - M) = (c / 2) * (c / 2)).
  { replace (p * (p - a) * (p - b) * (p - M)) with ((4 * (a * a) * (M * M) - (a * a + M * M - b * b) * (a * a + M * M - b * b)) / 16) by (unfold p; field).
    rewrite D2. replace (4 * (a * a) * (M * M)) with (4 * (c * c + d * d)) by (rewrite LAG; ring). field. }
  rewrite (psqrt_sq _ _ HER). cbn [bind]. unfold pdiv. destruct (Req_EM_T M 0) as [Z|_]; [lra|]. cbn [bind].
  assert (X : 2 * Rabs (c / 2) / M = Rabs c / M) by (rewrite (rabs_div c 2) by lra; field; lra).
  rewrite X.
  assert (Y : a ^ 2 - (Rabs c / M) ^ 2 = (d / M) * (d / M)).
  { assert (CC : Rabs c * Rabs c = c * c) by (rewrite <- Rabs_mult; apply Rabs_right; nra).
    replace ((Rabs c / M) ^ 2) with (Rabs c * Rabs c / (M * M)) by (field; lra). rewrite CC.
    apply Rmult_eq_reg_r with (M * M); [|nra]. replace ((a ^ 2 - c * c / (M * M)) * (M * M)) with (a * a * (M * M) - c * c) by (field; lra).
    rewrite <- LAG. field. lra. }
  rewrite (psqrt_sq _ _ Y). cbn [bind]. rewrite (rabs_div d M) by assumption. rewrite (Rabs_right d) by lra.
  f_equal. f_equal. field. lra.
Qed.

(** a rotation followed by a move up *)
Definition move (th up : R) (p : R * R) : R * R := (fst (rotate th p), snd (rotate th p) + up).
Lemma move_dist th up p q : dist2 (move th up p) (move th up q) = dist2 p q.
Proof.
  unfold move, rotate, dist2. cbn [fst snd]. pose proof (sin2_cos2 th) as H. unfold Rsqr in H.
  destruct p as [p1 p2], q as [q1 q2]. cbn [fst snd].
  transitivity ((sin th * sin th + cos th * cos th) * ((p1 - q1) * (p1 - q1) + (p2 - q2) * (p2 - q2))); [ring|]. rewrite H. ring.
Qed.
Lemma to_m_dist p q : pdist (to_m p) (to_m q) = pdist p q * foot.
Proof.
  unfold pdist. replace (dist2 (to_m p) (to_m q)) with (dist2 p q * (foot * foot)).
  - assert (0 < foot) by (unfold foot; apply Rinv_0_lt_compat; lra).
    rewrite sqrt_mult; [|apply dist2_nonneg|nra]. f_equal. apply sqrt_square. lra.
  - unfold to_m, dist2, foot, Rdiv. cbn [fst snd]. ring.
Qed.

(** the angle of lines 132-133 turns the furthest conductors to their heights *)
Lemma angle f t : 0 < pdist f t -> exists th,
  pacos ((snd f - snd t) / pdist f t) = Ok th /\ cos th = (snd f - snd t) / pdist f t /\ sin th = Rabs (fst t - fst f) / pdist f t.
Proof.
  intros HM. set (M := pdist f t) in *. assert (MM : M * M = dist2 f t) by apply pdist_sq.
  set (c := (snd f - snd t) / M). assert (CM : c * M = snd f - snd t) by (unfold c; field; lra).
  assert (C2 : c * c * (M * M) + (fst f - fst t) * (fst f - fst t) = M * M).
  { replace (c * c * (M * M)) with ((c * M) * (c * M)) by ring. rewrite CM, MM. unfold dist2. ring. }
  assert (CC : c * c <= 1).
  { apply Rmult_le_reg_r with (M * M); [nra|]. pose proof (Rle_0_sqr (fst f - fst t)) as Z. unfold Rsqr in Z. lra. }
  assert (C1 : -1 <= c <= 1) by (split; nra).
  unfold pacos. destruct (Rle_dec (Rabs c) 1) as [_|N]; [|exfalso; apply N; apply Rabs_le; lra].
  exists (acos c). split; [reflexivity|]. split; [apply cos_acos; lra|].
  rewrite sin_acos by lra. rewrite <- rabs_div by assumption.
  rewrite <- (sqrt_Rsqr_abs ((fst t - fst f) / M)). f_equal. unfold Rsqr.
  apply Rmult_eq_reg_r with (M * M); [|nra].
  replace ((fst t - fst f) / M * ((fst t - fst f) / M) * (M * M)) with ((fst t - fst f) * (fst t - fst f)) by (field; lra). nra.
Qed.

Lemma move_height th f t q e : 0 < pdist f t -> cos th = (snd f - snd t) / pdist f t -> sin th = Rabs (fst t - fst f) / pdist f t ->
  e * Rabs (fst t - fst f) = - (fst t - fst f) -> snd (move th (snd f) (iso e f t q)) = snd q.
Proof.
  intros HM Hc Hs He. unfold move, rotate, iso. cbn [fst snd]. rewrite Hc, Hs. set (M := pdist f t) in *.
  assert (MM : M * M = dist2 f t) by apply pdist_sq.
  set (c := cross (vec f q) (vec f t)). set (d := dot (vec f q) (vec f t)).
  replace (Rabs (fst t - fst f) / M * (e * c / M) + (snd f - snd t) / M * (- d / M) + snd f)
    with ((e * Rabs (fst t - fst f) * c - (snd f - snd t) * d) / (M * M) + snd f) by (field; lra).
  rewrite He. apply Rmult_eq_reg_r with (M * M); [|nra].
  replace (((- (fst t - fst f) * c - (snd f - snd t) * d) / (M * M) + snd f) * (M * M))
    with (- (fst t - fst f) * c - (snd f - snd t) * d + snd f * (M * M)) by (field; lra).
  rewrite MM. unfold c, d, cross, dot, vec, dist2. cbn [fst snd]. ring.
Qed.

(** ** Placing *)
Definition sg (c : R) : R := if Rle_dec 0 c then 1 else -1.
Lemma sg_abs c : sg c * c = Rabs c.
Proof. unfold sg. destruct (Rle_dec 0 c); [rewrite Rabs_right by lra; ring|]. rewrite Rabs_left by lra. ring. Qed.
Lemma sg_sq c : sg c * sg c = 1.
Proof. unfold sg. destruct (Rle_dec 0 c); ring. Qed.
Lemma unit_cases a b : a * a = 1 -> b * b = 1 -> a = b \/ a = - b.
Proof. intros A B. assert ((a - b) * (a + b) = 0) as H by (replace ((a - b) * (a + b)) with (a * a - b * b) by ring; lra). apply Rmult_integral in H. destruct H; [left|right]; lra. Qed.

Lemma mapM_ok {A B} (h : A -> res B) (g : A -> B) l : (forall x, In x l -> h x = Ok (g x)) -> mapM h l = Ok (map g l).
Proof.
  induction l as [|a l IH]; intros H; cbn; [reflexivity|]. rewrite (H a (or_introl eq_refl)). cbn. rewrite IH; [reflexivity|]. intros x I. apply H. now right.
Qed.
Lemma mapM_map {A B C} (h : B -> res C) (g : A -> B) l : mapM h (map g l) = mapM (fun x => h (g x)) l.
Proof. induction l as [|a l IH]; cbn; [reflexivity|]. destruct (h (g a)); cbn; [|reflexivity]. now rewrite IH. Qed.

Lemma same {A} (b : bool) (x : A) : (if b then x else x) = x.
Proof. now destruct b. Qed.

Section Placing.
Variable present : nat -> bool.
Variable earth : bool.
Variable P : nat -> R * R.
Variable height : R.
Hypothesis N2' : (2 <= how_many present)%nat.
Let N2 : (2 <= how_many present + if earth then 1 else 0)%nat.
Proof. lia. Qed.
Hypothesis ABOVE : forall i, (i < 4)%nat -> present i = true -> 0 <= snd (P i).
Let sp := spacing_of present earth P.
Let st := scan_all sp.
Variables f t : nat.
Hypothesis FROM : s_from st = Some f.
Hypothesis TO : s_to st = Some t.
Hypothesis FT : (f < t)%nat.
Hypothesis T4 : (t < 4)%nat.
Hypothesis PF : present f = true.
Hypothesis PT : present t = true.
Hypothesis MAX : s_max st = pdist (P f) (P t).
Hypothesis FAR : forall i j, (i < 4)%nat -> (j < 4)%nat -> present i = true -> present j = true -> pdist (P i) (P j) <= pdist (P f) (P t).
Hypothesis POS : 0 < pdist (P f) (P t).

Definition here (i : nat) : Prop := (i < 4)%nat /\ present i = true.
Let w (e : nat -> R) (i : nat) : R * R := iso (e i) (P f) (P t) (P i).

Lemma entry i j : here i -> here j -> s_dist st i j = pdist (P i) (P j).
Proof.
  intros [Hi Pi] [Hj Pj]. unfold st, sp. rewrite (entries present earth P N2) by lia. unfold pr, val.
  destruct (Nat.eqb_spec i 4); [lia|]. destruct (Nat.eqb_spec j 4); [lia|]. rewrite Pi, Pj. cbn [andb].
  destruct (Nat.eqb_spec i j); [subst; now rewrite pdist_self|]. destruct (Nat.ltb i j); [reflexivity|]. apply pdist_sym.
Qed.
Lemma entry_earth i : here i -> earth = true -> s_dist st i 4%nat = snd (P i).
Proof.
  intros [Hi Pi] E. unfold st, sp. rewrite (entries present earth P N2) by lia. unfold pr, val.
  destruct (Nat.eqb_spec i 4); [lia|]. cbn [Nat.eqb]. rewrite Pi, E. cbn [andb]. reflexivity.
Qed.
Lemma here_f : here f. Proof. split; [lia|assumption]. Qed.
Lemma here_t : here t. Proof. split; [lia|assumption]. Qed.

(** the rotation and the move up that all conductors get *)
Lemma finish_move : exists th up,
  (earth = true -> up = snd (P f) /\ cos th = (snd (P f) - snd (P t)) / pdist (P f) (P t) /\ sin th = Rabs (fst (P t) - fst (P f)) / pdist (P f) (P t)) /\
  (earth = false -> th = PI / 2 /\ up = height) /\
  forall i p, here i -> finish st height i p =
    Ok (move th up p, if earth then (if Req_EM_T (snd (move th up p)) (snd (P i)) then true else false) else true).
Proof.
  assert (HE : has_earth (s_dist st) = earth) by (unfold st, sp; apply earth_seen; assumption).
  assert (B : earth = true \/ earth = false) by (destruct earth; auto). destruct B as [E|E].
  - destruct (angle (P f) (P t) POS) as (th & H1 & H2 & H3). exists th, (snd (P f)). split; [auto|]. split; [intros Q; congruence|].
    intros i p Hi. unfold finish. rewrite HE, E, FROM, TO. cbn [at_].
    rewrite !entry_earth by (assumption || apply here_f || apply here_t).
    rewrite MAX. unfold pdiv. destruct (Req_EM_T (pdist (P f) (P t)) 0); [lra|]. cbn [bind]. rewrite H1. reflexivity.
  - exists (PI / 2), height. split; [intros Q; congruence|]. split; [auto|]. intros i p Hi. unfold finish. rewrite HE, E. reflexivity.
Qed.

Lemma iso_any e e' i : i = f \/ i = t -> iso e (P f) (P t) (P i) = iso e' (P f) (P t) (P i).
Proof. intros [->| ->]; [now rewrite !iso_from|]. rewrite !iso_to by lra. reflexivity. Qed.
Lemma pair_dist e i j : e i * e i = 1 -> e j * e j = 1 -> i = f \/ i = t \/ j = f \/ j = t \/ e i = e j -> dist2 (w e i) (w e j) = dist2 (P i) (P j).
Proof.
  intros Ui Uj H. unfold w. destruct H as [H|[H|[H|[H|H]]]].
  1, 2: rewrite (iso_any (e i) (e j) i) by tauto; apply iso_dist; [assumption|lra].
  1, 2: rewrite (iso_any (e j) (e i) j) by tauto; apply iso_dist; [assumption|lra].
  rewrite H. apply iso_dist; [assumption|lra].
Qed.

Definition crs (i : nat) : R := cross (vec (P f) (P i)) (vec (P f) (P t)).
Lemma corner_here i : here i -> corner st i = Ok (iso (sg (crs i)) (P f) (P t) (P i)).
Proof.
  intros Hi. destruct Hi as [I4 Pi]. unfold iso. rewrite sg_abs.
  apply corner_at with (a := pdist (P i) (P f)) (b := pdist (P i) (P t)); auto.
  - rewrite FROM. cbn [at_]. apply entry; [now split|apply here_f].
  - rewrite TO. cbn [at_]. apply entry; [now split|apply here_t].
Qed.
Lemma iso_flip e i : ((-1 * fst (iso e (P f) (P t) (P i)))%R, snd (iso e (P f) (P t) (P i))) = iso (- e) (P f) (P t) (P i).
Proof. unfold iso. cbn [fst snd]. f_equal. field. lra. Qed.
Lemma iso_flip' e i : ((fst (iso e (P f) (P t) (P i)) * -1)%R, snd (iso e (P f) (P t) (P i))) = iso (- e) (P f) (P t) (P i).
Proof. unfold iso. cbn [fst snd]. f_equal. field. lra. Qed.
Lemma is_from i : is_at (s_from st) i = Nat.eqb i f. Proof. now rewrite FROM. Qed.
Lemma is_to i : is_at (s_to st) i = Nat.eqb i t. Proof. now rewrite TO. Qed.

(** heights *)
Lemma height_sign : exists e0, e0 * e0 = 1 /\ e0 * Rabs (fst (P t) - fst (P f)) = - (fst (P t) - fst (P f)).
Proof.
  destruct (Rle_dec 0 (fst (P t) - fst (P f))); [exists (-1); rewrite Rabs_right by lra|exists 1; rewrite Rabs_left by lra]; split; ring.
Qed.

(** *** Who is left besides the furthest two *)
Lemma not_two : how_many present = 2%nat -> forall i, here i -> i = f \/ i = t.
Proof.
  intros H i [Hi Pi].
  assert (M : exists m n, (m < n)%nat /\ (n < 4)%nat /\ present m = false /\ present n = false).
  { revert H. unfold how_many. cbn [filter].
    destruct (present 0%nat) eqn:E0, (present 1%nat) eqn:E1, (present 2%nat) eqn:E2, (present 3%nat) eqn:E3; cbn [length]; intros H; try lia.
    all: first [exists 0%nat, 1%nat; repeat split; auto; lia | exists 0%nat, 2%nat; repeat split; auto; lia | exists 0%nat, 3%nat; repeat split; auto; lia
      | exists 1%nat, 2%nat; repeat split; auto; lia | exists 1%nat, 3%nat; repeat split; auto; lia | exists 2%nat, 3%nat; repeat split; auto; lia]. }
  destruct M as (m & n & L & L' & Pm & Pn).
  assert (i <> m) by congruence. assert (i <> n) by congruence. assert (f <> m) by congruence. assert (f <> n) by congruence.
  assert (t <> m) by congruence. assert (t <> n) by congruence. lia.
Qed.
Lemma not_three : how_many present = 3%nat -> forall i j, here i -> here j -> i <> f -> i <> t -> j <> f -> j <> t -> i = j.
Proof.
  intros H i j [Hi Pi] [Hj Pj] A1 A2 A3 A4.
  assert (M : exists m, (m < 4)%nat /\ present m = false).
  { revert H. unfold how_many. cbn [filter].
    destruct (present 0%nat) eqn:E0, (present 1%nat) eqn:E1, (present 2%nat) eqn:E2, (present 3%nat) eqn:E3; cbn [length]; intros H; try lia.
    all: first [exists 0%nat; split; [lia|assumption] | exists 1%nat; split; [lia|assumption] | exists 2%nat; split; [lia|assumption] | exists 3%nat; split; [lia|assumption]]. }
  destruct M as (m & L & Pm).
  assert (i <> m) by congruence. assert (j <> m) by congruence. assert (f <> m) by congruence. assert (t <> m) by congruence. lia.
Qed.
Lemma not_four : forall i j k, here i -> here j -> here k -> i <> f -> i <> t -> j <> f -> j <> t -> k <> f -> k <> t -> i <> k -> j <> k -> i = j.
Proof. intros i j k [Hi _] [Hj _] [Hk _]. lia. Qed.

(** *** Two *)
Lemma place_two is_ cs th up : how_many present = 2%nat -> Forall here is_ -> mapM (fun c => of_opt EKey (rev_lookup c)) cs = Ok is_ ->
  (forall i p, here i -> exists b, finish st height i p = Ok (move th up p, b)) ->
  place2 st height cs = Ok (map (fun i => to_m (if earth then move th up (w (fun _ => 1) i) else (fst (w (fun _ => 1) i), snd (w (fun _ => 1) i) + height))) is_).
Proof.
  intros H2 HI HM FIN. unfold place2. rewrite MAX. destruct (Req_EM_T (pdist (P f) (P t)) 0); [lra|]. rewrite HM. cbn [bind].
  apply mapM_ok. intros i I. rewrite Forall_forall in HI. specialize (HI i I). rewrite is_from, is_to.
  assert (HE : has_earth (s_dist st) = earth) by (unfold st, sp; apply earth_seen; assumption). rewrite HE.
  assert (E : (if Nat.eqb i t then Ok (0, 0 - pdist (P f) (P t)) else if Nat.eqb i f then Ok (0, 0) else Err EKey) = Ok (w (fun _ => 1) i)).
  { unfold w. destruct (not_two H2 i HI) as [->| ->].
    - destruct (Nat.eqb_spec f t); [lia|]. rewrite Nat.eqb_refl, iso_from. reflexivity.
    - rewrite Nat.eqb_refl, iso_to by lra. reflexivity. }
  rewrite E. cbn [bind]. destruct (FIN i (w (fun _ => 1) i) HI) as [b Fb].
  assert (B : earth = true \/ earth = false) by (destruct earth; auto). destruct B as [B|B]; rewrite B; [rewrite Fb|]; reflexivity.
Qed.

(** *** Three *)
Definition cands (i : nat) : list (R * R) :=
  if Nat.eqb i f then [(0, 0)] else if Nat.eqb i t then [(0, 0 - pdist (P f) (P t))]
  else [iso (sg (crs i)) (P f) (P t) (P i); iso (- sg (crs i)) (P f) (P t) (P i)].
Lemma cands_map is_ : Forall here is_ ->
  mapM (fun i => if is_at (s_from st) i then Ok (i, [(0, 0)]) else if is_at (s_to st) i then Ok (i, [(0, 0 - s_max st)])
    else do p <- corner st i; Ok (i, [p; ((-1 * fst p), snd p)])) is_ = Ok (map (fun i => (i, cands i)) is_).
Proof.
  intros HI. apply mapM_ok. intros i I. rewrite Forall_forall in HI. specialize (HI i I). rewrite is_from, is_to, MAX. unfold cands.
  destruct (Nat.eqb i f); [reflexivity|]. destruct (Nat.eqb i t); [reflexivity|].
  rewrite (corner_here i HI). cbn [bind]. rewrite iso_flip. reflexivity.
Qed.
Lemma place_three is_ cs th up : how_many present = 3%nat -> Forall here is_ -> mapM (fun c => of_opt EKey (rev_lookup c)) cs = Ok is_ ->
  (forall i p, here i -> finish st height i p =
    Ok (move th up p, if earth then (if Req_EM_T (snd (move th up p)) (snd (P i)) then true else false) else true)) ->
  exists e, (forall i, e i * e i = 1) /\ try3 st height cs = Ok (map (fun i => to_m (move th up (w e i))) is_) /\
    (forall i, here i -> i <> f -> i <> t -> earth = true -> snd (move th up (w e i)) = snd (P i) \/ snd (move th up (iso (- e i) (P f) (P t) (P i))) <> snd (P i)).
Proof.
  intros H3 HI HM FIN.
  exists (fun i => if earth then (if Req_EM_T (snd (move th up (iso (sg (crs i)) (P f) (P t) (P i)))) (snd (P i)) then sg (crs i) else - sg (crs i)) else sg (crs i)).
  split; [|split].
  - intros i. pose proof (sg_sq (crs i)). destruct earth; [|assumption]. destruct (Req_EM_T _ _); [assumption|]. lra.
  - unfold try3. rewrite HM. cbn [bind]. rewrite (cands_map is_ HI). cbn [bind]. rewrite mapM_map. apply mapM_ok.
    intros i I. rewrite Forall_forall in HI. specialize (HI i I). cbn [fst snd]. unfold cands, w.
    destruct (Nat.eqb_spec i f) as [->|Nf].
    { cbn [finish_all]. rewrite (FIN _ _ HI). cbn [bind fst snd]. rewrite iso_from. rewrite same. reflexivity. }
    destruct (Nat.eqb_spec i t) as [->|Nt].
    { cbn [finish_all]. rewrite (FIN _ _ HI). cbn [bind fst snd]. rewrite iso_to by lra. rewrite same. reflexivity. }
    cbn [finish_all]. rewrite !(FIN _ _ HI). cbn [bind fst snd].
    assert (B : earth = true \/ earth = false) by (destruct earth; auto). destruct B as [B|B]; rewrite B; [|reflexivity].
    destruct (Req_EM_T (snd (move th up (iso (sg (crs i)) (P f) (P t) (P i)))) (snd (P i))); [reflexivity|].
    cbn [bind]. destruct (Req_EM_T (snd (move th up (iso (- sg (crs i)) (P f) (P t) (P i)))) (snd (P i))); reflexivity.
  - intros i Hi Nf Nt B. unfold w. rewrite B.
    destruct (Req_EM_T (snd (move th up (iso (sg (crs i)) (P f) (P t) (P i)))) (snd (P i))) as [Q|Q]; [now left|].
    right. rewrite Ropp_involutive. assumption.
Qed.

(** *** Four *)
Definition good (e : nat -> R) : Prop := (forall i, e i * e i = 1) /\ forall i j, here i -> here j -> dist2 (w e i) (w e j) = dist2 (P i) (P j).
Definition match4 (k i : nat) : bool :=
  if Req_EM_T (dist2 (iso (sg (crs i)) (P f) (P t) (P i)) (iso (sg (crs k)) (P f) (P t) (P k))) (dist2 (P i) (P k)) then true else false.
Definition e4 (k i : nat) : R := if match4 k i then sg (crs i) else - sg (crs i).
Lemma e4_good k : here k -> k <> f -> k <> t -> good (e4 k).
Proof.
  intros Hk Kf Kt.
  assert (U : forall i, e4 k i * e4 k i = 1) by (intros i; unfold e4; pose proof (sg_sq (crs i)); destruct (match4 k i); lra).
  assert (EK : e4 k k = sg (crs k)).
  { unfold e4, match4. destruct (Req_EM_T _ _) as [_|N]; [reflexivity|]. exfalso. apply N. apply iso_dist; [apply sg_sq|lra]. }
  assert (C : forall i, dist2 (w (e4 k) i) (w (e4 k) k) = dist2 (P i) (P k)).
  { intros i. unfold w. rewrite EK. unfold e4. destruct (match4 k i) eqn:M; unfold match4 in M; destruct (Req_EM_T _ _) as [Q|Q] in M; try discriminate M.
    - exact Q.
    - destruct (unit_cases (sg (crs i)) (sg (crs k)) (sg_sq _) (sg_sq _)) as [S|S].
      + exfalso. apply Q. rewrite S. apply iso_dist; [apply sg_sq|lra].
      + rewrite S, Ropp_involutive. apply iso_dist; [apply sg_sq|lra]. }
  split; [exact U|]. intros i j Hi Hj.
  destruct (Nat.eq_dec i f); [apply pair_dist; auto|]. destruct (Nat.eq_dec i t); [apply pair_dist; auto|].
  destruct (Nat.eq_dec j f); [apply pair_dist; auto|]. destruct (Nat.eq_dec j t); [apply pair_dist; auto|].
  destruct (Nat.eq_dec j k) as [->|Jk]; [apply C|].
  destruct (Nat.eq_dec i k) as [->|Ik]; [rewrite dist2_sym, (dist2_sym (P k)); apply C|].
  assert (i = j) as -> by (apply (not_four i j k); assumption). apply pair_dist; auto.
Qed.
Lemma corners_seen k is_ : here k -> Forall here is_ ->
  corners4 st (Some (fst (iso (sg (crs k)) (P f) (P t) (P k)), snd (iso (sg (crs k)) (P f) (P t) (P k)), k)) is_ = Ok (map (fun i => (i, [w (e4 k) i])) is_).
Proof.
  intros Hk. induction is_ as [|i r IH]; intros HI; cbn [corners4 map]; [reflexivity|].
  apply Forall_cons_iff in HI. destruct HI as [Hi HI]. specialize (IH HI). rewrite is_from, is_to, MAX.
  destruct (Nat.eqb_spec i f) as [->|Nf]; [rewrite IH; cbn [bind]; unfold w; rewrite iso_from; reflexivity|].
  destruct (Nat.eqb_spec i t) as [->|Nt]; [rewrite IH; cbn [bind]; unfold w; rewrite iso_to by lra; reflexivity|].
  rewrite (corner_here i Hi). cbn [bind]. rewrite IH. cbn [bind]. do 3 f_equal.
  assert (S : s_dist st i k ^ 2 = dist2 (P i) (P k)) by (rewrite entry by assumption; rewrite <- (pdist_sq (P i) (P k)); ring).
  rewrite S. unfold w, e4, match4.
  set (a := iso (sg (crs i)) (P f) (P t) (P i)). set (b := iso (sg (crs k)) (P f) (P t) (P k)).
  assert (S2 : (fst a - fst b) ^ 2 + (snd a - snd b) ^ 2 = dist2 a b) by (unfold dist2; ring). rewrite S2.
  destruct (Req_EM_T (dist2 a b) (dist2 (P i) (P k))).
  - fold a. destruct a; reflexivity.
  - unfold a. rewrite iso_flip'. reflexivity.
Qed.
Lemma corners_none is_ : Forall here is_ -> exists e, good e /\ corners4 st None is_ = Ok (map (fun i => (i, [w e i])) is_).
Proof.
  induction is_ as [|i r IH]; intros HI; cbn [corners4 map].
  { exists (fun _ => 1). split; [|reflexivity]. split; [intros; ring|]. intros i j _ _. apply pair_dist; try ring. tauto. }
  apply Forall_cons_iff in HI. destruct HI as [Hi HI]. rewrite is_from, is_to, MAX.
  destruct (Nat.eqb_spec i f) as [->|Nf].
  { destruct (IH HI) as (e & G & E). exists e. split; [assumption|]. rewrite E. cbn [bind]. unfold w. rewrite iso_from. reflexivity. }
  destruct (Nat.eqb_spec i t) as [->|Nt].
  { destruct (IH HI) as (e & G & E). exists e. split; [assumption|]. rewrite E. cbn [bind]. unfold w. rewrite iso_to by lra. reflexivity. }
  rewrite (corner_here i Hi). cbn [bind]. exists (e4 i). split; [now apply e4_good|]. rewrite (corners_seen i r Hi HI). cbn [bind].
  do 3 f_equal. unfold w, e4, match4. destruct (Req_EM_T _ _) as [_|N]; [reflexivity|]. exfalso. apply N. apply iso_dist; [apply sg_sq|lra].
Qed.
Lemma place_four is_ cs th up : Forall here is_ -> mapM (fun c => of_opt EKey (rev_lookup c)) cs = Ok is_ ->
  (forall i p, here i -> exists b, finish st height i p = Ok (move th up p, b)) ->
  exists e, good e /\ try4 st height cs = Ok (map (fun i => to_m (move th up (w e i))) is_).
Proof.
  intros HI HM FIN. destruct (corners_none is_ HI) as (e & G & E). exists e. split; [assumption|].
  unfold try4. rewrite HM. cbn [bind]. rewrite E. cbn [bind]. rewrite mapM_map. apply mapM_ok.
  intros i I. rewrite Forall_forall in HI. specialize (HI i I). cbn [fst snd finish_all]. destruct (FIN i (w e i) HI) as [b Fb]. rewrite Fb. cbn [bind fst snd].
  destruct b; reflexivity.
Qed.

(** *** All cases *)
Lemma placed is_ cs : (how_many present <= 4)%nat -> Forall here is_ -> mapM (fun c => of_opt EKey (rev_lookup c)) cs = Ok is_ ->
  exists g, compute_spacing sp cs height = Ok (Some (map (fun i => to_m (g i)) is_)) /\
    (forall i j, here i -> here j -> dist2 (g i) (g j) = dist2 (P i) (P j)) /\
    (earth = true -> (how_many present <= 3)%nat -> forall i, here i -> snd (g i) = snd (P i)) /\
    (earth = true -> snd (g f) = snd (P f) /\ snd (g t) = snd (P t)) /\
    (earth = false -> g f = (0, height) /\ g t = if Nat.eqb (how_many present) 2 then (0, height - pdist (P f) (P t)) else (pdist (P f) (P t), height)).
Proof.
  intros N4 HI HM. destruct finish_move as (th & up & FE & FN & FIN).
  assert (FIN' : forall i p, here i -> exists b, finish st height i p = Ok (move th up p, b)) by (intros i p Hi; eexists; apply FIN; assumption).
  assert (CNT : n_entries (s_dist st) = how_many present) by (unfold st, sp; apply count_seen; assumption).
  assert (MFT : forall e, earth = true -> snd (move th up (iso e (P f) (P t) (P f))) = snd (P f) /\ snd (move th up (iso e (P f) (P t) (P t))) = snd (P t)).
  { intros e B. destruct (FE B) as (-> & Hc & Hs). destruct height_sign as (e0 & U0 & S0).
    rewrite (iso_any e e0 f) by tauto. rewrite (iso_any e e0 t) by tauto. split; apply move_height; assumption. }
  assert (NFT : forall e, earth = false -> move th up (iso e (P f) (P t) (P f)) = (0, height) /\ move th up (iso e (P f) (P t) (P t)) = (pdist (P f) (P t), height)).
  { intros e B. destruct (FN B) as (Eth & Eup); rewrite Eth, Eup. rewrite iso_from, iso_to by lra. unfold move, rotate. cbn [fst snd]. rewrite cos_PI2, sin_PI2. split; f_equal; ring. }
  assert (C : how_many present = 2%nat \/ how_many present = 3%nat \/ how_many present = 4%nat) by lia.
  unfold compute_spacing. fold st. rewrite CNT. destruct C as [C|[C|C]]; rewrite C.
  - rewrite (place_two is_ cs th up C HI HM FIN'). cbn [bind].
    exists (fun i => if earth then move th up (w (fun _ => 1) i) else (fst (w (fun _ => 1) i), snd (w (fun _ => 1) i) + height)).
    split; [reflexivity|]. split; [|split; [|split]].
    + intros i j Hi Hj. transitivity (dist2 (w (fun _ => 1) i) (w (fun _ => 1) j)).
      * destruct earth; [apply move_dist|]. unfold dist2. cbn [fst snd]. ring.
      * apply pair_dist; try ring. tauto.
    + intros B _ i Hi. rewrite B. unfold w. destruct (not_two C i Hi) as [->| ->]; apply (MFT _ B).
    + intros B. rewrite B. unfold w. split; apply (MFT _ B).
    + intros B. rewrite B. unfold w. rewrite iso_from, iso_to by lra. cbn [fst snd Nat.eqb]. split; f_equal; ring.
  - destruct (place_three is_ cs th up C HI HM FIN) as (e & U & T & HH). rewrite T. cbn [or_defaults bind].
    exists (fun i => move th up (w e i)). split; [reflexivity|]. split; [|split; [|split]].
    + intros i j Hi Hj. rewrite move_dist. apply pair_dist; auto.
      destruct (Nat.eq_dec i f); [tauto|]. destruct (Nat.eq_dec i t); [tauto|]. destruct (Nat.eq_dec j f); [tauto|]. destruct (Nat.eq_dec j t); [tauto|].
      rewrite (not_three C i j); auto.
    + intros B _ i Hi. destruct (Nat.eq_dec i f) as [->|Nf]; [apply (MFT _ B)|]. destruct (Nat.eq_dec i t) as [->|Nt]; [apply (MFT _ B)|].
      destruct (HH i Hi Nf Nt B) as [Q|Q]; [assumption|]. destruct (FE B) as (-> & Hc & Hs). destruct height_sign as (e0 & U0 & S0).
      unfold w. destruct (unit_cases (e i) e0 (U i) U0) as [S|S]; [rewrite S; now apply move_height|].
      exfalso. apply Q. replace (- e i) with e0 by (rewrite S; ring). now apply move_height.
    + intros B. unfold w. split; apply (MFT _ B).
    + intros B. cbn [Nat.eqb]. unfold w. split; apply (NFT _ B).
  - destruct (place_four is_ cs th up HI HM FIN') as (e & G & T). rewrite T. cbn [or_defaults bind].
    exists (fun i => move th up (w e i)). split; [reflexivity|]. split; [|split; [|split]].
    + intros i j Hi Hj. rewrite move_dist. now apply G.
    + intros _ L. lia.
    + intros B. unfold w. split; apply (MFT _ B).
    + intros B. cbn [Nat.eqb]. unfold w. split; apply (NFT _ B).
Qed.
End Placing.
