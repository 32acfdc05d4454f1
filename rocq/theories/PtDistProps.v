(** C135: the distance between points is a metric. *)
From Verif Require Import Base PtDistModel.
From Coq Require Import Reals Lra Psatz.
Local Open Scope R_scope.
Local Open Scope list_scope.

(** The sum of the squares of the differences, by recursion. *)
Fixpoint sq (p q : list R) : R :=
  match p, q with a :: p', b :: q' => (a - b) * (a - b) + sq p' q' | _, _ => 0 end.

Lemma total_from l : forall a, fold_left Rplus l a = a + total l.
Proof.
  unfold total. induction l as [|x l IH]; intros a; cbn [fold_left]; [lra|].
  rewrite IH, (IH (0 + x)). lra.
Qed.

Lemma total_cons x l : total (x :: l) = x + total l.
Proof. unfold total at 1. cbn [fold_left]. rewrite total_from. lra. Qed.

Lemma total_sq p : forall q, length q = length p ->
  total (map (fun i => (coord p i - coord q i) ^ 2) (seq 0 (length p))) = sq p q.
Proof.
  induction p as [|a p IH]; intros [|b q] H; try discriminate H; [reflexivity|].
  cbn [length seq map sq]. rewrite total_cons, <- seq_shift, map_map. injection H as H.
  rewrite <- (IH q H). f_equal. unfold coord at 1 2. cbn [nth]. ring.
Qed.

Lemma distance_sq p q d : distance p q = Ok d <-> length q = length p /\ d = sqrt (sq p q).
Proof.
  unfold distance. destruct (Nat.eqb_spec (length q) (length p)) as [E|E]; cbn [negb].
  - rewrite (total_sq p q E). split; [intros H; injection H as <-; auto | intros [_ ->]; reflexivity].
  - split; [discriminate | intros [C _]; contradiction].
Qed.

Lemma sq_nonneg p : forall q, 0 <= sq p q.
Proof.
  induction p as [|a p IH]; intros [|b q]; cbn [sq]; try lra.
  specialize (IH q). pose proof (Rle_0_sqr (a - b)) as H. unfold Rsqr in H. lra.
Qed.

Lemma sq_sym p : forall q, sq p q = sq q p.
Proof. induction p as [|a p IH]; intros [|b q]; cbn [sq]; try reflexivity. rewrite IH. ring. Qed.

Lemma sq_zero p : forall q, length q = length p -> sq p q = 0 -> p = q.
Proof.
  induction p as [|a p IH]; intros [|b q] L H; try discriminate L; [reflexivity|]. cbn [sq] in H. injection L as L.
  pose proof (sq_nonneg p q). pose proof (Rle_0_sqr (a - b)) as S. unfold Rsqr in S.
  f_equal; [|apply IH; [exact L | lra]]. assert (E : (a - b) * (a - b) = 0) by lra.
  apply Rmult_integral in E. destruct E; lra.
Qed.

Lemma sq_refl p : sq p p = 0.
Proof. induction p as [|a p IH]; cbn [sq]; [reflexivity|]. rewrite IH. ring. Qed.

(** Adding one dimension: Minkowski's inequality in the plane. *)
Lemma plane x y u v : 0 <= u -> 0 <= v ->
  sqrt ((x + y) * (x + y) + (u + v) * (u + v)) <= sqrt (x * x + u * u) + sqrt (y * y + v * v).
Proof.
  intros Hu Hv.
  assert (A : 0 <= x * x + u * u) by nra. assert (B : 0 <= y * y + v * v) by nra.
  pose proof (sqrt_pos (x * x + u * u)) as SA. pose proof (sqrt_pos (y * y + v * v)) as SB.
  pose proof (sqrt_sqrt _ A) as EA. pose proof (sqrt_sqrt _ B) as EB.
  set (s := sqrt (x * x + u * u)) in *. set (t := sqrt (y * y + v * v)) in *.
  assert (C : x * y + u * v <= s * t).
  { destruct (Rle_dec (x * y + u * v) 0) as [N|N]; [assert (0 <= s * t) by nra; lra|].
    apply Rsqr_incr_0_var; [|nra]. unfold Rsqr.
    replace (s * t * (s * t)) with ((s * s) * (t * t)) by ring. rewrite EA, EB.
    pose proof (Rle_0_sqr (x * v - u * y)) as Q. unfold Rsqr in Q. nra. }
  rewrite <- (sqrt_Rsqr (s + t)) by lra. apply sqrt_le_1_alt. unfold Rsqr. nra.
Qed.

Lemma sq_triangle p : forall q r, length q = length p -> length r = length p ->
  sqrt (sq p r) <= sqrt (sq p q) + sqrt (sq q r).
Proof.
  induction p as [|a p IH]; intros [|b q] [|c r] L1 L2; try discriminate L1; try discriminate L2.
  - cbn [sq]. rewrite sqrt_0. lra.
  - injection L1 as L1. injection L2 as L2. specialize (IH q r L1 L2). cbn [sq].
    pose proof (sq_nonneg p q) as N1. pose proof (sq_nonneg q r) as N2. pose proof (sq_nonneg p r) as N3.
    pose proof (plane (a - b) (b - c) _ _ (sqrt_pos (sq p q)) (sqrt_pos (sq q r))) as P.
    rewrite (sqrt_sqrt _ N1), (sqrt_sqrt _ N2) in P.
    eapply Rle_trans; [|exact P]. apply sqrt_le_1_alt.
    replace (a - b + (b - c)) with (a - c) by ring. apply Rplus_le_compat_l.
    pose proof (sqrt_pos (sq p r)) as S3. rewrite <- (sqrt_sqrt _ N3) at 1.
    apply Rmult_le_compat; assumption.
Qed.

(** C135: two points have a distance exactly when they have the same number of
    coordinates; else it is a ValueError. *)
Theorem C135_defined : forall p q,
  (length p = length q -> exists d, distance p q = Ok d /\ 0 <= d)
  /\ (length p <> length q -> distance p q = Err EValue).
Proof.
  intros p q. split.
  - intros H. exists (sqrt (sq p q)). split; [now apply distance_sq | apply sqrt_pos].
  - intros H. unfold distance. destruct (Nat.eqb_spec (length q) (length p)); [congruence | reflexivity].
Qed.
Print Assumptions C135_defined.

(** C135: the distance is zero exactly for equal points, the same both ways, and no
    longer than by way of a third point. *)
Theorem C135_metric : forall p q r dpq dqr dpr,
  distance p q = Ok dpq -> distance q r = Ok dqr -> distance p r = Ok dpr ->
  (dpq = 0 <-> p = q) /\ distance q p = Ok dpq /\ dpr <= dpq + dqr.
Proof.
  intros p q r dpq dqr dpr H1 H2 H3. apply distance_sq in H1 as [L1 ->]. apply distance_sq in H2 as [L2 ->].
  apply distance_sq in H3 as [L3 ->]. split; [|split].
  - split; [|intros ->; now rewrite sq_refl, sqrt_0].
    intros H. apply sq_zero; [exact L1|]. apply sqrt_eq_0; [apply sq_nonneg | exact H].
  - apply distance_sq. split; [now symmetry | now rewrite sq_sym].
  - apply sq_triangle; assumption.
Qed.
Print Assumptions C135_metric.

(** C135: the scale of the distance: moving a point along one axis by [h] puts it at
    distance [Rabs h], in any dimension. *)
Theorem C135_axis : forall p a q h, distance (p ++ a :: q) (p ++ (a + h) :: q) = Ok (Rabs h).
Proof.
  intros p a q h. apply distance_sq. split; [now rewrite !app_length|].
  assert (E : sq (p ++ a :: q) (p ++ (a + h) :: q) = Rsqr h).
  { induction p as [|b p IH]; cbn [app sq]; [rewrite sq_refl | rewrite IH]; unfold Rsqr; ring. }
  rewrite E. symmetry. apply sqrt_Rsqr_abs.
Qed.
Print Assumptions C135_axis.

(** C135: at right angles it is the theorem of Pythagoras. *)
Theorem C135_right_angle : forall p p' q q' d d1 d2,
  length p = length p' -> length q = length q' ->
  distance (p ++ q) (p' ++ q') = Ok d -> distance p p' = Ok d1 -> distance q q' = Ok d2 ->
  d * d = d1 * d1 + d2 * d2.
Proof.
  intros p p' q q' d d1 d2 L1 L2 H H1 H2. apply distance_sq in H as [_ ->].
  apply distance_sq in H1 as [_ ->]. apply distance_sq in H2 as [_ ->].
  rewrite !sqrt_sqrt by apply sq_nonneg. revert p' L1.
  induction p as [|a p IH]; intros [|b p'] L1; try discriminate L1; cbn [app sq]; [ring|].
  injection L1 as L1. rewrite (IH p' L1). ring.
Qed.
Print Assumptions C135_right_angle.

(** The hypotheses are met: a right triangle with sides 3, 4 and 5. *)
Example C135_hypotheses_met : distance [1; 2] [4; 2] = Ok 3 /\ distance [4; 2] [4; 6] = Ok 4 /\ distance [1; 2] [4; 6] = Ok 5.
Proof.
  split; [|split]; apply distance_sq; (split; [reflexivity|]); cbn [sq];
    symmetry; apply sqrt_lem_1; lra.
Qed.
