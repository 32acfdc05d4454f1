(** Proofs on sequence matrices and on compute_matrix. *)
From Coq Require Import Reals Ring Field Lra Permutation.
From Verif Require Import Base BaseFacts MatrixModel MatrixSpec MatrixProofs KronProofs KronTop ImpedModel ImpedSpec.
Local Open Scope string_scope.
Local Open Scope list_scope.
Local Open Scope R_scope.

Lemma c_ring : ring_theory c0 c1 cadd cmul csub copp (@eq C).
Proof.
  split; intros; unfold c0, c1, cadd, cmul, csub, copp; try destruct x; try destruct y; try destruct z;
    simpl; f_equal; ring.
Qed.

Lemma c_norm_pos (x : C) : x <> c0 -> 0 < fst x * fst x + snd x * snd x.
Proof.
  destruct x as [a b]; simpl. intros H. destruct (Req_dec a 0) as [Ha|Ha].
  - destruct (Req_dec b 0) as [Hb|Hb]; [exfalso; apply H; unfold c0; congruence|]. nra.
  - nra.
Qed.

Lemma cinv_l (x : C) : x <> c0 -> cmul (cinv x) x = c1.
Proof.
  intros H. pose proof (c_norm_pos x H) as P. destruct x as [a b]. unfold cmul, cinv, c1; simpl in *.
  f_equal; field; lra.
Qed.

Lemma c_one_zero : c1 <> c0.
Proof. unfold c1, c0. intros H. injection H as H. lra. Qed.

Lemma c_field : field_theory c0 c1 cadd cmul csub copp (fun x y => cmul x (cinv y)) cinv (@eq C).
Proof.
  split; [exact c_ring|exact c_one_zero|reflexivity|exact cinv_l].
Qed.
Add Field c_field_inst : c_field.

(** ** Sequence matrices *)
Lemma rot_alpha : rot = alpha.
Proof.
  unfold rot, alpha. replace (2 / 3 * PI) with (2 * (PI / 3)) by field.
  rewrite cos_2PI3, sin_2PI3. f_equal. lra.
Qed.

Lemma alpha_sq : cmul alpha alpha = alpha2.
Proof.
  unfold cmul, alpha, alpha2; simpl. f_equal; [|lra].
  replace (sqrt 3 / 2 * (sqrt 3 / 2)) with (sqrt 3 * sqrt 3 / 4) by field.
  rewrite sqrt_sqrt by lra. lra.
Qed.

Lemma alpha_cube : cmul alpha alpha2 = c1.
Proof.
  unfold cmul, alpha, alpha2, c1; simpl. f_equal; [|lra].
  replace (- (1 / 2) * - (1 / 2) - sqrt 3 / 2 * - (sqrt 3 / 2)) with (1 / 4 + sqrt 3 * sqrt 3 / 4) by field.
  rewrite sqrt_sqrt by lra. lra.
Qed.

Lemma alpha_sum : cadd c1 (cadd alpha alpha2) = c0.
Proof. unfold cadd, alpha, alpha2, c1, c0; simpl. f_equal; lra. Qed.

Lemma alpha2_sq : cmul alpha2 alpha2 = alpha.
Proof.
  unfold cmul, alpha, alpha2; simpl. f_equal; [|lra].
  replace (- (sqrt 3 / 2) * - (sqrt 3 / 2)) with (sqrt 3 * sqrt 3 / 4) by field.
  rewrite sqrt_sqrt by lra. lra.
Qed.

Lemma third_three : cmul third (cadd c1 (cadd c1 c1)) = c1.
Proof. unfold cmul, third, cadd, c1; simpl. f_equal; lra. Qed.

Lemma shape_is_dims m n : shape_is m n = true <-> dims m n n.
Proof.
  unfold shape_is, dims. rewrite andb_true_iff, Nat.eqb_eq, forallb_forall. split; intros [H1 H2]; (split; [exact H1|]).
  - intros r Hr. apply Nat.eqb_eq. apply H2. exact Hr.
  - intros r Hr. apply Nat.eqb_eq. apply H2. exact Hr.
Qed.

Lemma dims3 (m : cmat) : dims m 3 3 ->
  exists a b c d e f g h i, m = [[a; b; c]; [d; e; f]; [g; h; i]].
Proof.
  intros [L R]. destruct m as [|r1 [|r2 [|r3 [|]]]]; try discriminate L.
  assert (L1 := R r1 (or_introl eq_refl)). assert (L2 := R r2 (or_intror (or_introl eq_refl))).
  assert (L3 := R r3 (or_intror (or_intror (or_introl eq_refl)))).
  destruct r1 as [|a [|b [|c [|]]]]; try discriminate L1.
  destruct r2 as [|d [|e [|f [|]]]]; try discriminate L2.
  destruct r3 as [|g [|h [|i [|]]]]; try discriminate L3.
  repeat eexists.
Qed.

Lemma dims2 (m : cmat) : dims m 2 2 -> exists a b c d, m = [[a; b]; [c; d]].
Proof.
  intros [L R]. destruct m as [|r1 [|r2 [|]]]; try discriminate L.
  assert (L1 := R r1 (or_introl eq_refl)). assert (L2 := R r2 (or_intror (or_introl eq_refl))).
  destruct r1 as [|a [|b [|]]]; try discriminate L1.
  destruct r2 as [|d [|e [|]]]; try discriminate L2.
  repeat eexists.
Qed.

(** Explicit entries. *)
Lemma seq3_entries a b c d e f g h i :
  get_sequence_impedance_matrix [[a; b; c]; [d; e; f]; [g; h; i]] =
  [[cmul third (cadd (cadd (cadd a b) c) (cadd (cadd (cadd d e) f) (cadd (cadd g h) i)));
    cmul third (cadd (cadd (cadd a (cmul b alpha2)) (cmul c alpha)) (cadd (cadd (cadd d (cmul e alpha2)) (cmul f alpha)) (cadd (cadd g (cmul h alpha2)) (cmul i alpha))));
    cmul third (cadd (cadd (cadd a (cmul b alpha)) (cmul c alpha2)) (cadd (cadd (cadd d (cmul e alpha)) (cmul f alpha2)) (cadd (cadd g (cmul h alpha)) (cmul i alpha2))))];
   [cmul third (cadd (cadd (cadd a b) c) (cadd (cmul alpha (cadd (cadd d e) f)) (cmul alpha2 (cadd (cadd g h) i))));
    cmul third (cadd (cadd (cadd a (cmul b alpha2)) (cmul c alpha)) (cadd (cmul alpha (cadd (cadd d (cmul e alpha2)) (cmul f alpha))) (cmul alpha2 (cadd (cadd g (cmul h alpha2)) (cmul i alpha)))));
    cmul third (cadd (cadd (cadd a (cmul b alpha)) (cmul c alpha2)) (cadd (cmul alpha (cadd (cadd d (cmul e alpha)) (cmul f alpha2))) (cmul alpha2 (cadd (cadd g (cmul h alpha)) (cmul i alpha2)))))];
   [cmul third (cadd (cadd (cadd a b) c) (cadd (cmul alpha2 (cadd (cadd d e) f)) (cmul alpha (cadd (cadd g h) i))));
    cmul third (cadd (cadd (cadd a (cmul b alpha2)) (cmul c alpha)) (cadd (cmul alpha2 (cadd (cadd d (cmul e alpha2)) (cmul f alpha))) (cmul alpha (cadd (cadd g (cmul h alpha2)) (cmul i alpha)))));
    cmul third (cadd (cadd (cadd a (cmul b alpha)) (cmul c alpha2)) (cadd (cmul alpha2 (cadd (cadd d (cmul e alpha)) (cmul f alpha2))) (cmul alpha (cadd (cadd g (cmul h alpha)) (cmul i alpha2)))))]].
Proof.
  unfold get_sequence_impedance_matrix. cbn [shape_is length forallb Nat.eqb andb].
  unfold seq_A, seq_A_inv. rewrite !rot_alpha, !alpha_sq.
  unfold cdot, mdot, tabulate. cbn [length width seq map sum_upto entry get2 nth_error].
  repeat (apply f_equal2 || (apply f_equal)); try reflexivity; ring.
Qed.

Lemma alpha_rel : cmul alpha alpha = csub (copp c1) alpha.
Proof.
  rewrite alpha_sq. transitivity (csub (cadd c1 (cadd alpha alpha2)) (cadd c1 alpha)); [ring|].
  rewrite alpha_sum. ring.
Qed.

Lemma alpha2_rel : alpha2 = csub (copp c1) alpha.
Proof. rewrite <- alpha_sq. exact alpha_rel. Qed.

Lemma times_third x : x = cmul third (cmul (cadd c1 (cadd c1 c1)) x).
Proof.
  transitivity (cmul (cmul third (cadd c1 (cadd c1 c1))) x); [rewrite third_three; ring|ring].
Qed.

(** Voltages computed in sequence quantities are the voltages computed in phase quantities. *)
Lemma seq3_similarity m : dims m 3 3 ->
  exists ra rb rc s0 s1 s2, m = [ra; rb; rc] /\ get_sequence_impedance_matrix m = [s0; s1; s2] /\
    dims (get_sequence_impedance_matrix m) 3 3 /\
    forall z p n : C,
      let i := (z, p, n) in
      let v := (row3 s0 z p n, row3 s1 z p n, row3 s2 z p n) in
      row3 ra (phase_a i) (phase_b i) (phase_c i) = phase_a v /\
      row3 rb (phase_a i) (phase_b i) (phase_c i) = phase_b v /\
      row3 rc (phase_a i) (phase_b i) (phase_c i) = phase_c v.
Proof.
  intros D. destruct (dims3 m D) as (a & b & c & d & e & f & g & h & i & ->).
  rewrite seq3_entries. do 6 eexists. split; [reflexivity|]. split; [reflexivity|]. split.
  - split; [reflexivity|]. intros row Hr. repeat (destruct Hr as [<-|Hr]; [reflexivity|]). destruct Hr.
  - intros z p n. cbn zeta. unfold phase_a, phase_b, phase_c, row3. cbn [nth].
    rewrite !alpha2_rel. pose proof alpha_rel as HA. revert HA. generalize alpha. intros al HA.
    split; [|split]; match goal with |- ?x = _ => rewrite (times_third x) end; ring [HA].
Qed.

Lemma seq3_balanced zs zm :
  get_sequence_impedance_matrix [[zs; zm; zm]; [zm; zs; zm]; [zm; zm; zs]] =
  [[cadd zs (cadd zm zm); c0; c0]; [c0; csub zs zm; c0]; [c0; c0; csub zs zm]].
Proof.
  rewrite seq3_entries. rewrite !alpha2_rel. pose proof alpha_rel as HA. revert HA. generalize alpha. intros al HA.
  repeat (apply f_equal2); try reflexivity;
    match goal with |- _ = ?x => rewrite (times_third x) end; ring [HA].
Qed.

Lemma half_half x : x = cmul (1 / 2, 0) (cadd x x).
Proof. destruct x as [a b]. unfold cmul, cadd; simpl. f_equal; field. Qed.

Lemma seq2_entries a b c d :
  get_sequence_impedance_matrix [[a; b]; [c; d]] =
  [[cmul (1 / 2, 0) (cadd (cadd a b) (cadd c d)); cmul (1 / 2, 0) (cadd (csub a b) (csub c d))];
   [cmul (1 / 2, 0) (csub (cadd a b) (cadd c d)); cmul (1 / 2, 0) (csub (csub a b) (csub c d))]].
Proof.
  unfold get_sequence_impedance_matrix. cbn [shape_is length forallb Nat.eqb andb].
  unfold seq_A2, seq_A2_inv, cdot, mdot, tabulate. cbn [length width seq map sum_upto entry get2 nth_error].
  replace ((-1, 0) : C) with (copp c1) by (unfold copp, c1; simpl; f_equal; lra).
  replace ((- (1 / 2), 0) : C) with (copp (1 / 2, 0)) by (unfold copp; simpl; f_equal; lra).
  repeat (apply f_equal2); try reflexivity; ring.
Qed.

Lemma seq2_similarity m : dims m 2 2 ->
  exists ra rb s0 s1, m = [ra; rb] /\ get_sequence_impedance_matrix m = [s0; s1] /\
    dims (get_sequence_impedance_matrix m) 2 2 /\
    forall x y : C,
      row2 ra (cadd x y) (csub x y) = cadd (row2 s0 x y) (row2 s1 x y) /\
      row2 rb (cadd x y) (csub x y) = csub (row2 s0 x y) (row2 s1 x y).
Proof.
  intros D. destruct (dims2 m D) as (a & b & c & d & ->). rewrite seq2_entries.
  do 4 eexists. split; [reflexivity|]. split; [reflexivity|]. split.
  - split; [reflexivity|]. intros row Hr. repeat (destruct Hr as [<-|Hr]; [reflexivity|]). destruct Hr.
  - intros x y. unfold row2. cbn [nth].
    split; match goal with |- ?x = _ => rewrite (half_half x) end; ring.
Qed.

Lemma seq_other m : ~ dims m 3 3 -> ~ dims m 2 2 -> get_sequence_impedance_matrix m = [].
Proof.
  intros H3 H2. unfold get_sequence_impedance_matrix.
  destruct (shape_is m 3) eqn:E3; [apply shape_is_dims in E3; contradiction|].
  destruct (shape_is m 2) eqn:E2; [apply shape_is_dims in E2; contradiction|]. reflexivity.
Qed.

(** ** compute_matrix *)
Lemma pylog_ok x : 0 < x -> pylog x = Ok (ln x).
Proof. intros H. unfold pylog. destruct (Rlt_dec 0 x); [reflexivity|contradiction]. Qed.

Lemma pydiv_ok a b : b <> 0 -> pydiv a b = Ok (a / b).
Proof. intros H. unfold pydiv. destruct (Req_EM_T b 0); [contradiction|reflexivity]. Qed.

Lemma log_term_inv f rho x r : log_term f rho x = Ok r ->
  0 < x /\ f <> 0 /\ 0 < rho / f /\ r = ln (1 / x) + 76786 / 10000 + 1 / 2 * ln (rho / f).
Proof.
  unfold log_term, pydiv, pylog. destruct (Req_EM_T x 0) as [|Nx]; [discriminate|]. cbn [bind].
  destruct (Rlt_dec 0 (1 / x)) as [Px|]; [|discriminate]. cbn [bind].
  destruct (Req_EM_T f 0) as [|Nf]; [discriminate|]. cbn [bind].
  destruct (Rlt_dec 0 (rho / f)) as [Pr|]; [|discriminate]. cbn [bind]. intros E. injection E as <-.
  split; [|auto]. destruct (Rlt_dec 0 x) as [H|H]; [exact H|]. exfalso.
  assert (x < 0) by lra. pose proof (Rinv_lt_0_compat x H0). unfold Rdiv in Px. lra.
Qed.

Lemma log_term_ok f rho x : 0 < x -> 0 < f -> 0 < rho ->
  log_term f rho x = Ok (ln (1 / x) + 76786 / 10000 + 1 / 2 * ln (rho / f)).
Proof.
  intros Hx Hf Hr. unfold log_term. rewrite pydiv_ok by lra. cbn [bind].
  rewrite pylog_ok by (unfold Rdiv; rewrite Rmult_1_l; apply Rinv_0_lt_compat; exact Hx). cbn [bind].
  rewrite pydiv_ok by lra. cbn [bind].
  rewrite pylog_ok by (unfold Rdiv; apply Rmult_lt_0_compat; [exact Hr|apply Rinv_0_lt_compat; exact Hf]). reflexivity.
Qed.

Lemma self_z_value f rho w z : self_z f rho w = Ok z -> z = self_impedance f rho w.
Proof.
  unfold self_z, self_impedance. destruct (w_res w) as [r|], (w_gmr w) as [g|]; try (intros E; injection E; auto).
  destruct (log_term f rho g) as [l|] eqn:E; [|discriminate]. cbn [bind]. intros Q. injection Q as <-.
  apply log_term_inv in E as (_ & _ & _ & ->). reflexivity.
Qed.

Lemma sq_pow x : x * x = x ^ 2.
Proof. ring. Qed.

Lemma mutual_z_value f rho w w' z : mutual_z f rho w w' = Ok z -> z = mutual_impedance f rho w w'.
Proof.
  unfold mutual_z, mutual_impedance, wire_distance.
  destruct (w_x w), (w_y w), (w_x w'), (w_y w'); try (intros E; injection E; auto).
  destruct (log_term f rho _) as [l|] eqn:E; [|discriminate]. cbn [bind]. intros Q. injection Q as <-.
  apply log_term_inv in E as (_ & _ & _ & ->). rewrite !sq_pow. reflexivity.
Qed.

Lemma mutual_sym f rho w w' : mutual_impedance f rho w w' = mutual_impedance f rho w' w.
Proof.
  unfold mutual_impedance, wire_distance. destruct (w_x w), (w_y w), (w_x w'), (w_y w'); try reflexivity.
  do 2 f_equal. f_equal. ring.
Qed.

Lemma wire_map_position p i : wire_map p = Some i <-> phase_position p i.
Proof.
  unfold wire_map, phase_position. cbn [dget].
  repeat match goal with |- context [String.eqb ?a p] => destruct (String.eqb_spec a p) as [<-|] end;
    split; intros H; try discriminate; try (injection H as <-; tauto);
    repeat destruct H as [[? ?]|H]; try congruence; destruct H; congruence.
Qed.

Lemma position_bound p i : phase_position p i -> (i < 4)%nat.
Proof. unfold phase_position. intuition lia. Qed.

Lemma position_fun p i j : phase_position p i -> phase_position p j -> i = j.
Proof. rewrite <- !wire_map_position. congruence. Qed.

Lemma position_inj p q i : phase_position p i -> phase_position q i -> p = q.
Proof. unfold phase_position. intuition (subst; auto; discriminate). Qed.

Lemma named_phases_In ws p : In p (named_phases ws) <-> exists w, In w ws /\ w_phase w = Some p.
Proof.
  induction ws as [|w ws IH]; simpl; [split; [tauto|intros (? & [] & _)]|].
  destruct (w_phase w) as [q|] eqn:E.
  - simpl. rewrite IH. split.
    + intros [->|(w' & H & K)]; [exists w; auto|exists w'; auto].
    + intros (w' & [<-|H] & K); [left; congruence|right; exists w'; auto].
  - rewrite IH. split; [intros (w' & H & K); exists w'; auto|].
    intros (w' & [<-|H] & K); [congruence|exists w'; auto].
Qed.

Lemma named_phases_nth ws i j w w' p : NoDup (named_phases ws) ->
  nth_error ws i = Some w -> nth_error ws j = Some w' -> w_phase w = Some p -> w_phase w' = Some p -> i = j.
Proof.
  revert i j. induction ws as [|v ws IH]; intros i j ND Hi Hj Hp Hp'; [destruct i; discriminate|].
  simpl in ND. destruct i as [|i], j as [|j]; [reflexivity| | |].
  - injection Hi as ->. rewrite Hp in ND. inversion ND as [|? ? N _]; subst. exfalso. apply N.
    apply named_phases_In. exists w'. split; [eapply nth_error_In; exact Hj|exact Hp'].
  - injection Hj as ->. rewrite Hp' in ND. inversion ND as [|? ? N _]; subst. exfalso. apply N.
    apply named_phases_In. exists w. split; [eapply nth_error_In; exact Hi|exact Hp].
  - f_equal. apply IH; try assumption. destruct (w_phase v); [inversion ND; assumption|exact ND].
Qed.

Section Loop.
  Variables (f rho : R) (ws : list wire).
  Hypothesis ND : NoDup (named_phases ws).
  Let n := length ws.

  (** The pair of wires [(i, j)] writes [z] at [(a, b)]. *)
  Definition writes (i j a b : nat) (z : C) : Prop :=
    exists w w' p q, nth_error ws i = Some w /\ nth_error ws j = Some w' /\ w_phase w = Some p /\ w_phase w' = Some q /\
      phase_position p a /\ phase_position q b /\
      z = (if (i =? j)%nat then self_impedance f rho w else mutual_impedance f rho w w').

  Definition done (i j i' j' : nat) : Prop := (i' < i)%nat /\ (j' < n)%nat \/ i' = i /\ (j' < j)%nat.

  Definition minv (m : cmat) (i j : nat) : Prop :=
    dims m 4 4 /\
    (forall i' j' a b z, done i j i' j' -> writes i' j' a b z -> get2 m a b = Some z) /\
    (forall a b, (a < 4)%nat -> (b < 4)%nat -> (forall i' j' z, done i j i' j' -> ~ writes i' j' a b z) ->
       get2 m a b = Some c0).

  Lemma writes_inj i j i' j' a b z z' : writes i j a b z -> writes i' j' a b z' -> i = i' /\ j = j' /\ z = z'.
  Proof.
    intros (w & w' & p & q & Hi & Hj & Hp & Hq & Pa & Pb & ->) (v & v' & p' & q' & Hi' & Hj' & Hp' & Hq' & Pa' & Pb' & ->).
    assert (p = p') by (eapply position_inj; eassumption). subst p'.
    assert (q = q') by (eapply position_inj; eassumption). subst q'.
    assert (i = i') by (eapply named_phases_nth; eassumption). subst i'.
    assert (j = j') by (eapply named_phases_nth; eassumption). subst j'.
    split; [reflexivity|]. split; [reflexivity|]. assert (v = w) by congruence. assert (v' = w') by congruence. subst. reflexivity.
  Qed.

  Lemma minv_none m i j : (forall a b z, ~ writes i j a b z) -> minv m i j -> minv m i (j + 1).
  Proof.
    intros No (D & W & Z). split; [exact D|]. split.
    - intros i' j' a b z H Hw. apply (W i' j'); [|exact Hw].
      destruct H as [H|[-> H]]; [left; exact H|]. destruct (Nat.eq_dec j' j) as [->|]; [destruct (No _ _ _ Hw)|right; lia].
    - intros a b Ha Hb H. apply Z; [exact Ha|exact Hb|]. intros i' j' z Hd. apply H. unfold done in *. lia.
  Qed.

  Lemma put_step m i j p q a b z m' : minv m i j -> writes i j a b z ->
    wire_map p = Some a -> wire_map q = Some b -> put m (Some p) (Some q) z = Ok m' -> minv m' i (j + 1).
  Proof.
    intros (D & W & Z) Hw Ha Hb. unfold put. rewrite Ha, Hb. cbn [of_opt bind].
    destruct (set2_spec m 4 4 a b z D) as [(Ba & Bb & m2 & -> & D' & G)|[_ ->]]; [|discriminate].
    intros E. injection E as <-. split; [exact D'|]. split.
    - intros i' j' a' b' z' Hd Hw'. rewrite G.
      destruct (Nat.eqb_spec a' a) as [->|Na], (Nat.eqb_spec b' b) as [->|Nb]; cbn [andb].
      + destruct (writes_inj _ _ _ _ _ _ _ _ Hw Hw') as (_ & _ & ->). reflexivity.
      + apply (W i' j'); [|exact Hw']. destruct Hd as [Hd|[-> Hd]]; [left; exact Hd|right].
        destruct (Nat.eq_dec j' j) as [->|]; [|lia]. exfalso. apply Nb.
        destruct Hw as (w1 & w2 & p1 & p2 & A1 & A2 & A3 & A4 & _ & A6 & _), Hw' as (v1 & v2 & q1 & q2 & B1 & B2 & B3 & B4 & _ & B6 & _).
        apply (position_fun p2); congruence.
      + apply (W i' j'); [|exact Hw']. destruct Hd as [Hd|[-> Hd]]; [left; exact Hd|right].
        destruct (Nat.eq_dec j' j) as [->|]; [|lia]. exfalso. apply Na.
        destruct Hw as (w1 & w2 & p1 & p2 & A1 & A2 & A3 & A4 & A5 & _), Hw' as (v1 & v2 & q1 & q2 & B1 & B2 & B3 & B4 & B5 & _).
        apply (position_fun p1); congruence.
      + apply (W i' j'); [|exact Hw']. destruct Hd as [Hd|[-> Hd]]; [left; exact Hd|right].
        destruct (Nat.eq_dec j' j) as [->|]; [|lia]. exfalso. apply Na.
        destruct Hw as (w1 & w2 & p1 & p2 & A1 & A2 & A3 & A4 & A5 & _), Hw' as (v1 & v2 & q1 & q2 & B1 & B2 & B3 & B4 & B5 & _).
        apply (position_fun p1); congruence.
    - intros a' b' Ba' Bb' H. rewrite G. destruct (Nat.eqb_spec a' a) as [->|Na], (Nat.eqb_spec b' b) as [->|Nb]; cbn [andb].
      + exfalso. apply (H i j z); [right; lia|exact Hw].
      + apply Z; [exact Ba'|exact Bb'|]. intros i' j' z' Hd. apply H. unfold done in *. lia.
      + apply Z; [exact Ba'|exact Bb'|]. intros i' j' z' Hd. apply H. unfold done in *. lia.
      + apply Z; [exact Ba'|exact Bb'|]. intros i' j' z' Hd. apply H. unfold done in *. lia.
  Qed.

  Lemma cell_inv m i j m' : minv m i j -> matrix_cell f rho ws i m j = Ok m' -> minv m' i (j + 1).
  Proof.
    intros HI. unfold matrix_cell.
    destruct (nth_error ws i) as [w|] eqn:Ei; [|discriminate]. destruct (nth_error ws j) as [w'|] eqn:Ej; [|discriminate].
    cbn [of_opt bind].
    assert (Gen : forall z, z = (if (i =? j)%nat then self_impedance f rho w else mutual_impedance f rho w w') ->
      put m (w_phase w) (w_phase w') z = Ok m' -> minv m' i (j + 1)).
    { intros z Ez P. destruct (w_phase w) as [p|] eqn:Ep, (w_phase w') as [q|] eqn:Eq.
      - unfold put in P. destruct (wire_map p) as [a|] eqn:Ea; [|discriminate]. destruct (wire_map q) as [b|] eqn:Eb; [|discriminate].
        apply (put_step m i j p q a b z m' HI); try assumption.
        + exists w, w', p, q. rewrite <- !wire_map_position. auto 10.
        + unfold put. rewrite Ea, Eb. exact P.
      - injection P as <-. apply minv_none; [|exact HI].
        intros a b z0 (v & v' & p' & q' & B1 & B2 & B3 & B4 & _). congruence.
      - injection P as <-. apply minv_none; [|exact HI].
        intros a b z0 (v & v' & p' & q' & B1 & B2 & B3 & B4 & _). congruence.
      - injection P as <-. apply minv_none; [|exact HI].
        intros a b z0 (v & v' & p' & q' & B1 & B2 & B3 & B4 & _). congruence. }
    destruct (Nat.eqb_spec i j) as [->|Nij].
    - destruct (self_z f rho w) as [z|] eqn:Ez; [|discriminate]. cbn [bind]. intros P.
      assert (w' = w) by congruence. subst w'.
      apply (Gen z); [|exact P]. apply self_z_value. exact Ez.
    - destruct (mutual_z f rho w w') as [z|] eqn:Ez; [|discriminate]. cbn [bind]. intros P.
      apply (Gen z); [|exact P]. apply mutual_z_value. exact Ez.
  Qed.

  Lemma foldM_seq_inv {S} (g : S -> nat -> res S) (I : S -> nat -> Prop) len : forall a s s',
    I s a -> (forall s1 j s2, (a <= j < a + len)%nat -> I s1 j -> g s1 j = Ok s2 -> I s2 (j + 1)%nat) ->
    foldM g (seq a len) s = Ok s' -> I s' (a + len)%nat.
  Proof.
    induction len as [|len IH]; intros a s s' HI H E.
    - injection E as <-. rewrite Nat.add_0_r. exact HI.
    - cbn [seq foldM] in E. destruct (g s a) as [s1|] eqn:Eg; [|discriminate].
      replace (a + Datatypes.S len)%nat with (Datatypes.S a + len)%nat by lia.
      apply (IH _ s1); [|intros; eapply H; eauto; lia|exact E].
      replace (Datatypes.S a) with (a + 1)%nat by lia. apply (H s); [lia|exact HI|exact Eg].
  Qed.

  Lemma loop_inv m :
    foldM (fun m i => foldM (matrix_cell f rho ws i) (seq 0 (length ws)) m) (seq 0 (length ws))
      (tabulate 4 4 (fun _ _ => c0)) = Ok m -> minv m n 0.
  Proof.
    intros E. apply (foldM_seq_inv _ (fun m i => minv m i 0) n 0 _ m) in E; [exact E| |].
    - split; [apply tabulate_dims|]. split; [intros i' j' a b z [H|H]; lia|]. intros a b Ha Hb _. apply tabulate_get; assumption.
    - intros s1 i s2 Hi HI E1. apply (foldM_seq_inv _ (fun m j => minv m i j) n 0 _ s2 HI) in E1.
      + destruct E1 as (D & W & Z). split; [exact D|]. split.
        * intros i' j' a b z Hd. apply W. unfold done in *. lia.
        * intros a b Ha Hb H. apply Z; [exact Ha|exact Hb|]. intros i' j' z Hd Hw. apply (H i' j' z); [|exact Hw].
          unfold done in *. lia.
      + intros s3 j s4 _ HI3 E3. eapply cell_inv; eassumption.
  Qed.

  Lemma writes_nth i j a b z : writes i j a b z -> (i < n)%nat /\ (j < n)%nat.
  Proof.
    intros (w & w' & p & q & Hi & Hj & _). split; apply nth_error_Some; congruence.
  Qed.

  Lemma writes_of w w' p q a b : In w ws -> In w' ws -> w_phase w = Some p -> w_phase w' = Some q ->
    phase_position p a -> phase_position q b ->
    exists i j, writes i j a b (if (a =? b)%nat then self_impedance f rho w else mutual_impedance f rho w w').
  Proof.
    intros Hw Hw' Hp Hq Pa Pb. apply In_nth_error in Hw as (i & Hi). apply In_nth_error in Hw' as (j & Hj).
    exists i, j. exists w, w', p, q. repeat (split; [assumption|]).
    destruct (Nat.eqb_spec a b) as [Eab|Nab], (Nat.eqb_spec i j) as [Eij|Nij]; try reflexivity.
    - subst b. assert (p = q) by (eapply position_inj; eassumption). subst q. exfalso. apply Nij.
      eapply named_phases_nth; eassumption.
    - subst j. assert (w' = w) by congruence. subst w'. exfalso. apply Nab. apply (position_fun p); congruence.
  Qed.

  (** The 4 by 4 matrix is the primitive matrix. *)
  Lemma loop_prim m : foldM (fun m i => foldM (matrix_cell f rho ws i) (seq 0 (length ws)) m) (seq 0 (length ws))
      (tabulate 4 4 (fun _ _ => c0)) = Ok m ->
    dims m 4 4 /\ forall a b z, (a < 4)%nat -> (b < 4)%nat -> (cell m a b z <-> prim f rho ws a b z).
  Proof.
    intros E. apply loop_inv in E as (D & W & Z). split; [exact D|].
    assert (Fwd : forall a b z, (a < 4)%nat -> (b < 4)%nat -> prim f rho ws a b z -> get2 m a b = Some z).
    { intros a b z Ha Hb [H|[H|[[H ->]|[H ->]]]].
      - destruct H as (w & p & Hw & Hp & Pa & <- & ->).
        destruct (writes_of w w p p a a Hw Hw Hp Hp Pa Pa) as (i & j & Wr). rewrite Nat.eqb_refl in Wr.
        destruct (writes_nth _ _ _ _ _ Wr). apply (W i j); [left; split; lia|exact Wr].
      - destruct H as (w & w' & p & q & Hw & Hw' & Hp & Hq & Pa & Pb & Nab & ->).
        destruct (writes_of w w' p q a b Hw Hw' Hp Hq Pa Pb) as (i & j & Wr).
        destruct (Nat.eqb_spec a b); [contradiction|].
        destruct (writes_nth _ _ _ _ _ Wr). apply (W i j); [left; split; lia|exact Wr].
      - apply Z; [exact Ha|exact Hb|]. intros i' j' z _ (w & w' & p & q & Hi & _ & Hp & _ & Pa & _).
        apply (H w p); [eapply nth_error_In; exact Hi|exact Hp|exact Pa].
      - apply Z; [exact Ha|exact Hb|]. intros i' j' z _ (w & w' & p & q & _ & Hj & _ & Hq & _ & Pb & _).
        apply (H w' q); [eapply nth_error_In; exact Hj|exact Hq|exact Pb]. }
    assert (Tot : forall a b, (a < 4)%nat -> (b < 4)%nat -> exists z, prim f rho ws a b z).
    { assert (Dec : forall a, (exists w p, In w ws /\ w_phase w = Some p /\ phase_position p a) \/
                              (forall w p, In w ws -> w_phase w = Some p -> ~ phase_position p a)).
      { intros a. destruct (existsb (fun w => match w_phase w with
            | Some p => match wire_map p with Some i => (i =? a)%nat | None => false end | None => false end) ws) eqn:Ex.
        - left. apply existsb_exists in Ex as (w & Hw & Hb). destruct (w_phase w) as [p|] eqn:Hp; [|discriminate].
          destruct (wire_map p) as [i|] eqn:Hm; [|discriminate]. apply Nat.eqb_eq in Hb. subst i.
          exists w, p. rewrite <- wire_map_position. auto.
        - right. intros w p Hw Hp Pa. rewrite <- not_true_iff_false in Ex. apply Ex. apply existsb_exists. exists w.
          split; [exact Hw|]. rewrite Hp. rewrite <- wire_map_position in Pa. rewrite Pa. apply Nat.eqb_refl. }
      intros a b Ha Hb. destruct (Dec a) as [(w & p & Hw & Hp & Pa)|Na]; [|exists c0; right; right; left; auto].
      destruct (Dec b) as [(w' & q & Hw' & Hq & Pb)|Nb]; [|exists c0; right; right; right; auto].
      destruct (Nat.eq_dec a b) as [->|Nab].
      - eexists. left. exists w, p. eauto 10.
      - eexists. right. left. exists w, w', p, q. eauto 10. }
    intros a b z Ha Hb. rewrite <- get2_cell. split; [|apply Fwd; assumption].
    intros E. destruct (Tot a b Ha Hb) as (z' & Hz'). rewrite (Fwd a b z' Ha Hb Hz') in E. injection E as <-. exact Hz'.
  Qed.
End Loop.

Lemma seq_entries3 m : dims m 3 3 ->
  exists s0 s1 s2, get_sequence_impedance_matrix m = [s0; s1; s2] /\
    get_seq_entry 0 (get_sequence_impedance_matrix m) = Ok (row3 s0 c1 c0 c0) /\
    get_seq_entry 1 (get_sequence_impedance_matrix m) = Ok (row3 s1 c0 c1 c0) /\
    get_seq_entry 2 (get_sequence_impedance_matrix m) = Ok (row3 s2 c0 c0 c1).
Proof.
  intros D. destruct (seq3_similarity m D) as (ra & rb & rc & s0 & s1 & s2 & _ & E & (_ & H) & _). exists s0, s1, s2. split; [exact E|]. rewrite E in *.
  assert (L : forall s, In s [s0; s1; s2] -> exists a b c, s = [a; b; c]).
  { intros s Hs. specialize (H s Hs). destruct s as [|a [|b [|c [|? ?]]]]; try discriminate. eauto. }
  destruct (L s0) as (a0 & b0 & d0 & ->); [cbn; auto|]. destruct (L s1) as (a1 & b1 & d1 & ->); [cbn; auto|]. destruct (L s2) as (a2 & b2 & d2 & ->); [cbn; auto|].
  unfold get_seq_entry, row3. cbn [get2 nth_error of_opt nth]. split; [|split]; f_equal; ring.
Qed.
