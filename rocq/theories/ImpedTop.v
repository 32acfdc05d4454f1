(** compute_matrix: results. *)
From Coq Require Import Reals Ring Field Lra Permutation.
From Verif Require Import Base BaseFacts MatrixModel MatrixSpec MatrixProofs KronProofs KronTop ImpedModel ImpedSpec ImpedProofs.
Local Open Scope string_scope.
Local Open Scope list_scope.
Local Open Scope R_scope.

Definition loop (f rho : R) (ws : list wire) : res cmat :=
  foldM (fun m i => foldM (matrix_cell f rho ws i) (seq 0 (length ws)) m) (seq 0 (length ws))
    (tabulate 4 4 (fun _ _ => c0)).

(** ** When the loops succeed *)
Lemma mutual_z_sym f rho w w' : mutual_z f rho w w' = mutual_z f rho w' w.
Proof.
  unfold mutual_z. destruct (w_x w), (w_y w), (w_x w'), (w_y w'); try reflexivity.
  replace (sqrt ((r1 - r) * (r1 - r) + (r2 - r0) * (r2 - r0)))
    with (sqrt ((r - r1) * (r - r1) + (r0 - r2) * (r0 - r2))); [reflexivity|]. f_equal. ring.
Qed.

Lemma foldM_each {A S} (g : S -> A -> res S) l : forall s s', foldM g l s = Ok s' ->
  forall x, In x l -> exists s1 s2, g s1 x = Ok s2.
Proof.
  induction l as [|y l IH]; intros s s' E x Hx; [destruct Hx|]. cbn [foldM] in E.
  destruct (g s y) as [s1|] eqn:Eg; [|discriminate]. destruct Hx as [<-|Hx]; [eauto|]. eapply IH; eassumption.
Qed.

Definition pairs_ok (f rho : R) (ws : list wire) : Prop :=
  forall i j w w', i <> j -> nth_error ws i = Some w -> nth_error ws j = Some w' -> exists z, mutual_z f rho w w' = Ok z.

Definition wires_ok (f rho : R) (ws : list wire) : Prop :=
  forall w, In w ws -> (exists z, self_z f rho w = Ok z) /\ (forall p, w_phase w = Some p -> exists i, wire_map p = Some i).

Lemma loop_ok_iff f rho ws : (exists m, loop f rho ws = Ok m) <-> wires_ok f rho ws /\ pairs_ok f rho ws.
Proof.
  split.
  - intros (m & E). unfold loop in E.
    assert (Each : forall i j, (i < length ws)%nat -> (j < length ws)%nat -> exists s1 s2, matrix_cell f rho ws i s1 j = Ok s2).
    { intros i j Hi Hj. destruct (foldM_each _ _ _ _ E i) as (s1 & s2 & Ei); [apply in_seq; lia|].
      apply (foldM_each _ _ _ _ Ei j). apply in_seq. lia. }
    split.
    + intros w Hw. apply In_nth_error in Hw as (i & Hi).
      assert (Li : (i < length ws)%nat) by (apply nth_error_Some; congruence).
      destruct (Each i i Li Li) as (s1 & s2 & Ec). unfold matrix_cell in Ec. rewrite Hi in Ec. cbn [of_opt bind] in Ec.
      rewrite Nat.eqb_refl in Ec. destruct (self_z f rho w) as [z|]; [|discriminate]. cbn [bind] in Ec. split; [eauto|].
      intros p Hp. rewrite Hp in Ec. unfold put in Ec. destruct (wire_map p) as [a|]; [eauto|discriminate].
    + intros i j w w' Nij Hi Hj.
      assert (Li : (i < length ws)%nat) by (apply nth_error_Some; congruence).
      assert (Lj : (j < length ws)%nat) by (apply nth_error_Some; congruence).
      destruct (Each i j Li Lj) as (s1 & s2 & Ec). unfold matrix_cell in Ec. rewrite Hi, Hj in Ec. cbn [of_opt bind] in Ec.
      apply Nat.eqb_neq in Nij. rewrite Nij in Ec. destruct (mutual_z f rho w w') as [z|]; [eauto|discriminate].
  - intros [HW HP].
    assert (Cell : forall i j m, (i < length ws)%nat -> (j < length ws)%nat -> dims m 4 4 ->
      exists m', matrix_cell f rho ws i m j = Ok m' /\ dims m' 4 4).
    { intros i j m Hi Hj D. unfold matrix_cell.
      destruct (nth_error ws i) as [w|] eqn:Ei; [|apply nth_error_None in Ei; lia].
      destruct (nth_error ws j) as [w'|] eqn:Ej; [|apply nth_error_None in Ej; lia]. cbn [of_opt bind].
      assert (Put : forall z, exists m', put m (w_phase w) (w_phase w') z = Ok m' /\ dims m' 4 4).
      { intros z. unfold put. destruct (w_phase w) as [p|] eqn:Ep; [|eauto]. destruct (w_phase w') as [q|] eqn:Eq; [|eauto].
        destruct (proj2 (HW w (nth_error_In _ _ Ei)) p Ep) as (a & Ea).
        destruct (proj2 (HW w' (nth_error_In _ _ Ej)) q Eq) as (b & Eb). rewrite Ea, Eb. cbn [of_opt bind].
        destruct (set2_spec m 4 4 a b z D) as [(Ba & Bb & m2 & E2 & D2 & _)|[B _]]; [eauto|].
        exfalso. apply B. apply wire_map_position, position_bound in Ea. apply wire_map_position, position_bound in Eb. auto. }
      destruct (Nat.eqb_spec i j) as [->|Nij].
      - assert (w' = w) by congruence. subst w'. destruct (proj1 (HW w (nth_error_In _ _ Ei))) as (z & Ez). rewrite Ez. cbn [bind]. apply Put.
      - destruct (HP i j w w' Nij Ei Ej) as (z & Ez). rewrite Ez. cbn [bind]. apply Put. }
    unfold loop.
    destruct (foldM_seq (fun m i => foldM (matrix_cell f rho ws i) (seq 0 (length ws)) m) (fun m _ => dims m 4 4) EFuel False
      (length ws) 0 (tabulate 4 4 (fun _ _ => c0))) as [(m & E & _)|[_ []]]; [apply tabulate_dims| |eauto].
    intros m i Hi D. left.
    destruct (foldM_seq (matrix_cell f rho ws i) (fun m _ => dims m 4 4) EFuel False (length ws) 0 m D) as [(m' & E & D')|[_ []]].
    + intros m1 j Hj D1. left. apply Cell; [lia|lia|exact D1].
    + eauto.
Qed.

Lemma pairs_ForallOrd {A} (Q : A -> A -> Prop) (l : list A) : (forall x y, Q x y -> Q y x) ->
  ((forall i j x y, i <> j -> nth_error l i = Some x -> nth_error l j = Some y -> Q x y) <-> ForallOrdPairs Q l).
Proof.
  intros Sym. split.
  - induction l as [|a l IH]; intros H; constructor.
    + apply Forall_forall. intros x Hx. apply In_nth_error in Hx as (i & Hi). apply (H 0%nat (S i)); [discriminate|reflexivity|exact Hi].
    + apply IH. intros i j x y N Hi Hj. apply (H (S i) (S j)); [congruence|exact Hi|exact Hj].
  - induction 1 as [|a l Ha Hl IH]; intros i j x y N Hi Hj; [destruct i; discriminate|].
    rewrite Forall_forall in Ha. destruct i as [|i], j as [|j]; [congruence| | |].
    + injection Hi as <-. apply Ha. eapply nth_error_In. exact Hj.
    + injection Hj as <-. apply Sym, Ha. eapply nth_error_In. exact Hi.
    + apply (IH i j); [congruence|exact Hi|exact Hj].
Qed.

Lemma ForallOrd_perm {A} (Q : A -> A -> Prop) (l l' : list A) : (forall x y, Q x y -> Q y x) ->
  Permutation l l' -> ForallOrdPairs Q l -> ForallOrdPairs Q l'.
Proof.
  intros Sym. induction 1 as [|x l l' P IH|x y l|l l' l'' P1 IH1 P2 IH2]; intros H; [exact H| | |auto].
  - inversion H as [|? ? Ha Hl]; subst. constructor; [|auto]. rewrite Forall_forall in *. intros z Hz. apply Ha.
    eapply Permutation_in; [apply Permutation_sym; exact P|exact Hz].
  - inversion H as [|? ? Ha Hl]; subst. inversion Hl as [|? ? Hb Hl']; subst.
    inversion Ha as [|? ? Q1 Ha']; subst. constructor; [constructor; [apply Sym; exact Q1|exact Hb]|]. constructor; assumption.
Qed.

Lemma named_phases_perm ws ws' : Permutation ws ws' -> Permutation (named_phases ws) (named_phases ws').
Proof.
  induction 1 as [|x l l' P IH|x y l|l l' l'' P1 IH1 P2 IH2]; simpl; [constructor| | |eapply Permutation_trans; eassumption].
  - destruct (w_phase x); [constructor|]; exact IH.
  - destruct (w_phase x), (w_phase y); try apply Permutation_refl. constructor.
Qed.

Lemma prim_perm f rho ws ws' i j z : Permutation ws ws' -> prim f rho ws i j z -> prim f rho ws' i j z.
Proof.
  intros P. assert (I : forall w, In w ws -> In w ws') by (intros w; apply Permutation_in; exact P).
  assert (I' : forall w, In w ws' -> In w ws) by (intros w; apply Permutation_in, Permutation_sym; exact P).
  intros [(w & p & H & H')|[(w & w' & p & q & H & H' & H2)|[[H E]|[H E]]]].
  - left. exists w, p. split; [apply I; exact H|exact H'].
  - right. left. exists w, w', p, q. split; [apply I; exact H|]. split; [apply I; exact H'|exact H2].
  - right. right. left. split; [|exact E]. intros w p Hw. apply H. apply I'. exact Hw.
  - right. right. right. split; [|exact E]. intros w p Hw. apply H. apply I'. exact Hw.
Qed.

Lemma loop_perm f rho ws ws' m : NoDup (named_phases ws) -> Permutation ws ws' ->
  loop f rho ws = Ok m -> loop f rho ws' = Ok m.
Proof.
  intros ND P E. assert (ND' : NoDup (named_phases ws')) by (eapply Permutation_NoDup; [apply named_phases_perm; exact P|exact ND]).
  destruct (proj1 (loop_ok_iff f rho ws)) as [HW HP]; [eauto|].
  assert (Ok' : exists m', loop f rho ws' = Ok m').
  { apply loop_ok_iff. split.
    - intros w Hw. apply HW. eapply Permutation_in; [apply Permutation_sym; exact P|exact Hw].
    - unfold pairs_ok in *. assert (Sym : forall x y, (exists z, mutual_z f rho x y = Ok z) -> exists z, mutual_z f rho y x = Ok z)
        by (intros x y (z & Hz); exists z; rewrite mutual_z_sym; exact Hz).
      apply (pairs_ForallOrd (fun w w' => exists z, mutual_z f rho w w' = Ok z) ws' Sym).
      eapply ForallOrd_perm; [exact Sym|exact P|]. apply (pairs_ForallOrd _ ws Sym). exact HP. }
  destruct Ok' as (m' & E'). rewrite E'. f_equal.
  destruct (loop_prim f rho ws ND m E) as [D C]. destruct (loop_prim f rho ws' ND' m' E') as [D' C'].
  rewrite (dims_tabulate _ c0 m 4 4 D). apply tabulate_ext; [exact D'|]. intros a b Ha Hb.
  apply get2_cell. apply C'; [exact Ha|exact Hb|]. apply (prim_perm f rho ws); [exact P|]. apply C; [exact Ha|exact Hb|].
  apply get2_cell. unfold entry. destruct (dims_nth m 4 4 a D Ha) as (row & Er & Lr). unfold get2. rewrite Er.
  destruct (nth_error row b) eqn:Eb; [reflexivity|]. apply nth_error_None in Eb. lia.
Qed.

Lemma neutral_In ws : existsb is_neutral ws = true <-> exists w, In w ws /\ w_phase w = Some "N".
Proof.
  rewrite existsb_exists. unfold is_neutral. split.
  - intros (w & H & E). exists w. split; [exact H|]. destruct (w_phase w) as [p|]; [|discriminate].
    apply String.eqb_eq in E. congruence.
  - intros (w & H & E). exists w. split; [exact H|]. rewrite E. reflexivity.
Qed.

(** Independence of the order of the wires. *)
Lemma compute_perm ws ws' f rho kr m : NoDup (named_phases ws) -> Permutation ws ws' ->
  compute_matrix ws f rho kr = Ok m -> compute_matrix ws' f rho kr = Ok m.
Proof.
  intros ND P. unfold compute_matrix. fold (loop f rho ws). fold (loop f rho ws').
  destruct (loop f rho ws) as [m0|] eqn:E; [|discriminate]. rewrite (loop_perm f rho ws ws' m0 ND P E). cbn [bind].
  replace (existsb is_neutral ws') with (existsb is_neutral ws); [auto|].
  apply eq_true_iff_eq. rewrite !neutral_In. split; intros (w & H & K); exists w; (split; [|exact K]).
  - eapply Permutation_in; eassumption.
  - eapply Permutation_in; [apply Permutation_sym; exact P|exact H].
Qed.

(** ** The result *)
Add Field c_field_top : c_field.

Lemma prim_sym f rho ws i j z : prim f rho ws i j z -> prim f rho ws j i z.
Proof.
  intros [(w & p & H1 & H2 & H3 & -> & H5)|[(w & w' & p & q & H1 & H2 & H3 & H4 & H5 & H6 & H7 & ->)|[H|H]]].
  - left. exists w, p. auto.
  - right. left. exists w', w, q, p. rewrite mutual_sym. auto 10.
  - right. right. right. exact H.
  - right. right. left. exact H.
Qed.

Lemma prim_entry f rho ws m : NoDup (named_phases ws) -> loop f rho ws = Ok m ->
  forall a b, (a < 4)%nat -> (b < 4)%nat -> prim f rho ws a b (centry m a b).
Proof.
  intros ND E a b Ha Hb. destruct (loop_prim f rho ws ND m E) as [D C]. apply C; [exact Ha|exact Hb|].
  apply get2_cell. unfold centry, entry. destruct (dims_nth m 4 4 a D Ha) as (row & Er & Lr). unfold get2. rewrite Er.
  destruct (nth_error row b) eqn:Eb; [reflexivity|]. apply nth_error_None in Eb. lia.
Qed.

Lemma prim_fun f rho ws m a b z : NoDup (named_phases ws) -> loop f rho ws = Ok m ->
  (a < 4)%nat -> (b < 4)%nat -> prim f rho ws a b z -> centry m a b = z.
Proof.
  intros ND E Ha Hb Hz. destruct (loop_prim f rho ws ND m E) as [D C]. apply C in Hz; [|exact Ha|exact Hb].
  apply get2_cell in Hz. unfold centry, entry. rewrite Hz. reflexivity.
Qed.

Lemma cdiv_inv x y q : cdiv x y = Ok q -> y <> c0 /\ q = cmul x (cinv y).
Proof.
  unfold cdiv. destruct (Req_EM_T (fst y) 0) as [E1|N1].
  - destruct (Req_EM_T (snd y) 0) as [E2|N2]; [discriminate|]. intros E. injection E as <-.
    split; [|reflexivity]. intros ->. apply N2. reflexivity.
  - intros E. injection E as <-. split; [|reflexivity]. intros ->. apply N1. reflexivity.
Qed.

Lemma cdiv_ok x y : y <> c0 -> cdiv x y = Ok (cmul x (cinv y)).
Proof.
  intros N. unfold cdiv. destruct (Req_EM_T (fst y) 0) as [E1|N1]; [|reflexivity].
  destruct (Req_EM_T (snd y) 0) as [E2|N2]; [|reflexivity]. exfalso. apply N. destruct y; simpl in *. unfold c0. congruence.
Qed.

Definition kron3 (m : cmat) : res cmat :=
  mapM (fun i => mapM (fun j =>
      do q <- cdiv (cmul (centry m i 3) c1) (centry m 3 3);
      Ok (csub (centry m i j) (cmul q (centry m 3 j)))) (seq 0 3)) (seq 0 3).

Lemma kron3_ok m r : kron3 m = Ok r <-> centry m 3 3 <> c0 /\
  r = tabulate 3 3 (fun i j => csub (centry m i j) (cmul (cmul (cmul (centry m i 3) c1) (cinv (centry m 3 3))) (centry m 3 j))).
Proof.
  unfold kron3. split.
  - intros E. assert (N : centry m 3 3 <> c0).
    { cbn [mapM seq] in E. destruct (cdiv (cmul (centry m 0 3) c1) (centry m 3 3)) as [q|] eqn:Eq; [|discriminate].
      apply cdiv_inv in Eq. apply Eq. }
    split; [exact N|]. cbn [mapM seq] in E. rewrite !cdiv_ok in E by exact N. cbn [bind] in E. injection E as <-. reflexivity.
  - intros [N ->]. cbn [mapM seq]. rewrite !cdiv_ok by exact N. reflexivity.
Qed.

Lemma compute_result ws f rho kr m : NoDup (named_phases ws) -> compute_matrix ws f rho kr = Ok m ->
  let neutral := exists w, In w ws /\ w_phase w = Some "N" in
  (~ neutral -> dims m 3 3 /\ forall a b z, (a < 3)%nat -> (b < 3)%nat -> (cell m a b z <-> prim f rho ws a b z)) /\
  (neutral -> kr = false ->
     dims m 4 4 /\ forall a b z, (a < 4)%nat -> (b < 4)%nat -> (cell m a b z <-> prim f rho ws a b z)) /\
  (neutral -> kr = true -> forall zf, (forall a b, (a < 4)%nat -> (b < 4)%nat -> prim f rho ws a b (zf a b)) ->
     zf 3%nat 3%nat <> c0 /\ grounded_reduction c0 cadd cmul zf [0%nat; 1%nat; 2%nat] [3%nat] m) /\
  (forall a b z, cell m a b z -> cell m b a z).
Proof.
  intros ND. unfold compute_matrix. fold (loop f rho ws). destruct (loop f rho ws) as [m0|] eqn:E; [|discriminate]. cbn [bind].
  fold (kron3 m0). pose proof (neutral_In ws) as HN.
  pose proof (prim_entry f rho ws m0 ND E) as PE. pose proof (loop_prim f rho ws ND m0 E) as [D4 C4].
  assert (SymE : forall a b, (a < 4)%nat -> (b < 4)%nat -> centry m0 a b = centry m0 b a).
  { intros a b Ha Hb. apply (prim_fun f rho ws m0 a b _ ND E Ha Hb). apply prim_sym. apply PE; assumption. }
  assert (Cell3 : forall (g : nat -> nat -> C) a b (z : C), cell (tabulate 3 3 g) a b z <-> (a < 3)%nat /\ (b < 3)%nat /\ z = g a b).
  { intros g a b z. rewrite <- (get2_cell (A := C)). split.
    - unfold get2. rewrite tabulate_row. destruct (Nat.ltb_spec a 3) as [L|L]; [|discriminate].
      rewrite nth_error_map_seq. destruct (Nat.ltb_spec b 3) as [L'|L']; [|discriminate]. intros Q. injection Q as <-. auto.
    - intros (Ha & Hb & ->). apply tabulate_get; assumption. }
  destruct (existsb is_neutral ws) eqn:En; cbn [andb]; rewrite ?andb_true_r, ?andb_false_r.
  - assert (Neu : exists w, In w ws /\ w_phase w = Some "N") by (apply HN; reflexivity).
    destruct kr.
    + intros Ek. apply kron3_ok in Ek as [N ->]. cbn zeta. split; [contradiction|]. split; [discriminate|]. split.
      * intros _ _ zf Hzf. assert (Z : forall a b, (a < 4)%nat -> (b < 4)%nat -> centry m0 a b = zf a b)
          by (intros a b Ha Hb; apply (prim_fun f rho ws m0 a b _ ND E Ha Hb); apply Hzf; assumption).
        rewrite <- (Z 3%nat 3%nat) by lia. split; [exact N|]. split; [apply tabulate_dims|].
        intros c Hc a p row Hp Hrow. specialize (Hc 3%nat (or_introl eq_refl)). unfold drop in Hc. cbn [sum_over] in Hc.
        rewrite <- !Z in Hc by lia.
        assert (La : (a < 3)%nat) by (change 3%nat with (length [0%nat; 1%nat; 2%nat]); apply nth_error_Some; congruence).
        rewrite tabulate_row, (proj2 (Nat.ltb_lt a 3) La) in Hrow. injection Hrow as <-.
        assert (p = a) by (destruct a as [|[|[|]]]; cbn in Hp; try congruence; lia). subst p.
        unfold drop. cbn [length seq map sum_over nth]. rewrite <- !Z by lia.
        assert (Hn : c 3%nat = copp (cmul (cinv (centry m0 3 3)) (cadd (cmul (centry m0 3 0) (c 0%nat)) (cadd (cmul (centry m0 3 1) (c 1%nat)) (cmul (centry m0 3 2) (c 2%nat)))))).
        { transitivity (cmul (cmul (cinv (centry m0 3 3)) (centry m0 3 3)) (c 3%nat)); [rewrite cinv_l by exact N; ring|].
          transitivity (cmul (cinv (centry m0 3 3)) (csub (cadd
             (cadd (cmul (centry m0 3 0) (c 0%nat)) (cadd (cmul (centry m0 3 1) (c 1%nat)) (cadd (cmul (centry m0 3 2) (c 2%nat)) c0)))
             (cadd (cmul (centry m0 3 3) (c 3%nat)) c0)) (cadd (cmul (centry m0 3 0) (c 0%nat)) (cadd (cmul (centry m0 3 1) (c 1%nat)) (cmul (centry m0 3 2) (c 2%nat)))))); [ring|].
          rewrite Hc. ring. }
        rewrite Hn. ring.
      * intros a b z Hz. apply Cell3 in Hz as (Ha & Hb & ->). apply Cell3. split; [exact Hb|]. split; [exact Ha|].
        rewrite (SymE a b), (SymE a 3%nat), (SymE 3%nat b) by lia. ring.
    + intros Q. injection Q as <-. cbn zeta. split; [contradiction|]. split; [auto|]. split; [discriminate|].
      intros a b z Hz. assert (B : (a < 4)%nat /\ (b < 4)%nat).
      { destruct Hz as (row & Hr & Hx). destruct D4 as [L4 R4].
        assert (a < length m0)%nat by (apply nth_error_Some; congruence).
        assert (b < length row)%nat by (apply nth_error_Some; congruence).
        rewrite (R4 row) in H0 by (eapply nth_error_In; exact Hr). lia. }
      apply C4; [lia|lia|]. apply prim_sym. apply C4; [lia|lia|exact Hz].
  - assert (NN : ~ exists w, In w ws /\ w_phase w = Some "N") by (rewrite <- HN; discriminate).
    intros Q. injection Q as <-. cbn zeta. split; [|split; [contradiction|split; [contradiction|]]].
    + intros _. split; [apply tabulate_dims|]. intros a b z Ha Hb. rewrite Cell3. split.
      * intros (_ & _ & ->). apply PE; lia.
      * intros Hz. split; [exact Ha|]. split; [exact Hb|]. symmetry. apply (prim_fun f rho ws m0 a b z ND E); try lia. exact Hz.
    + intros a b z Hz. apply Cell3 in Hz as (Ha & Hb & ->). apply Cell3. split; [exact Hb|]. split; [exact Ha|]. apply SymE; lia.
Qed.

(** Success. *)
Lemma compute_succeeds ws f rho kr :
  NoDup (named_phases ws) -> 0 < f -> 0 < rho ->
  (forall w, In w ws -> good_self w) ->
  (forall i j w w', i <> j -> nth_error ws i = Some w -> nth_error ws j = Some w' -> good_pair w w') ->
  (forall w p, In w ws -> w_phase w = Some p -> exists i, phase_position p i) ->
  (forall w, In w ws -> w_phase w = Some "N" -> self_impedance f rho w <> c0) ->
  exists m, compute_matrix ws f rho kr = Ok m.
Proof.
  intros ND Hf Hr HS HP Hph HN.
  destruct (proj2 (loop_ok_iff f rho ws)) as (m0 & E).
  - split.
    + intros w Hw. split.
      * unfold self_z. destruct (HS w Hw) as [E|[E|(g & E & Pg)]]; rewrite E; [eauto|destruct (w_res w); eauto|].
        destruct (w_res w); [|eauto]. rewrite log_term_ok by assumption. cbn [bind]. eauto.
      * intros p Hp. destruct (Hph w p Hw Hp) as (i & Hi). exists i. apply wire_map_position. exact Hi.
    + intros i j w w' Nij Hi Hj. specialize (HP i j w w' Nij Hi Hj). unfold good_pair, wire_distance in HP. unfold mutual_z.
      destruct (w_x w) as [x1|], (w_y w) as [y1|], (w_x w') as [x2|], (w_y w') as [y2|]; eauto.
      rewrite !sq_pow. rewrite log_term_ok; [cbn [bind]; eauto| |assumption|assumption].
      destruct (sqrt_pos ((x1 - x2) ^ 2 + (y1 - y2) ^ 2)) as [P|P]; [exact P|]. exfalso. apply HP. f_equal. symmetry. exact P.
  - unfold compute_matrix. fold (loop f rho ws). rewrite E. cbn [bind]. fold (kron3 m0).
    destruct (existsb is_neutral ws) eqn:En; [|rewrite andb_false_r; eauto].
    destruct kr; [|cbn [andb]; eauto]. cbn [andb]. apply neutral_In in En as (w & Hw & Hp).
    eexists. apply kron3_ok. split; [|reflexivity].
    rewrite (prim_fun f rho ws m0 3 3 (self_impedance f rho w) ND E); [apply HN; assumption|lia|lia|].
    left. exists w, "N". repeat split; auto. right. right. right. auto.
Qed.
