(** The primitive impedance matrix of Carson's equations. *)
From Coq Require Import Reals Lra.
From Verif Require Import Base BaseFacts MatrixModel MatrixSpec MatrixProofs KronProofs ImpedModel ImpedSpec.
Local Open Scope list_scope.
Local Open Scope R_scope.

(** Self and mutual impedances per mile. *)
Definition carson_self (r g : R) : C := (r + 953 / 10000, 12134 / 100000 * (ln (1 / g) + 793402 / 100000)).
Definition carson_mutual (d : R) : C := (953 / 10000, 12134 / 100000 * (ln (1 / d) + 793402 / 100000)).

Lemma mapM_seq {A} (f : nat -> res A) n : forall a l, mapM f (seq a n) = Ok l ->
  length l = n /\ forall i, (i < n)%nat -> exists y, f (a + i)%nat = Ok y /\ nth_error l i = Some y.
Proof.
  induction n as [|n IH]; intros a l E.
  - injection E as <-. split; [reflexivity|]. intros i H. lia.
  - cbn [seq mapM] in E. destruct (f a) as [y|] eqn:Ey; [|discriminate].
    destruct (mapM f (seq (S a) n)) as [ys|] eqn:Es; [|discriminate]. injection E as <-.
    destruct (IH _ _ Es) as [L H]. split; [simpl; lia|]. intros [|i] Hi.
    + exists y. rewrite Nat.add_0_r. auto.
    + destruct (H i) as (z & Ez & Nz); [lia|]. exists z. rewrite Nat.add_succ_r. auto.
Qed.

Lemma mapM_total {A B} (f : A -> res B) l : (forall x, In x l -> exists y, f x = Ok y) -> exists r, mapM f l = Ok r.
Proof.
  induction l as [|x l IH]; intros H; [eexists; reflexivity|]. cbn [mapM].
  destruct (H x (or_introl eq_refl)) as (y & ->). destruct IH as (r & ->); [intros z Hz; apply H; right; exact Hz|eauto].
Qed.

Lemma mapM_err {A B} (f : A -> res B) l e : (forall x e', In x l -> f x = Err e' -> e' = e) ->
  (exists x e', In x l /\ f x = Err e') -> mapM f l = Err e.
Proof.
  induction l as [|x l IH]; intros H (x0 & e0 & Hin & E0); [destruct Hin|]. cbn [mapM].
  destruct (f x) as [y|e1] eqn:Ex.
  - rewrite IH; [reflexivity|intros; eapply H; [right; eassumption|eassumption]|].
    destruct Hin as [->|Hin]; [congruence|eauto].
  - f_equal. apply (H x); [left; reflexivity|exact Ex].
Qed.

Lemma self_inv r g z : carson_equation_self r g = Ok z -> exists r' g', r = Some r' /\ g = Some g' /\ 0 < g' /\ z = carson_self r' g'.
Proof.
  unfold carson_equation_self. destruct r as [r|], g as [g|]; try discriminate.
  destruct (Req_EM_T g 0); [discriminate|]. destruct (Rlt_dec 0 g); [|discriminate]. intros E. injection E as <-. eauto 10.
Qed.

Lemma mutual_inv d z : carson_equation d = Ok z -> 0 < d /\ z = carson_mutual d.
Proof.
  unfold carson_equation. destruct (Req_EM_T d 0); [discriminate|]. destruct (Rlt_dec 0 d); [|discriminate].
  intros E. injection E as <-. auto.
Qed.

Lemma primitive_result dist gmrs rs m : get_primitive_impedance_matrix dist gmrs rs = Ok m ->
  let n := length dist in
  dims m n n /\
  (forall i, (i < n)%nat -> exists r g, nth_error rs i = Some (Some r) /\ nth_error gmrs i = Some (Some g) /\
     0 < g /\ cell m i i (carson_self r g)) /\
  (forall i j, (i < n)%nat -> (j < n)%nat -> i <> j ->
     exists d, cell dist i j d /\ 0 < d /\ cell m i j (carson_mutual d)) /\
  ((forall i j d, cell dist i j d -> cell dist j i d) -> forall i j z, cell m i j z -> cell m j i z).
Proof.
  intros E n. unfold get_primitive_impedance_matrix in E. destruct (mapM_seq _ _ _ _ E) as [L H]. fold n in L, H.
  assert (D : dims m n n).
  { split; [exact L|]. intros row Hr. apply In_nth_error in Hr as (i & Hi).
    assert (Bi : (i < n)%nat) by (rewrite <- L; apply nth_error_Some; congruence).
    destruct (H i Bi) as (y & Ey & Ny). rewrite Ny in Hi. injection Hi as ->. apply mapM_length in Ey. rewrite Ey. apply seq_length. }
  assert (Cell : forall i j, (i < n)%nat -> (j < n)%nat -> exists z, cell m i j z /\
    (if (i =? j)%nat then
        do r <- of_opt EIndex (nth_error rs i); do g <- of_opt EIndex (nth_error gmrs i); carson_equation_self r g
      else do d <- of_opt EIndex (get2 dist i j); carson_equation d) = Ok z).
  { intros i j Hi Hj. destruct (H i Hi) as (row & Er & Nr). rewrite Nat.add_0_l in Er.
    destruct (mapM_seq _ _ _ _ Er) as [_ H2]. destruct (H2 j Hj) as (z & Ez & Nz). rewrite Nat.add_0_l in Ez.
    exists z. split; [exists row; auto|exact Ez]. }
  assert (Self : forall i, (i < n)%nat -> exists r g, nth_error rs i = Some (Some r) /\ nth_error gmrs i = Some (Some g) /\
     0 < g /\ cell m i i (carson_self r g)).
  { intros i Hi. destruct (Cell i i Hi Hi) as (z & Cz & Ez). rewrite Nat.eqb_refl in Ez.
    destruct (nth_error rs i) as [r|]; [|discriminate]. destruct (nth_error gmrs i) as [g|]; [|discriminate]. cbn [of_opt bind] in Ez.
    apply self_inv in Ez as (r' & g' & -> & -> & Pg & ->). eauto 10. }
  assert (Mut : forall i j, (i < n)%nat -> (j < n)%nat -> i <> j -> exists d, cell dist i j d /\ 0 < d /\ cell m i j (carson_mutual d)).
  { intros i j Hi Hj Nij. destruct (Cell i j Hi Hj) as (z & Cz & Ez). apply Nat.eqb_neq in Nij. rewrite Nij in Ez.
    destruct (get2 dist i j) as [d|] eqn:Ed; [|discriminate]. cbn [of_opt bind] in Ez. apply mutual_inv in Ez as [Pd ->].
    exists d. split; [apply get2_cell; exact Ed|]. auto. }
  split; [exact D|]. split; [exact Self|]. split; [exact Mut|].
  intros Sym i j z Hz.
  assert (B : (i < n)%nat /\ (j < n)%nat).
  { destruct Hz as (row & Hr & Hx). assert (i < length m)%nat by (apply nth_error_Some; congruence).
    assert (j < length row)%nat by (apply nth_error_Some; congruence).
    rewrite (proj2 D row) in H1 by (eapply nth_error_In; exact Hr). lia. }
  destruct B as [Bi Bj]. destruct (Nat.eq_dec i j) as [->|Nij]; [exact Hz|].
  destruct (Mut i j Bi Bj Nij) as (d & Cd & _ & Cm). destruct (Mut j i Bj Bi (not_eq_sym Nij)) as (d' & Cd' & _ & Cm').
  rewrite (cell_fun _ _ _ _ _ Hz Cm). apply Sym in Cd. rewrite (cell_fun _ _ _ _ _ Cd Cd'). exact Cm'.
Qed.

(** Success and failure. *)
Lemma primitive_outcome dist gmrs rs :
  let n := length dist in
  dims dist n n -> length gmrs = n -> length rs = n ->
  (forall i j d, cell dist i j d -> 0 <= d) -> (forall g, In (Some g) gmrs -> 0 <= g) ->
  let good := (forall r, In r rs -> r <> None) /\ (forall g, In g gmrs -> g <> None /\ g <> Some 0) /\
              (forall i j d, i <> j -> cell dist i j d -> d <> 0) in
  (good -> exists m, get_primitive_impedance_matrix dist gmrs rs = Ok m) /\
  (~ good -> get_primitive_impedance_matrix dist gmrs rs = Err EValue).
Proof.
  intros n D Lg Lr Pd Pg. cbn zeta.
  assert (Get : forall i j, (i < n)%nat -> (j < n)%nat -> exists d, cell dist i j d).
  { intros i j Hi Hj. destruct (dims_nth dist n n i D Hi) as (row & Er & Lrow).
    destruct (nth_error row j) as [d|] eqn:Ed; [exists d, row; auto|apply nth_error_None in Ed; lia]. }
  assert (Cells : forall i j, (i < n)%nat -> (j < n)%nat ->
    (if (i =? j)%nat then
        do r <- of_opt EIndex (nth_error rs i); do g <- of_opt EIndex (nth_error gmrs i); carson_equation_self r g
      else do d <- of_opt EIndex (get2 dist i j); carson_equation d) = Err EValue \/
    exists z, (if (i =? j)%nat then
        do r <- of_opt EIndex (nth_error rs i); do g <- of_opt EIndex (nth_error gmrs i); carson_equation_self r g
      else do d <- of_opt EIndex (get2 dist i j); carson_equation d) = Ok z).
  { intros i j Hi Hj. destruct (Nat.eqb_spec i j) as [->|Nij].
    - destruct (nth_error rs j) as [r|] eqn:Er; [|apply nth_error_None in Er; lia].
      destruct (nth_error gmrs j) as [g|] eqn:Eg; [|apply nth_error_None in Eg; lia]. cbn [of_opt bind].
      unfold carson_equation_self. destruct r as [r|], g as [g|]; try (left; reflexivity).
      destruct (Req_EM_T g 0); [left; reflexivity|]. destruct (Rlt_dec 0 g); [right; eauto|left; reflexivity].
    - destruct (Get i j Hi Hj) as (d & Cd). apply get2_cell in Cd. rewrite Cd. cbn [of_opt bind].
      unfold carson_equation. destruct (Req_EM_T d 0); [left; reflexivity|]. destruct (Rlt_dec 0 d); [right; eauto|left; reflexivity]. }
  assert (Rows : forall i, (i < n)%nat -> forall e', mapM (fun j => if (i =? j)%nat then
        do r <- of_opt EIndex (nth_error rs i); do g <- of_opt EIndex (nth_error gmrs i); carson_equation_self r g
      else do d <- of_opt EIndex (get2 dist i j); carson_equation d) (seq 0 n) = Err e' -> e' = EValue).
  { intros i Hi e'. assert (G : forall l, (forall j, In j l -> (j < n)%nat) -> mapM (fun j => if (i =? j)%nat then
        do r <- of_opt EIndex (nth_error rs i); do g <- of_opt EIndex (nth_error gmrs i); carson_equation_self r g
      else do d <- of_opt EIndex (get2 dist i j); carson_equation d) l = Err e' -> e' = EValue).
    { induction l as [|j l IH]; intros B E; [discriminate|]. cbn [mapM] in E.
      destruct (Cells i j Hi (B j (or_introl eq_refl))) as [Q|(z & Q)]; rewrite Q in E; [congruence|].
      destruct (mapM _ l) eqn:El; [discriminate|]. apply IH; [intros k Hk; apply B; right; exact Hk|congruence]. }
    apply G. intros j Hj. apply in_seq in Hj. lia. }
  split.
  - intros (G1 & G2 & G3). unfold get_primitive_impedance_matrix. fold n. apply mapM_total. intros i Hi. apply in_seq in Hi.
    apply mapM_total. intros j Hj. apply in_seq in Hj. destruct (Nat.eqb_spec i j) as [->|Nij].
    + destruct (nth_error rs j) as [r|] eqn:Er; [|apply nth_error_None in Er; lia].
      destruct (nth_error gmrs j) as [g|] eqn:Eg; [|apply nth_error_None in Eg; lia]. cbn [of_opt bind].
      pose proof (G1 r (nth_error_In _ _ Er)). pose proof (G2 g (nth_error_In _ _ Eg)) as [N1 N2].
      unfold carson_equation_self. destruct r as [r|]; [|congruence]. destruct g as [g|]; [|congruence].
      destruct (Req_EM_T g 0) as [->|]; [congruence|]. pose proof (Pg g (nth_error_In _ _ Eg)).
      destruct (Rlt_dec 0 g); [eauto|lra].
    + destruct (Get i j) as (d & Cd); [lia|lia|]. pose proof (G3 i j d Nij Cd). pose proof (Pd _ _ _ Cd).
      apply get2_cell in Cd. rewrite Cd. cbn [of_opt bind]. unfold carson_equation.
      destruct (Req_EM_T d 0); [contradiction|]. destruct (Rlt_dec 0 d); [eauto|lra].
  - intros NG. destruct (get_primitive_impedance_matrix dist gmrs rs) as [m|e] eqn:E.
    + exfalso. apply NG. pose proof (primitive_result _ _ _ _ E) as (_ & S & M & _). fold n in S, M. split; [|split].
      * intros r Hr. apply In_nth_error in Hr as (i & Hi).
        assert (Bi : (i < n)%nat) by (rewrite <- Lr; apply nth_error_Some; congruence).
        destruct (S i Bi) as (r' & g & H1 & _). congruence.
      * intros g Hg. apply In_nth_error in Hg as (i & Hi).
        assert (Bi : (i < n)%nat) by (rewrite <- Lg; apply nth_error_Some; congruence).
        destruct (S i Bi) as (r' & g' & _ & H2 & P & _). assert (g = Some g') by congruence. subst g.
        split; [discriminate|]. intros Q. injection Q as ->. lra.
      * intros i j d Nij Cd. assert (B : (i < n)%nat /\ (j < n)%nat).
        { destruct Cd as (row & Hr & Hx). assert (i < length dist)%nat by (apply nth_error_Some; congruence).
          assert (j < length row)%nat by (apply nth_error_Some; congruence).
          rewrite (proj2 D row) in H0 by (eapply nth_error_In; exact Hr). unfold n. split; [exact H|]. exact H0. }
        destruct (M i j (proj1 B) (proj2 B) Nij) as (d' & Cd' & P & _). rewrite (cell_fun _ _ _ _ _ Cd Cd'). lra.
    + f_equal. unfold get_primitive_impedance_matrix in E. fold n in E.
      assert (G : forall l, (forall j, In j l -> (j < n)%nat) -> forall e', mapM (fun i => mapM (fun j => if (i =? j)%nat then
        do r <- of_opt EIndex (nth_error rs i); do g <- of_opt EIndex (nth_error gmrs i); carson_equation_self r g
        else do d <- of_opt EIndex (get2 dist i j); carson_equation d) (seq 0 n)) l = Err e' -> e' = EValue).
      { clear E. induction l as [|i l IH]; intros B e' E'; [discriminate|]. cbn [mapM] in E'.
        destruct (mapM _ (seq 0 n)) as [y|e1] eqn:E1.
        - destruct (mapM _ l) eqn:El; [discriminate|]. apply (IH (fun k Hk => B k (or_intror Hk)) e'). congruence.
        - assert (e1 = EValue) by (eapply Rows; [apply (B i (or_introl eq_refl))|exact E1]). congruence. }
      eapply G; [|exact E]. intros j Hj. apply in_seq in Hj. lia.
Qed.
