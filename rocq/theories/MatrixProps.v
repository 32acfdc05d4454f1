(** Property theorems on matrices and impedances: C04 - C07, C57. *)
From Coq Require Import QArith Qcanon ZArith Reals Ring Permutation Lra.
From Verif Require Import Base BaseFacts MatrixModel MatrixSpec MatrixProofs KronProofs KronTop
  ImpedModel ImpedSpec ImpedProofs ImpedTop CarsonProofs.
Local Open Scope string_scope.
Local Open Scope nat_scope.
Local Open Scope list_scope.

(** ** C04 *)
Theorem C04_symmetrize_triangular :
  forall m, m <> [] -> lower_triangular m ->
    exists r, symmetrize m = Ok (Some r) /\ dims r (length m) (length m) /\
      (forall i j x, cell m i j x -> cell r i j x) /\
      (forall i j x, cell r i j x -> cell r j i x).
Proof. exact symmetrize_triangular. Qed.
Print Assumptions C04_symmetrize_triangular.

Theorem C04_symmetrize_any_rows :
  forall m,
    (m = [] -> symmetrize m = Err EValue) /\
    (m <> [] -> ~ squarish m -> symmetrize m = Ok None) /\
    (m <> [] -> squarish m -> exists r, symmetrize m = Ok (Some r) /\ dims r (length m) (length m) /\
       forall i j, i < length m -> j < length m ->
         cell r i j (if i =? j then cell_or_zero m i i else cell_or_zero m i j + cell_or_zero m j i)%Qc).
Proof. exact symmetrize_result. Qed.
Print Assumptions C04_symmetrize_any_rows.

Definition xq (z : Z) : Qc := Q2Qc (inject_Z z).
Example C04_hypotheses_met :
  let m := [[xq 1]; [xq 2; xq 3]; [xq 4; xq 5; xq 6]] in
  m <> [] /\ lower_triangular m /\
  symmetrize m = Ok (Some [[xq 1; xq 2; xq 4]; [xq 2; xq 3; xq 5]; [xq 4; xq 5; xq 6]]) /\
  symmetrize [[xq 1; xq 2]] = Ok None.
Proof.
  split; [discriminate|]. split.
  - intros i r H. destruct i as [|[|[|i]]]; cbn in H; try (injection H as <-; reflexivity).
    destruct i; discriminate.
  - split; [|vm_compute; reflexivity]. unfold symmetrize. cbn [length map fold_right Nat.max Nat.eqb].
    unfold tabulate. cbn [seq map Nat.eqb].
    repeat (apply f_equal || apply f_equal2); try reflexivity; apply Qc_is_canon; vm_compute; reflexivity.
Qed.

(** ** C05 *)

(** With as many neutrals as phases, and symmetric blocks, the result is the grounded reduction.
    [inv] is np.linalg.inv, assumed to return inverses.  Missing for the full claim: other numbers
    of neutrals and non-symmetric blocks, for which the code is wrong (below). *)
Theorem C05_kron_grounded_partial :
  forall (F : Type) (rO rI : F) (radd rmul rsub : F -> F -> F) (ropp : F -> F),
    ring_theory rO rI radd rmul rsub ropp (@eq F) ->
  forall (Z : list (list F)) (z : nat -> nat -> F) (neutrals : list nat) (inv : list (list F) -> res (list (list F))),
    reads Z z -> NoDup neutrals -> (forall i, In i neutrals -> i < length Z) ->
    0 < length neutrals -> length neutrals < length Z ->
    (forall m v, inv m = Ok v -> inverse_of rO radd rmul rI m v) ->
    length Z - length neutrals = length neutrals ->
    let ps := filter (fun i => negb (nmem i neutrals)) (seq 0 (length Z)) in
    let ns := filter (fun i => nmem i neutrals) (seq 0 (length Z)) in
    forall r,
    (forall i j, i < length Z -> j < length Z -> z i j = z j i) ->
    (forall a b, a < length neutrals -> b < length neutrals ->
       z (nth a ps 0) (nth b ns 0) = z (nth b ps 0) (nth a ns 0)) ->
    kron_reduction F rO radd rmul rsub inv Z (Some neutrals) = Ok r ->
    grounded_reduction rO radd rmul z ps ns r.
Proof. exact kron_symmetric. Qed.
Print Assumptions C05_kron_grounded_partial.

(** Whenever the numbers of phases and neutrals differ the function raises IndexError. *)
Theorem C05_kron_raises_refuted :
  forall (F : Type) (rO : F) (radd rmul rsub : F -> F -> F)
    (Z : list (list F)) (z : nat -> nat -> F) (neutrals : list nat) (inv : list (list F) -> res (list (list F))),
    reads Z z -> NoDup neutrals -> (forall i, In i neutrals -> i < length Z) ->
    0 < length neutrals -> length neutrals < length Z ->
    length Z - length neutrals <> length neutrals ->
    kron_reduction F rO radd rmul rsub inv Z (Some neutrals) = Err EIndex.
Proof. exact kron_index_error. Qed.
Print Assumptions C05_kron_raises_refuted.

(** In particular with the default neutral, as soon as there are three conductors. *)
Theorem C05_kron_default_refuted :
  forall (F : Type) (rO : F) (radd rmul rsub : F -> F -> F)
    (Z : list (list F)) (z : nat -> nat -> F) (inv : list (list F) -> res (list (list F))),
    reads Z z -> 3 <= length Z -> kron_reduction F rO radd rmul rsub inv Z None = Err EIndex.
Proof.
  intros F rO radd rmul rsub Z z inv R L.
  change (kron_reduction F rO radd rmul rsub inv Z (Some [length Z - 1]) = Err EIndex).
  apply (kron_index_error F rO radd rmul rsub Z z); cbn [length]; try lia; try exact R.
  - constructor; [intros []|constructor].
  - intros i [<-|[]]. lia.
Qed.
Print Assumptions C05_kron_default_refuted.

(** The default neutral is the last conductor: with two conductors the default gives the grounded reduction. *)
Theorem C05_kron_default_pair :
  forall (F : Type) (rO rI : F) (radd rmul rsub : F -> F -> F) (ropp : F -> F),
    ring_theory rO rI radd rmul rsub ropp (@eq F) ->
  forall (Z : list (list F)) (z : nat -> nat -> F) (inv : list (list F) -> res (list (list F))),
    reads Z z -> length Z = 2 -> (forall m v, inv m = Ok v -> inverse_of rO radd rmul rI m v) -> z 0 1 = z 1 0 ->
    forall r, kron_reduction F rO radd rmul rsub inv Z None = Ok r -> grounded_reduction rO radd rmul z [0] [1] r.
Proof.
  intros F rO rI radd rmul rsub ropp RT Z z inv R L Hi S r E.
  replace (kron_reduction F rO radd rmul rsub inv Z None) with (kron_reduction F rO radd rmul rsub inv Z (Some [length Z - 1])) in E by reflexivity.
  rewrite L in E. cbn [Nat.sub] in E.
  assert (G := kron_symmetric F rO rI radd rmul rsub ropp RT Z z [1] inv R).
  unfold plist, nlist in G. rewrite L in G.
  refine (G _ _ _ _ Hi _ r _ _ E); try (cbn; lia).
  - repeat constructor. intros [].
  - intros i j Hi' Hj. destruct i as [|[|i]], j as [|[|j]]; auto; lia.
  - intros a b Ha Hb. cbn in Ha, Hb. destruct a as [|a]; [|lia]. destruct b as [|b]; [|lia]. reflexivity.
Qed.
Print Assumptions C05_kron_default_pair.

(** A reader's inverse on the identity of size 2. *)
Definition xinv (m : list (list Z)) : res (list (list Z)) :=
  match m with
  | [[1; 0]; [0; 1]]%Z => Ok m
  | [[1]]%Z => Ok m
  | _ => Err EValue
  end.

Lemma xinv_inverse m v : xinv m = Ok v -> inverse_of 0%Z Z.add Z.mul 1%Z m v.
Proof.
  intros H. assert (C : m = [[1; 0]; [0; 1]]%Z /\ v = m \/ m = [[1]]%Z /\ v = m).
  { unfold xinv in H.
    repeat match type of H with
    | context [match ?x with _ => _ end] => destruct x; try discriminate H
    end; injection H as <-; auto. }
  destruct C as [[-> ->]|[-> ->]].
  - exists 2. split; [|split; [|split]].
    + split; [reflexivity|]. intros row [<-|[<-|[]]]; reflexivity.
    + split; [reflexivity|]. intros row [<-|[<-|[]]]; reflexivity.
    + intros a b Ha Hb. destruct a as [|[|a]], b as [|[|b]]; try lia; reflexivity.
    + intros a b Ha Hb. destruct a as [|[|a]], b as [|[|b]]; try lia; reflexivity.
  - exists 1. split; [|split; [|split]].
    + split; [reflexivity|]. intros row [<-|[]]; reflexivity.
    + split; [reflexivity|]. intros row [<-|[]]; reflexivity.
    + intros a b Ha Hb. destruct a as [|a], b as [|b]; try lia; reflexivity.
    + intros a b Ha Hb. destruct a as [|a], b as [|b]; try lia; reflexivity.
Qed.

(** A symmetric primitive matrix of two phases and two neutrals whose cross block is not
    symmetric: the result is not the reduced matrix. *)
Definition xZ : list (list Z) := [[9; 1; 1; 2]; [1; 9; 3; 1]; [1; 3; 1; 0]; [2; 1; 0; 1]]%Z.
Definition xz (i j : nat) : Z := nth j (nth i xZ []) 0%Z.

Definition xcur (k : nat) : Z := match k with 0 => 1%Z | 1 => 0%Z | 2 => (-1)%Z | _ => (-2)%Z end.

(** For a symmetric matrix with two phases and two neutrals whose cross block is not symmetric the result is not the reduced matrix. *)
Theorem C05_kron_wrong_refuted :
  exists r, kron_reduction Z 0%Z Z.add Z.mul Z.sub xinv xZ (Some [2; 3]) = Ok r /\
    (forall i j, i < 4 -> j < 4 -> xz i j = xz j i) /\
    ~ grounded_reduction 0%Z Z.add Z.mul xz [0; 1] [2; 3] r.
Proof.
  eexists. split; [vm_compute; reflexivity|]. split.
  - intros i j Hi Hj. do 4 (destruct i as [|i]; [do 4 (destruct j as [|j]; [reflexivity|]); lia|]). lia.
  - intros [_ G]. specialize (G xcur).
    assert (H : forall n, In n [2; 3] ->
      Z.add (drop 0%Z Z.add Z.mul xz [0; 1] xcur n) (drop 0%Z Z.add Z.mul xz [2; 3] xcur n) = 0%Z).
    { intros n [<-|[<-|[]]]; vm_compute; reflexivity. }
    specialize (G H 0 0 _ eq_refl eq_refl). vm_compute in G. discriminate.
Qed.
Print Assumptions C05_kron_wrong_refuted.

Definition xZs : list (list Z) := [[9; 1; 2; 1]; [1; 9; 1; 2]; [2; 1; 1; 0]; [1; 2; 0; 1]]%Z.
Example C05_hypotheses_met :
  (forall m v, xinv m = Ok v -> inverse_of 0%Z Z.add Z.mul 1%Z m v) /\
  reads xZs (fun i j => nth j (nth i xZs []) 0%Z) /\
  kron_reduction Z 0%Z Z.add Z.mul Z.sub xinv xZs (Some [2; 3]) = Ok [[4; -3]; [-3; 4]]%Z /\
  (* one phase and its neutral, the default argument *)
  kron_reduction Z 0%Z Z.add Z.mul Z.sub xinv [[5; 2]; [2; 1]]%Z None = Ok [[1]]%Z /\
  (* three phases and a neutral *)
  kron_reduction Z 0%Z Z.add Z.mul Z.sub xinv xZs None = Err EIndex.
Proof.
  split; [exact xinv_inverse|]. split.
  - split.
    + split; [reflexivity|]. intros row H. cbn in H. repeat (destruct H as [<-|H]; [reflexivity|]). destruct H.
    + intros i j Hi Hj. cbn in Hi, Hj.
      do 4 (destruct i as [|i]; [do 4 (destruct j as [|j]; [eexists; split; reflexivity|]); lia|]). lia.
  - repeat split; vm_compute; reflexivity.
Qed.

(** ** C06 *)
Local Open Scope R_scope.

Theorem C06_compute_matrix :
  forall ws f rho kr m, NoDup (named_phases ws) -> compute_matrix ws f rho kr = Ok m ->
    let neutral := exists w, In w ws /\ w_phase w = Some "N" in
    (~ neutral -> dims m 3 3 /\ forall a b z, (a < 3)%nat -> (b < 3)%nat -> (cell m a b z <-> prim f rho ws a b z)) /\
    (neutral -> kr = false ->
       dims m 4 4 /\ forall a b z, (a < 4)%nat -> (b < 4)%nat -> (cell m a b z <-> prim f rho ws a b z)) /\
    (neutral -> kr = true -> forall zf, (forall a b, (a < 4)%nat -> (b < 4)%nat -> prim f rho ws a b (zf a b)) ->
       zf 3%nat 3%nat <> c0 /\ grounded_reduction c0 cadd cmul zf [0%nat; 1%nat; 2%nat] [3%nat] m) /\
    (forall a b z, cell m a b z -> cell m b a z).
Proof. exact compute_result. Qed.
Print Assumptions C06_compute_matrix.

Theorem C06_order_of_wires :
  forall ws ws' f rho kr m, NoDup (named_phases ws) -> Permutation ws ws' ->
    compute_matrix ws f rho kr = Ok m -> compute_matrix ws' f rho kr = Ok m.
Proof. exact compute_perm. Qed.
Print Assumptions C06_order_of_wires.

Theorem C06_compute_matrix_succeeds :
  forall ws f rho kr, NoDup (named_phases ws) -> 0 < f -> 0 < rho ->
    (forall w, In w ws -> good_self w) ->
    (forall i j w w', i <> j -> nth_error ws i = Some w -> nth_error ws j = Some w' -> good_pair w w') ->
    (forall w p, In w ws -> w_phase w = Some p -> exists i, phase_position p i) ->
    (forall w, In w ws -> w_phase w = Some "N" -> self_impedance f rho w <> c0) ->
    exists m, compute_matrix ws f rho kr = Ok m.
Proof. exact compute_succeeds. Qed.
Print Assumptions C06_compute_matrix_succeeds.

(** Two wires of one phase: the matrix depends on the order of the wires, only the last one counts. *)
Lemma two_wires r r' :
  exists y y', compute_matrix [mkWire (Some "A") (Some r) (Some 1) None None; mkWire (Some "A") (Some r') (Some 1) None None] 1 1 true =
    Ok [[(r' + 158836 / 100000000 * 1, y); c0; c0]; [c0; c0; c0]; [y'; c0; c0]] /\ y' = c0.
Proof.
  assert (L : log_term 1 1 1 = Ok (ln (1 / 1) + 76786 / 10000 + 1 / 2 * ln (1 / 1)))
    by (apply log_term_ok; lra).
  eexists _, c0. split; [|reflexivity].
  unfold compute_matrix. cbn [length seq foldM]. unfold matrix_cell.
  cbn [nth_error of_opt bind Nat.eqb]. unfold self_z, mutual_z. cbn [w_res w_gmr w_x w_y].
  rewrite L. reflexivity.
Qed.

(** With a repeated phase the result depends on the order of the wires. *)
Theorem C06_repeated_phase_refuted :
  exists ws ws' m m', Permutation ws ws' /\
    compute_matrix ws 1 1 true = Ok m /\ compute_matrix ws' 1 1 true = Ok m' /\ m <> m'.
Proof.
  destruct (two_wires 1 2) as (y & z & E & _). destruct (two_wires 2 1) as (y' & z' & E' & _).
  eexists _, _, _, _. split; [apply perm_swap|]. split; [exact E|]. split; [exact E'|].
  intros H. injection H as H _. lra.
Qed.
Print Assumptions C06_repeated_phase_refuted.

Example C06_hypotheses_met :
  let ws := [mkWire (Some "A") (Some 1) (Some 1) (Some 0) (Some 0);
             mkWire (Some "B") (Some 1) (Some 1) (Some 1) (Some 0);
             mkWire (Some "N") (Some 1) (Some 1) (Some 0) (Some 1)] in
  NoDup (named_phases ws) /\ exists m, compute_matrix ws 60 100 true = Ok m.
Proof.
  intros ws.
  assert (N : NoDup (named_phases ws)) by
    (cbn; repeat (constructor; [cbn; intuition discriminate|]); constructor).
  split; [exact N|]. apply compute_succeeds; [exact N|lra|lra| | | |].
  - intros w H. right. right. exists 1. cbn in H.
    repeat (destruct H as [<-|H]; [split; [reflexivity|lra]|]). destruct H.
  - intros i j w w' D Hi Hj.
    assert (P : forall a b c d : R, (a - b) ^ 2 + (c - d) ^ 2 > 0 -> Some (sqrt ((a - b) ^ 2 + (c - d) ^ 2)) <> Some 0).
    { intros a b c d Hp E. apply sqrt_lt_R0 in Hp.
      assert (E' : sqrt ((a - b) ^ 2 + (c - d) ^ 2) = 0) by congruence. rewrite E' in Hp. lra. }
    destruct i as [|[|[|i]]]; cbn in Hi; [| | |destruct i; discriminate]; injection Hi as <-;
      (destruct j as [|[|[|j]]]; cbn in Hj; [| | |destruct j; discriminate]); injection Hj as <-;
      try congruence; unfold good_pair, wire_distance; cbn [w_x w_y]; apply P; simpl; lra.
  - intros w p H E. cbn in H.
    repeat (destruct H as [<-|H]; [cbn in E; injection E as <-; eexists; unfold phase_position; intuition eauto|]). destruct H.
  - intros w H _ E. apply (f_equal fst) in E. cbn in H.
    repeat (destruct H as [<-|H]; [cbn in E; lra|]). destruct H.
Qed.

(** ** C07 *)
Theorem C07_sequence_transform_three :
  forall m, dims m 3 3 ->
    exists ra rb rc s0 s1 s2, m = [ra; rb; rc] /\ get_sequence_impedance_matrix m = [s0; s1; s2] /\
      dims (get_sequence_impedance_matrix m) 3 3 /\
      forall z p n : C,
        let i := (z, p, n) in
        let v := (row3 s0 z p n, row3 s1 z p n, row3 s2 z p n) in
        row3 ra (phase_a i) (phase_b i) (phase_c i) = phase_a v /\
        row3 rb (phase_a i) (phase_b i) (phase_c i) = phase_b v /\
        row3 rc (phase_a i) (phase_b i) (phase_c i) = phase_c v.
Proof. exact seq3_similarity. Qed.
Print Assumptions C07_sequence_transform_three.

Theorem C07_sequence_transform_two :
  forall m, dims m 2 2 ->
    exists ra rb s0 s1, m = [ra; rb] /\ get_sequence_impedance_matrix m = [s0; s1] /\
      dims (get_sequence_impedance_matrix m) 2 2 /\
      forall x y : C,
        row2 ra (cadd x y) (csub x y) = cadd (row2 s0 x y) (row2 s1 x y) /\
        row2 rb (cadd x y) (csub x y) = csub (row2 s0 x y) (row2 s1 x y).
Proof. exact seq2_similarity. Qed.
Print Assumptions C07_sequence_transform_two.

Theorem C07_balanced_line :
  forall zs zm,
    get_sequence_impedance_matrix [[zs; zm; zm]; [zm; zs; zm]; [zm; zm; zs]] =
    [[cadd zs (cadd zm zm); c0; c0]; [c0; csub zs zm; c0]; [c0; c0; csub zs zm]].
Proof. exact seq3_balanced. Qed.
Print Assumptions C07_balanced_line.

Theorem C07_other_shapes :
  forall m, ~ dims m 3 3 -> ~ dims m 2 2 -> get_sequence_impedance_matrix m = [].
Proof. exact seq_other. Qed.
Print Assumptions C07_other_shapes.

(** get_zero_, get_positive_ and get_negative_sequence_impedance: the drop in a sequence caused by a unit current
    of the same sequence. *)
Theorem C07_sequence_entries :
  forall m, dims m 3 3 ->
    exists s0 s1 s2, get_sequence_impedance_matrix m = [s0; s1; s2] /\
      get_seq_entry 0 (get_sequence_impedance_matrix m) = Ok (row3 s0 c1 c0 c0) /\
      get_seq_entry 1 (get_sequence_impedance_matrix m) = Ok (row3 s1 c0 c1 c0) /\
      get_seq_entry 2 (get_sequence_impedance_matrix m) = Ok (row3 s2 c0 c0 c1).
Proof. exact seq_entries3. Qed.
Print Assumptions C07_sequence_entries.

(** For a balanced line: self plus two mutual impedances, and self minus mutual. *)
Theorem C07_balanced_entries :
  forall zs zm, let s := get_sequence_impedance_matrix [[zs; zm; zm]; [zm; zs; zm]; [zm; zm; zs]] in
    get_seq_entry 0 s = Ok (cadd zs (cadd zm zm)) /\ get_seq_entry 1 s = Ok (csub zs zm) /\ get_seq_entry 2 s = Ok (csub zs zm).
Proof. intros zs zm s. unfold s. rewrite seq3_balanced. repeat split. Qed.
Print Assumptions C07_balanced_entries.

(** Without a sequence matrix they raise ValueError. *)
Theorem C07_entries_absent :
  forall m k, ~ dims m 3 3 -> ~ dims m 2 2 -> get_seq_entry k (get_sequence_impedance_matrix m) = Err EValue.
Proof. intros m k H3 H2. rewrite (seq_other m H3 H2). destruct k; reflexivity. Qed.
Print Assumptions C07_entries_absent.

Example C07_hypotheses_met :
  dims [[c1; c0; c0]; [c0; c1; c0]; [c0; c0; c1]] 3 3 /\ dims [[c1; c0]; [c0; c1]] 2 2 /\
  ~ dims [[c1]] 3 3 /\ ~ dims [[c1]] 2 2.
Proof.
  repeat split; try (intros row H; cbn in H; repeat (destruct H as [<-|H]; [reflexivity|]); destruct H);
    intros [H _]; discriminate.
Qed.

(** ** C57 *)
Theorem C57_primitive_matrix :
  forall dist gmrs rs m, get_primitive_impedance_matrix dist gmrs rs = Ok m ->
    let n := length dist in
    dims m n n /\
    (forall i, (i < n)%nat -> exists r g, nth_error rs i = Some (Some r) /\ nth_error gmrs i = Some (Some g) /\
       0 < g /\ cell m i i (carson_self r g)) /\
    (forall i j, (i < n)%nat -> (j < n)%nat -> i <> j ->
       exists d, cell dist i j d /\ 0 < d /\ cell m i j (carson_mutual d)) /\
    ((forall i j d, cell dist i j d -> cell dist j i d) -> forall i j z, cell m i j z -> cell m j i z).
Proof. exact primitive_result. Qed.
Print Assumptions C57_primitive_matrix.

Theorem C57_primitive_matrix_outcome :
  forall dist gmrs rs,
    let n := length dist in
    dims dist n n -> length gmrs = n -> length rs = n ->
    (forall i j d, cell dist i j d -> 0 <= d) -> (forall g, In (Some g) gmrs -> 0 <= g) ->
    let good := (forall r, In r rs -> r <> None) /\ (forall g, In g gmrs -> g <> None /\ g <> Some 0) /\
                (forall i j d, i <> j -> cell dist i j d -> d <> 0) in
    (good -> exists m, get_primitive_impedance_matrix dist gmrs rs = Ok m) /\
    (~ good -> get_primitive_impedance_matrix dist gmrs rs = Err EValue).
Proof. exact primitive_outcome. Qed.
Print Assumptions C57_primitive_matrix_outcome.

Example C57_hypotheses_met :
  let dist := [[0; 2]; [2; 0]] in
  dims dist 2 2 /\ (forall i j d, cell dist i j d -> 0 <= d) /\
  exists m, get_primitive_impedance_matrix dist [Some 1; Some 1] [Some 0; Some 3] = Ok m.
Proof.
  assert (C : forall i j d, cell [[0; 2]; [2; 0]] i j d -> (i = j /\ d = 0) \/ d = 2).
  { intros i j d (r & Hr & Hd). destruct i as [|[|i]]; cbn in Hr; [| |destruct i; discriminate]; injection Hr as <-;
      (destruct j as [|[|j]]; cbn in Hd; [| |destruct j; discriminate]); injection Hd as <-; auto. }
  split; [split; [reflexivity|]; intros r [<-|[<-|[]]]; reflexivity|].
  assert (P : forall i j d, cell [[0; 2]; [2; 0]] i j d -> 0 <= d)
    by (intros i j d H; destruct (C i j d H) as [[_ ->]| ->]; lra).
  split; [exact P|].
  refine (proj1 (primitive_outcome [[0; 2]; [2; 0]] [Some 1; Some 1] [Some 0; Some 3] _ eq_refl eq_refl P _) _).
  - split; [reflexivity|]. intros r [<-|[<-|[]]]; reflexivity.
  - intros g [E|[E|[]]]; injection E as <-; lra.
  - split; [intros r [<-|[<-|[]]]; discriminate|]. split.
    + intros g [<-|[<-|[]]]; (split; [discriminate|]); intros E; injection E as E; lra.
    + intros i j d N H. destruct (C i j d H) as [[? _]| ->]; [contradiction|lra].
Qed.
