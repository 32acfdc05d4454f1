(** Proofs on symmetrize and on the loops of Kron reduction. *)
From Coq Require Import QArith Qcanon Ring.
From Verif Require Import Base BaseFacts MatrixModel MatrixSpec.
Local Open Scope nat_scope.
Local Open Scope list_scope.

(** ** Tables *)
Lemma nth_error_map_seq {A} (f : nat -> A) n i :
  nth_error (map f (seq 0 n)) i = if i <? n then Some (f i) else None.
Proof.
  destruct (Nat.ltb_spec i n) as [H|H].
  - rewrite nth_error_map, nth_error_nth' with (d := 0) by (rewrite seq_length; lia).
    rewrite seq_nth by lia. reflexivity.
  - apply nth_error_None. rewrite map_length, seq_length. lia.
Qed.

Lemma tabulate_row {A} r c (f : nat -> nat -> A) i :
  nth_error (tabulate r c f) i = if i <? r then Some (map (f i) (seq 0 c)) else None.
Proof. unfold tabulate. rewrite nth_error_map_seq. reflexivity. Qed.

Lemma tabulate_get {A} r c (f : nat -> nat -> A) i j :
  i < r -> j < c -> get2 (tabulate r c f) i j = Some (f i j).
Proof.
  intros Hi Hj. unfold get2. rewrite tabulate_row, (proj2 (Nat.ltb_lt i r) Hi), nth_error_map_seq,
    (proj2 (Nat.ltb_lt j c) Hj). reflexivity.
Qed.

Lemma get2_cell {A} (m : list (list A)) i j x : get2 m i j = Some x <-> cell m i j x.
Proof.
  unfold get2, cell. split.
  - destruct (nth_error m i) as [r|]; [|discriminate]. intros H. exists r. auto.
  - intros (r & -> & H). exact H.
Qed.

Lemma tabulate_dims {A} r c (f : nat -> nat -> A) : dims (tabulate r c f) r c.
Proof.
  split; [unfold tabulate; rewrite map_length, seq_length; reflexivity|].
  intros row H. unfold tabulate in H. apply in_map_iff in H as (i & <- & _).
  rewrite map_length, seq_length. reflexivity.
Qed.

(** ** symmetrize *)
Lemma max_le (l : list nat) x : In x l -> x <= fold_right Nat.max 0 l.
Proof. induction l as [|y l IH]; simpl; [tauto|]. intros [->|H]; [|specialize (IH H)]; lia. Qed.

Lemma max_in (l : list nat) : l <> [] -> In (fold_right Nat.max 0 l) l.
Proof.
  induction l as [|y l IH]; [congruence|]. intros _. destruct l as [|z l].
  - simpl. lia.
  - assert (H : In (fold_right Nat.max 0 (z :: l)) (z :: l)) by (apply IH; discriminate).
    cbn [fold_right] in *. destruct (Nat.max_spec y (Nat.max z (fold_right Nat.max 0 l))) as [[_ E]|[_ E]]; rewrite E.
    + right. exact H.
    + left. reflexivity.
Qed.

Lemma max_squarish (m : list (list Qc)) :
  m <> [] -> (length m = fold_right Nat.max 0 (map (@length Qc) m) <-> squarish m).
Proof.
  intros N. set (l := map (@length Qc) m).
  assert (Nl : l <> []) by (destruct m; [congruence|discriminate]).
  split.
  - intros E. split.
    + intros r Hr. rewrite E. apply max_le. unfold l. apply in_map. exact Hr.
    + pose proof (max_in l Nl) as H. unfold l in H at 2. apply in_map_iff in H as (r & Er & Hr).
      exists r. split; [exact Hr|]. rewrite Er. symmetry. exact E.
  - intros [H (r & Hr & Er)]. apply Nat.le_antisymm.
    + rewrite <- Er. apply max_le. unfold l. apply in_map. exact Hr.
    + pose proof (max_in l Nl) as K. unfold l in K at 2. apply in_map_iff in K as (r' & Er' & Hr').
      rewrite <- Er'. apply H. exact Hr'.
Qed.

Lemma pad_get n m i j :
  (forall r, In r m -> length r <= n) -> i < length m -> j < n ->
  get2 (map (pad n) m) i j = Some (cell_or_zero m i j).
Proof.
  intros H Hi Hj. unfold get2, cell_or_zero. rewrite nth_error_map.
  rewrite nth_error_nth' with (d := []) by exact Hi. cbn [option_map].
  set (r := nth i m []).
  assert (Hr : length r <= n) by (apply H, nth_In, Hi).
  unfold pad. destruct (Nat.lt_ge_cases j (length r)) as [L|L].
  - rewrite nth_error_app1 by exact L. apply nth_error_nth'. exact L.
  - rewrite nth_error_app2 by exact L. rewrite nth_overflow with (l := r) by exact L.
    rewrite nth_error_nth' with (d := 0%Qc) by (rewrite repeat_length; lia).
    f_equal. clear. generalize (j - length r). generalize (n - length r).
    induction n0 as [|k IH]; intros [|q]; simpl; auto.
Qed.

Lemma half_double (x : Qc) : ((x + x) * Q2Qc (1 # 2))%Qc = x.
Proof.
  transitivity (x * (Q2Qc (1 # 2) + Q2Qc (1 # 2)))%Qc; [ring|].
  replace (Q2Qc (1 # 2) + Q2Qc (1 # 2))%Qc with 1%Qc; [ring|]. apply Qc_is_canon. reflexivity.
Qed.

Lemma symmetrize_result m :
  (m = [] -> symmetrize m = Err EValue) /\
  (m <> [] -> ~ squarish m -> symmetrize m = Ok None) /\
  (m <> [] -> squarish m -> exists r, symmetrize m = Ok (Some r) /\ dims r (length m) (length m) /\
     forall i j, i < length m -> j < length m ->
       cell r i j (if i =? j then cell_or_zero m i i else cell_or_zero m i j + cell_or_zero m j i)%Qc).
Proof.
  split; [intros ->; reflexivity|]. split.
  - intros N S. unfold symmetrize. destruct m as [|r0 m0]; [congruence|]. set (m := r0 :: m0) in *.
    rewrite <- (max_squarish m N) in S. apply Nat.eqb_neq in S. rewrite S. reflexivity.
  - intros N S. pose proof (proj2 (max_squarish m N) S) as E.
    unfold symmetrize. destruct m as [|r0 m0]; [congruence|]. set (m := r0 :: m0) in *.
    rewrite <- E, Nat.eqb_refl. eexists. split; [reflexivity|]. split; [apply tabulate_dims|].
    intros i j Hi Hj. apply get2_cell. rewrite tabulate_get by assumption.
    rewrite !(pad_get (length m)) by (try assumption; apply S).
    destruct (Nat.eqb_spec i j) as [->|]; [|reflexivity]. f_equal. apply half_double.
Qed.

Lemma triangular_squarish {A} (m : list (list A)) : m <> [] -> lower_triangular m -> squarish m.
Proof.
  intros N T. split.
  - intros r Hr. apply In_nth_error in Hr as (i & Hi). rewrite (T _ _ Hi).
    assert (i < length m) by (apply nth_error_Some; congruence). lia.
  - destruct (nth_error m (length m - 1)) as [r|] eqn:E.
    + exists r. split; [eapply nth_error_In; exact E|]. rewrite (T _ _ E). destruct m; [congruence|simpl; lia].
    + apply nth_error_None in E. destruct m; [congruence|simpl in E; lia].
Qed.

Lemma triangular_zero (m : list (list Qc)) i j : lower_triangular m -> i < j -> cell_or_zero m i j = 0%Qc.
Proof.
  intros T L. unfold cell_or_zero. apply nth_overflow.
  destruct (Nat.lt_ge_cases i (length m)) as [H|H].
  - rewrite (T i (nth i m [])); [lia|]. apply nth_error_nth'. exact H.
  - rewrite nth_overflow by exact H. simpl. lia.
Qed.

Lemma cell_fun {A} (m : list (list A)) i j x y : cell m i j x -> cell m i j y -> x = y.
Proof. intros (r & E & F) (r' & E' & F'). congruence. Qed.

(** The lower triangle is the input, and the result is symmetric. *)
Lemma symmetrize_triangular m :
  m <> [] -> lower_triangular m ->
  exists r, symmetrize m = Ok (Some r) /\ dims r (length m) (length m) /\
    (forall i j x, cell m i j x -> cell r i j x) /\
    (forall i j x, cell r i j x -> cell r j i x).
Proof.
  intros N T. pose proof (triangular_squarish m N T) as S.
  destruct (proj2 (proj2 (symmetrize_result m)) N S) as (r & E & D & C).
  exists r. split; [exact E|]. split; [exact D|].
  assert (Low : forall i j x, cell m i j x -> i < length m /\ j <= i /\ cell_or_zero m i j = x).
  { intros i j x (row & Hr & Hx).
    assert (Hi : i < length m) by (apply nth_error_Some; congruence).
    assert (Hj : j < length row) by (apply nth_error_Some; congruence).
    rewrite (T _ _ Hr) in Hj. split; [exact Hi|]. split; [lia|].
    unfold cell_or_zero. rewrite (nth_error_nth _ _ [] Hr). apply nth_error_nth. exact Hx. }
  split.
  - intros i j x H. destruct (Low _ _ _ H) as (Hi & Hj & Hx).
    assert (Hj' : j < length m) by lia. specialize (C i j Hi Hj').
    destruct (Nat.eqb_spec i j) as [->|Nij]; [rewrite <- Hx; exact C|].
    rewrite (triangular_zero m j i T) in C by lia. rewrite Hx in C.
    replace x with (x + 0)%Qc by ring. exact C.
  - intros i j x H. assert (B : i < length m /\ j < length m).
    { destruct H as (row & Hr & Hx). destruct D as [D1 D2].
      assert (i < length r) by (apply nth_error_Some; congruence).
      assert (j < length row) by (apply nth_error_Some; congruence).
      rewrite (D2 row) in H0 by (eapply nth_error_In; exact Hr). lia. }
    destruct B as [Hi Hj]. pose proof (C i j Hi Hj) as C1. pose proof (C j i Hj Hi) as C2.
    rewrite <- (cell_fun _ _ _ _ _ C1 H). rewrite Nat.eqb_sym in C2.
    destruct (Nat.eqb_spec i j) as [->|Nij]; [exact C1|]. rewrite Qcplus_comm. exact C2.
Qed.
