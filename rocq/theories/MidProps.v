(** C116: the edge that is cut in a loop. *)
From Coq Require Import List String Bool Arith ZArith Lia Permutation.
From Verif Require Import Base BaseFacts StoreModel StoreSpec StoreProofs NetworkModel NetworkSpec NetworkProps MidModel.
Import ListNotations.
Local Open Scope nat_scope.
Local Open Scope list_scope.

Lemma least_spec (phases : string -> option (option nat)) nodes m0 m : foldM (fun m n => do p <- of_opt EKey (phases n); match p with None => Err EName | Some k => Ok (if k <? m then k else m) end) nodes m0 = Ok m ->
  m <= m0 /\ (forall n, In n nodes -> exists k, phases n = Some (Some k) /\ m <= k) /\ (m = m0 \/ exists n, In n nodes /\ phases n = Some (Some m)).
Proof.
  revert m0. induction nodes as [|n l IH]; intros m0 H; cbn [foldM] in H; [injection H as <-; split; [lia|]; split; [intros n []|now left]|].
  destruct (phases n) as [[k|]|] eqn:E; cbn [of_opt bind] in H; try discriminate. apply IH in H. destruct H as (A & B & C). destruct (Nat.ltb_spec k m0).
  - split; [lia|]. split; [intros x [<-|X]; [exists k; split; [exact E|lia]|now apply B]|]. right. destruct C as [->|(x & X & Y)]; [exists n; split; [now left|exact E]|exists x; split; [now right|exact Y]].
  - split; [lia|]. split; [intros x [<-|X]; [exists k; split; [exact E|lia]|now apply B]|]. destruct C as [->|(x & X & Y)]; [now left|right; exists x; split; [now right|exact Y]].
Qed.

Section Scan.
Variable phases : string -> option (option nat).
Variable m : nat.
Definition fine (st : scan) : Prop := x_at st = (0 <? x_cnt st) /\ (x_max st = 0 <-> (x_pos st = -1)%Z) /\ (-1 <= x_pos st)%Z.
Lemma scan_node_fine st i n : fine st -> (0 < x_cnt st -> 0 < i) -> fine (scan_node phases m st i n) /\ (0 < x_cnt st + x_max st -> 0 < x_cnt (scan_node phases m st i n) + x_max (scan_node phases m st i n)) /\
  (count phases n = m -> 0 < x_cnt (scan_node phases m st i n)).
Proof.
  destruct st as [a c x p]. intros (A & B & P) K. cbn [x_at x_cnt x_max x_pos] in A, B, P, K. unfold scan_node, fine. cbn [x_at x_cnt x_max x_pos]. destruct (Nat.eqb_spec (count phases n) m) as [->|NE].
  - rewrite Nat.ltb_irrefl, andb_false_r. cbn. split; [split; [reflexivity|split; assumption]|]. split; lia.
  - destruct (a && (m <? count phases n)) eqn:E; [|cbn; split; [split; [exact A|split; assumption]|split; [lia|congruence]]].
    apply andb_true_iff in E. destruct E as [E _]. rewrite E in A. symmetry in A. apply Nat.ltb_lt in A. destruct (Nat.ltb_spec x c); cbn; (split; [split; [reflexivity|]|]).
    + split; [|lia]. split; lia.
    + split; lia.
    + split; [exact B|exact P].
    + split; [lia|congruence].
Qed.
Lemma scan_from_fine nodes : forall i st, fine st -> (0 < x_cnt st -> 0 < i) -> fine (scan_from phases m i nodes st) /\
  (0 < x_cnt st + x_max st \/ (exists n, In n nodes /\ count phases n = m) -> 0 < x_cnt (scan_from phases m i nodes st) + x_max (scan_from phases m i nodes st)).
Proof.
  induction nodes as [|n l IH]; intros i st F K; cbn [scan_from]; [split; [exact F|intros [H|(n & [] & _)]; exact H]|].
  destruct (scan_node_fine st i n F K) as (F' & G & C). destruct (IH (S i) (scan_node phases m st i n) F') as (F2 & G2); [lia|]. split; [exact F2|]. intros H. apply G2. destruct H as [H|(x & [->|X] & E)]; [left; now apply G|left; specialize (C E); lia|right; now exists x].
Qed.
End Scan.

(** The middle of the longest section with the fewest phases is never found. *)
Theorem C116_never_found_refuted : forall phases nodes n k, 2 <= length nodes -> In n nodes -> phases n = Some (Some k) -> k < 1000 -> exists e, middle_single_phase phases nodes = Err e.
Proof.
  intros phases nodes n k L I E K. unfold middle_single_phase. destruct (least phases nodes) as [m|] eqn:EM; cbn [bind]; [|eauto]. unfold least in EM. destruct (least_spec _ _ _ _ EM) as (A & B & C).
  destruct (B n I) as (k' & E' & LE). assert (k' = k) by congruence. subst k'. destruct C as [C|(x & X & Y)]; [lia|].
  destruct (scan_from_fine phases m nodes 0 (mkScan false 0 0 (-1))) as ((F1 & F2 & F3) & G); [split; [reflexivity|split; [cbn; tauto|cbn; lia]]|cbn; lia|].
  assert (0 < x_cnt (scan_from phases m 0 nodes (mkScan false 0 0 (-1))) + x_max (scan_from phases m 0 nodes (mkScan false 0 0 (-1)))) as G'. { apply G. right. exists x. split; [exact X|]. unfold count. now rewrite Y. }
  clear G. destruct (scan_from phases m 0 nodes (mkScan false 0 0 (-1))) as [a c mx p]. cbn [x_at x_cnt x_max x_pos] in *.
  destruct ((0 <? c) && (mx <? c)) eqn:EC.
  - assert ((-1 <? Z.of_nat (length nodes) - 2)%Z = true) as -> by (apply Z.ltb_lt; lia). eauto.
  - assert ((-1 <? p)%Z = true) as ->; [|eauto]. apply Z.ltb_lt. assert (mx <> 0). { intros ->. apply andb_false_iff in EC. destruct EC as [EC|EC]; apply Nat.ltb_ge in EC; lia. } assert (p <> -1)%Z by tauto. lia.
Qed.
Print Assumptions C116_never_found_refuted.

(** Hence a loop with a node of known phases would stop delete_cycles, if it were found. *)
Theorem C116_delete_cycles_refuted : forall fuel phases middle h s cycles c n k, NoDup (elems s) -> (forall c' e, middle_single_phase phases c' = Err e -> exists e', middle c' = Err e') -> In c cycles -> 2 < length c -> In n c -> phases n = Some (Some k) -> k < 1000 ->
  exists e, delete_cycles fuel middle h s cycles = Err e.
Proof.
  intros fuel phases middle h s cycles c n k ND M I L IN E K. destruct (delete_cycles fuel middle h s cycles) as [[s' r]|] eqn:D; [|eauto]. exfalso. destruct (C23_long_cycles_are_cut fuel middle h s cycles s' r ND D) as (H & _). destruct (H c I L) as (c' & e & _ & P & Y & _).
  destruct (C116_never_found_refuted phases c' n k) as (e' & X); [rewrite <- (Permutation_length P); lia|eapply Permutation_in; eassumption|exact E|exact K|]. destruct (M c' e' X) as (e2 & Z). congruence.
Qed.
Print Assumptions C116_delete_cycles_refuted.

(** A node without phases stops it as well. *)
Theorem C116_unknown_phases_refuted : forall phases nodes n, In n nodes -> (forall k, phases n <> Some (Some k)) -> exists e, middle_single_phase phases nodes = Err e.
Proof.
  intros phases nodes n I N. unfold middle_single_phase. destruct (least phases nodes) as [m|] eqn:EM; cbn [bind]; [|eauto]. destruct (least_spec _ _ _ _ EM) as (_ & B & _). destruct (B n I) as (k & E & _). now apply N in E.
Qed.
Print Assumptions C116_unknown_phases_refuted.

(** No name is ever returned: the answer is an error or the empty tuple, and the latter only for no nodes, a single one, or a thousand phases. *)
Theorem C116_answers : forall phases nodes o, middle_single_phase phases nodes = Ok o -> o = None /\ (length nodes <= 1 \/ forall n, In n nodes -> exists k, phases n = Some (Some k) /\ 1000 <= k).
Proof.
  intros phases nodes o H. split.
  - unfold middle_single_phase in H. destruct (least phases nodes); cbn [bind] in H; [|discriminate]. destruct (-1 <? _)%Z; [discriminate|]. now injection H as <-.
  - destruct (Nat.le_gt_cases (length nodes) 1) as [L|L]; [now left|right]. intros n I. destruct (phases n) as [[k|]|] eqn:E.
    + exists k. split; [reflexivity|]. destruct (Nat.le_gt_cases 1000 k) as [K|K]; [exact K|]. destruct (C116_never_found_refuted phases nodes n k L I E K) as (e & X). congruence.
    + destruct (C116_unknown_phases_refuted phases nodes n I) as (e & X); [congruence|congruence].
    + destruct (C116_unknown_phases_refuted phases nodes n I) as (e & X); [congruence|congruence].
Qed.
Print Assumptions C116_answers.

Local Open Scope string_scope.
Example C116_hypotheses_met : middle_single_phase (fun n => dget [("a", Some 1); ("b", Some 3); ("c", Some 1)] n) ["a"; "b"; "c"] = Err EType /\ middle_single_phase (fun _ => Some (Some 1)) ["a"] = Ok None.
Proof. split; reflexivity. Qed.
