(** The lengths of lines in the metrics. *)
From Verif Require Import Base BaseFacts StoreModel NetworkModel NetworkSpec CenterTapModel CenterTapSpec CenterTapProofs MetricsModel MetricsSpec MetricsProofs.
From Coq Require Import QArith Qabs Lqa Lia.
Local Open Scope string_scope.
Local Open Scope nat_scope.
Local Open Scope list_scope.

Section Lines.
Variables (LV MV : Q) (by_transformers : bool) (feeder_name : string -> option (option string)) (power_behind : option string -> option Q).
Notation object_incs := (object_incs LV MV by_transformers feeder_name power_behind).

(** The amounts of a length. *)
Definition cell (b : bool) (x : Q) : Q := if b then x else 0%Q.
Lemma len_amounts x n oh :
  (amount "lv_len_mi" (len_form "lv" x n oh) == x)%Q /\
  (amount "lv_1ph_len_mi" (len_form "lv" x n oh) == cell (Nat.eqb n 1) x)%Q /\
  (amount "lv_2ph_len_mi" (len_form "lv" x n oh) == cell (Nat.eqb n 2) x)%Q /\
  (amount "lv_3ph_len_mi" (len_form "lv" x n oh) == cell (Nat.eqb n 3) x)%Q /\
  (amount "lv_oh_1ph_len_mi" (len_form "lv" x n oh) == cell (Nat.eqb n 1 && oh) x)%Q /\
  (amount "lv_oh_2ph_len_mi" (len_form "lv" x n oh) == cell (Nat.eqb n 2 && oh) x)%Q /\
  (amount "lv_oh_3ph_len_mi" (len_form "lv" x n oh) == cell (Nat.eqb n 3 && oh) x)%Q /\
  (amount "mv_len_mi" (len_form "mv" x n oh) == x)%Q /\
  (amount "mv_1ph_len_mi" (len_form "mv" x n oh) == cell (Nat.eqb n 1) x)%Q /\
  (amount "mv_2ph_len_mi" (len_form "mv" x n oh) == cell (Nat.eqb n 2) x)%Q /\
  (amount "mv_3ph_len_mi" (len_form "mv" x n oh) == cell (Nat.eqb n 3) x)%Q /\
  (amount "mv_oh_1ph_len_mi" (len_form "mv" x n oh) == cell (Nat.eqb n 1 && oh) x)%Q /\
  (amount "mv_oh_2ph_len_mi" (len_form "mv" x n oh) == cell (Nat.eqb n 2 && oh) x)%Q /\
  (amount "mv_oh_3ph_len_mi" (len_form "mv" x n oh) == cell (Nat.eqb n 3 && oh) x)%Q.
Proof.
  unfold len_form, cell. destruct n as [|[|[|[|n]]]]; destruct oh;
    cbn [amount when app append String.eqb Ascii.eqb Bool.eqb Nat.eqb andb]; repeat split; lra.
Qed.

Lemma cell_yes b (P : mline -> Prop) o ln x : mb_body o = Line ln -> (b = true <-> P ln) -> ml_length ln = Some x -> (0 <= x)%Q -> yes (long P) o (cell b x).
Proof.
  intros B H E X. destruct b; cbn; [left|right].
  - exists x. split; [|reflexivity]. exists ln. split; [exact B|]. split; [apply H; reflexivity|auto].
  - split; [|reflexivity]. intros y (l' & B' & P' & _). assert (l' = ln) by congruence. subst. apply H in P'. discriminate.
Qed.
Lemma yes_ext {A} (P : A -> Q -> Prop) a v v' : yes P a v -> (v' == v)%Q -> yes P a v'.
Proof. intros [(x & H & E)|[H E]] E'; [left; exists x; split; [exact H|rewrite E'; exact E]|right; split; [exact H|rewrite E'; exact E]]. Qed.

Lemma other_not_long (P : mline -> Prop) o v : (forall ln, mb_body o <> Line ln) -> (v == 0)%Q -> yes (long P) o v.
Proof. intros H E. right. split; [|exact E]. intros x (l & B & _). exact (H _ B). Qed.

Lemma measure_keys k P : measure LV MV k P -> smem k head_keys = false /\ smem k load_keys = false /\ smem k trans_keys = false /\ k <> "num_regulators" /\ k <> "num_capacitors" /\ In k counters.
Proof. intros K. destruct K; (split; [reflexivity|]); (split; [reflexivity|]); (split; [reflexivity|]); (split; [discriminate|]); (split; [discriminate|cbn; tauto]). Qed.

Lemma measure_amount k P o l : measure LV MV k P -> object_incs o = Ok l -> yes (long P) o (amount k l).
Proof.
  intros K. destruct (measure_keys _ _ K) as (K1 & K2 & K3 & K4 & K5 & _). unfold MetricsModel.object_incs.
  destruct (mb_body o) as [ln|x| | |t|] eqn:B; intros E.
  - destruct (line_cases _ _ _ _ _ E) as (ws & len & W & -> & C). clear E.
    apply (yes_ext _ _ (amount k len)); [|rewrite amount_app, (amount_none k (head_form feeder_name ln) head_keys); [ring|apply head_form_keys|exact K1]].
    destruct C as [[-> No]|(v & x & Ex & X & -> & V)].
    + apply (yes_ext _ _ 0%Q); [|reflexivity]. right. split; [|reflexivity]. intros y (l' & B' & P' & E' & Y). assert (l' = ln) by congruence. subst l'.
      destruct No as [[N1 N2]|(z & Ez & Z)]; [|assert (z = y) by congruence; subst; lra]. destruct K; tauto.
    + pose proof (len_amounts x (length (phases ws)) (overhead ln)) as A. decompose [and] A. clear A.
      assert (P1 : forall n, Nat.eqb (length (phases ws)) n = true <-> has_phases n ln) by (intros n; rewrite Nat.eqb_eq; symmetry; apply has_phases_spec; exact W).
      destruct V as [[-> V]|[-> V]].
      * assert (NM : ~ medium LV MV (ml_volt ln)) by (eapply low_not_medium; eauto).
        destruct K;
          (eapply yes_ext; [|eassumption]) ||
          (eapply yes_ext; [|apply (amount_none _ _ (len_keys "lv")); [apply len_form_keys|reflexivity]]);
          try (match goal with |- yes _ _ (cell _ _) => apply (cell_yes _ _ _ ln); auto; rewrite ?andb_true_iff, P1, ?overhead_spec; tauto end);
          try (change x with (cell true x); apply (cell_yes _ _ _ ln); auto; tauto);
          (change 0%Q with (cell false x); apply (cell_yes _ _ _ ln); auto; split; [discriminate|tauto]).
      * assert (NL : ~ low LV (ml_volt ln)) by (intros C; eapply low_not_medium; eauto).
        destruct K;
          (eapply yes_ext; [|eassumption]) ||
          (eapply yes_ext; [|apply (amount_none _ _ (len_keys "mv")); [apply len_form_keys|reflexivity]]);
          try (match goal with |- yes _ _ (cell _ _) => apply (cell_yes _ _ _ ln); auto; rewrite ?andb_true_iff, P1, ?overhead_spec; tauto end);
          try (change x with (cell true x); apply (cell_yes _ _ _ ln); auto; tauto);
          (change 0%Q with (cell false x); apply (cell_yes _ _ _ ln); auto; split; [discriminate|tauto]).
  - apply other_not_long; [congruence|]. eapply amount_none; [intros i; eapply load_incs_keys; exact E|exact K2].
  - apply other_not_long; [congruence|]. injection E as <-. cbn [amount]. destruct (String.eqb_spec "num_regulators" k); [congruence|ring].
  - apply other_not_long; [congruence|]. injection E as <-. cbn [amount]. destruct (String.eqb_spec "num_capacitors" k); [congruence|ring].
  - apply other_not_long; [congruence|].
    destruct (overload_incs _ _ t) as [a|] eqn:Ea; cbn [bind] in E; [|discriminate]. destruct (kind_incs _ t) as [b|] eqn:Eb; cbn [bind] in E; [|discriminate]. injection E as <-.
    eapply amount_none; [intros i; eapply trans_incs_keys; [exact Ea|exact Eb]|exact K3].
  - apply other_not_long; [congruence|]. injection E as <-. reflexivity.
Qed.

(** The parts of a length. *)
Lemma length_parts o l : object_incs o = Ok l ->
  (amount "lv_1ph_len_mi" l + amount "lv_2ph_len_mi" l + amount "lv_3ph_len_mi" l <= amount "lv_len_mi" l)%Q /\
  (amount "mv_1ph_len_mi" l + amount "mv_2ph_len_mi" l + amount "mv_3ph_len_mi" l <= amount "mv_len_mi" l)%Q /\
  (0 <= amount "lv_oh_1ph_len_mi" l <= amount "lv_1ph_len_mi" l)%Q /\ (0 <= amount "lv_oh_2ph_len_mi" l <= amount "lv_2ph_len_mi" l)%Q /\
  (0 <= amount "lv_oh_3ph_len_mi" l <= amount "lv_3ph_len_mi" l)%Q /\
  (0 <= amount "mv_oh_1ph_len_mi" l <= amount "mv_1ph_len_mi" l)%Q /\ (0 <= amount "mv_oh_2ph_len_mi" l <= amount "mv_2ph_len_mi" l)%Q /\
  (0 <= amount "mv_oh_3ph_len_mi" l <= amount "mv_3ph_len_mi" l)%Q /\
  ((forall ln, mb_body o = Line ln -> low LV (ml_volt ln) -> has_phases 1 ln \/ has_phases 2 ln \/ has_phases 3 ln) ->
    amount "lv_1ph_len_mi" l + amount "lv_2ph_len_mi" l + amount "lv_3ph_len_mi" l == amount "lv_len_mi" l)%Q /\
  ((forall ln, mb_body o = Line ln -> medium LV MV (ml_volt ln) -> has_phases 1 ln \/ has_phases 2 ln \/ has_phases 3 ln) ->
    amount "mv_1ph_len_mi" l + amount "mv_2ph_len_mi" l + amount "mv_3ph_len_mi" l == amount "mv_len_mi" l)%Q.
Proof.
  intros E.
  assert (No : (forall k, In k (len_keys "lv" ++ len_keys "mv") -> (amount k l == 0)%Q) \/
     exists ln ws v x, mb_body o = Line ln /\ ml_wires ln = Some ws /\ (0 <= x)%Q /\ ((v = "lv" /\ low LV (ml_volt ln)) \/ (v = "mv" /\ medium LV MV (ml_volt ln))) /\
       forall k, In k (len_keys "lv" ++ len_keys "mv") -> (amount k l == amount k (len_form v x (length (phases ws)) (overhead ln)))%Q).
  { assert (Hd : forall k, In k (len_keys "lv" ++ len_keys "mv") -> smem k head_keys = false /\ smem k load_keys = false /\ smem k trans_keys = false /\ k <> "num_regulators" /\ k <> "num_capacitors").
    { intros k Hk. apply in_app_iff in Hk. destruct Hk as [Hk|Hk]; cbn in Hk; decompose [or] Hk; try contradiction; subst k; repeat split; discriminate || reflexivity. }
    unfold MetricsModel.object_incs in E. destruct (mb_body o) as [ln|x| | |t|] eqn:B.
    - destruct (line_cases _ _ _ _ _ E) as (ws & len & W & -> & C). clear E.
      assert (Al : forall k, In k (len_keys "lv" ++ len_keys "mv") -> (amount k (head_form feeder_name ln ++ len) == amount k len)%Q).
      { intros k Hk. destruct (Hd _ Hk) as (K1 & _). rewrite amount_app, (amount_none k (head_form feeder_name ln) head_keys); [ring|apply head_form_keys|exact K1]. }
      destruct C as [[-> _]|(v & x & Ex & X & -> & V)].
      + left. intros k Hk. rewrite (Al _ Hk). reflexivity.
      + right. exists ln, ws, v, x. auto.
    - left. intros k Hk. destruct (Hd _ Hk) as (_ & K2 & _). eapply amount_none; [intros i; eapply load_incs_keys; exact E|exact K2].
    - left. intros k Hk. destruct (Hd _ Hk) as (_ & _ & _ & K4 & _). injection E as <-. cbn [amount]. destruct (String.eqb_spec "num_regulators" k); [congruence|ring].
    - left. intros k Hk. destruct (Hd _ Hk) as (_ & _ & _ & _ & K5). injection E as <-. cbn [amount]. destruct (String.eqb_spec "num_capacitors" k); [congruence|ring].
    - left. intros k Hk. destruct (Hd _ Hk) as (_ & _ & K3 & _).
      destruct (overload_incs _ _ t) as [a|] eqn:Ea; cbn [bind] in E; [|discriminate]. destruct (kind_incs _ t) as [b|] eqn:Eb; cbn [bind] in E; [|discriminate]. injection E as <-.
      eapply amount_none; [intros i; eapply trans_incs_keys; [exact Ea|exact Eb]|exact K3].
    - left. intros k Hk. injection E as <-. reflexivity. }
  assert (I : forall k, smem k (len_keys "lv" ++ len_keys "mv") = true -> In k (len_keys "lv" ++ len_keys "mv")) by (intros k; apply smem_In).
  destruct No as [Z|(ln & ws & v & x & B & W & X & V & Z)].
  - rewrite !(Z _ (I "lv_len_mi" eq_refl)), !(Z _ (I "lv_1ph_len_mi" eq_refl)), !(Z _ (I "lv_2ph_len_mi" eq_refl)), !(Z _ (I "lv_3ph_len_mi" eq_refl)),
      !(Z _ (I "mv_len_mi" eq_refl)), !(Z _ (I "mv_1ph_len_mi" eq_refl)), !(Z _ (I "mv_2ph_len_mi" eq_refl)), !(Z _ (I "mv_3ph_len_mi" eq_refl)),
      !(Z _ (I "lv_oh_1ph_len_mi" eq_refl)), !(Z _ (I "lv_oh_2ph_len_mi" eq_refl)), !(Z _ (I "lv_oh_3ph_len_mi" eq_refl)),
      !(Z _ (I "mv_oh_1ph_len_mi" eq_refl)), !(Z _ (I "mv_oh_2ph_len_mi" eq_refl)), !(Z _ (I "mv_oh_3ph_len_mi" eq_refl)).
    repeat split; try lra; intros _; lra.
  - pose proof (len_amounts x (length (phases ws)) (overhead ln)) as (A1 & A2 & A3 & A4 & A5 & A6 & A7 & M1 & M2 & M3 & M4 & M5 & M6 & M7).
    assert (N0 : forall k w, v = w -> smem k (len_keys w) = false -> (amount k (len_form v x (length (phases ws)) (overhead ln)) == 0)%Q).
    { intros k w -> S. eapply amount_none; [apply len_form_keys|exact S]. }
    rewrite !(Z _ (I "lv_len_mi" eq_refl)), !(Z _ (I "lv_1ph_len_mi" eq_refl)), !(Z _ (I "lv_2ph_len_mi" eq_refl)), !(Z _ (I "lv_3ph_len_mi" eq_refl)),
      !(Z _ (I "mv_len_mi" eq_refl)), !(Z _ (I "mv_1ph_len_mi" eq_refl)), !(Z _ (I "mv_2ph_len_mi" eq_refl)), !(Z _ (I "mv_3ph_len_mi" eq_refl)),
      !(Z _ (I "lv_oh_1ph_len_mi" eq_refl)), !(Z _ (I "lv_oh_2ph_len_mi" eq_refl)), !(Z _ (I "lv_oh_3ph_len_mi" eq_refl)),
      !(Z _ (I "mv_oh_1ph_len_mi" eq_refl)), !(Z _ (I "mv_oh_2ph_len_mi" eq_refl)), !(Z _ (I "mv_oh_3ph_len_mi" eq_refl)).
    assert (P3 : has_phases 1 ln \/ has_phases 2 ln \/ has_phases 3 ln -> length (phases ws) = 1 \/ length (phases ws) = 2 \/ length (phases ws) = 3) by (rewrite !(has_phases_spec _ _ _ W); auto).
    destruct V as [[-> V]|[-> V]].
    + rewrite A1, A2, A3, A4, A5, A6, A7, !(N0 "mv_len_mi" "lv" eq_refl eq_refl), !(N0 "mv_1ph_len_mi" "lv" eq_refl eq_refl), !(N0 "mv_2ph_len_mi" "lv" eq_refl eq_refl), !(N0 "mv_3ph_len_mi" "lv" eq_refl eq_refl),
        !(N0 "mv_oh_1ph_len_mi" "lv" eq_refl eq_refl), !(N0 "mv_oh_2ph_len_mi" "lv" eq_refl eq_refl), !(N0 "mv_oh_3ph_len_mi" "lv" eq_refl eq_refl).
      unfold cell. set (m := length (phases ws)) in *. clearbody m. clear - X P3 V B. destruct (overhead ln); destruct m as [|[|[|[|m]]]]; cbn; repeat split; try lra; intros H; try lra;
        exfalso; destruct (P3 (H _ B V)) as [C|[C|C]]; discriminate.
    + rewrite M1, M2, M3, M4, M5, M6, M7, !(N0 "lv_len_mi" "mv" eq_refl eq_refl), !(N0 "lv_1ph_len_mi" "mv" eq_refl eq_refl), !(N0 "lv_2ph_len_mi" "mv" eq_refl eq_refl), !(N0 "lv_3ph_len_mi" "mv" eq_refl eq_refl),
        !(N0 "lv_oh_1ph_len_mi" "mv" eq_refl eq_refl), !(N0 "lv_oh_2ph_len_mi" "mv" eq_refl eq_refl), !(N0 "lv_oh_3ph_len_mi" "mv" eq_refl eq_refl).
      unfold cell. set (m := length (phases ws)) in *. clearbody m. clear - X P3 V B. destruct (overhead ln); destruct m as [|[|[|[|m]]]]; cbn; repeat split; try lra; intros H; try lra;
        exfalso; destruct (P3 (H _ B V)) as [C|[C|C]]; discriminate.
Qed.
End Lines.
