(** Lemmas about the nominal voltages of the OpenDSS reader. *)
From Verif Require Import Base DssVoltModel DssVoltSpec.
From Coq Require Import Reals Lia.
Local Open Scope string_scope.
Local Open Scope nat_scope.
Local Open Scope list_scope.

Lemma put_length {A} : forall (l : list A) i x, length (put l i x) = length l.
Proof. induction l as [|h t IH]; intros [|i] x; cbn; auto. Qed.
Lemma put_same {A} : forall (l : list A) i x, i < length l -> nth_error (put l i x) i = Some x.
Proof. induction l as [|h t IH]; intros [|i] x H; cbn in *; try lia; [reflexivity | apply IH; lia]. Qed.
Lemma put_other {A} : forall (l : list A) i j x, i <> j -> nth_error (put l i x) j = nth_error l j.
Proof. induction l as [|h t IH]; intros [|i] [|j] x H; cbn; try reflexivity; try congruence. apply IH; congruence. Qed.
Lemma nth_lt {A} : forall (l : list A) i x, nth_error l i = Some x -> i < length l.
Proof. intros l i x H. apply nth_error_Some. congruence. Qed.

Lemma index_found : forall objs k i, index_of objs k = Some i -> exists o, nth_error objs i = Some o /\ v_name o = Some k.
Proof.
  induction objs as [|o t IH]; intros k i H; cbn [index_of] in H; [discriminate|].
  destruct (index_of t k) as [j|] eqn:E.
  - injection H as <-. cbn. apply IH, E.
  - destruct (v_name o) as [n|] eqn:N; [|discriminate]. destruct (String.eqb_spec n k) as [->|]; [|discriminate].
    injection H as <-. exists o. cbn. auto.
Qed.
Lemma index_last : forall objs k i o, nth_error objs i = Some o -> v_name o = Some k -> exists j, index_of objs k = Some j /\ i <= j.
Proof.
  induction objs as [|p t IH]; intros k i o H N; [destruct i; discriminate|]. cbn [index_of]. destruct i as [|i]; cbn in H.
  - injection H as ->. destruct (index_of t k) as [j|]; [exists (S j); split; [reflexivity|lia]|]. rewrite N, String.eqb_refl. exists 0. auto.
  - destruct (IH k i o H N) as (j & -> & L). exists (S j). split; [reflexivity|lia].
Qed.
Lemma names_nth : forall objs i o n, nth_error objs i = Some o -> v_name o = Some n -> In n (names objs).
Proof.
  intros objs i o n H N. unfold names. apply in_flat_map. exists o. split; [apply (nth_error_In _ _ H)|]. rewrite N. now left.
Qed.
Lemma nodup_app_l {A} : forall a b : list A, NoDup (a ++ b) -> NoDup b.
Proof. induction a as [|x a IH]; intros b H; [exact H|]. apply IH. now inversion H. Qed.
Lemma index_only : forall objs k i o, NoDup (names objs) -> nth_error objs i = Some o -> v_name o = Some k -> index_of objs k = Some i.
Proof.
  induction objs as [|p t IH]; intros k i o D H N; [destruct i; discriminate|]. cbn [index_of]. unfold names in D; cbn [flat_map] in D; fold (names t) in D.
  destruct i as [|i]; cbn in H.
  - injection H as ->. rewrite N in D |- *. destruct (index_of t k) as [j|] eqn:E.
    + destruct (index_found _ _ _ E) as (q & Q & M). inversion D as [|? ? X]; subst. exfalso. apply X. apply (names_nth _ _ _ _ Q M).
    + now rewrite String.eqb_refl.
  - now rewrite (IH k i o (nodup_app_l _ _ D) H N).
Qed.
Lemma index_names : forall a b k, map v_name a = map v_name b -> index_of a k = index_of b k.
Proof.
  induction a as [|x a IH]; intros [|y b] k H; try discriminate; [reflexivity|]. cbn in H. injection H as E F. cbn [index_of].
  now rewrite (IH b k F), E.
Qed.
Lemma map_put {A B} (f : A -> B) : forall l i x y, nth_error l i = Some y -> f x = f y -> map f (put l i x) = map f l.
Proof.
  induction l as [|h t IH]; intros [|i] x y H E; try discriminate; cbn in *.
  - injection H as ->. now rewrite E.
  - now rewrite (IH i x y H E).
Qed.

(** the first loop *)
Lemma bus_names : forall b objs, map v_name (bus_step objs b) = map v_name objs.
Proof.
  intros b objs. unfold bus_step. destruct (index_of objs (lower (fst b))) as [i|]; [|reflexivity].
  destruct (nth_error objs i) as [o|] eqn:E; [|reflexivity]. now apply (map_put _ _ _ _ _ E).
Qed.
Lemma buses_names : forall bs objs, map v_name (fold_left bus_step bs objs) = map v_name objs.
Proof. induction bs as [|b bs IH]; intros objs; [reflexivity|]. cbn [fold_left]. now rewrite IH, bus_names. Qed.
Lemma bus_keep : forall bs objs i, (forall b, In b bs -> index_of objs (lower (fst b)) <> Some i) ->
  nth_error (fold_left bus_step bs objs) i = nth_error objs i.
Proof.
  induction bs as [|b bs IH]; intros objs i H; [reflexivity|]. cbn [fold_left]. rewrite IH.
  - unfold bus_step. pose proof (H b (or_introl eq_refl)) as X. destruct (index_of objs (lower (fst b))) as [j|]; [|reflexivity].
    destruct (nth_error objs j); [|reflexivity]. apply put_other. congruence.
  - intros c C. rewrite (index_names _ _ _ (bus_names b objs)). apply H. now right.
Qed.
Lemma bus_set : forall bs objs i o b kv, NoDup (map (fun x => lower (fst x)) bs) -> In (b, kv) bs -> index_of objs (lower b) = Some i -> nth_error objs i = Some o ->
  nth_error (fold_left bus_step bs objs) i = Some (mkV (v_name o) (v_place o) (Some (Some (kv * sqrt 3 * 1000)%R))).
Proof.
  induction bs as [|c bs IH]; intros objs i o b kv D I X N; [destruct I|]. cbn [fold_left]. inversion D as [|? ? D1 D2]; subst.
  destruct (index_found _ _ _ X) as (o1 & N1 & M1). rewrite N in N1. injection N1 as <-.
  destruct I as [->|I].
  - rewrite bus_keep.
    + unfold bus_step. cbn [fst snd]. rewrite X, N. apply put_same, (nth_lt _ _ _ N).
    + intros c C E. rewrite (index_names _ _ _ (bus_names _ objs)) in E. destruct (index_found _ _ _ E) as (o2 & N2 & M2). rewrite N in N2. injection N2 as <-.
      apply D1. cbn [fst]. apply in_map_iff. exists c. split; [congruence|exact C].
  - rewrite (IH (bus_step objs c) i o b kv D2 I); [reflexivity| |].
    + now rewrite (index_names _ _ _ (bus_names c objs)).
    + unfold bus_step. destruct (index_of objs (lower (fst c))) as [j|] eqn:E; [|exact N]. destruct (nth_error objs j); [|exact N].
      rewrite put_other; [exact N|]. intros ->. destruct (index_found _ _ _ E) as (o2 & N2 & M2). rewrite N in N2. injection N2 as <-.
      apply D1. apply in_map_iff. exists (b, kv). cbn [fst]. split; [congruence|exact I].
Qed.
Lemma bus_frame : forall bs objs i o, nth_error objs i = Some o -> exists v, nth_error (fold_left bus_step bs objs) i = Some (mkV (v_name o) (v_place o) v).
Proof.
  induction bs as [|b bs IH]; intros objs i o N; [exists (v_volt o); cbn; rewrite N; now destruct o|]. cbn [fold_left].
  assert (exists w, nth_error (bus_step objs b) i = Some (mkV (v_name o) (v_place o) w)) as (w & W).
  { unfold bus_step. destruct (index_of objs (lower (fst b))) as [j|]; [|exists (v_volt o); rewrite N; now destruct o].
    destruct (nth_error objs j) as [p|] eqn:P; [|exists (v_volt o); rewrite N; now destruct o].
    destruct (Nat.eq_dec j i) as [->|J].
    - rewrite N in P. injection P as <-. rewrite put_same by apply (nth_lt _ _ _ N). eauto.
    - rewrite put_other by exact J. exists (v_volt o). rewrite N. now destruct o. }
  destruct (IH _ _ _ W) as (v & V). exists v. exact V.
Qed.

(** the second loop *)
Lemma step_names : forall i objs, map v_name (obj_step objs i) = map v_name objs.
Proof.
  intros i objs. unfold obj_step. destruct (nth_error objs i) as [o|] eqn:E; [|reflexivity].
  destruct (v_volt o) as [[v|]|]; destruct (v_place o); try reflexivity; try (now apply (map_put _ _ _ _ _ E));
    (destruct (volt_of objs _); [now apply (map_put _ _ _ _ _ E)|reflexivity]).
Qed.
Lemma step_other : forall i j objs, i <> j -> nth_error (obj_step objs i) j = nth_error objs j.
Proof.
  intros i j objs H. unfold obj_step. destruct (nth_error objs i) as [o|]; [|reflexivity].
  destruct (v_volt o) as [[v|]|]; destruct (v_place o); try reflexivity; try (now apply put_other);
    (destruct (volt_of objs _); [now apply put_other|reflexivity]).
Qed.
Definition still (o : vobj) : Prop := v_place o = PNode \/ v_place o = POther.
Lemma step_still : forall i j objs o, nth_error objs j = Some o -> still o -> nth_error (obj_step objs i) j = Some o.
Proof.
  intros i j objs o N S. destruct (Nat.eq_dec i j) as [->|H]; [|now rewrite step_other].
  unfold obj_step. rewrite N. destruct S as [-> | ->]; destruct (v_volt o) as [[v|]|]; exact N.
Qed.
Lemma steps_still : forall l j objs o, nth_error objs j = Some o -> still o -> nth_error (fold_left obj_step l objs) j = Some o.
Proof. induction l as [|i l IH]; intros j objs o N S; [exact N|]. cbn. apply IH; [now apply step_still|exact S]. Qed.
Lemma steps_names : forall l objs, map v_name (fold_left obj_step l objs) = map v_name objs.
Proof. induction l as [|i l IH]; intros objs; [reflexivity|]. cbn. now rewrite IH, step_names. Qed.
Lemma steps_other : forall l j objs, ~ In j l -> nth_error (fold_left obj_step l objs) j = nth_error objs j.
Proof. induction l as [|i l IH]; intros j objs H; [reflexivity|]. cbn in *. rewrite IH by tauto. apply step_other. tauto. Qed.
Lemma steps_at : forall l i objs, NoDup l -> In i l ->
  exists mid, map v_name mid = map v_name objs /\ nth_error mid i = nth_error objs i
    /\ (forall j o, nth_error objs j = Some o -> still o -> nth_error mid j = Some o)
    /\ nth_error (fold_left obj_step l objs) i = nth_error (obj_step mid i) i.
Proof.
  intros l i objs D I. destruct (in_split _ _ I) as (a & b & ->). exists (fold_left obj_step a objs).
  pose proof (NoDup_remove_2 _ _ _ D) as X. rewrite in_app_iff in X.
  split; [apply steps_names|]. split; [apply steps_other; tauto|]. split; [intros j o N S; now apply steps_still|].
  rewrite fold_left_app. cbn [fold_left]. apply steps_other. tauto.
Qed.
Lemma volt_still : forall objs mid k j o, map v_name mid = map v_name objs -> (forall j o, nth_error objs j = Some o -> still o -> nth_error mid j = Some o) ->
  index_of objs k = Some j -> nth_error objs j = Some o -> still o -> volt_of mid (Some k) = v_volt o.
Proof.
  intros objs mid k j o M K X N S. unfold volt_of. rewrite (index_names _ _ _ M), X. now rewrite (K j o N S).
Qed.
Lemma volt_missing : forall objs mid k, map v_name mid = map v_name objs -> ~ In k (names objs) -> volt_of mid (Some k) = None.
Proof.
  intros objs mid k M H. unfold volt_of. rewrite (index_names _ _ _ M). destruct (index_of objs k) as [i|] eqn:E; [|reflexivity].
  destruct (index_found _ _ _ E) as (o & N & V). destruct (H (names_nth _ _ _ _ N V)).
Qed.

(** the windings *)
Lemma winding_length : forall objs f t ws x, length (winding_step objs f t ws x) = length ws.
Proof. intros. unfold winding_step. destruct (nth_error ws x) as [[v|]|]; try reflexivity. destruct (volt_of objs _); [apply put_length|reflexivity]. Qed.
Lemma winding_other : forall objs f t ws x y, x <> y -> nth_error (winding_step objs f t ws x) y = nth_error ws y.
Proof. intros. unfold winding_step. destruct (nth_error ws x) as [[v|]|]; try reflexivity. destruct (volt_of objs _); [now apply put_other|reflexivity]. Qed.
Lemma winding_same : forall objs f t ws x w, nth_error ws x = Some w ->
  nth_error (winding_step objs f t ws x) x = Some (match w with Some v => Some v | None => match volt_of objs (side f t x) with Some v => v | None => None end end).
Proof.
  intros objs f t ws x w H. unfold winding_step, side. rewrite H. destruct w as [v|]; [exact H|].
  destruct (volt_of objs _) as [v|]; [apply put_same, (nth_lt _ _ _ H)|exact H].
Qed.
Lemma windings_nth : forall objs f t ws x w, nth_error ws x = Some w ->
  nth_error (fold_left (winding_step objs f t) [0; 1; 2] ws) x =
  Some (if x <? 3 then match w with Some v => Some v | None => match volt_of objs (side f t x) with Some v => v | None => None end end else w).
Proof.
  intros objs f t ws x w H. cbn [fold_left]. destruct x as [|[|[|x]]].
  - rewrite !winding_other by lia. now apply winding_same.
  - rewrite winding_other by lia. rewrite (winding_same _ _ _ _ 1 w); [reflexivity|]. now rewrite winding_other by lia.
  - rewrite (winding_same _ _ _ _ 2 w); [reflexivity|]. now rewrite !winding_other by lia.
  - rewrite !winding_other by lia. exact H.
Qed.
Lemma windings_length : forall objs f t ws, length (fold_left (winding_step objs f t) [0; 1; 2] ws) = length ws.
Proof. intros. cbn [fold_left]. now rewrite !winding_length. Qed.
