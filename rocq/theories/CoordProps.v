(** C33: filling in missing coordinates. *)
From Verif Require Import Base StoreModel NetworkModel NetworkSpec NetworkTop CoordModel CoordSpec CoordProofs.
From Coq Require Import QArith.
Local Open Scope string_scope.
Local Open Scope nat_scope.
Local Open Scope list_scope.

(** The loop ends after at most as many passes as there are nodes to place. *)
Theorem C33_terminates : forall es s n, build es s = Ok n -> forall ps,
  set_missing_coords_recur (length (recur_nodes (net_graph n) es ps)) (net_graph n) es ps <> Err EFuel.
Proof. exact coords_terminate. Qed.
Print Assumptions C33_terminates.

(** It succeeds when neighbours are objects and known coordinates are numbers. *)
Theorem C33_succeeds : forall es s n, build es s = Ok n -> forall ps,
  (forall i la lo, located ps i la lo -> la <> None /\ lo <> None) ->
  (forall x y j e, nth_error es j = Some e -> e_name e = Some (Some x) -> missing ps j -> linked es x y -> exists p, bears es y p) ->
  exists ps', set_missing_coords_recur (length (recur_nodes (net_graph n) es ps)) (net_graph n) es ps = Ok ps'.
Proof. exact coords_total. Qed.
Print Assumptions C33_succeeds.

(** What changes: an object whose name is that of a linked node missing its coordinates; it gets one
    position inside every box that bounds the known coordinates. *)
Theorem C33_inside_box : forall es s n, build es s = Ok n -> forall fuel ps ps',
  set_missing_coords_recur fuel (net_graph n) es ps = Ok ps' ->
  length ps' = length ps /\
  forall i, nth_error ps' i = nth_error ps i \/
    exists x la lo, bears es x i /\ (exists y, linked es x y) /\
      (exists j e, nth_error es j = Some e /\ e_name e = Some (Some x) /\ missing ps j) /\
      nth_error ps' i = Some (Some (Some [(Some la, Some lo)])) /\
      forall a b c d, bounded ps a b c d -> (a <= la <= b /\ c <= lo <= d)%Q.
Proof. exact coords_spec. Qed.
Print Assumptions C33_inside_box.

(** An object that has coordinates, or is no node of the network, is not changed. *)
Theorem C33_unchanged : forall es s n, build es s = Ok n -> forall fuel ps ps', unique_names es ->
  set_missing_coords_recur fuel (net_graph n) es ps = Ok ps' ->
  forall i, (~ missing ps i \/ forall x, bears es x i -> forall y, ~ linked es x y) -> nth_error ps' i = nth_error ps i.
Proof. exact coords_unchanged. Qed.
Print Assumptions C33_unchanged.

(** Every node connected to a located node, over objects that can have positions, is located in the
    end: if the known latitudes are on one side of 0, and the longitudes too.
    Missing for the full statement: coordinates on both sides of 0, see [C33_zero_average_refuted]. *)
Theorem C33_located_partial : forall es s n, build es s = Ok n -> forall fuel ps ps' a b c d,
  set_missing_coords_recur fuel (net_graph n) es ps = Ok ps' -> length ps = length es ->
  bounded ps a b c d -> (0 < a \/ b < 0)%Q -> (0 < c \/ d < 0)%Q ->
  forall u v p q, bears es u p -> (exists la lo, located ps p la lo) -> chain es ps u v -> bears es v q ->
  exists la lo, located ps' q la lo.
Proof. exact coords_complete. Qed.
Print Assumptions C33_located_partial.

(** Latitudes 1 and -1 average to 0: the node between them is still missing, and so is what hangs on it. *)
Definition zes : list elem := [xnode "a"; xnode "b"; xnode "c"; xnode "d"; xline "l1" "a" "b" 1; xline "l2" "b" "c" 1; xline "l3" "b" "d" 1].
Definition at_ (la lo : Q) : place := Some (Some [(Some la, Some lo)]).
(** An average of exactly 0 counts as a missing coordinate, so a connected node can stay without one. *)
Theorem C33_zero_average_refuted :
  exists n ps ps' u v p q, build zes "a" = Ok n /\
    set_missing_coords_recur (length (recur_nodes (net_graph n) zes ps)) (net_graph n) zes ps = Ok ps' /\ length ps = length zes /\
    bears zes u p /\ (exists la lo, located ps p la lo) /\ chain zes ps u v /\ bears zes v q /\ forall la lo, ~ located ps' q la lo.
Proof.
  eexists. exists [at_ 1 5; Some None; at_ (-1) 5; Some (Some []); None; None; None]. eexists. exists "a", "d", 0, 3.
  split; [vm_compute; reflexivity|]. split; [vm_compute; reflexivity|]. split; [reflexivity|].
  assert (Bs : forall x k, NetworkModel.lookup zes (Some x) = Some k -> bears zes x k) by (intros x k; apply NetworkDown.lookup_spec).
  split; [apply Bs; reflexivity|]. split.
  - exists (Some 1%Q), (Some 5%Q), []. split; [reflexivity|]. split; intros q E; injection E as <-; discriminate.
  - split.
    + apply chain_next with (v := "b") (p := 3); [apply chain_next with (v := "a") (p := 1); [constructor| |apply Bs; reflexivity|eexists; reflexivity]| |apply Bs; reflexivity|eexists; reflexivity].
      * exists (xline "l1" "a" "b" 1). split; [cbn; auto 20|]. left. split; reflexivity.
      * exists (xline "l3" "b" "d" 1). split; [cbn; auto 20|]. left. split; reflexivity.
    + split; [apply Bs; reflexivity|]. intros la lo (r & E & _). cbn in E. discriminate.
Qed.
Print Assumptions C33_zero_average_refuted.

(** Two objects with one name: the one with coordinates is moved because the other has none. *)
Theorem C33_duplicate_names_refuted :
  exists es s n ps ps' i, build es s = Ok n /\
    set_missing_coords_recur (length (recur_nodes (net_graph n) es ps)) (net_graph n) es ps = Ok ps' /\
    ~ missing ps i /\ nth_error ps' i <> nth_error ps i.
Proof.
  exists [xnode "a"; xnode "b"; xnode "b"; xline "l1" "a" "b" 1], "a". eexists. exists [at_ 1 5; Some None; at_ 7 7; None]. eexists. exists 2.
  split; [vm_compute; reflexivity|]. split; [vm_compute; reflexivity|]. split; [|cbn; discriminate].
  intros [_ H]. apply (H (Some 7%Q) (Some 7%Q)). exists []. split; [reflexivity|]. split; intros q E; injection E as <-; discriminate.
Qed.
Print Assumptions C33_duplicate_names_refuted.

(** A network with two located nodes and four to place, one of them out of reach. *)
Definition yps : places := [at_ 40 (-105); Some None; Some (Some []); Some (Some [(Some 0%Q, Some 3%Q)]); at_ 42 (-103); Some None; None; None; None; None; None; Some None].
Example C33_hypotheses_met :
  build xes "s" = Ok xnet /\ unique_names xes /\ length yps = length xes /\ bounded yps 40 42 (-105) (-103) /\
  (exists la lo, located yps 0 la lo) /\ missing yps 1 /\ missing yps 3 /\
  match set_missing_coords_recur (length (recur_nodes (net_graph xnet) xes yps)) (net_graph xnet) xes yps with
  | Ok [_; Some (Some [(Some q1, Some _)]); Some (Some [(Some q2, Some _)]); Some (Some [(Some q3, Some _)]); _; Some None; None; None; None; None; None;
        Some (Some [(Some q4, Some _)])] => (q1 == 40 /\ q2 == 41 /\ q3 == 81 # 2 /\ q4 == 42)%Q
  | _ => False
  end.
Proof.
  split; [exact xnet_built|]. split.
  - intros i j e e' x Hi Hj Ni Nj.
    assert (G : forallb (fun i => forallb (fun j => match nth_error xes i, nth_error xes j with
                 | Some e, Some e' => match e_name e, e_name e' with Some (Some a), Some (Some b) => negb (String.eqb a b) || Nat.eqb i j | _, _ => true end
                 | _, _ => true end) (seq 0 12)) (seq 0 12) = true) by (vm_compute; reflexivity).
    assert (R : forall k f, nth_error xes k = Some f -> In k (seq 0 12)).
    { intros k f Hk. apply in_seq. assert (nth_error xes k <> None) by congruence. apply nth_error_Some in H. cbn in H. lia. }
    rewrite forallb_forall in G. specialize (G i (R _ _ Hi)). rewrite forallb_forall in G. specialize (G j (R _ _ Hj)). rewrite Hi, Hj, Ni, Nj, String.eqb_refl in G.
    apply Nat.eqb_eq. exact G.
  - split; [reflexivity|]. split.
    + intros i la lo (r & E & Na & Nb). destruct i as [|[|[|[|[|[|[|[|[|[|[|[|i]]]]]]]]]]]]; cbn in E; try discriminate; try (injection E as <- <- <-); try (destruct i; discriminate).
      * split; intros q Q; injection Q as <-; split; discriminate.
      * exfalso. exact (Na _ eq_refl (Qeq_refl 0)).
      * split; intros q Q; injection Q as <-; split; discriminate.
    + split; [exists (Some 40%Q), (Some (-105)%Q), []; split; [reflexivity|]; split; intros q E; injection E as <-; discriminate|].
      split; [split; [eexists; reflexivity|intros la lo (r & E & _); discriminate]|].
      split; [split; [eexists; reflexivity|intros la lo (r & E & Na & _); injection E as <- <- <-; exact (Na _ eq_refl (Qeq_refl 0))]|].
      vm_compute. repeat split; reflexivity.
Qed.
