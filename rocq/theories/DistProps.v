From Coq Require Import List String Ascii Bool Arith ZArith QArith Lia Lqa.
From Verif Require Import Base BaseFacts DistModel DistSpec DistProofs.
Import ListNotations.
Local Open Scope string_scope.
Local Open Scope nat_scope.
Local Open Scope list_scope.

(** C124: the distance of a node is the length of a shortest way from the source, found whenever there is a way. *)
Theorem C124_distance : forall g s, closed g -> no_negative g -> In s (n_nodes g) ->
  forall v, (forall q, distance g s v = Ok q -> least g s v q) /\ (forall q, walk g s v q -> exists q', distance g s v = Ok q') /\ ((forall q, ~ walk g s v q) -> distance g s v = Err ENetworkX).
Proof.
  intros g s C N S v. split; [|split].
  - intros q. now apply distance_ok.
  - intros q. now apply distance_found.
  - now apply distance_none.
Qed.
Print Assumptions C124_distance.

(** C124: the furthest node, in miles. *)
Theorem C124_furthest : forall big route g s, closed g -> no_negative g -> In s (n_nodes g) -> reached g s ->
  exists m v, furthest big route g s = Ok (m * (621371 # 1000000000))%Q /\ furthest_at g s v m.
Proof.
  intros big route g s C N S R. unfold furthest. rewrite prepare_here by exact S. cbn [bind].
  destruct (greatest g s (n_nodes g) C N S) as (m & v & E & V & L & G).
  - intros E. rewrite E in S. destruct S.
  - exact R.
  - exists m, v. split; [exact E|]. now split.
Qed.
Print Assumptions C124_furthest.

(** C124: the average distances of the regulators, the capacitors and the reclosers. *)
Theorem C124_averages : forall big route g s os, closed g -> no_negative g -> In s (n_nodes g) ->
  averages regulator_site g s os (average_regulator big route os g s) /\
  averages capacitor_site g s os (average_capacitor big route os g s) /\
  averages recloser_site g s os (average_recloser big route os g s).
Proof.
  intros big route g s os C N S. split; [|split]; intros ns T W; eapply average_spec; try eassumption.
  - intros o n. unfold regulator_site, regulator_at. destruct (o_kind o); split; try (intros []; congruence); intros E; try discriminate; split; congruence.
  - intros o n. unfold capacitor_site, capacitor_at. destruct (o_kind o); split; try (intros []; congruence); intros E; try discriminate; split; congruence.
  - intros o n. unfold recloser_site, recloser_at. destruct (o_kind o); destruct (o_recloser o) as [[|]|]; split; try (intros (? & ? & ?); congruence); intros E; try discriminate; split; [|split]; congruence.
Qed.
Print Assumptions C124_averages.

(** C124: a network without the source is completed by the way to its first node: the edges of the way with their
    lengths, and nothing else. *)
Theorem C124_completed : forall big route g s n r p g', closed g -> single big -> n_nodes g = n :: r -> ~ In s (n_nodes g) ->
  route big s n = Ok p -> prepare big route g s = Ok g' ->
  closed g' /\ incl (n_nodes g) (n_nodes g') /\
  (forall x y l, In (x, y, l) (n_edges g') -> In (x, y, l) (n_edges g) \/ exists x' y', ends x' y' x y /\ In (x', y', l) (n_edges big)) /\
  (forall a b x y l, In (a, b) (steps p) -> ends x y a b -> In (x, y, l) (n_edges big) -> exists x' y', ends x' y' a b /\ In (x', y', l) (n_edges g')) /\
  furthest big route g s = (do ds <- mapM (distance g' s) (n_nodes g'); do m <- largest ds; Ok (m * miles)%Q).
Proof.
  intros big route g s n r p g' C U E S R P.
  assert (F : furthest big route g s = (do ds <- mapM (distance g' s) (n_nodes g'); do m <- largest ds; Ok (m * miles)%Q)).
  { unfold furthest. rewrite P. reflexivity. }
  unfold prepare in P. destruct (smem s (n_nodes g)) eqn:M; [exfalso; apply S; now apply smem_In|].
  rewrite E in P. rewrite R in P. cbn [bind] in P. apply add_route_spec in P. destruct P as (N & C' & _ & D & L).
  split; [now apply C'|]. split; [exact N|]. split; [|split; [|exact F]].
  - intros x y l I. apply D in I. destruct I as [I | (x' & y' & I & K)]; [now left|]. right. exists x', y'. split; [exact K | exact I].
  - intros a b x y l I K J. specialize (L a b (or_intror I)).
    destruct (pair_len (n_edges big) a b) as [l'|] eqn:Q.
    + assert (l' = l).
      { apply pair_in in Q. destruct Q as (x' & y' & Q & K'). apply (U x' y' l' x y l Q J).
        unfold ends in *. destruct K as [[-> ->] | [-> ->]]; tauto. }
      subst l'. apply pair_in in L. destruct L as (x' & y' & L & K'). exists x', y'. split; [exact K' | exact L].
    + exfalso. unfold pair_len in Q. destruct (find (same a b) (n_edges big)) as [e|] eqn:Z; [discriminate|].
      apply find_none with (x := (x, y, l)) in Z; [|exact J].
      assert (T : same a b (x, y, l) = true) by (apply same_spec; exact K). congruence.
Qed.
Print Assumptions C124_completed.

(** C124: a way over an edge that has no length stops the metrics. *)
Theorem C124_completed_refuted : forall big route g s n r a b p x y, single big -> n_nodes g = n :: r -> ~ In s (n_nodes g) ->
  route big s n = Ok (a :: b :: p) -> In (x, y, Absent) (n_edges big) -> ends x y a b ->
  furthest big route g s = Err EKey /\ forall os, average_regulator big route os g s = Err EKey /\ average_capacitor big route os g s = Err EKey /\ average_recloser big route os g s = Err EKey.
Proof.
  intros big route g s n r a b p x y U E S R I K.
  assert (P : prepare big route g s = Err EKey).
  { unfold prepare. destruct (smem s (n_nodes g)) eqn:M; [exfalso; apply S; now apply smem_In|].
    rewrite E, R. cbn [bind]. change (add_route big g (a :: b :: p)) with (do l <- length_of big a b; add_route big (add_edge g a b l) (b :: p)).
    unfold length_of. destruct (find (same a b) (n_edges big)) as [[[x' y'] l]|] eqn:Z; [|reflexivity].
    apply find_some in Z. destruct Z as [J T]. apply same_spec in T. cbn in T.
    assert (l = Absent) as ->. { apply (U x' y' l x y Absent J I). unfold ends in *. destruct K as [[-> ->] | [-> ->]]; tauto. }
    reflexivity. }
  split.
  - unfold furthest. now rewrite P.
  - intros os. unfold average_regulator, average_capacitor, average_recloser, average. now rewrite P.
Qed.
Print Assumptions C124_completed_refuted.

(** C124: looking at the nodes with one edge only gives the same, if a furthest node is one of them. *)
Theorem C124_leaves : forall big route s v m, closed big -> no_negative big -> In s (n_nodes big) -> reached big s ->
  furthest_at big s v m -> degree big v = 1 -> exists a b, furthest_clever big s = Ok a /\ furthest big route big s = Ok b /\ (a == b)%Q /\ (b == m * (621371 # 1000000000))%Q.
Proof.
  intros big route s v m C N S R (V & L & G) D.
  destruct (C124_furthest big route big s C N S R) as (m2 & v2 & E2 & V2 & L2 & G2).
  destruct (greatest big s (filter (fun v => Nat.eqb (degree big v) 1) (n_nodes big)) C N S) as (m1 & v1 & E1 & V1 & L1 & G1).
  - intros E. assert (I : In v (filter (fun v => Nat.eqb (degree big v) 1) (n_nodes big))) by (apply filter_In; split; [exact V | now apply Nat.eqb_eq]). rewrite E in I. destruct I.
  - intros n I. apply filter_In in I. now apply R.
  - exists (m1 * miles)%Q, (m2 * (621371 # 1000000000))%Q. split; [exact E1|]. split; [exact E2|].
    assert (I : In v (filter (fun v => Nat.eqb (degree big v) 1) (n_nodes big))) by (apply filter_In; split; [exact V | now apply Nat.eqb_eq]).
    apply filter_In in V1. destruct V1 as [V1 _].
    pose proof (G1 v m I L). pose proof (G v1 m1 V1 L1). pose proof (G v2 m2 V2 L2). pose proof (G2 v m V L).
    assert (Q1 : (m1 == m)%Q) by lra. assert (Q2 : (m2 == m)%Q) by lra. unfold miles. rewrite Q1, Q2. split; reflexivity.
Qed.
Print Assumptions C124_leaves.

(** C124: without a node of one edge it stops. *)
Theorem C124_leaves_refuted : forall big s, (forall v, In v (n_nodes big) -> degree big v <> 1) -> furthest_clever big s = Err EValue.
Proof.
  intros big s H. unfold furthest_clever.
  assert (E : filter (fun v => Nat.eqb (degree big v) 1) (n_nodes big) = []).
  { induction (n_nodes big) as [|v l IH]; [reflexivity|]. cbn [filter].
    destruct (Nat.eqb_spec (degree big v) 1) as [D | D]; [exfalso; apply (H v); [now left | exact D]|].
    apply IH. intros u I. apply H. now right. }
  rewrite E. reflexivity.
Qed.
Print Assumptions C124_leaves_refuted.

(** C124: a line whose length is not known is not a way: the node behind it stops the search of the furthest node. *)
Theorem C124_unknown_refuted : forall big route g s v, In s (n_nodes g) -> In v (n_nodes g) -> v <> s ->
  (forall x y l, In (x, y, l) (n_edges g) -> x = v \/ y = v -> l = Null) -> furthest big route g s = Err ENetworkX.
Proof.
  intros big route g s v S V D H. unfold furthest. rewrite prepare_here by exact S. cbn [bind].
  assert (Z : distance g s v = Err ENetworkX).
  { apply distance_none; [exact S|]. intros q W. inversion W as [| u v' q' w W' J]; subst; [now apply D|].
    destruct J as (x & y & l & I & C & E). assert (l = Null) as ->. { apply (H x y l I). destruct E as [[-> ->] | [-> ->]]; auto. } inversion C. }
  assert (M : mapM (distance g s) (n_nodes g) = Err ENetworkX).
  { induction (n_nodes g) as [|u l IH] in V |- *; [destruct V|]. cbn [mapM].
    destruct V as [-> | V]; [now rewrite Z|]. rewrite distance_in by exact S.
    destruct (best g s (length (n_nodes g)) u); [|reflexivity]. cbn [bind]. now rewrite IH. }
  now rewrite M.
Qed.
Print Assumptions C124_unknown_refuted.

(** C124: a load or a capacitor, whose edge has no length, is one metre behind the node where it stands. *)
Theorem C124_object_refuted : forall g s c m q, closed g -> no_negative g -> In s (n_nodes g) -> In (c, m, Absent) (n_edges g) -> m <> s -> c <> m ->
  (forall x y l, In (x, y, l) (n_edges g) -> x = m \/ y = m -> (x, y, l) = (c, m, Absent)) ->
  distance g s c = Ok q -> exists q', distance g s m = Ok q' /\ (q' == q + 1)%Q.
Proof.
  intros g s c m q C N S I D K H E. apply distance_ok in E; try assumption. destruct E as [(q0 & W & Q) L].
  assert (J : joined g c m 1). { exists c, m, Absent. split; [exact I|]. split; [constructor | now left]. }
  pose proof (walk_on g s c m q0 1 W J) as W2.
  destruct (distance_found g s m _ C N S W2) as (q' & E). exists q'. split; [exact E|].
  apply distance_ok in E; try assumption. apply (least_unique g s m); [exact E|]. split.
  - exists (q0 + 1)%Q. split; [exact W2 | now rewrite Q].
  - intros r R. inversion R as [| u v' r' w R' J']; subst; [now exfalso; apply D|].
    destruct J' as (x & y & l & I' & C' & E'). destruct E' as [[-> ->] | [-> ->]].
    + specialize (H u m l I' (or_intror eq_refl)). inversion H; subst. inversion C'; subst. apply L in R'. lra.
    + specialize (H m u l I' (or_introl eq_refl)). inversion H; subst. now exfalso; apply K.
Qed.
Print Assumptions C124_object_refuted.

Definition feeder : net := mkNet ["s"; "a"; "b"; "c"] [("s", "a", Len 100); ("a", "b", Len 50); ("b", "s", Len 300); ("b", "c", Absent)].
Definition parts : list obj :=
  [mkObj KRegulator (Some "a") None None; mkObj KLine (Some "b") None (Some true); mkObj KRegulator (Some "b") None None; mkObj KRegulator (Some "z") None None; mkObj KCapacitor None (Some "c") None].
Example C124_hypotheses_met :
  closed feeder /\ no_negative feeder /\ single feeder /\ reached feeder "s" /\ sited regulator_site feeder parts ["a"; "b"] /\ degree feeder "c" = 1 /\
  (exists q, average_regulator feeder (fun _ _ _ => Err ENetworkX) parts feeder "s" = Ok (Some q) /\ (q == 125)%Q) /\
  (exists q, furthest feeder (fun _ _ _ => Err ENetworkX) feeder "s" = Ok q /\ (q == 151 * miles)%Q) /\
  (exists g, prepare feeder (fun _ _ _ => Ok ["s"; "a"; "b"]) (mkNet ["b"; "c"] [("b", "c", Len 7)]) "s" = Ok g /\ n_nodes g = ["b"; "c"; "s"; "a"]).
Proof.
  split; [|split; [|split; [|split; [|split; [|split; [|split; [|split]]]]]]].
  - intros x y l I. cbn in I. repeat (destruct I as [I | I]; [inversion I; subst; cbn; tauto|]). destruct I.
  - intros x y l I. cbn in I. repeat (destruct I as [I | I]; [inversion I; subst; lra|]). destruct I.
  - intros x y l x' y' l' I J. cbn in I, J.
    repeat (destruct I as [I | I]; [inversion I; subst; repeat (destruct J as [J | J]; [inversion J; subst; intros [[? ?] | [? ?]]; try discriminate; reflexivity|]); destruct J|]). destruct I.
  - assert (A : walk feeder "s" "a" (0 + 100)).
    { apply walk_on with "s"; [constructor|]. exists "s", "a", (Len 100). cbn. split; [tauto|]. split; [constructor | tauto]. }
    assert (B : walk feeder "s" "b" (0 + 100 + 50)).
    { apply walk_on with "a"; [exact A|]. exists "a", "b", (Len 50). cbn. split; [tauto|]. split; [constructor | tauto]. }
    assert (D : walk feeder "s" "c" (0 + 100 + 50 + 1)).
    { apply walk_on with "b"; [exact B|]. exists "b", "c", Absent. cbn. split; [tauto|]. split; [constructor | tauto]. }
    intros v I. cbn in I. destruct I as [<- | [<- | [<- | [<- | []]]]]; eexists; [constructor | exact A | exact B | exact D].
  - apply sited_in; [now split | cbn; tauto|]. apply sited_out; [intros n [? ?]; discriminate|].
    apply sited_in; [now split | cbn; tauto|]. apply sited_out; [intros n [_ E]; inversion E; subst; cbn; intuition discriminate|].
    apply sited_out; [intros n [? ?]; discriminate|]. constructor.
  - reflexivity.
  - eexists. split; [vm_compute; reflexivity | reflexivity].
  - eexists. split; [vm_compute; reflexivity | reflexivity].
  - eexists. split; [vm_compute; reflexivity | reflexivity].
Qed.
