From Coq Require Import List String Ascii Bool Arith ZArith QArith Lia Lqa.
From Verif Require Import Base BaseFacts DistModel DistSpec.
Import ListNotations.
Local Open Scope string_scope.
Local Open Scope nat_scope.
Local Open Scope list_scope.

Lemma cost_counts l w : cost l = Some w <-> counts l w.
Proof.
  split.
  - destruct l; cbn; intros H; inversion H; constructor.
  - intros H. destruct H; reflexivity.
Qed.

Lemma ends_at_spec g v u w : In (u, w) (flat_map (ends_at v) (n_edges g)) <-> joined g u v w.
Proof.
  rewrite in_flat_map. unfold joined. split.
  - intros ([[x y] l] & I & H). unfold ends_at in H. cbn [fst snd] in H.
    destruct (cost l) as [w'|] eqn:C; [|destruct H].
    apply in_app_or in H. destruct H as [H | H].
    + destruct (String.eqb_spec y v); [|destruct H]. destruct H as [H | []]. inversion H; subst.
      exists u, v, l. split; [exact I|]. split; [now apply cost_counts|]. now left.
    + destruct (String.eqb_spec x v); [|destruct H]. destruct H as [H | []]. inversion H; subst.
      exists v, u, l. split; [exact I|]. split; [now apply cost_counts|]. now right.
  - intros (x & y & l & I & C & E). exists (x, y, l). split; [exact I|].
    apply cost_counts in C. unfold ends_at. cbn [fst snd]. rewrite C. apply in_or_app.
    destruct E as [[-> ->] | [-> ->]].
    + left. rewrite String.eqb_refl. now left.
    + right. rewrite String.eqb_refl. now left.
Qed.

Lemma qmin_one a b q : qmin a b = Some q -> a = Some q \/ b = Some q.
Proof. destruct a as [x|], b as [y|]; cbn; try destruct (Qle_bool x y); auto. Qed.
Lemma qmin_left x b : exists q, qmin (Some x) b = Some q /\ (q <= x)%Q.
Proof.
  destruct b as [y|]; cbn.
  - destruct (Qle_bool x y) eqn:E.
    + exists x. split; [reflexivity | lra].
    + exists y. split; [reflexivity|]. destruct (Qlt_le_dec y x) as [L | L]; [lra|].
      apply Qle_bool_iff in L. congruence.
  - exists x. split; [reflexivity | lra].
Qed.
Lemma qmin_right a y : exists q, qmin a (Some y) = Some q /\ (q <= y)%Q.
Proof.
  destruct a as [x|]; cbn.
  - destruct (Qle_bool x y) eqn:E.
    + exists x. split; [reflexivity|]. now apply Qle_bool_iff.
    + exists y. split; [reflexivity | lra].
  - exists y. split; [reflexivity | lra].
Qed.
Lemma fold_qmin_one l : forall a q, fold_left qmin l a = Some q -> a = Some q \/ In (Some q) l.
Proof.
  induction l as [|b l IH]; cbn [fold_left In]; intros a q H; [now left|].
  apply IH in H. destruct H as [H | H]; [|now right; right].
  apply qmin_one in H. destruct H; [now left | right; now left].
Qed.
Lemma fold_qmin_acc l : forall x, exists q, fold_left qmin l (Some x) = Some q /\ (q <= x)%Q.
Proof.
  induction l as [|b l IH]; cbn [fold_left In]; intros x.
  - exists x. split; [reflexivity | lra].
  - destruct (qmin_left x b) as (q & -> & L). destruct (IH q) as (q' & E & L').
    exists q'. split; [exact E | lra].
Qed.
Lemma fold_qmin_in l : forall a y, In (Some y) l -> exists q, fold_left qmin l a = Some q /\ (q <= y)%Q.
Proof.
  induction l as [|b l IH]; cbn [fold_left In]; intros a y H; [destruct H|].
  destruct H as [-> | H].
  - destruct (qmin_right a y) as (q & -> & L). destruct (fold_qmin_acc l q) as (q' & E & L').
    exists q'. split; [exact E | lra].
  - now apply IH.
Qed.

Lemma best_sound g s k : forall v q, best g s k v = Some q -> walk g s v q.
Proof.
  induction k as [|k IH]; intros v q H.
  - cbn in H. destruct (String.eqb_spec s v); [|discriminate]. inversion H; subst. constructor.
  - cbn [best] in H. apply fold_qmin_one in H. destruct H as [H | H]; [now apply IH|].
    apply in_map_iff in H. destruct H as ([u w] & E & I). cbn [fst snd] in E.
    destruct (best g s k u) as [q'|] eqn:B; [|discriminate]. inversion E; subst.
    apply walk_on with u; [now apply IH | now apply ends_at_spec].
Qed.

(** A way with its nodes, the last one first. *)
Inductive wpath (g : net) (s : string) : list string -> Q -> Prop :=
| wp_one : wpath g s [s] 0
| wp_on u v w l q : wpath g s (u :: l) q -> joined g u v w -> wpath g s (v :: u :: l) (q + w).

Lemma best_up g s k v q : best g s k v = Some q -> exists q', best g s (S k) v = Some q' /\ (q' <= q)%Q.
Proof. intros H. cbn [best]. rewrite H. apply fold_qmin_acc. Qed.
Lemma best_more g s k j v q : best g s k v = Some q -> exists q', best g s (j + k) v = Some q' /\ (q' <= q)%Q.
Proof.
  intros H. induction j as [|j (q' & E & L)].
  - exists q. split; [exact H | lra].
  - apply best_up in E. destruct E as (q2 & E & L2). exists q2. split; [exact E | lra].
Qed.
Lemma best_path g s l q : wpath g s l q -> forall v r, l = v :: r -> exists q', best g s (length r) v = Some q' /\ (q' <= q)%Q.
Proof.
  induction 1 as [|u v w l q H IH J]; intros v' r E; inversion E; subst.
  - exists 0%Q. cbn. rewrite String.eqb_refl. split; [reflexivity | lra].
  - destruct (IH u l eq_refl) as (q1 & B & L). cbn [length best].
    apply ends_at_spec in J.
    destruct (fold_qmin_in (map (fun uw => match best g s (length l) (fst uw) with Some q => Some (q + snd uw)%Q | None => None end) (flat_map (ends_at v') (n_edges g))) (best g s (length l) v') (q1 + w)%Q) as (q2 & E2 & L2).
    + apply in_map_iff. exists (u, w). cbn [fst snd]. rewrite B. now split.
    + exists q2. split; [exact E2 | lra].
Qed.

Lemma joined_pos g u v w : no_negative g -> joined g u v w -> (0 <= w)%Q.
Proof. intros N (x & y & l & I & C & _). destruct C; [lra | now apply N in I]. Qed.
Lemma wpath_part g s : no_negative g -> forall l q, wpath g s l q -> forall l1 v l2, l = l1 ++ v :: l2 -> exists q', wpath g s (v :: l2) q' /\ (q' <= q)%Q.
Proof.
  intros N l q H. induction H as [|u v w l q H IH J]; intros l1 x l2 E.
  - destruct l1 as [|a l1]; inversion E; subst.
    + exists 0%Q. split; [constructor | lra].
    + now destruct l1.
  - destruct l1 as [|a l1]; inversion E; subst.
    + exists (q + w)%Q. split; [now constructor | lra].
    + destruct (IH l1 x l2 H2) as (q' & P & L). exists q'. split; [exact P|].
      apply joined_pos in J; [lra | exact N].
Qed.
Lemma nodup_part {A} (l1 l2 : list A) : NoDup (l1 ++ l2) -> NoDup l2.
Proof. induction l1; cbn; [easy|]. intros H. inversion H. auto. Qed.
Lemma walk_simple g s : no_negative g -> forall v q, walk g s v q -> exists l q', wpath g s (v :: l) q' /\ NoDup (v :: l) /\ (q' <= q)%Q.
Proof.
  intros N v q H. induction H as [|u v q w H (l & q' & P & D & L) J].
  - exists [], 0%Q. split; [constructor|]. split; [constructor; [easy | constructor] | lra].
  - destruct (in_dec string_dec v (u :: l)) as [I | I].
    + apply in_split in I. destruct I as (l1 & l2 & E).
      destruct (wpath_part g s N _ _ P l1 v l2 E) as (q0 & P0 & L0).
      exists l2, q0. split; [exact P0|]. split.
      * rewrite E in D. now apply nodup_part in D.
      * apply joined_pos in J; [lra | exact N].
    + exists (u :: l), (q' + w)%Q. split; [now constructor|]. split; [now constructor | lra].
Qed.
Lemma joined_in g u v w : closed g -> joined g u v w -> In v (n_nodes g).
Proof. intros C (x & y & l & I & _ & [[-> ->] | [-> ->]]); now apply C in I. Qed.
Lemma wpath_in g s l q : closed g -> In s (n_nodes g) -> wpath g s l q -> incl l (n_nodes g).
Proof.
  intros C S H. induction H as [|u v w l q H IH J]; intros x [<- | I].
  - exact S.
  - destruct I.
  - now apply joined_in in J.
  - now apply IH.
Qed.

Lemma best_least g s v q : closed g -> no_negative g -> In s (n_nodes g) -> best g s (length (n_nodes g)) v = Some q -> least g s v q.
Proof.
  intros C N S B. split.
  - exists q. split; [now apply best_sound in B | reflexivity].
  - intros q' W. apply walk_simple in W; [|exact N]. destruct W as (l & q1 & P & D & L).
    pose proof (wpath_in g s _ _ C S P) as I. pose proof (NoDup_incl_length D I) as M.
    destruct (best_path g s _ _ P v l eq_refl) as (q2 & E & L2).
    cbn [length] in M. destruct (best_more g s (length l) (length (n_nodes g) - length l) v q2 E) as (q3 & E3 & L3).
    replace (length (n_nodes g) - length l + length l) with (length (n_nodes g)) in E3 by lia.
    rewrite B in E3. inversion E3; subst. lra.
Qed.
Lemma best_found g s v q : closed g -> no_negative g -> In s (n_nodes g) -> walk g s v q -> exists q', best g s (length (n_nodes g)) v = Some q'.
Proof.
  intros C N S W. apply walk_simple in W; [|exact N]. destruct W as (l & q1 & P & D & L).
  pose proof (wpath_in g s _ _ C S P) as I. pose proof (NoDup_incl_length D I) as M.
  destruct (best_path g s _ _ P v l eq_refl) as (q2 & E & L2).
  cbn [length] in M. destruct (best_more g s (length l) (length (n_nodes g) - length l) v q2 E) as (q3 & E3 & L3).
  replace (length (n_nodes g) - length l + length l) with (length (n_nodes g)) in E3 by lia. now exists q3.
Qed.

Lemma mapM_ok_all {A B} (f : A -> res B) l : (forall a, In a l -> exists b, f a = Ok b) -> exists bs, mapM f l = Ok bs /\ Forall2 (fun a b => f a = Ok b) l bs.
Proof.
  induction l as [|a l IH]; intros H.
  - exists []. split; [reflexivity | constructor].
  - destruct (H a) as [b E]; [now left|]. destruct IH as (bs & E2 & F); [intros; apply H; now right|].
    exists (b :: bs). cbn. rewrite E. cbn. rewrite E2. split; [reflexivity | now constructor].
Qed.
Lemma largest_spec l : l <> [] -> exists m, largest l = Ok m /\ In m l /\ forall x, In x l -> (x <= m)%Q.
Proof.
  induction l as [|x l IH]; intros N; [easy|]. destruct l as [|y l].
  - exists x. split; [reflexivity|]. split; [now left|]. intros z [<- | []]. lra.
  - destruct IH as (m & E & I & L); [easy|]. cbn [largest] in *. rewrite E. cbn [bind].
    destruct (Qle_bool x m) eqn:B.
    + exists m. split; [reflexivity|]. split; [now right|]. apply Qle_bool_iff in B.
      intros z [<- | Z]; [exact B | now apply L].
    + exists x. split; [reflexivity|]. split; [now left|].
      assert (M : (m < x)%Q). { destruct (Qlt_le_dec m x) as [K | K]; [exact K|]. apply Qle_bool_iff in K. congruence. }
      intros z [<- | Z]; [lra|]. apply L in Z. lra.
Qed.

(** Adding the way to the source. *)
Lemma same_sym a b e : same a b e = same b a e.
Proof. unfold same. apply orb_comm. Qed.
Lemma same_spec a b e : same a b e = true <-> (fst (fst e) = a /\ snd (fst e) = b) \/ (fst (fst e) = b /\ snd (fst e) = a).
Proof. unfold same. rewrite orb_true_iff, !andb_true_iff, !String.eqb_eq. tauto. Qed.
Lemma put_in es a b l x y k : In (x, y, k) (put es a b l) -> In (x, y, k) es \/ (k = l /\ ((x = a /\ y = b) \/ (x = b /\ y = a))).
Proof.
  induction es as [|e es IH]; cbn.
  - intros [E | []]. inversion E; subst. right. auto.
  - destruct (same a b e) eqn:S; cbn; intros [E | H].
    + destruct e as [[x' y'] k']. cbn in E. inversion E; subst. apply same_spec in S. cbn in S. right. auto.
    + left. now right.
    + left. now left.
    + apply IH in H. destruct H; [left; now right | now right].
Qed.
Definition pair_len (es : list wedge) (a b : string) : option len := option_map snd (find (same a b) es).
Lemma pair_put es a b l : pair_len (put es a b l) a b = Some l.
Proof.
  induction es as [|e es IH]; cbn.
  - unfold pair_len. cbn. unfold same. cbn. now rewrite !String.eqb_refl.
  - destruct (same a b e) eqn:S.
    + unfold pair_len. cbn. unfold same in *. cbn. now rewrite S.
    + unfold pair_len in *. cbn. now rewrite S.
Qed.
Lemma same_other a b c d e : same a b e = true -> same c d e = true -> (a = c /\ b = d) \/ (a = d /\ b = c).
Proof. rewrite !same_spec. intros [[<- <-] | [<- <-]] [[E F] | [E F]]; auto. Qed.
Lemma pair_put_other es a b c d l : ~ ((a = c /\ b = d) \/ (a = d /\ b = c)) -> pair_len (put es a b l) c d = pair_len es c d.
Proof.
  intros N. induction es as [|e es IH]; cbn.
  - unfold pair_len. cbn. destruct (same c d (a, b, l)) eqn:S; [|reflexivity].
    exfalso. apply N. apply same_spec in S. cbn in S. destruct S as [[-> ->] | [-> ->]]; auto.
  - destruct (same a b e) eqn:S.
    + unfold pair_len. cbn. assert (T : same c d e = false).
      { destruct (same c d e) eqn:T; [|reflexivity]. exfalso. apply N. eapply same_other; eassumption. }
      assert (T' : same c d (fst e, l) = false) by (unfold same in *; exact T).
      now rewrite T, T'.
    + unfold pair_len in *. cbn. destruct (same c d e); [reflexivity | exact IH].
Qed.
Lemma pair_sym es a b : pair_len es a b = pair_len es b a.
Proof. unfold pair_len. f_equal. induction es as [|e es IH]; cbn; [reflexivity|]. now rewrite (same_sym a b e), IH. Qed.
Lemma length_of_pair g a b l : length_of g a b = Ok l -> pair_len (n_edges g) a b = Some l.
Proof.
  unfold length_of, pair_len. destruct (find (same a b) (n_edges g)) as [[xy k]|]; [|discriminate].
  destruct k; intros H; inversion H; reflexivity.
Qed.
Lemma pair_in es a b l : pair_len es a b = Some l -> exists x y, In (x, y, l) es /\ ((x = a /\ y = b) \/ (x = b /\ y = a)).
Proof.
  unfold pair_len. destruct (find (same a b) es) as [[[x y] k]|] eqn:F; [|discriminate].
  intros H. inversion H; subst. apply find_some in F. destruct F as [I S]. apply same_spec in S. cbn in S. eauto.
Qed.

Lemma add_node_incl g n : incl (n_nodes g) (n_nodes (add_node g n)).
Proof. unfold add_node. destruct (smem n (n_nodes g)); intros x I; [exact I | cbn; apply in_or_app; now left]. Qed.
Lemma add_node_in g n : In n (n_nodes (add_node g n)).
Proof.
  unfold add_node. destruct (smem n (n_nodes g)) eqn:S; [now apply smem_In|]. cbn. apply in_or_app. right. now left.
Qed.
Lemma add_node_edges g n : n_edges (add_node g n) = n_edges g.
Proof. unfold add_node. now destruct (smem n (n_nodes g)). Qed.
Lemma add_edge_nodes g a b l : incl (n_nodes g) (n_nodes (add_edge g a b l)) /\ In a (n_nodes (add_edge g a b l)) /\ In b (n_nodes (add_edge g a b l)).
Proof.
  unfold add_edge. cbn. split.
  - intros x I. now apply add_node_incl, add_node_incl.
  - split; [apply add_node_incl, add_node_in | apply add_node_in].
Qed.
Lemma add_edge_edges g a b l : n_edges (add_edge g a b l) = put (n_edges g) a b l.
Proof. unfold add_edge. cbn. now rewrite !add_node_edges. Qed.
Lemma add_edge_closed g a b l : closed g -> closed (add_edge g a b l).
Proof.
  intros C x y k I. destruct (add_edge_nodes g a b l) as (N & A & B). rewrite add_edge_edges in I.
  apply put_in in I. destruct I as [I | [_ [[-> ->] | [-> ->]]]]; auto.
  apply C in I. destruct I. auto.
Qed.

Lemma add_route_spec big p : forall g g', add_route big g p = Ok g' ->
  incl (n_nodes g) (n_nodes g') /\ (closed g -> closed g') /\ (forall a b, In (a, b) (steps p) -> In a (n_nodes g') /\ In b (n_nodes g')) /\
  (forall x y k, In (x, y, k) (n_edges g') -> In (x, y, k) (n_edges g) \/ exists x' y', In (x', y', k) (n_edges big) /\ ((x' = x /\ y' = y) \/ (x' = y /\ y' = x))) /\
  (forall a b, pair_len (n_edges g) a b = pair_len (n_edges big) a b \/ In (a, b) (steps p) -> pair_len (n_edges g') a b = pair_len (n_edges big) a b).
Proof.
  induction p as [|a [|b r] IH]; intros g g' H.
  - inversion H; subst. split; [intros x I; exact I|]. split; [auto|]. split; [intros a b []|]. split; [auto|]. intros a b [E | []]. exact E.
  - inversion H; subst. split; [intros x I; exact I|]. split; [auto|]. split; [intros ? ? []|]. split; [auto|]. intros ? ? [E | []]. exact E.
  - change (add_route big g (a :: b :: r)) with (do l <- length_of big a b; add_route big (add_edge g a b l) (b :: r)) in H.
    destruct (length_of big a b) as [l|] eqn:L; [|discriminate]. cbn [bind] in H.
    apply length_of_pair in L. apply IH in H. destruct H as (N & C & S & E & P).
    destruct (add_edge_nodes g a b l) as (N' & A & B). split; [|split; [|split; [|split]]].
    + intros x I. now apply N, N'.
    + intros K. now apply C, add_edge_closed.
    + change (steps (a :: b :: r)) with ((a, b) :: steps (b :: r)). intros x y [I | I]; [inversion I; subst; auto | now apply S].
    + intros x y k I. apply E in I. destruct I as [I | I]; [|now right]. rewrite add_edge_edges in I. apply put_in in I.
      destruct I as [I | [-> I]]; [now left|]. right. apply pair_in in L. destruct L as (x' & y' & J & K). exists x', y'. split; [exact J|].
      destruct I as [[-> ->] | [-> ->]]; tauto.
    + change (steps (a :: b :: r)) with ((a, b) :: steps (b :: r)). intros x y H. apply P. rewrite add_edge_edges.
      assert (D : ((a = x /\ b = y) \/ (a = y /\ b = x)) \/ ~ ((a = x /\ b = y) \/ (a = y /\ b = x))).
      { destruct (string_dec a x), (string_dec b y), (string_dec a y), (string_dec b x); tauto. }
      destruct D as [D | D].
      * left. destruct D as [[-> ->] | [-> ->]]; [|rewrite (pair_sym _ x y), (pair_sym (n_edges big) x y)]; now rewrite pair_put.
      * destruct H as [H | [H | H]].
        -- left. now rewrite pair_put_other.
        -- exfalso. inversion H; subst. tauto.
        -- now right.
Qed.

Lemma distance_in g s v : In s (n_nodes g) -> distance g s v = match best g s (length (n_nodes g)) v with Some q => Ok q | None => Err ENetworkX end.
Proof. intros S. unfold distance. assert (H : smem s (n_nodes g) = true) by now apply smem_In. now rewrite H. Qed.
Lemma distance_ok g s v q : closed g -> no_negative g -> In s (n_nodes g) -> distance g s v = Ok q -> least g s v q.
Proof.
  intros C N S. rewrite distance_in by exact S. destruct (best g s (length (n_nodes g)) v) as [q'|] eqn:B; [|discriminate].
  intros H. inversion H; subst. now apply best_least.
Qed.
Lemma distance_found g s v q : closed g -> no_negative g -> In s (n_nodes g) -> walk g s v q -> exists q', distance g s v = Ok q'.
Proof.
  intros C N S W. rewrite distance_in by exact S. destruct (best_found g s v q C N S W) as (q' & ->). now exists q'.
Qed.
Lemma distance_none g s v : In s (n_nodes g) -> (forall q, ~ walk g s v q) -> distance g s v = Err ENetworkX.
Proof.
  intros S W. rewrite distance_in by exact S. destruct (best g s (length (n_nodes g)) v) as [q'|] eqn:B; [|reflexivity].
  apply best_sound in B. now apply W in B.
Qed.
Lemma least_unique g s v q q' : least g s v q -> least g s v q' -> (q == q')%Q.
Proof.
  intros [(a & A & EA) LA] [(b & B & EB) LB]. apply LA in B as L1. apply LB in A as L2. lra.
Qed.
Lemma prepare_here big route g s : In s (n_nodes g) -> prepare big route g s = Ok g.
Proof. intros S. unfold prepare. assert (H : smem s (n_nodes g) = true) by now apply smem_In. now rewrite H. Qed.
Lemma distances g s ns : closed g -> no_negative g -> In s (n_nodes g) -> (forall n, In n ns -> exists q, walk g s n q) ->
  exists ds, mapM (distance g s) ns = Ok ds /\ Forall2 (least g s) ns ds.
Proof.
  intros C N S W. destruct (mapM_ok_all (distance g s) ns) as (ds & E & F).
  - intros n I. destruct (W n I) as (q & H). now apply distance_found in H.
  - exists ds. split; [exact E|]. clear E W. induction F; constructor; [now apply distance_ok | assumption].
Qed.
Lemma Forall2_in_r {A B} (R : A -> B -> Prop) l m : Forall2 R l m -> forall b, In b m -> exists a, In a l /\ R a b.
Proof.
  induction 1 as [|a b l m H F IH]; intros x [].
  - subst. exists a. split; [now left | exact H].
  - destruct (IH x H0) as (y & I & K). exists y. split; [now right | exact K].
Qed.
Lemma Forall2_in_l {A B} (R : A -> B -> Prop) l m : Forall2 R l m -> forall a, In a l -> exists b, In b m /\ R a b.
Proof.
  induction 1 as [|a b l m H F IH]; intros x [].
  - subst. exists b. split; [now left | exact H].
  - destruct (IH x H0) as (y & I & K). exists y. split; [now right | exact K].
Qed.
Lemma greatest g s ns : closed g -> no_negative g -> In s (n_nodes g) -> ns <> [] -> (forall n, In n ns -> exists q, walk g s n q) ->
  exists m v, (do ds <- mapM (distance g s) ns; do m <- largest ds; Ok (m * miles)%Q) = Ok (m * miles)%Q /\ In v ns /\ least g s v m /\ forall u q, In u ns -> least g s u q -> (q <= m)%Q.
Proof.
  intros C N S Z W. destruct (distances g s ns C N S W) as (ds & E & F). rewrite E. cbn [bind].
  destruct (largest_spec ds) as (m & L & I & G). { intros ->. inversion F; subst. now apply Z. }
  rewrite L. cbn [bind]. destruct (Forall2_in_r _ _ _ F m I) as (v & V & K). exists m, v.
  split; [reflexivity|]. split; [exact V|]. split; [exact K|]. intros u q U Q.
  destruct (Forall2_in_l _ _ _ F u U) as (d & D & P). apply G in D. pose proof (least_unique _ _ _ _ _ Q P). lra.
Qed.

Lemma sited_places (at_ : obj -> option (option string)) (P : obj -> string -> Prop) g os ns :
  (forall o n, P o n <-> at_ o = Some (Some n)) -> sited P g os ns -> flat_map (place at_ g) os = ns.
Proof.
  intros H S. induction S as [|o n os ns Q I S IH | o os ns Q S IH]; cbn [flat_map].
  - reflexivity.
  - rewrite IH. unfold place. apply H in Q. rewrite Q. assert (K : smem n (n_nodes g) = true) by now apply smem_In. now rewrite K.
  - rewrite IH. unfold place. destruct (at_ o) as [[n|]|] eqn:A; try reflexivity.
    destruct (smem n (n_nodes g)) eqn:K; [|reflexivity]. exfalso. apply (Q n); [now apply H | now apply smem_In].
Qed.
Lemma average_spec (at_ : obj -> option (option string)) (P : obj -> string -> Prop) big route g s os ns :
  (forall o n, P o n <-> at_ o = Some (Some n)) -> closed g -> no_negative g -> In s (n_nodes g) -> sited P g os ns -> (forall n, In n ns -> exists q, walk g s n q) ->
  (ns = [] -> average big route at_ os g s = Ok None) /\
  (ns <> [] -> exists ds q, Forall2 (least g s) ns ds /\ average big route at_ os g s = Ok (Some q) /\ (q * inject_Z (Z.of_nat (length ns)) == fold_right Qplus 0 ds)%Q).
Proof.
  intros H C N S T W. unfold average. rewrite prepare_here by exact S. cbn [bind]. rewrite (sited_places at_ P g os ns H T).
  destruct (distances g s ns C N S W) as (ds & E & F). rewrite E. cbn [bind]. split.
  - intros ->. inversion F. reflexivity.
  - intros Z. assert (L : length ds = length ns) by (clear -F; induction F; cbn; congruence).
    destruct ds as [|d ds]; [inversion F; subst; now exfalso|].
    exists (d :: ds), (total (d :: ds) / inject_Z (Z.of_nat (length (d :: ds))))%Q. split; [exact F|]. split; [reflexivity|].
    rewrite L. change (fold_right Qplus 0%Q (d :: ds)) with (total (d :: ds)). rewrite Qmult_comm. apply Qmult_div_r.
    rewrite <- L. cbn [length]. unfold Qeq. cbn. lia.
Qed.
