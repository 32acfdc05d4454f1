(** Routes in radial networks and the objects on them. *)
From Coq Require Import Permutation.
From Verif Require Import Base BaseFacts StoreModel NetworkModel NetworkSpec NetworkProofs NetworkBfs
  NetworkQueries NetworkDown NetworkEdit NetworkTop ConsistencyModel ConsistencySpec PathProofs ConsistencyProofs.
Local Open Scope string_scope.
Local Open Scope nat_scope.
Local Open Scope list_scope.

(** ** Simple routes are unique without loops *)

Lemma steps_app_inv R p q : steps R (p ++ q) -> steps R p /\ steps R q.
Proof.
  induction p as [|a p IH]; [intros H; split; [exact I|exact H]|].
  destruct p as [|b p].
  - cbn [app]. destruct q as [|c q]; [intros _; split; exact I|]. intros [_ H]. split; [exact I|exact H].
  - cbn [app]. intros [H1 H2]. destruct (IH H2) as [I1 I2]. split; [split; [exact H1|exact I1]|exact I2].
Qed.

Lemma steps_mid R p a b q : steps R (p ++ a :: b :: q) -> R a b.
Proof. intros H. apply steps_app_inv in H as [_ H]. apply H. Qed.

Lemma steps_glue R p a q : steps R (p ++ [a]) -> steps R (a :: q) -> steps R (p ++ a :: q).
Proof.
  induction p as [|x p IH]; intros H1 H2; [exact H2|].
  destruct p as [|y p]; cbn [app] in *; [split; [apply H1|exact H2]|]. destruct H1 as [H0 H1].
  split; [exact H0|]. apply (IH H1 H2).
Qed.

Lemma steps_rev (R : string -> string -> Prop) p : (forall u v, R u v -> R v u) -> steps R p -> steps R (rev p).
Proof.
  intros Sy. induction p as [|a p IH]; [auto|]. intros H. cbn [rev]. destruct p as [|b p]; [exact I|].
  destruct H as [H1 H2]. cbn [rev] in *. rewrite <- app_assoc. cbn [app]. apply steps_glue; [apply IH; exact H2|].
  split; [apply Sy; exact H1|exact I].
Qed.

Lemma last_app_cons {A} (p : list A) x q d : last (p ++ x :: q) d = last (x :: q) d.
Proof.
  induction p as [|a p IH]; [reflexivity|]. cbn [app]. destruct (p ++ x :: q) eqn:E; [destruct p; discriminate|].
  rewrite <- E. rewrite <- IH. rewrite E. reflexivity.
Qed.

Lemma NoDup_l {A} (l l' : list A) : NoDup (l ++ l') -> NoDup l.
Proof.
  induction l as [|x l IH]; [constructor|]. cbn [app]. intros H. inversion H as [|? ? H1 H2]; subst.
  constructor; [intros Q; apply H1, in_app_iff; left; exact Q|auto].
Qed.
Lemma NoDup_r {A} (l l' : list A) : NoDup (l ++ l') -> NoDup l'.
Proof. induction l as [|x l IH]; [auto|]. cbn [app]. intros H. inversion H; auto. Qed.

(** The first element of [p] that is in [q]. *)
Lemma first_in (p q : list string) x : In x p -> In x q ->
  exists p1 y p2, p = p1 ++ y :: p2 /\ In y q /\ forall z, In z p1 -> ~ In z q.
Proof.
  induction p as [|a p IH]; [intros []|]. intros Hx Hq. destruct (smem a q) eqn:E.
  - exists [], a, p. split; [reflexivity|]. split; [apply smem_In; exact E|intros z []].
  - apply smem_not_In in E. destruct Hx as [->|Hx]; [contradiction|].
    destruct (IH Hx Hq) as (p1 & y & p2 & -> & Hy & N). exists (a :: p1), y, p2.
    split; [reflexivity|]. split; [exact Hy|]. intros z [<-|Hz]; auto.
Qed.

Lemma diverge_loop (R : string -> string -> Prop) a b c p q t : (forall u v, R u v -> R v u) ->
  b <> c -> NoDup (a :: b :: p) -> NoDup (a :: c :: q) -> steps R (a :: b :: p) -> steps R (a :: c :: q) ->
  In t (b :: p) -> In t (c :: q) -> loop R.
Proof.
  intros Sy Nbc Np Nq Sp Sq Tp Tq. right.
  destruct (first_in (b :: p) (c :: q) t Tp Tq) as (p1 & y & p2 & Ep & Hy & N).
  apply in_split in Hy as (q1 & q2 & Eq).
  (* the circle a, p1, y, rev q1 *)
  exists a, (p1 ++ y :: rev q1).
  assert (Hr : rev q1 <> [] \/ p1 <> []).
  { destruct p1 as [|p0 p1]; [|right; discriminate]. destruct q1 as [|q0 q1]; [|left; cbn [rev]; destruct (rev q1); discriminate].
    cbn [app] in Ep, Eq. congruence. }
  assert (Nq' : NoDup (a :: q1 ++ y :: q2)) by (rewrite <- Eq; exact Nq).
  assert (Np' : NoDup (a :: p1 ++ y :: p2)) by (rewrite <- Ep; exact Np).
  assert (Sp' : steps R (a :: p1 ++ y :: p2)) by (rewrite <- Ep; exact Sp).
  assert (Sq' : steps R (a :: q1 ++ y :: q2)) by (rewrite <- Eq; exact Sq).
  assert (N1 : forall z, In z p1 -> ~ In z q1).
  { intros z Hz Q. apply (N z Hz). rewrite Eq. apply in_app_iff. left; exact Q. }
  split; [|split; [|split]].
  - rewrite app_length. cbn [length]. rewrite rev_length.
    destruct Hr as [H|H]; [destruct q1; [elim H; reflexivity|cbn [length]; lia]|destruct p1; [congruence|cbn [length]; lia]].
  - inversion Np' as [|? ? A1 A2]; subst. inversion Nq' as [|? ? B1 B2]; subst.
    constructor.
    + rewrite in_app_iff in *. intros [H|[H|H]].
      * apply A1. left; exact H.
      * apply A1. right; left; exact H.
      * apply in_rev in H. apply B1. left; exact H.
    + apply NoDup_app_intro.
      * exact (NoDup_l _ _ A2).
      * assert (Z := NoDup_rev B2). rewrite rev_app_distr in Z. cbn [rev] in Z. rewrite <- app_assoc in Z. cbn [app] in Z.
        apply NoDup_r in Z. exact Z.
      * intros z H1 [<-|H2].
        -- apply (NoDup_app_disj _ _ y A2 H1). left; reflexivity.
        -- apply in_rev in H2. exact (N1 z H1 H2).
  - change (a :: p1 ++ y :: rev q1) with ((a :: p1) ++ y :: rev q1). apply steps_glue.
    + change (a :: p1 ++ y :: p2) with ((a :: p1) ++ y :: p2) in Sp'.
      replace ((a :: p1) ++ y :: p2) with (((a :: p1) ++ [y]) ++ p2) in Sp' by (rewrite <- app_assoc; reflexivity).
      apply steps_app_inv in Sp'. apply Sp'.
    + assert (Z : steps R (rev ((q1 ++ [y])))).
      { apply steps_rev; [exact Sy|]. replace (a :: q1 ++ y :: q2) with ([a] ++ (q1 ++ [y]) ++ q2) in Sq'
          by (rewrite <- app_assoc; reflexivity).
        apply steps_app_inv in Sq' as [_ Sq']. apply steps_app_inv in Sq'. apply Sq'. }
      rewrite rev_app_distr in Z. exact Z.
  - rewrite last_app_cons. destruct q1 as [|q0 q1].
    + cbn [rev last]. apply Sy. cbn [app] in Sq'. apply Sq'.
    + cbn [rev]. rewrite app_comm_cons, last_last. apply Sy. apply Sq'.
Qed.

Lemma simple_unique (R : string -> string -> Prop) : (forall u v, R u v -> R v u) -> ~ loop R ->
  forall s t p q, simple_route R s t p -> simple_route R s t q -> p = q.
Proof.
  intros Sy NL s t p q [(p0 & -> & Lp & Sp) Np] [(q0 & -> & Lq & Sq) Nq].
  rewrite last_cons in Lp, Lq. f_equal. revert s q0 Lp Lq Sp Sq Np Nq.
  induction p0 as [|b p IH]; intros s [|c q] Lp Lq Sp Sq Np Nq; [reflexivity| | |].
  - exfalso. cbn [last] in Lp. rewrite <- Lp in Lq. apply (proj1 (proj1 (NoDup_cons_iff _ _) Nq)).
    rewrite <- Lq at 1. rewrite last_cons. clear. revert c. induction q as [|x q IH]; intros c; [left; reflexivity|].
    rewrite last_cons. right. apply IH.
  - exfalso. cbn [last] in Lq. rewrite <- Lq in Lp. apply (proj1 (proj1 (NoDup_cons_iff _ _) Np)).
    rewrite <- Lp at 1. rewrite last_cons. clear. revert b. induction p as [|x p IH]; intros b; [left; reflexivity|].
    rewrite last_cons. right. apply IH.
  - assert (Il : forall (x : string) l d, In (last (x :: l) d) (x :: l)).
    { clear. intros x l. revert x. induction l as [|y l IH]; intros x d; [left; reflexivity|]. right. apply IH. }
    destruct (String.eqb_spec b c) as [<-|Nbc].
    + f_equal. rewrite last_cons in Lp, Lq. inversion Np as [|? ? _ Np']; subst. inversion Nq as [|? ? _ Nq']; subst.
      destruct Sp as [_ Sp]. destruct Sq as [_ Sq]. apply (IH b q); auto.
    + exfalso. apply NL. apply (diverge_loop R s b c p q t Sy Nbc Np Nq Sp Sq).
      * rewrite <- Lp. apply Il.
      * rewrite <- Lq. apply Il.
Qed.

Lemma not_NoDup_split (l : list string) : ~ NoDup l -> exists a x b c, l = a ++ x :: b ++ x :: c.
Proof.
  induction l as [|y l IH]; intros H; [exfalso; apply H; constructor|].
  destruct (smem y l) eqn:E.
  - apply smem_In in E. apply in_split in E as (b & c & ->). exists [], y, b, c. reflexivity.
  - apply smem_not_In in E. destruct IH as (a & x & b & c & ->).
    + intros N. apply H. constructor; auto.
    + exists (y :: a), x, b, c. reflexivity.
Qed.

Lemma shortest_simple R s t p : shortest_route R s t p -> simple_route R s t p.
Proof.
  intros [Hr M]. split; [exact Hr|]. destruct (ListDec.NoDup_dec string_dec p) as [N|N]; [exact N|]. exfalso.
  apply not_NoDup_split in N as (a & x & b & c & E). destruct Hr as (q & Eq & L & S). rewrite E in *.
  assert (Q : route R s t (a ++ x :: c)).
  { destruct a as [|a0 a].
    - exists c. cbn [app] in *. injection Eq as -> _. split; [reflexivity|].
      change (s :: b ++ s :: c) with ((s :: b) ++ s :: c) in L, S. rewrite last_app_cons in L.
      split; [exact L|]. apply steps_app_inv in S. apply S.
    - exists (a ++ x :: c). injection Eq as -> _. split; [reflexivity|].
      rewrite last_app_cons. rewrite last_app_cons in L.
      change (x :: b ++ x :: c) with ((x :: b) ++ x :: c) in L, S. rewrite last_app_cons in L. split; [exact L|].
      apply steps_glue.
      + replace ((s :: a) ++ (x :: b) ++ x :: c) with (((s :: a) ++ [x]) ++ (b ++ x :: c)) in S by (rewrite <- app_assoc; reflexivity).
        apply steps_app_inv in S. apply S.
      + apply steps_app_inv in S as [_ S]. apply steps_app_inv in S. apply S. }
  apply M in Q. rewrite !app_length in Q. cbn [length] in Q. rewrite app_length in Q. cbn [length] in Q. lia.
Qed.

(** ** In a radial network every link that is reached is in the digraph *)

Lemma linked_sym es u v : linked es u v -> linked es v u.
Proof. intros (i & Hi & H). exists i. split; [exact Hi|]. tauto. Qed.

Lemma closed_sym es u v : closed_link es u v -> closed_link es v u.
Proof.
  intros [H1 H2]. split; [apply linked_sym; exact H1|]. intros (i & Hi & H). apply H2. exists i. split; [exact Hi|]. tauto.
Qed.

Lemma arc_route es s n : built es s n -> forall k v, dist (linked es) s v k ->
  exists p, route (arc (net_di n)) s v p /\ route (linked es) s v p /\ NoDup p /\
    forall x, In x p -> exists j, j <= k /\ dist (linked es) s x j.
Proof.
  intros B. induction k as [|k IH]; intros v D.
  - assert (v = s) by (destruct D as [W _]; inversion W; reflexivity). subst v.
    exists [s]. repeat split; try (exists []; repeat split; fail); try (constructor; [intros []|constructor]).
    intros x [<-|[]]. exists 0. split; [lia|exact D].
  - assert (N : v <> s).
    { intros ->. assert (Q := dist_fun _ _ _ _ _ D (dist_refl _ _)). discriminate. }
    destruct (b_all _ _ _ B v (ex_intro _ _ (proj1 D)) N) as [u Hu].
    destruct (b_arc _ _ _ B _ _ Hu) as (Hl & j & Du & Dv).
    assert (j = k) by (assert (Q := dist_fun _ _ _ _ _ D Dv); lia). subst j.
    destruct (IH u Du) as (p & R1 & R2 & Np & Hd). exists (p ++ [v]). repeat split.
    + eapply route_snoc; eauto.
    + eapply route_snoc; eauto.
    + apply NoDup_app_intro; [exact Np|constructor; [intros []|constructor]|].
      intros x Hx [<-|[]]. destruct (Hd _ Hx) as (j & Lj & Dj). assert (Q := dist_fun _ _ _ _ _ D Dj). lia.
    + intros x Hx. apply in_app_iff in Hx as [Hx|[<-|[]]]; [|eauto]. destruct (Hd x Hx) as (j & Lj & Dj). exists j. split; [lia|exact Dj].
Qed.

Lemma route_last_step R s v p u : route R s v (p ++ [u; v]) -> R u v.
Proof. intros (q & _ & _ & S). apply (steps_mid R p u v []). exact S. Qed.

Lemma radial_arc m s n u v : build (objs m) s = Ok n -> radial m ->
  reach (linked (objs m)) s u -> linked (objs m) u v -> arc (net_di n) u v \/ arc (net_di n) v u.
Proof.
  intros Eb NL Hu Huv. assert (B := build_built _ _ _ Eb).
  assert (Sy : forall a b, linked (objs m) a b -> linked (objs m) b a) by apply linked_sym.
  assert (Nuv : u <> v) by (intros ->; apply NL; left; eauto).
  assert (Hv : reach (linked (objs m)) s v) by (destruct Hu as [k W]; exists (S k); econstructor; eauto).
  assert (RD : forall x, reach (linked (objs m)) s x -> exists k, dist (linked (objs m)) s x k).
  { intros x Hx. destruct (String.eqb_spec x s) as [->|N]; [exists 0; apply dist_refl|].
    destruct (b_all _ _ _ B x Hx N) as [y Hy]. destruct (b_arc _ _ _ B _ _ Hy) as (_ & k & _ & D). eauto. }
  destruct (RD u Hu) as [ku Du]. destruct (RD v Hv) as [kv Dv].
  destruct (arc_route _ _ _ B ku u Du) as (p & A1 & R1 & N1 & _).
  destruct (arc_route _ _ _ B kv v Dv) as (q & A2 & R2 & N2 & _).
  destruct (smem v p) eqn:E.
  - apply smem_In in E. right. apply in_split in E as (p1 & p2 & ->).
    assert (Z : v :: p2 = [v; u]).
    { apply (simple_unique (linked (objs m)) Sy NL v u).
      - split; [|exact (NoDup_r _ _ N1)]. destruct R1 as (r & _ & L & S). rewrite last_app_cons in L.
        exists p2. split; [reflexivity|]. split; [rewrite last_cons in *; exact L|]. apply steps_app_inv in S. apply S.
      - split; [|constructor; [intros [Q|[]]; congruence|constructor; [intros []|constructor]]].
        exists [u]. split; [reflexivity|]. split; [reflexivity|]. split; [apply Sy; exact Huv|exact I]. }
    injection Z as ->. exact (route_last_step _ _ _ _ _ A1).
  - apply smem_not_In in E. left.
    assert (Z : q = p ++ [v]).
    { apply (simple_unique (linked (objs m)) Sy NL s v).
      - split; assumption.
      - split; [eapply route_snoc; eauto|]. apply NoDup_app_intro; [exact N1|constructor; [intros []|constructor]|].
        intros x Hx [<-|[]]. contradiction. }
    subst q. destruct A1 as (r & -> & L & S).
    destruct (exists_last (l := s :: r)) as (p' & y & Ep); [discriminate|]. rewrite Ep in *.
    rewrite last_last in L. subst y. rewrite <- app_assoc in A2. cbn [app] in A2. exact (route_last_step _ _ _ _ _ A2).
Qed.

(** ** The element of a link *)

Definition info_of (c : cobj) : info := mkInfo (e_cls (c_e c)) (Some (match c_name c with Some x => x | None => "" end)) (c_sub c) (c_wires c).

Lemma joins_sym i u v : joins i u v -> joins i v u.
Proof. unfold joins. tauto. Qed.

Lemma filter_one {A} (f : A -> bool) l1 c l2 : f c = true -> (forall x, In x l1 -> f x = false) ->
  (forall x, In x l2 -> f x = false) -> filter f (l1 ++ c :: l2) = [c].
Proof.
  intros H H1 H2. assert (Z : forall l, (forall x, In x l -> f x = false) -> filter f l = []).
  { clear. induction l as [|x l IH]; intros H; [reflexivity|]. cbn [filter]. rewrite (H x (or_introl eq_refl)).
    apply IH. intros y Hy. apply H. right; exact Hy. }
  rewrite filter_app. cbn [filter]. rewrite H, (Z l1 H1), (Z l2 H2). reflexivity.
Qed.

Lemma same_pair_iff u v x y a : same_pair u v (x, y, a) = true <-> (u = x /\ v = y) \/ (u = y /\ v = x).
Proof. unfold same_pair. rewrite orb_true_iff, !andb_true_iff, !String.eqb_eq. intuition congruence. Qed.

Lemma writes_joins d u v c : writes d u v c = true -> joins (c_e c) u v.
Proof.
  unfold writes, c_name, joins, spans, hangs. destruct (e_name (c_e c)) as [[x|]|]; try discriminate.
  rewrite orb_true_iff. intros [H|H].
  - destruct (e_from (c_e c)) as [f|]; [|discriminate]. destruct (e_to (c_e c)) as [t|]; [|discriminate].
    apply andb_true_iff in H as [H _]. apply same_pair_iff in H as [[-> ->]|[-> ->]]; tauto.
  - destruct (e_conn (c_e c)) as [k|]; [|discriminate]. apply andb_true_iff in H as [H _].
    apply same_pair_iff in H as [[-> ->]|[-> ->]]; tauto.
Qed.

Lemma arc_has d u v : arc d u v -> d_has_edge d u v = true.
Proof.
  intros [a H]. unfold d_has_edge. apply existsb_exists. exists (u, v, a). split; [exact H|].
  cbn. rewrite !String.eqb_refl. reflexivity.
Qed.

(** Two objects at different positions never join the same nodes. *)
Lemma link_split m c u v : one_per_link m -> In c m -> joins (c_e c) u v ->
  exists l1 l2, m = l1 ++ c :: l2 /\ (forall x, In x l1 -> ~ joins (c_e x) u v) /\ (forall x, In x l2 -> ~ joins (c_e x) u v).
Proof.
  intros O Hc Hj. apply in_split in Hc as (l1 & l2 & E). exists l1, l2. split; [exact E|]. split; intros x Hx Hxj.
  - apply in_split in Hx as (k1 & k2 & ->). rewrite <- app_assoc in E. cbn [app] in E. exact (O _ _ _ _ _ u v E Hxj Hj).
  - apply in_split in Hx as (k1 & k2 & ->). exact (O _ _ _ _ _ u v E Hj Hxj).
Qed.

Lemma link_unique m c c' u v : one_per_link m -> In c m -> In c' m -> joins (c_e c) u v -> joins (c_e c') u v -> c = c'.
Proof.
  intros O H H' J J'. destruct (link_split m c u v O H J) as (l1 & l2 & -> & N1 & N2).
  apply in_app_iff in H' as [H'|[H'|H']]; [exfalso; exact (N1 _ H' J')|exact H'|exfalso; exact (N2 _ H' J')].
Qed.

Lemma spans_dec i a b : {spans i a b} + {~ spans i a b}.
Proof.
  unfold spans. destruct (e_from i) as [f|]; [|right; intros [Q _]; discriminate].
  destruct (e_to i) as [t|]; [|right; intros [_ Q]; discriminate].
  destruct (string_dec f a) as [->|N]; [|right; intros [Q _]; congruence].
  destruct (string_dec t b) as [->|N]; [left; auto|right; intros [_ Q]; congruence].
Qed.

Section Elements.
Variables (m : list cobj) (s : string) (n n' : network).
Hypothesis K : closed m s n n'.
Hypothesis Rad : radial m.
Hypothesis One : one_per_link m.
Hypothesis Named : all_named (objs m).

Lemma element_spec u v c : reach (linked (objs m)) s u -> closed_link (objs m) u v -> In c m -> joins (c_e c) u v ->
  ((spans (c_e c) u v \/ spans (c_e c) v u) /\ element m n n' u v = Ok (info_of c) /\ exists x, c_name c = Some x) \/
  (~ (spans (c_e c) u v \/ spans (c_e c) v u) /\ element m n n' u v = Err EKey).
Proof.
  intros Hr [Hl Ho] Hc Hj. assert (B := build_built _ _ _ (k_built _ _ _ _ K)).
  destruct (open_switches_result _ _ _ _ (k_built _ _ _ _ K) (k_open _ _ _ _ K)) as (R1 & R2 & R3 & R4 & R5).
  assert (Ea : edge_attr (net_graph n') u v = edge_attr (net_graph n) u v) by (apply R4; exact Ho).
  destruct (link_split m c u v One Hc Hj) as (l1 & l2 & Em & N1 & N2).
  assert (Dec : spans (c_e c) u v \/ spans (c_e c) v u \/ ~ (spans (c_e c) u v \/ spans (c_e c) v u)).
  { destruct (spans_dec (c_e c) u v), (spans_dec (c_e c) v u); tauto. }
  unfold element. rewrite Ea.
  assert (Ho' : forall i, In i (objs m) -> (spans i u v \/ spans i v u) -> i = c_e c).
  { intros i Hi Hs. apply in_map_iff in Hi as (c' & <- & Hc'). f_equal.
    apply (link_unique m c' c u v One Hc' Hc); [unfold joins; tauto|exact Hj]. }
  destruct Dec as [Hs|[Hs|Hs]]; [left|left|right].
  1, 2: assert (Hs' : spans (c_e c) u v \/ spans (c_e c) v u) by tauto;
    (split; [exact Hs'|]);
    assert (Hn : exists x, e_name (c_e c) = Some (Some x)) by (apply Named; [apply in_map; exact Hc|left; eauto]);
    destruct Hn as [x Hx];
    assert (Et : edge_attr (net_graph n) u v = Some (mkEattr (e_cls (c_e c)) (Some x) (length_or_zero (c_e c))));
    [ apply (build_graph_attr (objs m) (net_graph n) u v (c_e c) x (b_graph _ _ _ B));
      [exists (objs l1), (objs l2); split; [unfold objs; rewrite Em, map_app; reflexivity|]; split; [exact Hs'|];
       intros j Hj'; apply in_map_iff in Hj' as (c' & <- & Hc'); specialize (N2 c' Hc'); unfold joins in N2; tauto|exact Hx]
    | rewrite Et ].
  1, 2: assert (W : writes (net_di n) u v c = true).
  1, 3: unfold writes, c_name; rewrite Hx; destruct Hs as [E1 E2]; rewrite E1, E2;
    apply orb_true_iff; left; apply andb_true_iff; split; [apply same_pair_iff; tauto|];
    apply orb_true_iff; destruct (radial_arc m s n u v (k_built _ _ _ _ K) Rad Hr Hl) as [A|A]; apply arc_has in A; tauto.
  1, 2: rewrite Em; rewrite filter_one;
    [|exact W|intros y Hy; apply not_true_is_false; intros Q; apply writes_joins in Q; exact (N1 y Hy Q)
     |intros y Hy; apply not_true_is_false; intros Q; apply writes_joins in Q; exact (N2 y Hy Q)];
    unfold last_attr, info_of, c_name; cbn [fold_left]; rewrite Hx; cbn [ea_cls];
    (split; [destruct (c_sub c), (c_wires c); reflexivity|exists x; reflexivity]).
  split; [exact Hs|]. rewrite (build_graph_no_attr (objs m) (net_graph n) u v (b_graph _ _ _ B)); [reflexivity|].
  assert (Z : forall i, In i (objs m) -> ~ (spans i u v \/ spans i v u)).
  { intros i Hi Q. apply Hs. rewrite <- (Ho' i Hi Q). exact Q. }
  intros i Hi. specialize (Z i Hi). tauto.
Qed.
End Elements.
