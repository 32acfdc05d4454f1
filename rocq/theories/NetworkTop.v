(** Object-level forms of the network results, and example models. *)
From Verif Require Import Base BaseFacts StoreModel StoreSpec StoreProofs NetworkModel NetworkSpec
  NetworkProofs NetworkBfs NetworkQueries NetworkDown NetworkEdit.
Local Open Scope string_scope.
Local Open Scope nat_scope.
Local Open Scope list_scope.

(** ** Upstream transformer on objects *)

Lemma last_span_fun es u v i j : last_span es u v i -> last_span es u v j -> i = j.
Proof.
  intros (p & q & E & H & N) (p' & q' & E' & H' & N').
  assert (L : length p = length p').
  { destruct (Nat.lt_total (length p) (length p')) as [L|[L|L]]; [|exact L|]; exfalso.
    - assert (Q : nth_error es (length p') = Some j) by (rewrite E'; rewrite nth_error_app2, Nat.sub_diag; [reflexivity|lia]).
      rewrite E, nth_error_app2 in Q by lia. destruct (length p' - length p) as [|m] eqn:Em; [lia|].
      cbn [nth_error] in Q. apply nth_error_In in Q. destruct (N j Q) as [N1 N2]. destruct H'; auto.
    - assert (Q : nth_error es (length p) = Some i) by (rewrite E; rewrite nth_error_app2, Nat.sub_diag; [reflexivity|lia]).
      rewrite E', nth_error_app2 in Q by lia. destruct (length p - length p') as [|m] eqn:Em; [lia|].
      cbn [nth_error] in Q. apply nth_error_In in Q. destruct (N' i Q) as [N1 N2]. destruct H; auto. }
  assert (Q1 : nth_error es (length p) = Some i) by (rewrite E; rewrite nth_error_app2, Nat.sub_diag; [reflexivity|lia]).
  assert (Q2 : nth_error es (length p') = Some j) by (rewrite E'; rewrite nth_error_app2, Nat.sub_diag; [reflexivity|lia]).
  congruence.
Qed.

Lemma last_span_named es u v i : all_named es -> last_span es u v i -> exists m, e_name i = Some (Some m).
Proof.
  intros Hn Hi. apply Hn; [|left; destruct Hi as (p & q & _ & [Q|Q] & _); [exists u, v|exists v, u]; exact Q].
  destruct Hi as (p & q & -> & _). apply in_app_iff. right; left; reflexivity.
Qed.

Lemma dedge_object es s n u v : built es s n -> all_named es ->
  (forall a, In (u, v, Some a) (d_edges (net_di n)) <->
     arc (net_di n) u v /\ exists i m, last_span es u v i /\ e_name i = Some (Some m) /\
       a = mkEattr (e_cls i) (Some m) (length_or_zero i)) /\
  (In (u, v, None) (d_edges (net_di n)) <->
     arc (net_di n) u v /\ forall i, In i es -> ~ spans i u v /\ ~ spans i v u).
Proof.
  intros B Hn. split.
  - intros a. split.
    + intros H. split; [exists (Some a); exact H|]. apply (edge_attr_object _ _ _ _ _ _ B Hn).
      symmetry. exact (b_attr _ _ _ B _ _ _ H).
    + intros [[b Hb] (i & m & Hi & Hm & ->)]. rewrite <- (object_edge_attr _ _ _ _ _ _ _ B Hi Hm).
      rewrite <- (b_attr _ _ _ B _ _ _ Hb). exact Hb.
  - split.
    + intros H. split; [exists None; exact H|]. intros i Hi.
      destruct (last_span_dec es u v) as [[j Hj]|No].
      * destruct (last_span_named _ _ _ _ Hn Hj) as [m Hm].
        assert (Q := object_edge_attr _ _ _ _ _ _ _ B Hj Hm). rewrite <- (b_attr _ _ _ B _ _ _ H) in Q. discriminate.
      * specialize (No i Hi). unfold span_or in No. tauto.
    + intros [[b Hb] No]. rewrite (b_attr _ _ _ B _ _ _ Hb) in Hb.
      rewrite (build_graph_no_attr _ _ _ _ (b_graph _ _ _ B) No) in Hb. exact Hb.
Qed.

Lemma climbs_objects es s n x z : built es s n -> all_named es ->
  (climbs (net_di n) x z <-> climbs_over es (net_di n) x z).
Proof.
  intros B Hn. split; intros C; induction C as [x|x y z]; try constructor.
  - apply (proj1 (dedge_object _ _ _ _ _ B Hn)) in H as (A & i & m & Hi & Hm & ->).
    econstructor; eassumption.
  - destruct (last_span_named _ _ _ _ Hn H0) as [m Hm].
    apply climb_up with (y := y) (a := mkEattr (e_cls i) (Some m) (length_or_zero i)); [|exact H1|exact IHC].
    apply (proj1 (dedge_object _ _ _ _ _ B Hn)). split; [exact H|]. exists i, m. auto.
Qed.

Theorem upstream_objects es s n x fuel :
  all_named es -> build es s = Ok n -> In x (d_nodes (net_di n)) -> length (d_nodes (net_di n)) < fuel ->
  (forall t, get_upstream_transformer fuel n x = Ok (Some t) <->
     exists z y i, climbs_over es (net_di n) x z /\ arc (net_di n) y z /\ last_span es y z i /\
       e_cls i = "PowerTransformer" /\ e_name i = Some (Some t)) /\
  (get_upstream_transformer fuel n x = Ok None <-> climbs_over es (net_di n) x s) /\
  (forall e, get_upstream_transformer fuel n x = Err e <->
     e = EKey /\ exists z y, climbs_over es (net_di n) x z /\ arc (net_di n) y z /\
       forall i, In i es -> ~ spans i y z /\ ~ spans i z y).
Proof.
  intros Hn H Hx L. assert (B := build_built _ _ _ H).
  destruct (upstream_result _ _ _ _ _ H Hx L) as [P1 P2]. split; [|split].
  - intros t. rewrite P1. split.
    + intros [(z & y & a & C & Hin & Hc & E)|[_ Q]]; [|discriminate].
      apply (climbs_objects _ _ _ _ _ B Hn) in C.
      apply (proj1 (dedge_object _ _ _ _ _ B Hn)) in Hin as (A & i & m & Hi & Hm & ->). cbn [ea_cls ea_name] in *.
      injection E as ->. exists z, y, i. auto.
    + intros (z & y & i & C & A & Hi & Hc & Hm). left.
      exists z, y, (mkEattr (e_cls i) (Some t) (length_or_zero i)).
      split; [apply (climbs_objects _ _ _ _ _ B Hn), C|]. split; [|auto].
      apply (proj1 (dedge_object _ _ _ _ _ B Hn)). split; [exact A|]. exists i, t. auto.
  - rewrite P1. split.
    + intros [(z & y & a & C & Hin & Hc & E)|[C _]]; [|apply (climbs_objects _ _ _ _ _ B Hn), C].
      apply (proj1 (dedge_object _ _ _ _ _ B Hn)) in Hin as (A & i & m & Hi & Hm & ->). discriminate.
    + intros C. right. split; [apply (climbs_objects _ _ _ _ _ B Hn), C|reflexivity].
  - intros e. rewrite P2. split; intros [-> (z & y & C & Q)]; (split; [reflexivity|]); exists z, y.
    + apply (climbs_objects _ _ _ _ _ B Hn) in C. apply (proj2 (dedge_object _ _ _ _ _ B Hn)) in Q as [A No]. auto.
    + destruct Q as [A No]. split; [apply (climbs_objects _ _ _ _ _ B Hn), C|].
      apply (proj2 (dedge_object _ _ _ _ _ B Hn)). auto.
Qed.

(** ** The tree *)

Theorem build_tree es s n : build es s = Ok n ->
  (forall u v, arc (net_di n) u v -> linked es u v /\ exists k, dist (linked es) s u k /\ dist (linked es) s v (S k)) /\
  (forall x, In x (d_nodes (net_di n)) <-> reach (linked es) s x /\ exists y, linked es s y /\ y <> s) /\
  (forall u u' v, arc (net_di n) u v -> arc (net_di n) u' v -> u = u') /\
  (forall v, In v (d_nodes (net_di n)) -> v <> s -> exists u, arc (net_di n) u v) /\
  (forall u, ~ arc (net_di n) u s) /\
  (forall v, reach (arc (net_di n)) s v <-> reach (linked es) s v) /\
  (forall u v a, In (u, v, a) (d_edges (net_di n)) -> a = edge_attr (net_graph n) u v).
Proof.
  intros H. assert (B := build_built _ _ _ H).
  split; [exact (b_arc _ _ _ B)|]. split; [intros x; exact (built_node _ _ _ x B)|].
  split; [exact (b_one _ _ _ B)|]. split.
  - intros v Hv N. apply (built_node _ _ _ _ B) in Hv as [R _]. exact (b_all _ _ _ B v R N).
  - split; [intros u; exact (built_no_pred_source _ _ _ _ B)|]. split; [intros v; exact (built_reach _ _ _ _ B)|].
    exact (b_attr _ _ _ B).
Qed.

Theorem build_contents es s n : build es s = Ok n ->
  (forall u v, has_edge (net_graph n) u v = true <-> linked es u v) /\
  (forall x, In x (g_nodes (net_graph n)) <-> exists y, linked es x y) /\
  (forall u v i m, last_span es u v i -> e_name i = Some (Some m) ->
     edge_attr (net_graph n) u v = Some (mkEattr (e_cls i) (Some m) (length_or_zero i))) /\
  (forall u v, (forall i, In i es -> ~ spans i u v /\ ~ spans i v u) -> edge_attr (net_graph n) u v = None).
Proof.
  intros H. assert (B := build_built _ _ _ H). destruct (build_graph_contents _ _ (b_graph _ _ _ B)) as (C1 & C2 & _).
  split; [exact C1|]. split; [exact C2|]. split.
  - intros u v i m. exact (build_graph_attr _ _ _ _ _ _ (b_graph _ _ _ B)).
  - intros u v. exact (build_graph_no_attr _ _ _ _ (b_graph _ _ _ B)).
Qed.

(** ** Open switches *)

Theorem open_switches_result es s n n' : build es s = Ok n -> remove_open_switches es n = Ok n' ->
  g_nodes (net_graph n') = g_nodes (net_graph n) /\ d_nodes (net_di n') = d_nodes (net_di n) /\
  (forall u v, has_edge (net_graph n') u v = true <-> linked es u v /\ ~ open_pair es u v) /\
  (forall u v, ~ open_pair es u v -> edge_attr (net_graph n') u v = edge_attr (net_graph n) u v) /\
  (forall u v a, In (u, v, a) (d_edges (net_di n')) <-> In (u, v, a) (d_edges (net_di n)) /\ ~ open_pair es u v).
Proof.
  intros H R. assert (B := build_built _ _ _ H).
  destruct (remove_open_loop _ _ _ R) as (I1 & I2 & I3 & I4 & I5 & _).
  split; [exact I1|]. split; [exact I2|]. split; [|split; assumption].
  intros u v. rewrite I3, (b_edge _ _ _ B). reflexivity.
Qed.

Theorem open_switches_succeed es s n : build es s = Ok n ->
  (forall i, In i es -> ~ wires_none i) ->
  (forall pre i mid j post u v, es = pre ++ i :: mid ++ j :: post ->
     taken_as_open i u v -> ~ taken_as_open j u v /\ ~ taken_as_open j v u) ->
  exists n', remove_open_switches es n = Ok n'.
Proof.
  intros H W U. apply remove_open_ok; auto. intros i u v. exact (open_links _ _ _ _ _ _ H).
Qed.

Lemma really_taken i u v : really_open i u v -> taken_as_open i u v.
Proof.
  intros (S & (sw & br & E & D) & ws & Ew & Ne & All). split; [exact S|]. split.
  - exists sw, br. split; [exact E|]. destruct D as [D|D]; [left; exact D|right; congruence].
  - exists ws. split; [exact Ew|]. split; [exact Ne|]. intros Q. apply All in Q. discriminate.
Qed.

(** ** Example models *)

Definition xnode (n : string) : elem := mkElem "Node" (Some (Some n)) None None None None None (Some []).
Definition xline (n f t : string) (len : Z) : elem :=
  mkElem "Line" (Some (Some n)) (Some f) (Some t) None (Some (SVal len)) (Some (None, None)) (Some [None]).
Definition xswitch (n f t : string) (sw br : option bool) (ws : option (list (option bool))) : elem :=
  mkElem "Line" (Some (Some n)) (Some f) (Some t) None None (Some (sw, br)) ws.
Definition xtrafo (n f t : string) : elem :=
  mkElem "PowerTransformer" (Some (Some n)) (Some f) (Some t) None None None None.
Definition xload (n c : string) : elem := mkElem "Load" (Some (Some n)) None None (Some c) None None None.

(** A loop s-a-b-c-s with a transformer, a load, and a node that nothing touches. *)
Definition xes : list elem :=
  [xnode "s"; xnode "a"; xnode "b"; xnode "c"; xnode "d"; xnode "z";
   xline "l1" "s" "a" 10; xtrafo "t1" "a" "b"; xline "l2" "d" "b" 3; xline "l3" "c" "b" 4;
   xline "l4" "c" "s" 7; xload "ld" "d"].

Definition net_or_empty (r : res network) : network :=
  match r with Ok n => n | Err _ => mkNet empty_graph (mkDigraph [] []) end.
Definition xnet : network := net_or_empty (build xes "s").

Lemma xes_named : all_named xes.
Proof.
  intros i Hi _. unfold xes in Hi. cbn [In] in Hi.
  repeat (destruct Hi as [<-|Hi]; [eexists; reflexivity|]). destruct Hi.
Qed.
Lemma xnet_built : build xes "s" = Ok xnet.
Proof. vm_compute. reflexivity. Qed.
