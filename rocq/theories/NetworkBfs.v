(** Breadth-first search builds the shortest-path tree. *)
From Verif Require Import Base BaseFacts StoreModel NetworkModel NetworkSpec NetworkProofs.
Local Open Scope string_scope.
Local Open Scope nat_scope.
Local Open Scope list_scope.

(** ** Walks *)

Lemma walk_mono (R R' : string -> string -> Prop) u v n :
  (forall x y, R x y -> R' x y) -> walk R u v n -> walk R' u v n.
Proof. intros H W. induction W; [constructor|]. econstructor; [exact IHW|auto]. Qed.

Lemma walk_trans R u v w n m : walk R u v n -> walk R v w m -> walk R u w (n + m).
Proof.
  intros W1 W2. revert n W1. induction W2 as [x|x y z k W2 IH Hr]; intros n W1.
  - rewrite Nat.add_0_r. exact W1.
  - rewrite Nat.add_succ_r. econstructor; [apply IH, W1|exact Hr].
Qed.

Lemma walk_one (R : string -> string -> Prop) u v : R u v -> walk R u v 1.
Proof. intros H. econstructor; [constructor|exact H]. Qed.

Lemma reach_refl R u : reach R u u.
Proof. exists 0. constructor. Qed.

Lemma reach_step (R : string -> string -> Prop) u v w : reach R u v -> R v w -> reach R u w.
Proof. intros [n W] H. exists (S n). econstructor; eassumption. Qed.

Lemma reach_trans R u v w : reach R u v -> reach R v w -> reach R u w.
Proof. intros [n W] [m X]. exists (n + m). eapply walk_trans; eassumption. Qed.

Lemma dist_refl R u : dist R u u 0.
Proof. split; [constructor|]. intros. lia. Qed.

Lemma dist_zero R u v : dist R u v 0 -> u = v.
Proof. intros [W _]. inversion W; reflexivity. Qed.

Lemma dist_fun R u v d d' : dist R u v d -> dist R u v d' -> d = d'.
Proof. intros [W H] [W' H']. specialize (H _ W'). specialize (H' _ W). lia. Qed.

Lemma dist_pred R u w d : dist R u w (S d) -> exists v, dist R u v d /\ R v w.
Proof.
  intros [W H]. inversion W as [|x v y n W' Hr]; subst. exists v. split; [|exact Hr]. split; [exact W'|].
  intros n Wn. assert (Q := H (S n) (walk_snoc _ _ _ _ _ Wn Hr)). lia.
Qed.

Section Bfs.
Variable g : graph.
Variable s : string.
Hypothesis Wf : wf_graph g.

Definition adj (u v : string) : Prop := has_edge g u v = true.

Lemma adj_nb u v : In v (neighbors g u) <-> adj u v.
Proof. apply neighbors_spec. Qed.

Record inv (d : nat) (q1 q2 vis : list string) : Prop := mkInv {
  i_nodup : NoDup vis;
  i_nodes : incl vis (g_nodes g);
  i_q : forall x, In x q1 \/ In x q2 -> In x vis;
  i_q1 : forall x, In x q1 -> dist adj s x d;
  i_q2 : forall x, In x q2 -> dist adj s x (S d);
  i_low : forall x k, dist adj s x k -> k <= d -> In x vis;
  i_done : forall x y, In x vis -> ~ In x q1 -> ~ In x q2 -> adj x y -> In y vis
}.

Definition post (vis : list string) (T : list (string * string)) : Prop :=
  (forall u v, In (u, v) T -> adj u v /\ ~ In v vis /\ exists k, dist adj s u k /\ dist adj s v (S k)) /\
  NoDup (map snd T) /\
  (forall x y, In x (vis ++ map snd T) -> adj x y -> In y (vis ++ map snd T)) /\
  incl (map snd T) (g_nodes g).

Lemma shift_inv d q2 vis : inv d [] q2 vis -> inv (S d) q2 [] vis.
Proof.
  intros [H1 H2 H3 H4 H5 H6 H7]. constructor; auto.
  - intros x [Q|[]]. auto.
  - intros x [].
  - intros x k Hk Hle. destruct (Nat.le_gt_cases k d) as [L|G]; [eapply H6; eassumption|].
    assert (k = S d) by lia. subst k. destruct (dist_pred _ _ _ _ Hk) as (v & Hv & Hr).
    apply (H7 v x); auto.
    + eapply H6; [exact Hv|lia].
    + intros Q. apply H5 in Q. assert (Z := dist_fun _ _ _ _ _ Hv Q). lia.
  - intros x y Hx N1 _ Ha. exact (H7 x y Hx (fun Q => Q) N1 Ha).
Qed.

Lemma map_snd_pair (u : string) (l : list string) : map snd (map (fun v => (u, v)) l) = l.
Proof. induction l as [|x t IH]; [reflexivity|]. cbn [map snd]. rewrite IH. reflexivity. Qed.

Lemma NoDup_app_intro {A} (l m : list A) : NoDup l -> NoDup m -> (forall x, In x l -> ~ In x m) -> NoDup (l ++ m).
Proof.
  induction l as [|x t IH]; intros H1 H2 H3; [exact H2|]. inversion H1; subst. cbn [app]. constructor.
  - rewrite in_app_iff. intros [Q|Q]; [auto|]. exact (H3 x (or_introl eq_refl) Q).
  - apply IH; auto. intros y Hy. apply H3. right; exact Hy.
Qed.

Definition fresh (vis : list string) (u : string) : list string :=
  filter (fun v => negb (smem v vis)) (neighbors g u).

Lemma fresh_spec vis u v : In v (fresh vis u) <-> adj u v /\ ~ In v vis.
Proof.
  unfold fresh. rewrite filter_In, adj_nb, negb_true_iff. split; intros [H1 H2]; split; auto.
  - intros Q. apply smem_In in Q. congruence.
  - apply not_true_is_false. intros Q. apply smem_In in Q. auto.
Qed.

Lemma fresh_NoDup vis u : NoDup (fresh vis u).
Proof. apply NoDup_filter, neighbors_NoDup, Wf. Qed.

Lemma step_inv d u q1 q2 vis : inv d (u :: q1) q2 vis ->
  (forall v, In v (fresh vis u) -> dist adj s v (S d)) /\
  inv d q1 (q2 ++ fresh vis u) (vis ++ fresh vis u).
Proof.
  intros [H1 H2 H3 H4 H5 H6 H7].
  assert (Hu : dist adj s u d) by (apply H4; left; reflexivity).
  assert (D : forall v, In v (fresh vis u) -> dist adj s v (S d)).
  { intros v Hv. apply fresh_spec in Hv as [Ha Hn]. split.
    - econstructor; [apply Hu|exact Ha].
    - intros n W. destruct (Nat.le_gt_cases (S d) n) as [L|G]; [exact L|]. exfalso. apply Hn.
      (* a shorter walk: its end has a distance at most n *)
      assert (E : exists k, dist adj s v k /\ k <= n).
      { clear - W. revert W. induction n as [n IH] using lt_wf_ind. intros W.
        assert (Dd : (exists m, m < n /\ walk adj s v m) \/ (forall m, m < n -> ~ walk adj s v m)).
        { assert (Dec : forall m x, {walk adj s x m} + {~ walk adj s x m}).
          { induction m as [|m IHm]; intros x.
            - destruct (str_dec s x) as [->|N]; [left; constructor|right; intros Q; inversion Q; congruence].
            - assert (Ex : {y | In y (neighbors g x) /\ walk adj s y m} + {forall y, In y (neighbors g x) -> ~ walk adj s y m}).
              { induction (neighbors g x) as [|y l IHl]; [right; intros y []|].
                destruct (IHm y) as [Q|Q]; [left; exists y; split; [left; reflexivity|exact Q]|].
                destruct IHl as [(z & Hz & Wz)|N]; [left; exists z; split; [right; exact Hz|exact Wz]|].
                right. intros z [<-|Hz]; [exact Q|auto]. }
              destruct Ex as [(y & Hy & Wy)|N].
              + left. econstructor; [exact Wy|]. unfold adj. rewrite has_edge_sym. apply adj_nb, Hy.
              + right. intros Q. inversion Q as [|a b c k W' Hr]; subst. apply (N b); [|exact W'].
                apply adj_nb. unfold adj in *. rewrite has_edge_sym. exact Hr. }
          clear - Dec. induction n as [|n IHn]; [right; intros m Q; lia|].
          destruct IHn as [(m & Hm & Wm)|N]; [left; exists m; split; [lia|exact Wm]|].
          destruct (Dec n v) as [Q|Q]; [left; exists n; split; [lia|exact Q]|].
          right. intros m Hm. destruct (Nat.eq_dec m n) as [->|]; [exact Q|apply N; lia]. }
        destruct Dd as [(m & Hm & Wm)|N].
        - destruct (IH m Hm Wm) as (k & Hk & L). exists k. split; [exact Hk|lia].
        - exists n. split; [|lia]. split; [exact W|]. intros k Wk.
          destruct (Nat.le_gt_cases n k) as [L|G]; [exact L|]. destruct (N k G Wk). }
      destruct E as (k & Hk & L). apply (H6 v k Hk). lia. }
  split; [exact D|]. constructor.
  - apply NoDup_app_intro; [exact H1|apply fresh_NoDup|]. intros x Hx Q. apply fresh_spec in Q as [_ Q]. auto.
  - intros x Hx. apply in_app_iff in Hx as [Hx|Hx]; [auto|]. apply fresh_spec in Hx as [Hx _].
    exact (proj2 (has_edge_nodes g u x Wf Hx)).
  - intros x [Q|Q]; rewrite in_app_iff.
    + left. apply H3. left. right. exact Q.
    + apply in_app_iff in Q as [Q|Q]; [left; apply H3; auto|auto].
  - intros x Q. apply H4. right; exact Q.
  - intros x Q. apply in_app_iff in Q as [Q|Q]; auto.
  - intros x k Hk L. rewrite in_app_iff. left. eauto.
  - intros x y Hx N1 N2 Ha. rewrite in_app_iff in *.
    destruct Hx as [Hx|Hx]; [|exfalso; apply N2; auto].
    destruct (str_dec x u) as [->|Nu].
    + destruct (in_dec str_dec y vis) as [I|I]; [auto|]. right. apply fresh_spec. auto.
    + left. apply (H7 x y); auto. intros [Q|Q]; [congruence|auto].
Qed.

Lemma NoDup_len (l m : list string) : NoDup l -> incl l m -> length l <= length m.
Proof. apply NoDup_incl_length. Qed.

Lemma bfs_spec : forall fuel d q1 q2 vis, inv d q1 q2 vis ->
  length (q1 ++ q2) + length (g_nodes g) <= fuel + length vis ->
  exists T, bfs g fuel (q1 ++ q2) vis = Ok T /\ post vis T.
Proof.
  induction fuel as [|fuel IH]; intros d q1 q2 vis I L.
  - assert (Q := NoDup_len _ _ (i_nodup _ _ _ _ I) (i_nodes _ _ _ _ I)).
    destruct (q1 ++ q2) as [|u q] eqn:E; [|cbn [length] in L; lia].
    apply app_eq_nil in E as [-> ->]. exists []. split; [reflexivity|].
    split; [intros u v []|]. split; [constructor|]. split; [|intros x []]. rewrite app_nil_r.
    intros x y Hx Ha. apply (i_done _ _ _ _ I x y); auto.
  - assert (Core : forall d u q1 q2, inv d (u :: q1) q2 vis ->
       length ((u :: q1) ++ q2) + length (g_nodes g) <= S fuel + length vis ->
       exists T, bfs g (S fuel) ((u :: q1) ++ q2) vis = Ok T /\ post vis T).
    { clear d q1 q2 I L. intros d u q1 q2 I L. destruct (step_inv _ _ _ _ _ I) as [D I'].
      cbn [app bfs]. fold (fresh vis u). rewrite <- app_assoc.
      destruct (IH d q1 (q2 ++ fresh vis u) (vis ++ fresh vis u) I') as (T & ET & P1 & P2 & P3 & P4).
      { rewrite !app_length in *. cbn [length] in L. lia. }
      rewrite ET. cbn [bind]. eexists. split; [reflexivity|].
      assert (Em : map snd (map (fun v => (u, v)) (fresh vis u) ++ T) = fresh vis u ++ map snd T)
        by (rewrite map_app, map_snd_pair; reflexivity).
      unfold post. rewrite Em. split; [|split; [|split]].
      - intros a b Hab. apply in_app_iff in Hab as [Hab|Hab].
        + apply in_map_iff in Hab as (w & Q & Hw). injection Q as <- <-. specialize (D w Hw).
          apply fresh_spec in Hw as [Ha Hn]. split; [exact Ha|]. split; [exact Hn|].
          exists d. split; [apply (i_q1 _ _ _ _ I); left; reflexivity|exact D].
        + destruct (P1 a b Hab) as (Q1 & Q2 & Q3). split; [exact Q1|]. split; [|exact Q3].
          intros Q. apply Q2. apply in_app_iff. auto.
      - apply NoDup_app_intro; [apply fresh_NoDup|exact P2|]. intros x Hx Q.
        apply in_map_iff in Q as ([a b] & <- & Hab). destruct (P1 a b Hab) as (_ & Q2 & _).
        apply Q2. apply in_app_iff. auto.
      - intros x y Hx Ha. rewrite app_assoc in *. exact (P3 x y Hx Ha).
      - intros x Hx. apply in_app_iff in Hx as [Hx|Hx]; [|auto].
        apply (i_nodes _ _ _ _ I'). apply in_app_iff. auto. }
    destruct q1 as [|u q1]; [|exact (Core d u q1 q2 I L)].
    destruct q2 as [|u q2].
    + exists []. split; [reflexivity|].
      split; [intros u v []|]. split; [constructor|]. split; [|intros x []]. rewrite app_nil_r.
      intros x y Hx Ha. apply (i_done _ _ _ _ I x y); auto.
    + apply shift_inv in I. assert (Q := Core (S d) u q2 [] I). cbn [app] in *. rewrite app_nil_r in Q. exact (Q L).
Qed.

(** [t] is a breadth-first tree of [g] from [s]. *)
Definition bfs_tree (t : list (string * string)) : Prop :=
  (forall u v, In (u, v) t -> adj u v /\ exists k, dist adj s u k /\ dist adj s v (S k)) /\
  NoDup (map snd t) /\
  (forall v, reach adj s v -> v <> s -> exists u, In (u, v) t).

Lemma bfs_order_spec : In s (g_nodes g) -> exists t, bfs_order g s = Ok t /\ bfs_tree t.
Proof.
  intros Hs. unfold bfs_order. assert (E := proj2 (smem_In _ _) Hs). rewrite E.
  assert (I : inv 0 [s] [] [s]).
  { constructor.
    - constructor; [intros []|constructor].
    - intros x [<-|[]]. exact Hs.
    - intros x [Q|[]]. exact Q.
    - intros x [<-|[]]. apply dist_refl.
    - intros x [].
    - intros x k Hk L. assert (k = 0) by lia. subst k. apply dist_zero in Hk. left; exact Hk.
    - intros x y [<-|[]] N. destruct N. left; reflexivity. }
  destruct (bfs_spec (S (length (g_nodes g))) 0 [s] [] [s] I) as (T & ET & P1 & P2 & P3 & P4).
  { cbn [app length]. lia. }
  exists T. split; [exact ET|]. split; [|split; [exact P2|]].
  - intros u v Huv. destruct (P1 u v Huv) as (Q1 & _ & Q2). auto.
  - intros v [n W]. assert (C : In v ([s] ++ map snd T)).
    { revert W. clear - P3. remember s as s0 eqn:Es. intros W. induction W as [x|x y z k W IH Hr]; [left; congruence|].
      eapply P3; [exact (IH Es P3)|exact Hr]. }
    intros N. destruct C as [C|C]; [congruence|]. apply in_map_iff in C as ([a b] & <- & Hab). eauto.
Qed.
End Bfs.
