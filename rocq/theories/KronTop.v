(** Kron reduction: linear algebra. *)
From Coq Require Import Ring Permutation.
From Verif Require Import Base BaseFacts MatrixModel MatrixSpec MatrixProofs KronProofs.
Local Open Scope nat_scope.
Local Open Scope list_scope.

Section Lin.
  Variable F : Type.
  Variables (rO rI : F) (radd rmul rsub : F -> F -> F) (ropp : F -> F).
  Hypothesis Rth : ring_theory rO rI radd rmul rsub ropp (@eq F).
  Add Ring Fring : Rth.
  Local Notation "a + b" := (radd a b).
  Local Notation "a * b" := (rmul a b).
  Local Notation "a - b" := (rsub a b).
  Local Notation "- a" := (ropp a).
  Local Notation so := (sum_over rO radd).

  Lemma so_ext l f g : (forall x, In x l -> f x = g x) -> so l f = so l g.
  Proof.
    induction l as [|x l IH]; intros H; [reflexivity|]. cbn [sum_over].
    rewrite (H x (or_introl eq_refl)), IH; [reflexivity|]. intros y Hy. apply H. right. exact Hy.
  Qed.

  Lemma so_app l l' f : so (l ++ l') f = so l f + so l' f.
  Proof. induction l as [|x l IH]; cbn [sum_over app]; [ring|]. rewrite IH. ring. Qed.

  Lemma so_add l f g : so l (fun x => f x + g x) = so l f + so l g.
  Proof. induction l as [|x l IH]; cbn [sum_over]; [ring|]. rewrite IH. ring. Qed.

  Lemma so_sub l f g : so l (fun x => f x - g x) = so l f - so l g.
  Proof. induction l as [|x l IH]; cbn [sum_over]; [ring|]. rewrite IH. ring. Qed.

  Lemma so_opp l f : so l (fun x => - f x) = - so l f.
  Proof. induction l as [|x l IH]; cbn [sum_over]; [ring|]. rewrite IH. ring. Qed.

  Lemma so_mul l a f : a * so l f = so l (fun x => a * f x).
  Proof. induction l as [|x l IH]; cbn [sum_over]; [ring|]. rewrite <- IH. ring. Qed.

  Lemma so_mul_r l a f : so l f * a = so l (fun x => f x * a).
  Proof. induction l as [|x l IH]; cbn [sum_over]; [ring|]. rewrite <- IH. ring. Qed.

  Lemma so_zero l : so l (fun _ => rO) = rO.
  Proof. induction l as [|x l IH]; cbn [sum_over]; [ring|]. rewrite IH. ring. Qed.

  Lemma so_swap l l' (f : nat -> nat -> F) :
    so l (fun x => so l' (fun y => f x y)) = so l' (fun y => so l (fun x => f x y)).
  Proof.
    induction l as [|x l IH]; cbn [sum_over]; [symmetry; apply so_zero|]. rewrite IH, <- so_add. reflexivity.
  Qed.

  Lemma so_delta l x f : NoDup l -> In x l -> so l (fun y => (if x =? y then rI else rO) * f y) = f x.
  Proof.
    induction l as [|y l IH]; intros ND Hin; [destruct Hin|]. inversion ND as [|? ? Hy Hl]; subst.
    cbn [sum_over]. destruct Hin as [->|Hin].
    - rewrite Nat.eqb_refl. transitivity (f x + so l (fun _ => rO)); [|rewrite so_zero; ring].
      replace (rI * f x) with (f x) by ring. f_equal. apply so_ext. intros z Hz.
      destruct (Nat.eqb_spec x z) as [->|_]; [contradiction|ring].
    - destruct (Nat.eqb_spec x y) as [->|_]; [contradiction|]. rewrite IH by assumption. ring.
  Qed.

  Lemma so_nth l f : so l f = so (seq 0 (length l)) (fun b => f (nth b l 0)).
  Proof.
    induction l as [|x l IH]; [reflexivity|]. cbn [length seq sum_over nth]. f_equal.
    rewrite IH, <- seq_shift. clear IH. generalize (seq 0 (length l)). intros q.
    induction q as [|k q IHq]; [reflexivity|]. cbn [sum_over map]. rewrite IHq. reflexivity.
  Qed.

  Lemma upto_so n f : sum_upto F rO radd n f = so (seq 0 n) f.
  Proof.
    induction n as [|n IH]; [reflexivity|]. rewrite seq_S, so_app, <- IH. cbn [sum_upto sum_over]. rewrite Nat.add_0_l. ring.
  Qed.

  (** The algebra of the reduction. *)
  Lemma reduction_algebra k (A B V C D : nat -> nat -> F) (ip jn : nat -> F) a :
    (forall l q, l < k -> q < k -> so (seq 0 k) (fun m => V l m * D m q) = (if l =? q then rI else rO)) ->
    (forall l, l < k -> so (seq 0 k) (fun b => C l b * ip b) + so (seq 0 k) (fun b => D l b * jn b) = rO) ->
    so (seq 0 k) (fun b => (A a b - so (seq 0 k) (fun l => B a l * so (seq 0 k) (fun m => V l m * C m b))) * ip b)
    = so (seq 0 k) (fun b => A a b * ip b) + so (seq 0 k) (fun l => B a l * jn l).
  Proof.
    intros HV HG.
    assert (Hin : forall x, In x (seq 0 k) -> x < k) by (intros x H; apply in_seq in H; lia).
    transitivity (so (seq 0 k) (fun b => A a b * ip b) -
      so (seq 0 k) (fun b => so (seq 0 k) (fun l => B a l * so (seq 0 k) (fun m => V l m * (C m b * ip b))))).
    { rewrite <- so_sub. apply so_ext. intros b _.
      replace (so (seq 0 k) (fun l => B a l * so (seq 0 k) (fun m => V l m * (C m b * ip b))))
        with (so (seq 0 k) (fun l => B a l * so (seq 0 k) (fun m => V l m * C m b)) * ip b); [ring|].
      rewrite so_mul_r. apply so_ext. intros l _.
      transitivity (B a l * (so (seq 0 k) (fun m => V l m * C m b) * ip b)); [ring|]. f_equal.
      rewrite so_mul_r. apply so_ext. intros m _. ring. }
    rewrite so_swap.
    replace (so (seq 0 k) (fun l => so (seq 0 k) (fun b => B a l * so (seq 0 k) (fun m => V l m * (C m b * ip b)))))
      with (- so (seq 0 k) (fun l => B a l * jn l)); [ring|].
    rewrite <- so_opp. apply so_ext. intros l Hl. rewrite <- so_mul.
    transitivity (B a l * (- jn l)); [ring|]. f_equal.
    rewrite so_swap.
    transitivity (so (seq 0 k) (fun m => V l m * (- so (seq 0 k) (fun q => D m q * jn q)))).
    - rewrite <- (so_delta (seq 0 k) l jn) by (try apply seq_NoDup; exact Hl). rewrite <- so_opp.
      transitivity (so (seq 0 k) (fun q => so (seq 0 k) (fun m => - (V l m * D m q) * jn q))).
      { apply so_ext. intros q Hq. rewrite <- so_mul_r, so_opp, HV by auto. destruct (l =? q); ring. }
      rewrite so_swap. apply so_ext. intros m _.
      rewrite <- so_opp, so_mul. apply so_ext. intros q _. ring.
    - apply so_ext. intros m Hm. rewrite <- so_mul. f_equal. specialize (HG m (Hin m Hm)).
      generalize dependent (so (seq 0 k) (fun b => C m b * ip b)). intros x HG.
      transitivity (x - (x + so (seq 0 k) (fun q => D m q * jn q))); [ring|]. rewrite HG. ring.
  Qed.

  Lemma entry_tabulate r c f i j : i < r -> j < c -> entry F rO (tabulate r c f) i j = f i j.
  Proof. intros Hi Hj. unfold entry. rewrite tabulate_get by assumption. reflexivity. Qed.

  Lemma width_tabulate r c (f : nat -> nat -> F) : 0 < r -> width F (tabulate r c f) = c.
  Proof.
    intros H. destruct (tabulate_dims r c f) as [L W]. destruct (tabulate r c f) as [|row m]; [simpl in L; lia|].
    apply W. left. reflexivity.
  Qed.

  Lemma length_tabulate r c (f : nat -> nat -> F) : length (tabulate r c f) = r.
  Proof. apply tabulate_dims. Qed.

  Lemma tabulate_eq r c (f g : nat -> nat -> F) :
    (forall i j, i < r -> j < c -> f i j = g i j) -> tabulate r c f = tabulate r c g.
  Proof.
    intros H. apply tabulate_ext; [apply tabulate_dims|]. intros a b Ha Hb. rewrite tabulate_get by assumption.
    rewrite H by assumption. reflexivity.
  Qed.

  Lemma dims_tabulate (m : list (list F)) r c : dims m r c -> m = tabulate r c (entry F rO m).
  Proof.
    intros D. apply tabulate_ext; [exact D|]. intros a b Ha Hb. unfold entry.
    destruct (dims_nth m r c a D Ha) as (row & Er & Lr). unfold get2. rewrite Er.
    destruct (nth_error row b) eqn:E; [reflexivity|]. apply nth_error_None in E. lia.
  Qed.

  Lemma entry_nth (m : list (list F)) i j : entry F rO m i j = nth j (nth i m []) rO.
  Proof.
    unfold entry, get2. destruct (nth_error m i) as [r|] eqn:E.
    - rewrite (nth_error_nth _ _ [] E). destruct (nth_error r j) eqn:E'.
      + symmetry. apply nth_error_nth. exact E'.
      + apply nth_error_None in E'. symmetry. apply nth_overflow. exact E'.
    - apply nth_error_None in E. rewrite (nth_overflow m) by exact E. destruct j; reflexivity.
  Qed.

  Lemma kron_formula k (a b v c : nat -> nat -> F) : 0 < k ->
    msub F rO rsub (tabulate k k a) (mdot F rO radd rmul (tabulate k k b) (mdot F rO radd rmul (tabulate k k v) (tabulate k k c)))
    = tabulate k k (fun i j => a i j - so (seq 0 k) (fun l => b i l * so (seq 0 k) (fun m => v l m * c m j))).
  Proof.
    intros Hk.
    assert (E1 : mdot F rO radd rmul (tabulate k k v) (tabulate k k c)
      = tabulate k k (fun i j => so (seq 0 k) (fun m => v i m * c m j))).
    { unfold mdot. rewrite !length_tabulate, width_tabulate by exact Hk. apply tabulate_eq. intros i j Hi Hj.
      rewrite upto_so. apply so_ext. intros m Hm. apply in_seq in Hm. rewrite !entry_tabulate by lia. reflexivity. }
    rewrite E1. unfold mdot at 1. rewrite !length_tabulate, width_tabulate by exact Hk.
    unfold msub. rewrite length_tabulate, width_tabulate by exact Hk. apply tabulate_eq. intros i j Hi Hj.
    rewrite !entry_tabulate by assumption. f_equal. rewrite upto_so. apply so_ext. intros l Hl. apply in_seq in Hl.
    rewrite !entry_tabulate by lia. reflexivity.
  Qed.

  Section Top.
    Variables (Z : list (list F)) (z : nat -> nat -> F) (neutrals : list nat).
    Variable inv : list (list F) -> res (list (list F)).
    Hypothesis Hz : reads Z z.
    Hypothesis Hnd : NoDup neutrals.
    Hypothesis Hin : forall i, In i neutrals -> i < length Z.
    Hypothesis Hn1 : 0 < length neutrals.
    Hypothesis Hp1 : length neutrals < length Z.
    Hypothesis Hinv : forall m v, inv m = Ok v -> inverse_of rO radd rmul rI m v.

    Let ps := plist Z neutrals.
    Let ns := nlist Z neutrals.

    Lemma kron_index_error : Nat.sub (length Z) (length neutrals) <> length neutrals ->
      kron_reduction F rO radd rmul rsub inv Z (Some neutrals) = Err EIndex.
    Proof.
      intros H. unfold kron_reduction. destruct (split_run Z z neutrals Hz Hnd Hin Hn1 ltac:(lia)) as [[E _]|[_ ->]]; [contradiction|reflexivity].
    Qed.

    Hypothesis Hk : Nat.sub (length Z) (length neutrals) = length neutrals.
    Let k := length neutrals.

    Lemma ps_length : length ps = k.
    Proof. pose proof (rank_pp Z neutrals Hnd Hin) as H. unfold rank in H. unfold ps, plist, k. lia. Qed.
    Lemma ns_length : length ns = k.
    Proof. pose proof (rank_pn Z neutrals Hnd Hin) as H. unfold rank in H. unfold ns, nlist, k. lia. Qed.

    Lemma kron_value :
      kron_reduction F rO radd rmul rsub inv Z (Some neutrals) =
      match inv (tabulate k k (fun a b => z (nth b ns 0) (nth a ns 0))) with
      | Ok v => Ok (tabulate k k (fun a b => z (nth b ps 0) (nth a ps 0) -
          so (seq 0 k) (fun l => z (nth l ps 0) (nth a ns 0) *
            so (seq 0 k) (fun m => entry F rO v l m * z (nth b ns 0) (nth m ps 0)))))
      | Err e => Err e
      end.
    Proof.
      unfold kron_reduction.
      destruct (split_run Z z neutrals Hz Hnd Hin Hn1 ltac:(lia)) as [[E (s & -> & I1 & I2 & I3 & I4)]|[E _]]; [|contradiction].
      cbn [bind]. pose proof (rank_pn Z neutrals Hnd Hin) as Rn. pose proof (rank_pp Z neutrals Hnd Hin) as Rp.
      rewrite E in *. fold k in Rn, Rp, I1, I2, I3, I4.
      rewrite (zone_table Z z k _ _ _ I1 Rn Rn), (zone_table Z z k _ _ _ I2 Rp Rp),
        (zone_table Z z k _ _ _ I3 Rp Rn), (zone_table Z z k _ _ _ I4 Rn Rp).
      rewrite !complete_table. cbn [bind].
      change (filter (pn neutrals) (seq 0 (length Z))) with ns. change (filter (pp neutrals) (seq 0 (length Z))) with ps.
      destruct (inv (tabulate k k (fun a b => z (nth b ns 0) (nth a ns 0)))) as [v|e] eqn:Ev; [|reflexivity].
      cbn [bind]. f_equal.
      destruct (Hinv _ _ Ev) as (k' & D1 & D2 & _).
      assert (k' = k) by (destruct D1 as [L _]; rewrite length_tabulate in L; congruence). subst k'.
      rewrite (dims_tabulate v k k D2) at 1. rewrite kron_formula by exact Hn1. reflexivity.
    Qed.

    (** When the blocks of [Z] are symmetric the result is the grounded reduction. *)
    Lemma kron_symmetric r :
      (forall i j, i < length Z -> j < length Z -> z i j = z j i) ->
      (forall a b, a < k -> b < k -> z (nth a ps 0) (nth b ns 0) = z (nth b ps 0) (nth a ns 0)) ->
      kron_reduction F rO radd rmul rsub inv Z (Some neutrals) = Ok r ->
      grounded_reduction rO radd rmul z ps ns r.
    Proof.
      intros Sz Sx. rewrite kron_value.
      destruct (inv _) as [v|e] eqn:Ev; [|discriminate]. intros E. injection E as <-.
      destruct (Hinv _ _ Ev) as (k' & D1 & D2 & V & _).
      assert (k' = k) by (destruct D1 as [L _]; rewrite length_tabulate in L; congruence). subst k'.
      assert (Bp : forall a, a < k -> nth a ps 0 < length Z).
      { intros a Ha. assert (H : In (nth a ps 0) ps) by (apply nth_In; rewrite ps_length; exact Ha).
        apply filter_In in H as [H _]. apply in_seq in H. lia. }
      assert (Bn : forall a, a < k -> nth a ns 0 < length Z).
      { intros a Ha. assert (H : In (nth a ns 0) ns) by (apply nth_In; rewrite ns_length; exact Ha).
        apply filter_In in H as [H _]. apply in_seq in H. lia. }
      split; [rewrite ps_length; apply tabulate_dims|].
      intros c Hg a p row Hp Hrow.
      assert (Ha : a < k) by (rewrite <- ps_length; apply nth_error_Some; congruence).
      rewrite tabulate_row, (proj2 (Nat.ltb_lt a k) Ha) in Hrow. injection Hrow as <-.
      assert (Ep : nth a ps 0 = p) by (apply nth_error_nth; exact Hp).
      unfold drop. rewrite (so_nth ps), (so_nth ns), ps_length, ns_length, <- Ep.
      transitivity (so (seq 0 k) (fun b => (z (nth a ps 0) (nth b ps 0) -
          so (seq 0 k) (fun l => z (nth a ps 0) (nth l ns 0) *
            so (seq 0 k) (fun m => entry F rO v l m * z (nth m ns 0) (nth b ps 0)))) * c (nth b ps 0))).
      { apply so_ext. intros b Hb. apply in_seq in Hb. f_equal.
        erewrite nth_error_nth; [|rewrite nth_error_map_seq, (proj2 (Nat.ltb_lt b k)) by lia; reflexivity].
        rewrite (Sz (nth b ps 0)) by (apply Bp; lia). f_equal. apply so_ext. intros l Hl. apply in_seq in Hl.
        rewrite (Sx l a) by lia. f_equal. apply so_ext. intros m Hm. apply in_seq in Hm. f_equal.
        rewrite (Sz (nth b ns 0)) by (first [apply Bp|apply Bn]; lia). rewrite Sx by lia.
        apply Sz; first [apply Bp|apply Bn]; lia. }
      apply (reduction_algebra k (fun a b => z (nth a ps 0) (nth b ps 0)) (fun a b => z (nth a ps 0) (nth b ns 0))
        (entry F rO v) (fun a b => z (nth a ns 0) (nth b ps 0)) (fun a b => z (nth a ns 0) (nth b ns 0))
        (fun b => c (nth b ps 0)) (fun b => c (nth b ns 0)) a).
      - intros l q Hl Hq. rewrite <- (V l q Hl Hq). apply so_ext. intros m Hm. apply in_seq in Hm.
        rewrite <- !entry_nth. rewrite entry_tabulate by lia. f_equal. apply Sz; apply Bn; lia.
      - intros l Hl. specialize (Hg (nth l ns 0)). unfold drop in Hg.
        rewrite (so_nth ps), (so_nth ns), ps_length, ns_length in Hg. apply Hg. apply nth_In. rewrite ns_length. exact Hl.
    Qed.
  End Top.
End Lin.

(** The lists of the model are the phases and the neutrals in increasing order. *)
Lemma plist_spec {F} (Z : list (list F)) neutrals i :
  In i (plist Z neutrals) <-> i < length Z /\ ~ In i neutrals.
Proof.
  unfold plist, pp, pn. rewrite filter_In, in_seq, negb_true_iff, <- not_true_iff_false, nmem_In. intuition lia.
Qed.
