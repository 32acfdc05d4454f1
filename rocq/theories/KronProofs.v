(** The loops of kron_reduction fill the four submatrices column by column. *)
From Coq Require Import Ring Permutation.
From Verif Require Import Base BaseFacts MatrixModel MatrixSpec MatrixProofs.
Local Open Scope nat_scope.
Local Open Scope list_scope.

(** ** Ranks *)
Definition rank (p : nat -> bool) (k : nat) : nat := length (filter p (seq 0 k)).

Lemma rank_S p k : rank p (S k) = rank p k + (if p k then 1 else 0).
Proof.
  unfold rank. rewrite seq_S, filter_app, app_length. simpl. destruct (p k); simpl; lia.
Qed.

Lemma rank_mono p i j : i <= j -> rank p i <= rank p j.
Proof. induction 1 as [|j H IH]; [lia|]. rewrite rank_S. lia. Qed.

Lemma rank_lt p i j : p i = true -> i < j -> rank p i < rank p j.
Proof.
  intros Hp H. pose proof (rank_mono p (S i) j H) as M. rewrite rank_S, Hp in M. lia.
Qed.

Lemma rank_inj p i j : p i = true -> p j = true -> rank p i = rank p j -> i = j.
Proof.
  intros Hi Hj E. destruct (Nat.lt_trichotomy i j) as [L|[L|L]]; [|exact L|].
  - pose proof (rank_lt p i j Hi L). lia.
  - pose proof (rank_lt p j i Hj L). lia.
Qed.

Lemma nth_rank p n i : p i = true -> i < n -> nth_error (filter p (seq 0 n)) (rank p i) = Some i.
Proof.
  intros Hp H. replace n with (i + S (n - S i)) by lia.
  rewrite seq_app, filter_app. cbn [seq filter]. rewrite Nat.add_0_l, Hp.
  rewrite nth_error_app2 by (unfold rank; lia). unfold rank. rewrite Nat.sub_diag. reflexivity.
Qed.

Lemma rank_nth p n k i : nth_error (filter p (seq 0 n)) k = Some i -> rank p i = k /\ p i = true /\ i < n.
Proof.
  intros H. assert (Hin := nth_error_In _ _ H). apply filter_In in Hin as [Hi Hp].
  apply in_seq in Hi. assert (Hn : i < n) by lia. split; [|auto].
  pose proof (nth_rank p n i Hp Hn) as R.
  assert (ND : NoDup (filter p (seq 0 n))) by (apply NoDup_filter, seq_NoDup).
  rewrite NoDup_nth_error in ND. apply ND; [|congruence].
  apply nth_error_Some. congruence.
Qed.

Lemma rank_full p n k : k < rank p n -> exists i, nth_error (filter p (seq 0 n)) k = Some i.
Proof.
  intros H. destruct (nth_error (filter p (seq 0 n)) k) as [i|] eqn:E; [eauto|].
  apply nth_error_None in E. unfold rank in H. lia.
Qed.

Lemma rank_negb p n : rank p n + rank (fun i => negb (p i)) n = n.
Proof. induction n as [|n IH]; [reflexivity|]. rewrite !rank_S. destruct (p n); simpl; lia. Qed.

Lemma nmem_In i l : nmem i l = true <-> In i l.
Proof.
  unfold nmem. rewrite existsb_exists. split.
  - intros (x & H & E). apply Nat.eqb_eq in E. subst. exact H.
  - intros H. exists i. split; [exact H|apply Nat.eqb_refl].
Qed.

Lemma rank_nmem l n : NoDup l -> (forall i, In i l -> i < n) -> rank (fun i => nmem i l) n = length l.
Proof.
  intros ND B. unfold rank. apply Permutation_length. apply NoDup_Permutation; [apply NoDup_filter, seq_NoDup|exact ND|].
  intros i. rewrite filter_In, nmem_In, in_seq. split; [tauto|]. intros H. specialize (B i H). split; [lia|exact H].
Qed.

(** ** Writing into lists of lists *)
Lemma set_nth_ok {A} (l : list A) i x : i < length l ->
  exists l', set_nth l i x = Ok l' /\ length l' = length l /\
    forall k, nth_error l' k = if k =? i then Some x else nth_error l k.
Proof.
  revert i. induction l as [|y l IH]; intros i H; [simpl in H; lia|].
  destruct i as [|i].
  - eexists. split; [reflexivity|]. split; [reflexivity|]. intros [|k]; reflexivity.
  - simpl in H. destruct (IH i ltac:(lia)) as (l' & E & L & N). cbn [set_nth]. rewrite E. cbn [bind].
    eexists. split; [reflexivity|]. split; [simpl; lia|]. intros [|k]; [reflexivity|]. cbn. apply N.
Qed.

Lemma set_nth_err {A} (l : list A) i x : length l <= i -> set_nth l i x = Err EIndex.
Proof.
  revert i. induction l as [|y l IH]; intros i H; [reflexivity|].
  destruct i as [|i]; [simpl in H; lia|]. cbn [set_nth]. rewrite IH by (simpl in H; lia). reflexivity.
Qed.

Lemma dims_nth {A} (m : list (list A)) r c i : dims m r c -> i < r ->
  exists row, nth_error m i = Some row /\ length row = c.
Proof.
  intros [L R] H. destruct (nth_error m i) as [row|] eqn:E.
  - exists row. split; [reflexivity|]. apply R. eapply nth_error_In. exact E.
  - apply nth_error_None in E. lia.
Qed.

Lemma set2_spec {A} (m : list (list A)) r c i j x : dims m r c ->
  (i < r /\ j < c /\ exists m', set2 m i j x = Ok m' /\ dims m' r c /\
     forall a b, get2 m' a b = if (a =? i) && (b =? j) then Some x else get2 m a b) \/
  (~ (i < r /\ j < c) /\ set2 m i j x = Err EIndex).
Proof.
  intros D. unfold set2. destruct (Nat.lt_ge_cases i r) as [Hi|Hi].
  - destruct (dims_nth m r c i D Hi) as (row & Er & Lr). rewrite Er.
    destruct (Nat.lt_ge_cases j c) as [Hj|Hj].
    + left. split; [exact Hi|]. split; [exact Hj|].
      destruct (set_nth_ok row j x) as (row' & E' & L' & N'); [lia|]. rewrite E'. cbn [bind].
      destruct D as [D1 D2].
      destruct (set_nth_ok m i row') as (m' & Em & Lm & Nm); [lia|].
      exists m'. split; [exact Em|]. split.
      * split; [lia|]. intros q Hq. apply In_nth_error in Hq as (k & Hk). rewrite Nm in Hk.
        destruct (k =? i); [injection Hk as <-; lia|]. apply D2. eapply nth_error_In. exact Hk.
      * intros a b. unfold get2. rewrite Nm. destruct (Nat.eqb_spec a i) as [->|Na]; cbn [andb]; [|reflexivity].
        rewrite N', Er. reflexivity.
    + right. split; [lia|]. rewrite set_nth_err by lia. reflexivity.
  - right. split; [lia|]. destruct D as [D1 _].
    rewrite (proj2 (nth_error_None m i)) by lia. reflexivity.
Qed.

Lemma tabulate_ext {A} (m : list (list A)) r c (f : nat -> nat -> A) :
  dims m r c -> (forall a b, a < r -> b < c -> get2 m a b = Some (f a b)) -> m = tabulate r c f.
Proof.
  intros D H.
  assert (Ext : forall X (l l' : list X), (forall k, nth_error l k = nth_error l' k) -> l = l').
  { intros X l. induction l as [|x l IH]; intros [|x' l'] E; [reflexivity|specialize (E 0); discriminate|specialize (E 0); discriminate|].
    f_equal; [specialize (E 0); simpl in E; congruence|]. apply IH. intros k. apply (E (S k)). }
  apply Ext. intros a. rewrite tabulate_row. destruct (Nat.ltb_spec a r) as [L|L].
  - destruct (dims_nth m r c a D L) as (row & Er & Lr). rewrite Er. f_equal.
    apply Ext. intros b. rewrite nth_error_map_seq. destruct (Nat.ltb_spec b c) as [Lb|Lb].
    + specialize (H a b L Lb). unfold get2 in H. rewrite Er in H. exact H.
    + apply nth_error_None. lia.
  - apply nth_error_None. destruct D. lia.
Qed.

Lemma foldM_seq {S} (f : S -> nat -> res S) (I : S -> nat -> Prop) (e : exn) (Q : Prop) len :
  forall a s, I s a ->
    (forall s' j, a <= j < a + len -> I s' j ->
       (exists s'', f s' j = Ok s'' /\ I s'' (j + 1)) \/ (f s' j = Err e /\ Q)) ->
    (exists s', foldM f (seq a len) s = Ok s' /\ I s' (a + len)) \/ (foldM f (seq a len) s = Err e /\ Q).
Proof.
  induction len as [|len IH]; intros a s HI H.
  - left. exists s. split; [reflexivity|]. rewrite Nat.add_0_r. exact HI.
  - cbn [seq foldM]. destruct (H s a ltac:(lia) HI) as [(s' & -> & HI')|[-> Hq]]; [|auto].
    replace (a + Datatypes.S len) with (Datatypes.S a + len) by lia.
    apply IH; [replace (Datatypes.S a) with (a + 1) by lia; exact HI'|]. intros. apply H; [lia|assumption].
Qed.

Section Fill.
  Context {F : Type}.
  Variables (Z : list (list F)) (z : nat -> nat -> F) (neutrals : list nat).
  Let n := length Z.
  Hypothesis Hz : reads Z z.
  Hypothesis Hnd : NoDup neutrals.
  Hypothesis Hin : forall i, In i neutrals -> i < n.

  Definition pn (i : nat) : bool := nmem i neutrals.
  Definition pp (i : nat) : bool := negb (pn i).
  Let dn := length neutrals.
  Let dp := n - dn.

  Lemma rank_pn : rank pn n = dn.
  Proof. apply rank_nmem; assumption. Qed.
  Lemma rank_pp : rank pp n = dp.
  Proof. pose proof (rank_negb pn n) as H. rewrite rank_pn in H. unfold pp, dp. lia. Qed.

  Lemma read_at i j : i < n -> j < n -> get2 Z i j = Some (z i j).
  Proof. intros Hi Hj. apply get2_cell. apply Hz; assumption. Qed.

  (** During row [i], after the columns below [j]. *)
  Definition zinv (dr dc : nat) (rp cp : nat -> bool) (w : zone F) (i j : nat) : Prop :=
    dims (zmat F w) dr dc /\ zc1 F w = rank rp i /\ zc0 F w = (if rp i then rank cp j else 0) /\
    zchanged F w = (rp i && (0 <? rank cp j))%bool /\
    forall a b, (a < i /\ b < n) \/ (a = i /\ b < j) -> rp a = true -> cp b = true ->
      rank cp b < dr /\ rank rp a < dc /\ get2 (zmat F w) (rank cp b) (rank rp a) = Some (Some (z a b)).

  Lemma zinv_new dr dc rp cp : zinv dr dc rp cp (new_zone F dr dc) 0 0.
  Proof.
    split; [apply tabulate_dims|]. split; [reflexivity|]. split; [destruct (rp 0); reflexivity|].
    split; [destruct (rp 0); reflexivity|]. intros a b H. lia.
  Qed.

  Lemma zinv_write dr dc rp cp w i j x : zinv dr dc rp cp w i j -> rp i = true -> cp j = true -> x = z i j ->
    (rank cp j < dr /\ rank rp i < dc /\ exists w', write F w x = Ok w' /\ zinv dr dc rp cp w' i (j + 1)) \/
    (~ (rank cp j < dr /\ rank rp i < dc) /\ write F w x = Err EIndex).
  Proof.
    intros (D & E1 & E0 & Ec & C) Hr Hc ->. rewrite Hr in E0. unfold write. rewrite E0, E1.
    destruct (set2_spec (zmat F w) dr dc (rank cp j) (rank rp i) (Some (z i j)) D)
      as [(B1 & B2 & m' & Em & D' & G)|[B Em]]; rewrite Em; cbn [bind].
    - left. split; [exact B1|]. split; [exact B2|]. eexists. split; [reflexivity|].
      split; [exact D'|]. split; [reflexivity|]. cbn [zmat zc0 zc1 zchanged]. rewrite Hr.
      rewrite Nat.add_1_r, rank_S, Hc. split; [lia|]. split; [destruct (rank cp j); reflexivity|].
      intros a b H Ha Hb. rewrite G.
      destruct (Nat.eq_dec b j) as [->|Nb], (Nat.eq_dec a i) as [->|Na].
      + rewrite !Nat.eqb_refl. auto.
      + destruct (Nat.eqb_spec (rank rp a) (rank rp i)) as [Q|_].
        * apply (rank_inj rp) in Q; [contradiction|assumption..].
        * rewrite andb_false_r. apply C; [lia|assumption..].
      + destruct (Nat.eqb_spec (rank cp b) (rank cp j)) as [Q|_].
        * apply (rank_inj cp) in Q; [contradiction|assumption..].
        * cbn [andb]. apply C; [lia|assumption..].
      + destruct (Nat.eqb_spec (rank cp b) (rank cp j)) as [Q|_].
        * apply (rank_inj cp) in Q; [contradiction|assumption..].
        * cbn [andb]. apply C; [lia|assumption..].
    - right. auto.
  Qed.

  Lemma zinv_skip dr dc rp cp w i j : zinv dr dc rp cp w i j -> (rp i && cp j)%bool = false ->
    zinv dr dc rp cp w i (j + 1).
  Proof.
    intros (D & E1 & E0 & Ec & C) H. split; [exact D|]. split; [exact E1|].
    rewrite Nat.add_1_r, rank_S. destruct (rp i) eqn:Hr; cbn [andb] in H; [rewrite H, Nat.add_0_r|];
      (split; [exact E0|]); (split; [exact Ec|]); intros a b K Ha Hb; apply C; try assumption.
    - destruct (Nat.eq_dec b j) as [->|]; [congruence|lia].
    - destruct (Nat.eq_dec a i) as [->|]; [congruence|lia].
  Qed.

  Lemma zinv_next dr dc rp cp w i : zinv dr dc rp cp w i n -> 0 < rank cp n ->
    zinv dr dc rp cp (next_row F w) (i + 1) 0.
  Proof.
    intros (D & E1 & E0 & Ec & C) Hpos. apply Nat.ltb_lt in Hpos. rewrite Hpos, andb_true_r in Ec.
    unfold next_row. rewrite Ec. destruct (rp i) eqn:Hr.
    - split; [exact D|]. cbn [zmat zc0 zc1 zchanged]. split; [rewrite E1, Nat.add_1_r, rank_S, Hr; lia|].
      change (rank cp 0) with 0. rewrite andb_false_r. split; [destruct (rp (i + 1)); reflexivity|].
      split; [reflexivity|]. intros a b K Ha Hb. apply C; try assumption. lia.
    - split; [exact D|]. split; [rewrite E1, Nat.add_1_r, rank_S, Hr; lia|].
      change (rank cp 0) with 0. rewrite andb_false_r. split; [rewrite E0; destruct (rp (i + 1)); reflexivity|].
      split; [exact Ec|]. intros a b K Ha Hb. apply C; try assumption. lia.
  Qed.

  Definition allinv (s : zones F) (i j : nat) : Prop :=
    zinv dn dn pn pn (z_nn F s) i j /\ zinv dp dp pp pp (z_ij F s) i j /\
    zinv dp dn pp pn (z_in F s) i j /\ zinv dn dp pn pp (z_nj F s) i j.

  Lemma cell_step s i j : i < n -> j < n -> allinv s i j ->
    (exists s', kron_cell F Z neutrals i s j = Ok s' /\ allinv s' i (j + 1)) \/
    (kron_cell F Z neutrals i s j = Err EIndex /\ dp <> dn).
  Proof.
    intros Hi Hj (Inn & Iij & Iin & Inj). unfold kron_cell. rewrite read_at by assumption. cbn [of_opt bind].
    fold (pn i). fold (pn j).
    assert (Bn : forall k, k < n -> pn k = true -> rank pn k < dn)
      by (intros k Hk Hp; rewrite <- rank_pn; apply rank_lt; assumption).
    assert (Bp : forall k, k < n -> pp k = true -> rank pp k < dp)
      by (intros k Hk Hp; rewrite <- rank_pp; apply rank_lt; assumption).
    destruct (pn i) eqn:Ei, (pn j) eqn:Ej.
    - destruct (zinv_write _ _ _ _ _ i j (z i j) Inn Ei Ej eq_refl) as [(_ & _ & w & -> & I')|[B ->]]; cbn [bind].
      + left. eexists. split; [reflexivity|].
        split; [exact I'|]. split; [|split]; apply zinv_skip; try assumption; unfold pp; rewrite ?Ei, ?Ej; reflexivity.
      + exfalso. apply B. auto.
    - assert (Ej' : pp j = true) by (unfold pp; rewrite Ej; reflexivity).
      destruct (zinv_write _ _ _ _ _ i j (z i j) Inj Ei Ej' eq_refl) as [(_ & _ & w & -> & I')|[B ->]]; cbn [bind].
      + left. eexists. split; [reflexivity|]. unfold allinv. cbn [z_nn z_ij z_in z_nj].
        split; [|split; [|split; [|exact I']]]; apply zinv_skip; try assumption; unfold pp; rewrite ?Ei, ?Ej; reflexivity.
      + right. split; [reflexivity|]. intros E. apply B. rewrite E. specialize (Bn i Hi Ei). specialize (Bp j Hj Ej'). lia.
    - assert (Ei' : pp i = true) by (unfold pp; rewrite Ei; reflexivity).
      destruct (zinv_write _ _ _ _ _ i j (z i j) Iin Ei' Ej eq_refl) as [(_ & _ & w & -> & I')|[B ->]]; cbn [bind].
      + left. eexists. split; [reflexivity|]. unfold allinv. cbn [z_nn z_ij z_in z_nj].
        split; [|split; [|split; [exact I'|]]]; apply zinv_skip; try assumption; unfold pp; rewrite ?Ei, ?Ej; reflexivity.
      + right. split; [reflexivity|]. intros E. apply B. rewrite E. specialize (Bn j Hj Ej). specialize (Bp i Hi Ei'). lia.
    - assert (Ei' : pp i = true) by (unfold pp; rewrite Ei; reflexivity).
      assert (Ej' : pp j = true) by (unfold pp; rewrite Ej; reflexivity).
      destruct (zinv_write _ _ _ _ _ i j (z i j) Iij Ei' Ej' eq_refl) as [(_ & _ & w & -> & I')|[B ->]]; cbn [bind].
      + left. eexists. split; [reflexivity|]. unfold allinv. cbn [z_nn z_ij z_in z_nj].
        split; [|split; [exact I'|split]]; apply zinv_skip; try assumption; unfold pp; rewrite ?Ei, ?Ej; reflexivity.
      + exfalso. apply B. auto.
  Qed.

  Hypothesis Hn1 : 0 < dn.
  Hypothesis Hp1 : 0 < dp.

  Lemma row_step s i : i < n -> allinv s i 0 ->
    (exists s', kron_row F Z neutrals s i = Ok s' /\ allinv s' (i + 1) 0) \/
    (kron_row F Z neutrals s i = Err EIndex /\ dp <> dn).
  Proof.
    intros Hi HI. unfold kron_row. fold n.
    destruct (foldM_seq (kron_cell F Z neutrals i) (fun s j => allinv s i j) EIndex (dp <> dn) n 0 s HI)
      as [(s' & -> & I')|[-> Q]].
    - intros s' j Hj I'. apply cell_step; [assumption|lia|assumption].
    - left. cbn [bind]. eexists. split; [reflexivity|]. rewrite Nat.add_0_l in I'.
      destruct I' as (A & B & C & D).
      assert (0 < rank pn n) by (rewrite rank_pn; assumption).
      assert (0 < rank pp n) by (rewrite rank_pp; assumption).
      split; [|split; [|split]]; apply zinv_next; assumption.
    - right. auto.
  Qed.

  Lemma split_run :
    (dp = dn /\ exists s, kron_split F Z neutrals = Ok s /\ allinv s n 0) \/
    (dp <> dn /\ kron_split F Z neutrals = Err EIndex).
  Proof.
    unfold kron_split. fold n. fold dn. fold dp.
    destruct (foldM_seq (kron_row F Z neutrals) (fun s i => allinv s i 0) EIndex (dp <> dn) n 0
      (mkZones F (new_zone F dn dn) (new_zone F dp dp) (new_zone F dp dn) (new_zone F dn dp)))
      as [(s' & E & I')|[E Q]].
    - split; [|split; [|split]]; apply zinv_new.
    - intros s' i Hi I'. apply row_step; [lia|assumption].
    - left. rewrite Nat.add_0_l in I'. split; [|exists s'; auto].
      destruct I' as (_ & _ & (_ & _ & _ & _ & C) & _).
      destruct (rank_full pn n (dn - 1)) as (j & Hj); [rewrite rank_pn; lia|].
      destruct (rank_full pp n (dp - 1)) as (i & Hi); [rewrite rank_pp; lia|].
      apply rank_nth in Hj as (Rj & Pj & Lj). apply rank_nth in Hi as (Ri & Pi & Li).
      destruct (C i j ltac:(lia) Pi Pj) as (B1 & B2 & _). lia.
    - right. auto.
  Qed.

  Definition plist : list nat := filter pp (seq 0 n).
  Definition nlist : list nat := filter pn (seq 0 n).

  Lemma zone_table d rp cp w : zinv d d rp cp w n 0 -> rank rp n = d -> rank cp n = d ->
    zmat F w = tabulate d d (fun a b => Some (z (nth b (filter rp (seq 0 n)) 0) (nth a (filter cp (seq 0 n)) 0))).
  Proof.
    clear Hn1 Hp1 dp dn. intros (D & _ & _ & _ & C) Er Ec. apply tabulate_ext; [exact D|]. intros a b Ha Hb.
    destruct (rank_full cp n a) as (j & Hj); [lia|]. destruct (rank_full rp n b) as (i & Hi); [lia|].
    rewrite (nth_error_nth _ _ 0 Hi), (nth_error_nth _ _ 0 Hj).
    apply rank_nth in Hj as (<- & Pj & Lj). apply rank_nth in Hi as (<- & Pi & Li).
    apply C; auto.
  Qed.

  Lemma complete_table r c (f : nat -> nat -> F) :
    complete F (tabulate r c (fun a b => Some (f a b))) = Ok (tabulate r c f).
  Proof.
    unfold complete, tabulate.
    assert (M : forall X Y (g : X -> res Y) (h : X -> Y) l, (forall x, g x = Ok (h x)) -> mapM g l = Ok (map h l)).
    { intros X Y g h l H. induction l as [|x l IH]; [reflexivity|]. cbn [mapM map]. rewrite H, IH. reflexivity. }
    assert (M2 : forall X X' Y (g : X' -> res Y) (k : X -> X') (h : X -> Y) l,
      (forall x, g (k x) = Ok (h x)) -> mapM g (map k l) = Ok (map h l)).
    { intros X X' Y g k h l H. induction l as [|x l IH]; [reflexivity|]. cbn [mapM map]. rewrite H, IH. reflexivity. }
    apply M2. intros i. apply M2. intros j. reflexivity.
  Qed.
End Fill.
