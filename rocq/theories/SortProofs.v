(** Sorting names, and cycles up to reordering. *)
From Verif Require Import Base BaseFacts StoreModel NetworkModel NetworkSpec StoreSpec ModifyProofs.
From Coq Require Import Permutation Sorted Ascii.
Local Open Scope string_scope.
Local Open Scope nat_scope.
Local Open Scope list_scope.

Lemma str_leb_total s : forall t, str_leb s t = true \/ str_leb t s = true.
Proof.
  induction s as [|a s IH]; intros [|b t]; cbn [str_leb]; auto.
  destruct (nat_of_ascii a <? nat_of_ascii b) eqn:E1; [auto|]. destruct (nat_of_ascii b <? nat_of_ascii a) eqn:E2; [auto|]. apply IH.
Qed.
Lemma str_leb_antisym s : forall t, str_leb s t = true -> str_leb t s = true -> s = t.
Proof.
  induction s as [|a s IH]; intros [|b t]; cbn [str_leb]; try discriminate; [reflexivity|].
  destruct (Nat.ltb_spec (nat_of_ascii a) (nat_of_ascii b)); destruct (Nat.ltb_spec (nat_of_ascii b) (nat_of_ascii a)); try discriminate; [lia|].
  intros H1 H2. assert (E : nat_of_ascii a = nat_of_ascii b) by lia. apply (f_equal ascii_of_nat) in E. rewrite !ascii_nat_embedding in E. f_equal; auto.
Qed.
Lemma str_leb_trans s : forall t u, str_leb s t = true -> str_leb t u = true -> str_leb s u = true.
Proof.
  induction s as [|a s IH]; intros [|b t] [|c u]; cbn [str_leb]; try discriminate; auto.
  destruct (Nat.ltb_spec (nat_of_ascii a) (nat_of_ascii b)); destruct (Nat.ltb_spec (nat_of_ascii b) (nat_of_ascii a));
    destruct (Nat.ltb_spec (nat_of_ascii b) (nat_of_ascii c)); destruct (Nat.ltb_spec (nat_of_ascii c) (nat_of_ascii b));
    destruct (Nat.ltb_spec (nat_of_ascii a) (nat_of_ascii c)); destruct (Nat.ltb_spec (nat_of_ascii c) (nat_of_ascii a)); try discriminate; try lia; auto.
  apply IH.
Qed.

Definition le_str (a b : string) : Prop := str_leb a b = true.

Lemma insert_perm x l : Permutation (x :: l) (insert_str x l).
Proof.
  induction l as [|y l IH]; cbn [insert_str]; [apply Permutation_refl|]. destruct (str_leb x y); [apply Permutation_refl|].
  eapply perm_trans; [apply perm_swap|]. apply perm_skip. exact IH.
Qed.
Lemma node_sort_perm l : Permutation l (node_sort l).
Proof. induction l as [|x l IH]; cbn [node_sort fold_right]; [constructor|]. eapply perm_trans; [apply perm_skip; exact IH|apply insert_perm]. Qed.
Lemma insert_sorted x l : StronglySorted le_str l -> StronglySorted le_str (insert_str x l).
Proof.
  induction 1 as [|y l S IH F]; cbn [insert_str]; [repeat constructor|]. destruct (str_leb x y) eqn:E.
  - constructor; [constructor; assumption|]. constructor; [exact E|]. eapply Forall_impl; [|exact F]. intros z Hz. eapply str_leb_trans; eassumption.
  - constructor; [exact IH|]. assert (Y : le_str y x) by (destruct (str_leb_total x y); [congruence|assumption]).
    eapply Permutation_Forall; [apply insert_perm|]. constructor; assumption.
Qed.
Lemma node_sort_sorted l : StronglySorted le_str (node_sort l).
Proof. induction l as [|x l IH]; cbn [node_sort fold_right]; [constructor|apply insert_sorted; exact IH]. Qed.
Lemma sorted_unique l : forall k, StronglySorted le_str l -> StronglySorted le_str k -> Permutation l k -> l = k.
Proof.
  induction l as [|x l IH]; intros k Sl Sk P; [apply Permutation_nil in P; congruence|]. destruct k as [|y k]; [apply Permutation_sym, Permutation_nil in P; discriminate|].
  inversion Sl as [|? ? Sl' Fl]. inversion Sk as [|? ? Sk' Fk]. subst. rewrite Forall_forall in Fl, Fk.
  assert (x = y).
  { assert (Hx : In x (y :: k)) by (eapply Permutation_in; [exact P|left; reflexivity]). assert (Hy : In y (x :: l)) by (eapply Permutation_in; [apply Permutation_sym; exact P|left; reflexivity]).
    destruct Hx as [Q|Hx]; [congruence|]. destruct Hy as [Q|Hy]; [congruence|]. apply str_leb_antisym; [apply Fl; exact Hy|apply Fk; exact Hx]. }
  subst y. f_equal. apply IH; auto. eapply Permutation_cons_inv. exact P.
Qed.
Lemma node_sort_eq l k : node_sort l = node_sort k <-> Permutation l k.
Proof.
  split.
  - intros E. eapply perm_trans; [apply node_sort_perm|]. rewrite E. apply Permutation_sym, node_sort_perm.
  - intros P. apply sorted_unique; try apply node_sort_sorted. eapply perm_trans; [apply Permutation_sym, node_sort_perm|]. eapply perm_trans; [exact P|apply node_sort_perm].
Qed.
Lemma list_eqb_spec a : forall b, list_eqb a b = true <-> a = b.
Proof.
  induction a as [|x a IH]; intros [|y b]; cbn [list_eqb]; try (split; [discriminate|intros; discriminate]); [split; reflexivity|].
  rewrite andb_true_iff, String.eqb_eq, IH. split; [intros [-> ->]; reflexivity|intros E; injection E; auto].
Qed.

(** ** find_cycles *)

Lemma find_cycles_from_spec cycles : forall seen,
  (forall c, In c (find_cycles_from seen cycles) -> In c cycles /\ ~ In (node_sort c) seen) /\
  (forall c, In c cycles -> In (node_sort c) seen \/ exists c', In c' (find_cycles_from seen cycles) /\ Permutation c c') /\
  ForallOrdPairs (fun a b => ~ Permutation a b) (find_cycles_from seen cycles).
Proof.
  induction cycles as [|c cycles IH]; intros seen; cbn [find_cycles_from].
  - split; [intros c []|]. split; [intros c []|constructor].
  - destruct (existsb (list_eqb (node_sort c)) seen) eqn:E.
    + destruct (IH seen) as (I1 & I2 & I3). split; [|split; [|exact I3]].
      * intros x Hx. destruct (I1 x Hx). cbn. auto.
      * intros x [<-|Hx]; [|auto]. left. apply existsb_exists in E. destruct E as (k & Hk & Q). apply list_eqb_spec in Q. congruence.
    + assert (N : ~ In (node_sort c) seen).
      { intros H. rewrite <- not_true_iff_false in E. apply E, existsb_exists. exists (node_sort c). split; [exact H|apply list_eqb_spec; reflexivity]. }
      destruct (IH (seen ++ [node_sort c])) as (I1 & I2 & I3). split; [|split].
      * intros x [<-|Hx]; [split; [left; reflexivity|exact N]|]. destruct (I1 x Hx) as [J1 J2]. split; [right; exact J1|]. intros H. apply J2, in_app_iff. auto.
      * intros x [<-|Hx]; [right; exists c; split; [left; reflexivity|apply Permutation_refl]|]. destruct (I2 x Hx) as [H|(c' & H1 & H2)].
        -- apply in_app_iff in H. destruct H as [H|[H|[]]]; [auto|]. right. exists c. split; [left; reflexivity|]. apply Permutation_sym, node_sort_eq. exact H.
        -- right. exists c'. split; [right; exact H1|exact H2].
      * constructor; [|exact I3]. apply Forall_forall. intros x Hx P. destruct (I1 x Hx) as [_ J]. apply J, in_app_iff. right. left. apply node_sort_eq. exact P.
Qed.
Lemma find_cycles_spec cycles :
  (forall c, In c (find_cycles cycles) -> In c cycles) /\
  (forall c, In c cycles -> exists c', In c' (find_cycles cycles) /\ Permutation c c') /\
  ForallOrdPairs (fun a b => ~ Permutation a b) (find_cycles cycles).
Proof.
  destruct (find_cycles_from_spec cycles []) as (I1 & I2 & I3). split; [intros c H; apply (I1 c H)|]. split; [|exact I3].
  intros c H. destruct (I2 c H) as [[]|Q]. exact Q.
Qed.

Lemma delete_cycles_small fuel middle h s cycles : (forall c, In c cycles -> length c <= 2) ->
  delete_cycles fuel middle h s cycles = Ok (s, build_store h s "sourcebus").
Proof.
  intros H. unfold delete_cycles. assert (G : forall l, (forall c, In c l -> length c <= 2) -> foldM (fun s c =>
             if 2 <? length c then
               do e <- middle c;
               foldM (fun s o =>
                        if okey_eqb (match e_name (view h o) with Some n => n | None => None end) (Some e)
                        then delete_element fuel h s o else Ok s) (models s) s
             else Ok s) l s = Ok s).
  { induction l as [|c l IH]; intros Hl; cbn [foldM]; [reflexivity|]. destruct (Nat.ltb_spec 2 (length c)) as [L|_].
    - specialize (Hl c (or_introl eq_refl)). lia.
    - cbn [bind]. apply IH. intros x Hx. apply Hl. right. exact Hx. }
  rewrite G; [reflexivity|]. intros c Hc. apply H, (proj1 (find_cycles_spec cycles)). exact Hc.
Qed.

(** ** Longer cycles are cut *)

Definition named_by (h : heap) (e : string) (o : oid) : Prop := e_name (view h o) = Some (Some e).
Lemma named_test h e o : okey_eqb (match e_name (view h o) with Some n => n | None => None end) (Some e) = true <-> named_by h e o.
Proof.
  unfold named_by. destruct (e_name (view h o)) as [[x|]|]; cbn; [|split; discriminate|split; discriminate]. rewrite String.eqb_eq.
  split; [intros ->; reflexivity|intros E; injection E; auto].
Qed.

Lemma cut_one fuel h e l : forall s s', NoDup (elems s) ->
  foldM (fun s o => if okey_eqb (match e_name (view h o) with Some n => n | None => None end) (Some e) then delete_element fuel h s o else Ok s) l s = Ok s' ->
  NoDup (elems s') /\ incl (elems s') (elems s) /\ forall o, In o l -> named_by h e o -> ~ In o (elems s').
Proof.
  induction l as [|o l IH]; intros s s' Nd; cbn [foldM].
  - intros E. injection E as <-. split; [exact Nd|]. split; [apply incl_refl|]. intros o [].
  - destruct (okey_eqb _ (Some e)) eqn:T.
    + destruct (delete_element fuel h s o) as [s1|] eqn:D; cbn [bind]; [|discriminate]. intros E.
      destruct (delete_element_post _ _ _ _ _ Nd D) as (_ & _ & keep & K & E1).
      assert (Nd1 : NoDup (elems s1)) by (rewrite E1; apply NoDup_filter; exact Nd).
      destruct (IH _ _ Nd1 E) as (I1 & I2 & I3). split; [exact I1|]. split.
      * intros x Hx. apply I2 in Hx. rewrite E1 in Hx. apply filter_In in Hx. apply Hx.
      * intros x [<-|Hx] Hn; [|auto]. intros H. apply I2 in H. rewrite E1 in H. apply filter_In in H. destruct H as [_ H]. apply K in H. apply H. constructor.
    + cbn [bind]. intros E. destruct (IH _ _ Nd E) as (I1 & I2 & I3). split; [exact I1|]. split; [exact I2|].
      intros x [<-|Hx] Hn; [|auto]. apply named_test in Hn. congruence.
Qed.

Lemma delete_cycles_cuts fuel middle h s cycles s' r : NoDup (elems s) -> delete_cycles fuel middle h s cycles = Ok (s', r) ->
  (forall c, In c cycles -> 2 < length c -> exists c' e, In c' cycles /\ Permutation c c' /\ middle c' = Ok e /\ forall o, In o (elems s') -> ~ named_by h e o) /\
  incl (elems s') (elems s) /\ r = build_store h s' "sourcebus".
Proof.
  intros Nd. unfold delete_cycles. match goal with |- context [foldM ?f (find_cycles cycles) s] => set (step := f) end.
  assert (G : forall l s s', NoDup (elems s) -> foldM step l s = Ok s' -> incl (elems s') (elems s) /\
    forall c, In c l -> 2 < length c -> exists e, middle c = Ok e /\ forall o, In o (elems s') -> ~ named_by h e o).
  { clear. induction l as [|c l IH]; intros s s' Nd; cbn [foldM]; [intros E; injection E as <-; split; [apply incl_refl|intros c []]|].
    unfold step at 1. destruct (Nat.ltb_spec 2 (length c)) as [L|L].
    - destruct (middle c) as [e|] eqn:Em; cbn [bind]; [|discriminate]. match goal with |- context [foldM ?f (models s) s] => destruct (foldM f (models s) s) as [s1|] eqn:E1 end; cbn [bind]; [|discriminate].
      destruct (cut_one _ _ _ _ _ _ Nd E1) as (C1 & C2 & C3). intros E. destruct (IH _ _ C1 E) as [I1 I2]. split; [eapply incl_tran; eauto|].
      intros x [<-|Hx] Lx; [|auto]. exists e. split; [exact Em|]. intros o Ho Hn. apply (C3 o); [apply C2, I1, Ho|exact Hn|apply I1; exact Ho].
    - cbn [bind]. intros E. destruct (IH _ _ Nd E) as [I1 I2]. split; [exact I1|]. intros x [<-|Hx] Lx; [lia|auto]. }
  destruct (foldM step (find_cycles cycles) s) as [s1|] eqn:E1; cbn [bind]; [|discriminate]. intros E. injection E as <- <-.
  destruct (G _ _ _ Nd E1) as [G1 G2]. split; [|auto]. intros c Hc L. destruct (find_cycles_spec cycles) as (F1 & F2 & _). destruct (F2 c Hc) as (c' & H1 & H2).
  assert (L' : 2 < length c') by (rewrite <- (Permutation_length H2); exact L). destruct (G2 c' H1 L') as (e & M & N). exists c', e. split; [apply F1; exact H1|auto].
Qed.
