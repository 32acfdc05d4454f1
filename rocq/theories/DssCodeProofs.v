(** Lemmas about the definitions of wires, geometries and line codes. *)
From Verif Require Import Base BaseFacts CsvModel CsvSpec CsvProofs DssNameModel DssCodeModel DssCodeSpec.
From Coq Require Import QArith Lia.
Local Open Scope string_scope.
Local Open Scope nat_scope.
Local Open Scope list_scope.

(** ** Numbered names *)
Lemma variant_split c k : split_on "_" (variant c k) = split_on "_" c ++ [str_of k].
Proof. unfold variant. change ("_" ++ str_of k)%string with (String "_" (str_of k)). apply split_snoc, free_str. nodigit. Qed.
Lemma variant_num c c' k k' : variant c k = variant c' k' -> k = k'.
Proof. intros E. assert (H := variant_split c k). rewrite E, variant_split in H. apply app_inj_tail in H. destruct H as [_ H]. apply str_inj in H. auto. Qed.

(** ** Equality of definitions *)
Definition same_val (a b : dval) : Prop :=
  match a, b with
  | DNum x, DNum y => (x == y)%Q
  | DMat x, DMat y => Forall2 (Forall2 Qeq) x y
  | _, _ => a = b
  end.
Definition same_item (a b : string * dval) : Prop := fst a = fst b /\ same_val (snd a) (snd b).
Definition same_data (a b : list (string * dval)) : Prop := Forall2 same_item a b.

Lemma list_eqb_spec {A} (f : A -> A -> bool) (R : A -> A -> Prop) : (forall x y, f x y = true <-> R x y) -> forall a b, list_eqb f a b = true <-> Forall2 R a b.
Proof.
  intros H. induction a as [|x a IH]; intros [|y b]; cbn; split; try discriminate; try (intros Q; inversion Q; fail); auto.
  - intros Q. apply andb_true_iff in Q. constructor; [apply H, Q|apply IH, Q].
  - intros Q. inversion Q; subst. apply andb_true_iff. split; [apply H; auto|apply IH; auto].
Qed.
Lemma dval_eqb_spec a b : dval_eqb a b = true <-> same_val a b.
Proof.
  destruct a, b; cbn; try (split; [discriminate|intros Q; discriminate Q]).
  - rewrite String.eqb_eq. split; congruence.
  - rewrite Nat.eqb_eq. split; congruence.
  - apply Qeq_bool_iff.
  - apply list_eqb_spec. intros x y. apply list_eqb_spec. apply Qeq_bool_iff.
Qed.
Lemma data_eqb_spec a b : data_eqb a b = true <-> same_data a b.
Proof.
  apply list_eqb_spec. intros [k v] [k' v']. unfold item_eqb, same_item. cbn. rewrite andb_true_iff, String.eqb_eq, dval_eqb_spec. reflexivity.
Qed.
Lemma F2_refl {A} (R : A -> A -> Prop) : (forall x, R x x) -> forall l, Forall2 R l l.
Proof. intros H. induction l; constructor; auto. Qed.
Lemma F2_sym {A} (R : A -> A -> Prop) : (forall x y, R x y -> R y x) -> forall l l', Forall2 R l l' -> Forall2 R l' l.
Proof. intros H l l' F. induction F; constructor; auto. Qed.
Lemma F2_trans {A} (R : A -> A -> Prop) : (forall x y z, R x y -> R y z -> R x z) -> forall l l' l'', Forall2 R l l' -> Forall2 R l' l'' -> Forall2 R l l''.
Proof. intros H l l' l'' F. revert l''. induction F; intros l2 F2; inversion F2; subst; constructor; eauto. Qed.
Lemma same_val_refl a : same_val a a.
Proof. destruct a; cbn; try reflexivity. apply F2_refl. intros x. apply F2_refl. intros; reflexivity. Qed.
Lemma same_val_sym a b : same_val a b -> same_val b a.
Proof. destruct a, b; cbn; try congruence; try (intros; symmetry; assumption). apply F2_sym. intros x y. apply F2_sym. intros; symmetry; assumption. Qed.
Lemma same_val_trans a b c : same_val a b -> same_val b c -> same_val a c.
Proof.
  destruct a, b; cbn; try discriminate; destruct c; cbn; try congruence.
  - intros H1 H2. rewrite H1. exact H2.
  - apply F2_trans. intros x y z. apply F2_trans. intros u v w H1 H2. rewrite H1. exact H2.
Qed.
Lemma same_data_refl a : same_data a a.
Proof. apply F2_refl. intros x. split; [reflexivity|apply same_val_refl]. Qed.
Lemma same_data_sym a b : same_data a b -> same_data b a.
Proof. apply F2_sym. intros x y [H1 H2]. split; [auto|apply same_val_sym; auto]. Qed.
Lemma same_data_trans a b c : same_data a b -> same_data b c -> same_data a c.
Proof. apply F2_trans. intros x y z [H1 H2] [H3 H4]. split; [congruence|eapply same_val_trans; eauto]. Qed.

Definition same_geom (a b : geometry) : Prop := g_nconds a = g_nconds b /\ g_nphases a = g_nphases b /\ Forall2 same_data (g_conds a) (g_conds b) /\ g_reduce a = g_reduce b.
Lemma geom_eqb_spec a b : geom_eqb a b = true <-> same_geom a b.
Proof.
  unfold geom_eqb, same_geom. rewrite !andb_true_iff, !Nat.eqb_eq, String.eqb_eq, (list_eqb_spec data_eqb same_data data_eqb_spec). tauto.
Qed.
Lemma same_geom_refl a : same_geom a a.
Proof. repeat split; auto. apply F2_refl, same_data_refl. Qed.
Lemma same_geom_sym a b : same_geom a b -> same_geom b a.
Proof. intros (H1 & H2 & H3 & H4). repeat split; auto. revert H3. apply F2_sym, same_data_sym. Qed.

(** ** Naming *)
Section Naming.
Context {D : Type}.
Variable eqb : D -> D -> bool.
Variable eqv : D -> D -> Prop.
Hypothesis eqb_spec : forall a b, eqb a b = true <-> eqv a b.
Hypothesis eqv_refl : forall a, eqv a a.
Hypothesis eqv_sym : forall a b, eqv a b -> eqv b a.

Lemma last_match_spec t x k : last_match eqb t x = Some k -> exists v, In (k, v) t /\ eqv x v.
Proof.
  unfold last_match. assert (G : forall t r, fold_left (fun r (kv : string * D) => if eqb x (snd kv) then Some (fst kv) else r) t r = Some k -> r = Some k \/ exists v, In (k, v) t /\ eqv x v).
  { clear t. induction t as [|[k' v'] t IH]; intros r E; [left; exact E|]. cbn [fold_left fst snd] in E. apply IH in E. destruct E as [E|(v & H & Q)]; [|right; exists v; split; [right; exact H|exact Q]].
    destruct (eqb x v') eqn:Ev; [|left; exact E]. injection E as ->. right. exists v'. split; [left; reflexivity|apply eqb_spec; exact Ev]. }
  intros E. apply G in E. destruct E as [E|E]; [discriminate|exact E].
Qed.
Lemma last_match_none t x : last_match eqb t x = None -> forall k v, In (k, v) t -> ~ eqv x v.
Proof.
  unfold last_match. assert (G : forall t r, fold_left (fun r (kv : string * D) => if eqb x (snd kv) then Some (fst kv) else r) t r = None -> r = None /\ forall k v, In (k, v) t -> ~ eqv x v).
  { clear t. induction t as [|[k' v'] t IH]; intros r E; [split; [exact E|intros k v []]|]. cbn [fold_left fst snd] in E. apply IH in E. destruct E as [E H]. destruct (eqb x v') eqn:Ev; [discriminate|].
    split; [exact E|]. intros k v [Q|Q]; [injection Q as <- <-; intros K; apply eqb_spec in K; congruence|apply (H k v Q)]. }
  intros E. apply (G t None E).
Qed.

Definition keys_unique (t : dict D) : Prop := NoDup (dkeys t).
Variables (pre given : list string).
Hypothesis Cl : clean pre given.

(** Every name in the table was given or generated with a number in [J]. *)
Definition named_by (J : nat -> Prop) (t : dict D) : Prop := forall k, dget t k <> None -> In k given \/ exists b j, In b (pre ++ given) /\ J j /\ k = variant b j.

Lemma fresh J t cnt b : named_by J t -> ~ J cnt -> In b (pre ++ given) -> dget t (variant b cnt) = None.
Proof.
  intros N Nj Hb. destruct (dget t (variant b cnt)) eqn:E; [exfalso|reflexivity]. destruct (N (variant b cnt)) as [H|(b' & j & Hb' & Hj & Q)]; [congruence|exact (Cl b cnt Hb H)|].
  apply variant_num in Q. subst j. exact (Nj Hj).
Qed.

Lemma give_name_spec prefix J t cnt c x t' cnt' nm : In prefix pre -> (forall c0, c = Some c0 -> In c0 given) -> named_by J t -> (forall j, J j -> j < cnt) -> NoDup (dkeys t) ->
  give_name eqb prefix t cnt c x = (t', cnt', nm) ->
  (forall k v, dget t k = Some v -> dget t' k = Some v) /\ (exists v, dget t' nm = Some v /\ eqv v x) /\ NoDup (dkeys t') /\
  (forall k v, dget t' k = Some v -> dget t k = Some v \/ (k = nm /\ v = x)) /\
  ((cnt' = cnt /\ named_by J t') \/ (cnt' = S cnt /\ named_by (fun j => J j \/ j = cnt) t')).
Proof.
  intros Hp Hc N Lt Nd. assert (Nj : ~ J cnt) by (intros H; apply Lt in H; lia).
  assert (Add : forall b, In b (pre ++ given) -> dget t (variant b cnt) = None /\ named_by (fun j => J j \/ j = cnt) (dset t (variant b cnt) x)).
  { intros b Hb. split; [apply (fresh J); auto|]. intros k Hk. rewrite dget_dset in Hk. destruct (String.eqb_spec (variant b cnt) k) as [Ek|]; [right; exists b, cnt; auto|].
    destruct (N k Hk) as [H|(b' & j & H1 & H2 & H3)]; [auto|]. right. exists b', j. auto. }
  assert (Fr : forall n, dget t n = None -> (forall k v, dget t k = Some v -> dget (dset t n x) k = Some v) /\ (exists v, dget (dset t n x) n = Some v /\ eqv v x) /\ NoDup (dkeys (dset t n x)) /\
    (forall k v, dget (dset t n x) k = Some v -> dget t k = Some v \/ (k = n /\ v = x))).
  { intros n Hn. split; [intros k v H; rewrite dget_dset; destruct (String.eqb_spec n k); congruence|]. split; [exists x; rewrite dget_dset, String.eqb_refl; split; [reflexivity|apply eqv_refl]|].
    split; [apply dset_NoDup; exact Nd|]. intros k v H. rewrite dget_dset in H. destruct (String.eqb_spec n k) as [<-|]; [right; split; congruence|left; exact H]. }
  unfold give_name. destruct c as [c|].
  - assert (Ic : In c (pre ++ given)) by (apply in_app_iff; right; apply Hc; reflexivity). destruct (dget t c) as [y|] eqn:E.
    + destruct (eqb y x) eqn:Eq; intros Q; injection Q as <- <- <-.
      * split; [auto|]. split; [exists y; split; [exact E|apply eqb_spec; exact Eq]|]. split; [exact Nd|]. split; [auto|]. left. auto.
      * destruct (Add c Ic) as [A1 A2]. destruct (Fr _ A1) as (F1 & F2 & F3 & F4). split; [exact F1|]. split; [exact F2|]. split; [exact F3|]. split; [exact F4|]. right. auto.
    + intros Q; injection Q as <- <- <-. destruct (Fr _ E) as (F1 & F2 & F3 & F4). split; [exact F1|]. split; [exact F2|]. split; [exact F3|]. split; [exact F4|]. left. split; [reflexivity|].
      intros k Hk. rewrite dget_dset in Hk. destruct (String.eqb_spec c k) as [Ek|]; [rewrite <- Ek; left; apply Hc; reflexivity|apply N, Hk].
  - destruct (last_match eqb t x) as [k|] eqn:E; intros Q; injection Q as <- <- <-.
    + apply last_match_spec in E. destruct E as (v & Hv & Ev). split; [auto|]. split; [exists v; split; [apply dget_NoDup; auto|apply eqv_sym, Ev]|]. split; [exact Nd|]. split; [auto|]. left. auto.
    + destruct (Add prefix) as [A1 A2]; [apply in_app_iff; left; exact Hp|]. destruct (Fr _ A1) as (F1 & F2 & F3 & F4). split; [exact F1|]. split; [exact F2|]. split; [exact F3|]. split; [exact F4|]. right. auto.
Qed.
End Naming.

(** ** What definitions say *)
Lemma says_app a b k q : says (a ++ b) k q <-> says a k q \/ says b k q.
Proof.
  unfold says. split.
  - intros (x & H & E). apply in_app_iff in H. destruct H; eauto.
  - intros [(x & H & E)|(x & H & E)]; exists x; (split; [apply in_app_iff; auto|exact E]).
Qed.
Lemma says_nil k q : says [] k q <-> False.
Proof. split; [intros (x & [] & _)|intros []]. Qed.
Lemma says_num k' x r k q : says ((k', DNum x) :: r) k q <-> (k' = k /\ (x == q)%Q) \/ says r k q.
Proof.
  unfold says. split.
  - intros (y & [H|H] & E); [injection H as <- <-; left; auto|right; eauto].
  - intros [[<- E]|(y & H & E)]; [exists x; split; [left; reflexivity|exact E]|exists y; split; [right; exact H|exact E]].
Qed.
Lemma says_str k' x r k q : says ((k', DStr x) :: r) k q <-> says r k q.
Proof. unfold says. split; [intros (y & [H|H] & E); [discriminate|eauto]|intros (y & H & E); exists y; split; [right; exact H|exact E]]. Qed.
Lemma says_int k' x r k q : says ((k', DInt x) :: r) k q <-> says r k q.
Proof. unfold says. split; [intros (y & [H|H] & E); [discriminate|eauto]|intros (y & H & E); exists y; split; [right; exact H|exact E]]. Qed.
Lemma says_entry k' v k q : says (entry k' v) k q <-> k' = k /\ exists x, v = Some x /\ (x == q)%Q.
Proof.
  unfold entry. destruct v as [y|].
  - rewrite says_num, says_nil. split; [intros [[-> E]|[]]; split; eauto|intros [-> (x & Q & E)]; injection Q as ->; auto].
  - rewrite says_nil. split; [intros []|intros [_ (x & Q & _)]; discriminate].
Qed.
Lemma says_same a b k q : same_data a b -> says a k q -> says b k q.
Proof.
  intros F (x & H & E). induction F as [|[k1 v1] [k2 v2] a b [E1 E2] F IH]; [destruct H|]. cbn in E1, E2. destruct H as [H|H].
  - injection H as -> ->. subst k2. destruct v2; cbn in E2; try discriminate. exists q0. split; [left; reflexivity|]. rewrite <- E2. exact E.
  - destruct (IH H) as (y & Hy & Ey). exists y. split; [right; exact Hy|exact Ey].
Qed.
Lemma states_same a b k v : same_data a b -> states b k v -> states a k v.
Proof. intros F S q. rewrite <- (S q). split; [apply says_same, F|apply says_same, same_data_sym, F]. Qed.
Lemma str_same a b k s : same_data a b -> In (k, DStr s) b -> In (k, DStr s) a.
Proof.
  intros F. induction F as [|[k1 v1] [k2 v2] a b [E1 E2] F IH]; [intros []|]. cbn in E1, E2. intros [H|H]; [|right; auto]. injection H as -> ->. left. destruct v1; cbn in E2; try discriminate; congruence.
Qed.
Lemma int_same a b k s : same_data a b -> In (k, DInt s) b -> In (k, DInt s) a.
Proof.
  intros F. induction F as [|[k1 v1] [k2 v2] a b [E1 E2] F IH]; [intros []|]. cbn in E1, E2. intros [H|H]; [|right; auto]. injection H as -> ->. left. destruct v1; cbn in E2; try discriminate; congruence.
Qed.

Lemma says_unit k' u m v k q : says (match v with Some x => [(k', DNum x); (u, DStr m)] | None => [] end) k q <-> k' = k /\ exists x, v = Some x /\ (x == q)%Q.
Proof.
  destruct v as [y|].
  - rewrite says_num, says_str, says_nil. split; [intros [[-> E]|[]]; split; eauto|intros [-> (x & Q & E)]; injection Q as ->; auto].
  - rewrite says_nil. split; [intros []|intros [_ (x & Q & _)]; discriminate].
Qed.
Definition ins_part (ins diam : option Q) : list (string * dval) :=
  match ins with
  | Some t => ("InsLayer", DNum t) :: match diam with Some q => [("DiaIns", DNum (q + 2 * t)%Q)] | None => [] end
  | None => []
  end.
Lemma says_ins ins diam k q : says (ins_part ins diam) k q <->
  ("InsLayer" = k /\ exists x, ins = Some x /\ (x == q)%Q) \/ ("DiaIns" = k /\ exists a b, diam = Some a /\ ins = Some b /\ (a + 2 * b == q)%Q).
Proof.
  unfold ins_part. destruct ins as [t|].
  - rewrite says_num. destruct diam as [a|].
    + rewrite says_num, says_nil. split.
      * intros [[K E]|[[K E]|[]]]; [left; eauto|right; split; eauto 6].
      * intros [[K (x & Q & E)]|[K (a' & b' & Q1 & Q2 & E)]]; [injection Q as ->; auto|injection Q1 as ->; injection Q2 as ->; auto].
    + rewrite says_nil. split; [intros [[K E]|[]]; left; eauto|intros [[K (x & Q & E)]|[K (a' & b' & Q1 & _)]]; [injection Q as ->; auto|discriminate Q1]].
  - rewrite says_nil. split; [intros []|intros [[K (x & Q & E)]|[K (a' & b' & Q1 & Q & _)]]; discriminate Q].
Qed.

Ltac says_simpl := repeat first [rewrite says_app | rewrite says_entry | rewrite says_unit | rewrite says_ins | rewrite says_num | rewrite says_str | rewrite says_int | rewrite says_nil].
Ltac pick H := repeat (destruct H as [H|H]); try contradiction; destruct H as [Hk H]; try discriminate Hk; exact H.
Ltac put H := first [split; [reflexivity|exact H]|left; put H|right; put H].
Ltac states_solve := let q := fresh "q" in intros q; says_simpl; split; [let H := fresh in intros H; pick H|let H := fresh in intros H; put H].

Lemma parse_wire_states w : describes_wire (parse_wire w) w.
Proof.
  unfold describes_wire, parse_wire. do 5 (split; [states_solve|]). split; intros H.
  - destruct (w_gmr w); [|congruence]. cbn. auto.
  - destruct (w_diam w); [|congruence]. apply in_app_iff. right. cbn. auto.
Qed.
Lemma parse_cable_states w : describes_cable (parse_cable w) w.
Proof.
  unfold describes_cable, parse_cable. fold (ins_part (w_ins w) (w_diam w)). do 9 (split; [states_solve|]). split.
  - intros a b Ha Hb. apply says_app. left. apply says_ins. right. split; [reflexivity|]. exists a, b. split; [exact Ha|]. split; [exact Hb|reflexivity].
  - split; [|split]; repeat (apply in_app_iff; right); cbn; auto.
Qed.
Lemma describes_wire_same a b w : same_data a b -> describes_wire b w -> describes_wire a w.
Proof.
  intros F H. unfold describes_wire in *. destruct H as (H1 & H2 & H3 & H4 & H5 & H6 & H7). do 5 (split; [eapply states_same; eauto|]). split; intros Q; eapply str_same; eauto.
Qed.
Lemma describes_cable_same a b w : same_data a b -> describes_cable b w -> describes_cable a w.
Proof.
  intros F H. unfold describes_cable in *. destruct H as (H1 & H2 & H3 & H4 & H5 & H6 & H7 & H8 & H9 & H10 & H11 & H12 & H13). do 9 (split; [eapply states_same; eauto|]).
  split; [intros x y Hx Hy; eapply says_same; [apply same_data_sym, F|apply H10; auto]|]. split; [eapply str_same; eauto|]. split; eapply str_same; eauto.
Qed.

Lemma F2_length {A B} (R : A -> B -> Prop) a b : Forall2 R a b -> length a = length b.
Proof. induction 1; cbn; congruence. Qed.
Definition same_wire (w w' : wire) : Prop := exists c, w' = set_wclass w c.
Lemma describes_wire_class d w c : describes_wire d (set_wclass w c) <-> describes_wire d w.
Proof. reflexivity. Qed.

Lemma use_geometry_spec l : use_geometry l = true <-> enough l.
Proof.
  unfold use_geometry, enough. assert (Kn : forall x, known x = true <-> x <> None) by (intros [x|]; cbn; split; congruence).
  assert (Un : underground l = true <-> l_type l = Some "underground").
  { unfold underground. destruct (l_type l) as [t|]; [|split; intros Q; discriminate Q]. rewrite String.eqb_eq. split; congruence. }
  destruct (l_wires l) as [|w0 ws] eqn:E; [split; [intros Q; discriminate Q|intros [H _]; congruence]|]. rewrite <- E. rewrite forallb_forall. split.
  - intros H. split; [rewrite E; intros Q; discriminate Q|]. intros w Hw. specialize (H w Hw). unfold wire_known in H. rewrite !andb_true_iff, orb_true_iff, !andb_true_iff, !Kn in H.
    destruct H as (((((H1 & H2) & H3) & H4) & H5) & H6). repeat (split; [assumption|]). intros Ht. apply Un in Ht. rewrite Ht in H6. destruct H6 as [H6|H6]; [discriminate H6|tauto].
  - intros [_ H] w Hw. specialize (H w Hw). unfold wire_known. rewrite !andb_true_iff, orb_true_iff, !andb_true_iff, !Kn. destruct (underground l) eqn:Eu; [|tauto].
    assert (Q := proj1 Un eq_refl). tauto.
Qed.

(** ** The wires *)
Section Wires.
Variables over under : list string.
Let pre := ["Wire"; "CNCable"].
Hypothesis Cl : clean pre (over ++ under).
Hypothesis Dj : forall c, In c over -> ~ In c under.

Lemma cl_over : clean pre over.
Proof. intros c k H Q. apply (Cl c k); [apply in_app_iff in H; apply in_app_iff; destruct H; [auto|right; apply in_app_iff; auto]|apply in_app_iff; auto]. Qed.
Lemma cl_under : clean pre under.
Proof. intros c k H Q. apply (Cl c k); [apply in_app_iff in H; apply in_app_iff; destruct H; [auto|right; apply in_app_iff; auto]|apply in_app_iff; auto]. Qed.

Definition good (st : wstate) : Prop := let '(ws, cs, cnt) := st in
  NoDup (dkeys ws) /\ NoDup (dkeys cs) /\ exists J1 J2 : nat -> Prop, (forall j, J1 j -> j < cnt) /\ (forall j, J2 j -> j < cnt) /\ (forall j, J1 j -> ~ J2 j) /\
    named_by pre over J1 ws /\ named_by pre under J2 cs.
Definition grows (st st' : wstate) : Prop :=
  (forall k v, dget (fst (fst st)) k = Some v -> dget (fst (fst st')) k = Some v) /\ (forall k v, dget (snd (fst st)) k = Some v -> dget (snd (fst st')) k = Some v).

Lemma good_disjoint ws cs cnt k : good (ws, cs, cnt) -> dget cs k <> None -> dget ws k = None.
Proof.
  intros (_ & _ & J1 & J2 & B1 & B2 & Dn & N1 & N2) Hc. destruct (dget ws k) eqn:E; [exfalso|reflexivity].
  destruct (N1 k ltac:(congruence)) as [H1|(b & j & H1 & H2 & ->)]; destruct (N2 _ Hc) as [H3|(b' & j' & H3 & H4 & Q)].
  - exact (Dj _ H1 H3).
  - subst k. apply (Cl b' j'); [apply in_app_iff in H3; apply in_app_iff; destruct H3; [auto|right; apply in_app_iff; auto]|apply in_app_iff; auto].
  - apply (Cl b j); [apply in_app_iff in H1; apply in_app_iff; destruct H1; [auto|right; apply in_app_iff; auto]|apply in_app_iff; auto].
  - apply variant_num in Q. subst j'. exact (Dn _ H2 H4).
Qed.

(** The wire's class names its own definition. *)
Definition defined (st : wstate) (u : bool) (w : wire) : Prop :=
  exists (c : string) (v : list (string * dval)), w_class w = Some c /\ (if u then dget (snd (fst st)) c = Some v /\ same_data v (parse_cable w) else dget (fst (fst st)) c = Some v /\ same_data v (parse_wire w)).

Lemma defined_grows st st' u w : grows st st' -> defined st u w -> defined st' u w.
Proof. intros [G1 G2] (c & v & Hc & H). exists c, v. split; [exact Hc|]. destruct u; destruct H as [H Q]; split; auto. Qed.

Lemma name_wire_spec (u : bool) st w st' w' : good st -> (forall c, w_class w = Some c -> In c (if u then under else over)) -> w_gmr w <> None ->
  name_wire u st w = (st', w') -> good st' /\ grows st st' /\ same_wire w w' /\ defined st' u w'.
Proof.
  destruct st as [[ws cs] cnt]. intros (N1 & N2 & J1 & J2 & B1 & B2 & Dn & T1 & T2) Hc Hg E. unfold name_wire in E. destruct u.
  - destruct (give_name data_eqb "CNCable" cs cnt (w_class w) (parse_cable w)) as [[cs' cnt'] c] eqn:Eg. injection E as <- <-.
    apply (give_name_spec data_eqb same_data data_eqb_spec same_data_refl same_data_sym pre under cl_under "CNCable" J2) in Eg; [|cbn; auto|exact Hc|exact T2|exact B2|exact N2].
    destruct Eg as (G1 & (v & Hv & Ev) & G3 & _ & G4). split; [|split; [split; auto|split; [eexists; reflexivity|exists c, v; auto]]].
    split; [exact N1|]. split; [exact G3|]. destruct G4 as [[-> G4]|[-> G4]].
    + exists J1, J2. auto.
    + exists J1, (fun j => J2 j \/ j = cnt). split; [intros j H; apply B1 in H; lia|]. split; [intros j [H| ->]; [apply B2 in H; lia|lia]|].
      split; [intros j H [Q| ->]; [exact (Dn _ H Q)|apply B1 in H; lia]|]. auto.
  - assert (Pn : exists x r, parse_wire w = x :: r) by (unfold parse_wire; destruct (w_gmr w); [cbn; eauto|congruence]). destruct Pn as (x & r & Pn). rewrite Pn in E. rewrite <- Pn in E.
    destruct (give_name data_eqb "Wire" ws cnt (w_class w) (parse_wire w)) as [[ws' cnt'] c] eqn:Eg. injection E as <- <-.
    apply (give_name_spec data_eqb same_data data_eqb_spec same_data_refl same_data_sym pre over cl_over "Wire" J1) in Eg; [|cbn; auto|exact Hc|exact T1|exact B1|exact N1].
    destruct Eg as (G1 & (v & Hv & Ev) & G3 & _ & G4). split; [|split; [split; auto|split; [eexists; reflexivity|exists c, v; auto]]].
    split; [exact G3|]. split; [exact N2|]. destruct G4 as [[-> G4]|[-> G4]].
    + exists J1, J2. auto.
    + exists (fun j => J1 j \/ j = cnt), J2. split; [intros j [H| ->]; [apply B1 in H; lia|lia]|]. split; [intros j H; apply B2 in H; lia|].
      split; [intros j [H| ->] Q; [exact (Dn _ H Q)|apply B2 in Q; lia]|]. auto.
Qed.

Lemma grows_refl st : grows st st.
Proof. split; auto. Qed.
Lemma grows_trans a b c : grows a b -> grows b c -> grows a c.
Proof. intros [A1 A2] [B1 B2]. split; auto. Qed.

Lemma name_wires_spec (u : bool) : forall ws st st' ws', good st -> (forall w c, In w ws -> w_class w = Some c -> In c (if u then under else over)) -> (forall w, In w ws -> w_gmr w <> None) ->
  name_wires u st ws = (st', ws') -> good st' /\ grows st st' /\ Forall2 same_wire ws ws' /\ Forall (defined st' u) ws'.
Proof.
  induction ws as [|w ws IH]; intros st st' ws' G Hc Hg E; cbn [name_wires] in E; [injection E as <- <-; split; [exact G|]; split; [apply grows_refl|]; split; constructor|].
  destruct (name_wire u st w) as [st1 w1] eqn:E1. destruct (name_wires u st1 ws) as [st2 ws2] eqn:E2. injection E as <- <-.
  apply name_wire_spec in E1; [|exact G|intros c; apply Hc; left; reflexivity|apply Hg; left; reflexivity]. destruct E1 as (G1 & R1 & S1 & D1).
  apply IH in E2; [|exact G1|intros w' c Hw; apply Hc; right; exact Hw|intros w' Hw; apply Hg; right; exact Hw]. destruct E2 as (G2 & R2 & S2 & D2).
  split; [exact G2|]. split; [eapply grows_trans; eauto|]. split; constructor; auto. eapply defined_grows; eauto.
Qed.

Lemma write_wiredata_spec : forall ls st st' ls', good st -> Forall enough ls -> incl (wire_classes false ls) over -> incl (wire_classes true ls) under ->
  write_wiredata st ls = (st', ls') -> good st' /\ grows st st' /\
  Forall2 (fun l l' => exists ws, l' = set_lwires l ws /\ Forall2 same_wire (l_wires l) ws /\ Forall (defined st' (underground l)) ws) ls ls'.
Proof.
  induction ls as [|l ls IH]; intros st st' ls' G En Io Iu E; cbn [write_wiredata] in E; [injection E as <- <-; split; [exact G|]; split; [apply grows_refl|constructor]|].
  destruct (name_wires (underground l) st (l_wires l)) as [st1 ws1] eqn:E1. destruct (write_wiredata st1 ls) as [st2 ls2] eqn:E2. injection E as <- <-. inversion En as [|? ? El En']; subst.
  assert (Hcl : forall w c, In w (l_wires l) -> w_class w = Some c -> In c (if underground l then under else over)).
  { intros w c Hw Hc. assert (Q : In c (flat_map (fun w => match w_class w with Some c => [c] | None => [] end) (l_wires l))) by (apply in_flat_map; exists w; rewrite Hc; split; [exact Hw|left; reflexivity]).
    destruct (underground l) eqn:Eu; [apply Iu|apply Io]; unfold wire_classes; cbn [flat_map]; rewrite Eu; cbn [Bool.eqb]; apply in_app_iff; left; exact Q. }
  apply name_wires_spec in E1; [|exact G|exact Hcl|intros w Hw; apply El, Hw]. destruct E1 as (G1 & R1 & S1 & D1).
  apply IH in E2; [|exact G1|exact En'| |]; [|intros c Hc; apply Io; unfold wire_classes; cbn [flat_map]; apply in_app_iff; right; exact Hc|intros c Hc; apply Iu; unfold wire_classes; cbn [flat_map]; apply in_app_iff; right; exact Hc].
  destruct E2 as (G2 & R2 & F2). split; [exact G2|]. split; [eapply grows_trans; eauto|]. constructor; [|exact F2]. exists ws1. split; [reflexivity|]. split; [exact S1|].
  revert D1. apply Forall_impl. intros w. apply defined_grows, R2.
Qed.

(** ** The geometries *)
Lemma phases_in_filter ws : phases_in ws (length (phase_wires ws)).
Proof.
  unfold phases_in, phase_wires. induction ws as [|w ws IH].
  - exists []. split; [constructor|]. split; [reflexivity|]. intros k. split; [intros []|intros (w & p & H & _); destruct k; discriminate].
  - destruct IH as (ks & N & L & H). assert (NS : NoDup (map S ks)) by (apply FinFun.Injective_map_NoDup; [intros a b Q; congruence|exact N]).
    assert (HS : forall k, In k (map S ks) <-> exists k', k = S k' /\ exists w' p, nth_error ws k' = Some w' /\ w_ph w' = Some p /\ In p ["A"; "B"; "C"]).
    { intros k. rewrite in_map_iff. split; [intros (k' & <- & Hk); exists k'; split; [reflexivity|apply H, Hk]|intros (k' & -> & Hk); exists k'; split; [reflexivity|apply H, Hk]]. }
    cbn [filter]. destruct (is_phase (w_ph w)) eqn:P.
    + exists (0 :: map S ks). split; [constructor; [intros Q; apply HS in Q; destruct Q as (k' & Q & _); discriminate|exact NS]|]. split; [cbn; rewrite map_length, L; reflexivity|].
      intros k. cbn [In]. rewrite HS. destruct k as [|k]; cbn [nth_error].
      * split; [intros _|auto]. unfold is_phase in P. destruct (w_ph w) as [p|] eqn:Ep; [|discriminate]. apply smem_In in P. eauto.
      * split; [intros [Q|(k' & Q & Hk)]; [discriminate|injection Q as ->; exact Hk]|intros Hk; right; exists k; auto].
    + exists (map S ks). split; [exact NS|]. split; [rewrite map_length; exact L|]. intros k. rewrite HS. destruct k as [|k]; cbn [nth_error].
      * split; [intros (k' & Q & _); discriminate|]. intros (w' & p & Q & Hp & Hi). injection Q as <-. exfalso. unfold is_phase in P. rewrite Hp in P. apply smem_In in Hi. congruence.
      * split; [intros (k' & Q & Hk); injection Q as ->; exact Hk|intros Hk; exists k; auto].
Qed.

Lemma mapM_index {A B} (f : nat -> A -> res B) (l : list A) : forall k r, mapM (fun iw : nat * A => f (fst iw) (snd iw)) (combine (seq k (length l)) l) = Ok r ->
  length r = length l /\ forall j x y, nth_error l j = Some x -> nth_error r j = Some y -> f (k + j) x = Ok y.
Proof.
  induction l as [|x l IH]; intros k r E; [injection E as <-; split; [reflexivity|intros [|j]; discriminate]|]. cbn [length seq combine mapM fst snd] in E.
  destruct (f k x) as [y|] eqn:Ef; [|discriminate]. destruct (mapM _ (combine (seq (S k) (length l)) l)) as [ys|] eqn:Em; [|discriminate]. injection E as <-. destruct (IH _ _ Em) as [L H].
  split; [cbn; congruence|]. intros [|j] x' y' Hx Hy; cbn in Hx, Hy; [rewrite Nat.add_0_r; congruence|]. rewrite <- Nat.add_succ_comm. apply H; auto.
Qed.
Lemma mapM_index_total {A B} (f : nat -> A -> res B) (l : list A) : (forall k x, In x l -> exists y, f k x = Ok y) -> forall k, exists r, mapM (fun iw : nat * A => f (fst iw) (snd iw)) (combine (seq k (length l)) l) = Ok r.
Proof.
  intros H. induction l as [|x l IH]; intros k; [eexists; reflexivity|]. cbn [length seq combine mapM fst snd]. destruct (H k x (or_introl eq_refl)) as [y ->].
  destruct (IH (fun k' x' Hx => H k' x' (or_intror Hx)) (S k)) as [ys ->]. eauto.
Qed.

Lemma conductor_places ref wcl i w : In (fst ref) ["Wire"; "CNCable"] -> snd ref = DStr wcl ->
  places (("cond", DInt (S i)) :: ref :: entry "X" (w_X w) ++ entry "H" (w_Y w) ++ entry "Normamps" (w_amp w) ++ entry "Emergamps" (w_emerg w)) i w (fst ref) wcl.
Proof.
  destruct ref as [rk rv]. cbn [fst snd]. intros Hr ->. unfold places. split; [left; reflexivity|]. split; [right; left; reflexivity|]. split; [|do 3 (split; [states_solve|]); states_solve].
  intros k c H. destruct H as [H|[H|H]]; [discriminate|injection H as -> ->; auto|]. exfalso. assert (Ne : forall k' v, ~ In (k, DStr c) (entry k' v)) by (intros k' [q|]; cbn; [intros [Q|[]]; discriminate|intros []]).
  repeat (apply in_app_iff in H; destruct H as [H|H]; [exact (Ne _ _ H)|]). exact (Ne _ _ H).
Qed.
Lemma places_same a b j w kind c : same_data a b -> places b j w kind c -> places a j w kind c.
Proof.
  intros F (H1 & H2 & H3 & H4 & H5 & H6 & H7). split; [eapply int_same; eauto|]. split; [eapply str_same; eauto|].
  split; [intros k' c' Q; apply H3; eapply str_same; [apply same_data_sym, F|exact Q]|]. do 3 (split; [eapply states_same; eauto|]). eapply states_same; eauto.
Qed.

Lemma places_class d j w c kind x : places d j (set_wclass w x) kind c -> places d j w kind c.
Proof. exact (fun H => H). Qed.

Variables (ws cs : dict (list (string * dval))) (cnt : nat).
Hypothesis G : good (ws, cs, cnt).

Lemma geometry_spec l ws' g : Forall2 same_wire (l_wires l) ws' -> Forall (defined (ws, cs, cnt) (underground l)) ws' ->
  parse_line_geometry ws cs (set_lwires l ws') = Ok g -> geometry_of ws cs g l.
Proof.
  intros F2 Df E. unfold parse_line_geometry in E. cbn [l_wires set_lwires] in E. destruct (mapM _ _) as [conds|] eqn:Em; [|discriminate]. cbn [bind] in E. injection E as <-.
  destruct (mapM_index (conductor ws cs) ws' 0 conds Em) as [Lc Hc]. assert (Ln : length ws' = length (l_wires l)) by (symmetry; eapply F2_length; eauto).
  assert (Ep : length (phase_wires ws') = length (phase_wires (l_wires l))).
  { clear - F2. unfold phase_wires. induction F2 as [|w w' a b [c ->] F IH]; [reflexivity|]. cbn [filter]. change (w_ph (set_wclass w c)) with (w_ph w). destruct (is_phase (w_ph w)); cbn [length]; congruence. }
  unfold geometry_of. cbn [g_nconds g_nphases g_conds g_reduce]. rewrite Ln, Ep. split; [reflexivity|]. split; [apply phases_in_filter|].
  split; [destruct (Nat.eqb_spec (length (phase_wires (l_wires l))) (length (l_wires l))); split; congruence|].
  split; [destruct (Nat.eqb_spec (length (phase_wires (l_wires l))) (length (l_wires l))); split; congruence|]. split; [congruence|].
  intros j w d Hw Hd. assert (Hw' : exists w', nth_error ws' j = Some w' /\ same_wire w w').
  { clear - F2 Hw. revert j Hw. induction F2; intros [|j] Hw; try discriminate; cbn in *; [injection Hw as ->; eauto|eauto]. }
  destruct Hw' as (w' & Hw' & [c0 Es]). specialize (Hc j w' d Hw' Hd). rewrite Nat.add_0_l in Hc. assert (Hdef : defined (ws, cs, cnt) (underground l) w') by (eapply Forall_forall; [exact Df|eapply nth_error_In; exact Hw']).
  destruct Hdef as (c & v & Ec & H). unfold conductor in Hc. rewrite Ec in Hc. cbn [fst snd] in H. exists c, v. subst w'. cbn [w_class set_wclass] in Ec.
  assert (Un : underground l = true <-> l_type l = Some "underground").
  { unfold underground. destruct (l_type l) as [t|]; [|split; intros Q; discriminate Q]. rewrite String.eqb_eq. split; congruence. }
  destruct (underground l).
  - destruct H as [H1 H2]. left. split; [apply Un; reflexivity|]. unfold dmem in Hc. rewrite (good_disjoint ws cs cnt c G) in Hc by congruence. rewrite H1 in Hc. cbn [bind] in Hc. injection Hc as <-.
    split; [apply (conductor_places ("CNCable", DStr c) c j (set_wclass w c0)); [cbn; auto|reflexivity]|]. split; [exact H1|]. eapply describes_cable_same; [exact H2|]. apply (parse_cable_states (set_wclass w c0)).
  - destruct H as [H1 H2]. right. split; [intros Q; apply Un in Q; discriminate|]. unfold dmem in Hc. rewrite H1 in Hc. cbn [bind] in Hc. injection Hc as <-.
    split; [apply (conductor_places ("Wire", DStr c) c j (set_wclass w c0)); [cbn; auto|reflexivity]|]. split; [exact H1|]. eapply describes_wire_same; [exact H2|]. apply (parse_wire_states (set_wclass w c0)).
Qed.

Lemma geometry_of_same g g' l : same_geom g g' -> geometry_of ws cs g' l -> geometry_of ws cs g l.
Proof.
  intros (E1 & E2 & F & E4) (H1 & H2 & H3 & H4 & H5 & H6). unfold geometry_of. rewrite E1, E2, E4. repeat (split; [assumption|]). split; [rewrite (F2_length _ _ _ F); exact H5|].
  intros j w d Hw Hd. assert (Hd' : exists d', nth_error (g_conds g') j = Some d' /\ same_data d d').
  { clear - F Hd. revert j Hd. induction F; intros [|j] Hd; try discriminate; cbn in *; [injection Hd as ->; eauto|eauto]. }
  destruct Hd' as (d' & Hd' & Sd). destruct (H6 j w d' Hw Hd') as (c & def & H). exists c, def. destruct H as [(K1 & K2 & K3)|(K1 & K2 & K3)]; [left|right]; (split; [exact K1|]; split; [eapply places_same; eauto|exact K3]).
Qed.

Lemma write_geometry_spec given : clean ["Geometry"] given -> forall ls ls1 t cpt t' ls' J,
  Forall2 (fun l l' => exists ws', l' = set_lwires l ws' /\ Forall2 same_wire (l_wires l) ws' /\ Forall (defined (ws, cs, cnt) (underground l)) ws') ls ls1 ->
  incl (line_classes ls) given -> named_by ["Geometry"] given J t -> (forall j, J j -> j < cpt) -> NoDup (dkeys t) ->
  write_linegeometry ws cs t cpt ls1 = Ok (t', ls') ->
  (forall k v, dget t k = Some v -> dget t' k = Some v) /\
  Forall2 (fun l l' => exists c g ws', l' = set_lclass (set_lwires l ws') (Some c) /\ Forall2 same_wire (l_wires l) ws' /\ dget t' c = Some g /\ geometry_of ws cs g l) ls ls'.
Proof.
  intros Clg ls. induction ls as [|l ls IH]; intros ls1 t cpt t' ls' J F Ig Nb B Nd E; inversion F as [|? l1 ? ls1' (ws' & -> & Sw & Df) F']; subst.
  - cbn in E. injection E as <- <-. split; [auto|constructor].
  - cbn [write_linegeometry] in E. destruct (parse_line_geometry ws cs (set_lwires l ws')) as [g|] eqn:Eg; [|discriminate]. cbn [bind] in E. cbn [l_class set_lwires] in E.
    destruct (give_name geom_eqb "Geometry" t cpt (l_class l) g) as [[t1 cpt1] c] eqn:En. destruct (write_linegeometry ws cs t1 cpt1 ls1') as [[t2 ls2]|] eqn:Er; [|discriminate]. cbn [bind fst snd] in E. injection E as <- <-.
    assert (Hc : forall c0, l_class l = Some c0 -> In c0 given) by (intros c0 Hc0; apply Ig; unfold line_classes; cbn [flat_map]; rewrite Hc0; left; reflexivity).
    apply (give_name_spec geom_eqb same_geom geom_eqb_spec same_geom_refl same_geom_sym ["Geometry"] given Clg "Geometry" J) in En; [|cbn; auto|exact Hc|exact Nb|exact B|exact Nd].
    destruct En as (X1 & (v & Hv & Ev) & X3 & _ & X4).
    assert (Go : (forall k v, dget t1 k = Some v -> dget t2 k = Some v) /\
      Forall2 (fun l l' => exists c g ws', l' = set_lclass (set_lwires l ws') (Some c) /\ Forall2 same_wire (l_wires l) ws' /\ dget t2 c = Some g /\ geometry_of ws cs g l) ls ls2).
    { assert (Ig' : incl (line_classes ls) given) by (intros x Hx; apply Ig; unfold line_classes; cbn [flat_map]; apply in_app_iff; right; exact Hx).
      destruct X4 as [[-> X4]|[-> X4]]; [apply (IH ls1' t1 cpt t2 ls2 J); auto|apply (IH ls1' t1 (S cpt) t2 ls2 (fun j => J j \/ j = cpt)); auto].
      intros j [Q| ->]; [apply B in Q; lia|lia]. }
    destruct Go as [Go1 Go2]. split; [auto|]. constructor; [|exact Go2]. exists c, v, ws'. split; [reflexivity|]. split; [exact Sw|]. split; [apply Go1, Hv|].
    eapply geometry_of_same; [exact Ev|]. eapply geometry_spec; eauto.
Qed.
End Wires.

(** ** Success *)
Lemma write_geometry_total ws cs : forall ls t cpt, (forall l w, In l ls -> In w (l_wires l) -> exists c, w_class w = Some c /\ (dget ws c <> None \/ dget cs c <> None)) ->
  exists r, write_linegeometry ws cs t cpt ls = Ok r.
Proof.
  induction ls as [|l ls IH]; intros t cpt H; [eexists; reflexivity|]. cbn [write_linegeometry]. unfold parse_line_geometry.
  destruct (mapM_index_total (conductor ws cs) (l_wires l)) with (k := 0) as [conds Ec].
  { intros k w Hw. destruct (H l w (or_introl eq_refl) Hw) as (c & Hc & Q). unfold conductor, dmem. rewrite Hc. destruct (dget ws c); [cbn; eauto|]. destruct (dget cs c); [cbn; eauto|]. destruct Q; congruence. }
  rewrite Ec. cbn [bind]. destruct (give_name geom_eqb "Geometry" t cpt (l_class l) _) as [[t1 cpt1] c]. destruct (IH t1 cpt1) as [r Er]; [intros l' w Hl; apply H; right; exact Hl|]. rewrite Er. cbn. eauto.
Qed.

Lemma dset_keeps {V} (d : dict V) k v x : dget d x <> None -> dget (dset d k v) x <> None.
Proof. intros H. rewrite dget_dset. destruct (String.eqb k x); congruence. Qed.
Lemma give_name_keeps {D} (eqb : D -> D -> bool) prefix t cnt c x t' cnt' nm : give_name eqb prefix t cnt c x = (t', cnt', nm) -> NoDup (dkeys t) ->
  dget t' nm <> None /\ (forall k, dget t k <> None -> dget t' k <> None) /\ NoDup (dkeys t').
Proof.
  intros E Nd. assert (S1 : forall n, dget (dset t n x) n <> None) by (intros n; rewrite dget_dset, String.eqb_refl; discriminate).
  unfold give_name in E. destruct c as [c|].
  - destruct (dget t c) as [y|] eqn:Ec; [destruct (eqb y x)|]; injection E as <- <- <-.
    + split; [congruence|]. auto.
    + split; [apply S1|]. split; [intros k; apply dset_keeps|apply dset_NoDup, Nd].
    + split; [apply S1|]. split; [intros k; apply dset_keeps|apply dset_NoDup, Nd].
  - destruct (last_match eqb t x) as [k|] eqn:El; injection E as <- <- <-.
    + assert (Q : exists v, In (k, v) t).
      { unfold last_match in El. assert (Gn : forall t r, fold_left (fun r (kv : string * D) => if eqb x (snd kv) then Some (fst kv) else r) t r = Some k -> r = Some k \/ exists v, In (k, v) t).
        { clear. induction t as [|[k' v'] t IH]; intros r E; [left; exact E|]. cbn [fold_left fst snd] in E. apply IH in E. destruct E as [E|(v & H)]; [|right; exists v; right; exact H].
          destruct (eqb x v'); [injection E as ->; right; exists v'; left; reflexivity|left; exact E]. }
        apply Gn in El. destruct El as [El|El]; [discriminate|exact El]. }
      destruct Q as [v Q]. split; [rewrite (dget_NoDup _ _ _ Nd Q); discriminate|]. auto.
    + split; [apply S1|]. split; [intros k; apply dset_keeps|apply dset_NoDup, Nd].
Qed.

Lemma wiredata_keeps : forall ls st st' ls', NoDup (dkeys (fst (fst st))) -> NoDup (dkeys (snd (fst st))) -> Forall enough ls -> write_wiredata st ls = (st', ls') ->
  (forall k, dget (fst (fst st)) k <> None -> dget (fst (fst st')) k <> None) /\ (forall k, dget (snd (fst st)) k <> None -> dget (snd (fst st')) k <> None) /\
  forall l w, In l ls' -> In w (l_wires l) -> exists c, w_class w = Some c /\ (dget (fst (fst st')) c <> None \/ dget (snd (fst st')) c <> None).
Proof.
  assert (W : forall u ws st st' ws', NoDup (dkeys (fst (fst st))) -> NoDup (dkeys (snd (fst st))) -> (forall w, In w ws -> w_gmr w <> None) -> name_wires u st ws = (st', ws') ->
    NoDup (dkeys (fst (fst st'))) /\ NoDup (dkeys (snd (fst st'))) /\
    (forall k, dget (fst (fst st)) k <> None -> dget (fst (fst st')) k <> None) /\ (forall k, dget (snd (fst st)) k <> None -> dget (snd (fst st')) k <> None) /\
    forall w, In w ws' -> exists c, w_class w = Some c /\ (dget (fst (fst st')) c <> None \/ dget (snd (fst st')) c <> None)).
  { intros u. induction ws as [|w ws IH]; intros st st' ws' N1 N2 Hg E; cbn [name_wires] in E; [injection E as <- <-; repeat (split; [auto|]); intros w []|].
    destruct (name_wire u st w) as [st1 w1] eqn:E1. destruct (name_wires u st1 ws) as [st2 ws2] eqn:E2. injection E as <- <-.
    assert (Q : NoDup (dkeys (fst (fst st1))) /\ NoDup (dkeys (snd (fst st1))) /\ (forall k, dget (fst (fst st)) k <> None -> dget (fst (fst st1)) k <> None) /\
      (forall k, dget (snd (fst st)) k <> None -> dget (snd (fst st1)) k <> None) /\ exists c, w_class w1 = Some c /\ (dget (fst (fst st1)) c <> None \/ dget (snd (fst st1)) c <> None)).
    { destruct st as [[a b] cnt]. unfold name_wire in E1. cbn [fst snd] in *. destruct u.
      - destruct (give_name data_eqb "CNCable" b cnt (w_class w) (parse_cable w)) as [[b' cnt'] c] eqn:Eg. injection E1 as <- <-. apply give_name_keeps in Eg; [|exact N2]. destruct Eg as (K1 & K2 & K3). cbn [fst snd].
        repeat (split; [auto|]). exists c. auto.
      - assert (Pn : exists x r, parse_wire w = x :: r) by (unfold parse_wire; destruct (w_gmr w) eqn:Eg; [cbn; eauto|exfalso; apply (Hg w (or_introl eq_refl)); exact Eg]). destruct Pn as (x & r & Pn). rewrite Pn in E1. rewrite <- Pn in E1.
        destruct (give_name data_eqb "Wire" a cnt (w_class w) (parse_wire w)) as [[a' cnt'] c] eqn:Eg. injection E1 as <- <-. apply give_name_keeps in Eg; [|exact N1]. destruct Eg as (K1 & K2 & K3). cbn [fst snd].
        repeat (split; [auto|]). exists c. auto. }
    destruct Q as (Q1 & Q2 & Q3 & Q4 & (c & Q5 & Q6)). apply IH in E2; [|exact Q1|exact Q2|intros w' Hw; apply Hg; right; exact Hw]. destruct E2 as (P1 & P2 & P3 & P4 & P5).
    split; [exact P1|]. split; [exact P2|]. split; [auto|]. split; [auto|]. intros w' [<-|Hw]; [exists c; split; [exact Q5|destruct Q6; auto]|apply P5, Hw]. }
  induction ls as [|l ls IH]; intros st st' ls' N1 N2 En E; cbn [write_wiredata] in E; [injection E as <- <-; repeat (split; [auto|]); intros l w []|].
  destruct (name_wires (underground l) st (l_wires l)) as [st1 ws1] eqn:E1. destruct (write_wiredata st1 ls) as [st2 ls2] eqn:E2. injection E as <- <-. inversion En as [|? ? El En']; subst.
  apply W in E1; [|exact N1|exact N2|intros w Hw; apply El, Hw]. destruct E1 as (Q1 & Q2 & Q3 & Q4 & Q5). apply IH in E2; [|exact Q1|exact Q2|exact En']. destruct E2 as (P1 & P2 & P3).
  split; [auto|]. split; [auto|]. intros l' w [<-|Hl] Hw; [|eapply P3; eauto]. cbn [l_wires set_lwires] in Hw. destruct (Q5 w Hw) as (c & Hc & [H|H]); exists c; auto.
Qed.

(** ** Where the definitions come from *)
Lemma give_name_from {D} (eqb : D -> D -> bool) prefix t cnt c x t' cnt' nm : give_name eqb prefix t cnt c x = (t', cnt', nm) -> forall k v, dget t' k = Some v -> dget t k = Some v \/ v = x.
Proof.
  intros E k v H. assert (S1 : forall n, dget (dset t n x) k = Some v -> dget t k = Some v \/ v = x) by (intros n; rewrite dget_dset; destruct (String.eqb n k); intros Q; [right; congruence|left; exact Q]).
  unfold give_name in E. destruct c as [c|]; [destruct (dget t c); [destruct (eqb _ _)|]|destruct (last_match eqb t x)]; injection E as <- <- <-; eauto.
Qed.
Definition from_wires (ls : list line) (ws cs : dict (list (string * dval))) : Prop :=
  (forall k v, dget ws k = Some v -> exists l w, In l ls /\ In w (l_wires l) /\ underground l = false /\ v = parse_wire w) /\
  (forall k v, dget cs k = Some v -> exists l w, In l ls /\ In w (l_wires l) /\ underground l = true /\ v = parse_cable w).
Lemma name_wires_from all l : In l all -> forall ws st st' ws', incl ws (l_wires l) -> from_wires all (fst (fst st)) (snd (fst st)) -> name_wires (underground l) st ws = (st', ws') -> from_wires all (fst (fst st')) (snd (fst st')).
Proof.
  intros Hl. induction ws as [|w ws IH]; intros st st' ws' In_ H E; cbn [name_wires] in E; [injection E as <- <-; exact H|].
  destruct (name_wire (underground l) st w) as [st1 w1] eqn:E1. destruct (name_wires (underground l) st1 ws) as [st2 ws2] eqn:E2. injection E as <- <-.
  apply IH in E2; [exact E2|intros x Hx; apply In_; right; exact Hx|]. assert (Hw : In w (l_wires l)) by (apply In_; left; reflexivity).
  destruct st as [[a b] cnt]. unfold name_wire in E1. cbn [fst snd] in *. destruct H as [Ha Hb]. destruct (underground l) eqn:Eu.
  - destruct (give_name data_eqb "CNCable" b cnt (w_class w) (parse_cable w)) as [[b' cnt'] c] eqn:Eg. injection E1 as <- <-. cbn [fst snd]. split; [exact Ha|]. intros k v Q. destruct (give_name_from _ _ _ _ _ _ _ _ _ Eg _ _ Q) as [Q'|Q']; [apply (Hb k v Q')|exists l, w; auto].
  - destruct (parse_wire w) as [|x r] eqn:Pw; [injection E1 as <- <-; split; assumption|]. rewrite <- Pw in E1. destruct (give_name data_eqb "Wire" a cnt (w_class w) (parse_wire w)) as [[a' cnt'] c] eqn:Eg. injection E1 as <- <-. cbn [fst snd]. split; [|exact Hb].
    intros k v Q. destruct (give_name_from _ _ _ _ _ _ _ _ _ Eg _ _ Q) as [Q'|Q']; [apply (Ha k v Q')|exists l, w; auto].
Qed.
Lemma write_wiredata_from all : forall ls st st' ls', incl ls all -> from_wires all (fst (fst st)) (snd (fst st)) -> write_wiredata st ls = (st', ls') -> from_wires all (fst (fst st')) (snd (fst st')).
Proof.
  induction ls as [|l ls IH]; intros st st' ls' Il H E; cbn [write_wiredata] in E; [injection E as <- <-; exact H|].
  destruct (name_wires (underground l) st (l_wires l)) as [st1 ws1] eqn:E1. destruct (write_wiredata st1 ls) as [st2 ls2] eqn:E2. injection E as <- <-.
  apply IH in E2; [exact E2|intros x Hx; apply Il; right; exact Hx|]. eapply name_wires_from; [apply Il; left; reflexivity|apply incl_refl|exact H|exact E1].
Qed.

(** ** Consistent names stay *)
Definition consistent (ls : list line) : Prop :=
  (forall l w, In l ls -> In w (l_wires l) -> w_class w <> None) /\
  forall l1 l2 w1 w2, In l1 ls -> In l2 ls -> In w1 (l_wires l1) -> In w2 (l_wires l2) -> underground l1 = underground l2 -> w_class w1 = w_class w2 ->
    if underground l1 then same_data (parse_cable w1) (parse_cable w2) else same_data (parse_wire w1) (parse_wire w2).
Definition own_names (ls : list line) (ws cs : dict (list (string * dval))) : Prop :=
  (forall k v, dget ws k = Some v -> exists l w, In l ls /\ In w (l_wires l) /\ underground l = false /\ w_class w = Some k /\ v = parse_wire w) /\
  (forall k v, dget cs k = Some v -> exists l w, In l ls /\ In w (l_wires l) /\ underground l = true /\ w_class w = Some k /\ v = parse_cable w).
Lemma name_wires_kept all l : consistent all -> In l all -> forall ws st st' ws', incl ws (l_wires l) -> own_names all (fst (fst st)) (snd (fst st)) -> name_wires (underground l) st ws = (st', ws') ->
  own_names all (fst (fst st')) (snd (fst st')) /\ ws' = ws.
Proof.
  intros [Cn Cs] Hl. induction ws as [|w ws IH]; intros st st' ws' In_ H E; cbn [name_wires] in E; [injection E as <- <-; auto|].
  destruct (name_wire (underground l) st w) as [st1 w1] eqn:E1. destruct (name_wires (underground l) st1 ws) as [st2 ws2] eqn:E2. injection E as <- <-.
  assert (Hw : In w (l_wires l)) by (apply In_; left; reflexivity).
  assert (Q : own_names all (fst (fst st1)) (snd (fst st1)) /\ w1 = w).
  { assert (Same : forall c, w_class w = Some c -> set_wclass w (Some c) = w) by (intros c Hc; destruct w; cbn in *; subst; reflexivity).
    destruct st as [[a b] cnt]. unfold name_wire in E1. cbn [fst snd] in *. destruct H as [Ha Hb]. destruct (w_class w) as [c|] eqn:Ec; [|exfalso; exact (Cn l w Hl Hw Ec)]. unfold give_name in E1. destruct (underground l) eqn:Eu.
    - destruct (dget b c) as [y|] eqn:Eb.
      + destruct (Hb c y Eb) as (l0 & w0 & H1 & H2 & H3 & H4 & ->). assert (Q := Cs l0 l w0 w H1 Hl H2 Hw ltac:(congruence) ltac:(congruence)). rewrite H3 in Q. apply data_eqb_spec in Q. rewrite Q in E1. injection E1 as <- <-. split; [split; assumption|apply Same; auto].
      + injection E1 as <- <-. cbn [fst snd]. split; [|apply Same; auto]. split; [exact Ha|]. intros k v Q. rewrite dget_dset in Q. destruct (String.eqb_spec c k) as [Ek|]; [injection Q as <-; subst k; exists l, w; auto|apply (Hb k v Q)].
    - destruct (parse_wire w) as [|x r] eqn:Pw; [injection E1 as <- <-; cbn [fst snd]; split; [split; assumption|reflexivity]|]. rewrite <- Pw in E1. destruct (dget a c) as [y|] eqn:Ea.
      + destruct (Ha c y Ea) as (l0 & w0 & H1 & H2 & H3 & H4 & ->). assert (Q := Cs l0 l w0 w H1 Hl H2 Hw ltac:(congruence) ltac:(congruence)). rewrite H3 in Q. apply data_eqb_spec in Q. rewrite Q in E1. injection E1 as <- <-. split; [split; assumption|apply Same; auto].
      + injection E1 as <- <-. cbn [fst snd]. split; [|apply Same; auto]. split; [|exact Hb]. intros k v Q. rewrite dget_dset in Q. destruct (String.eqb_spec c k) as [Ek|]; [injection Q as <-; subst k; exists l, w; auto|apply (Ha k v Q)]. }
  destruct Q as [Q ->]. apply IH in E2; [|intros x Hx; apply In_; right; exact Hx|exact Q]. destruct E2 as [E2 ->]. auto.
Qed.
Lemma write_wiredata_kept all : consistent all -> forall ls st st' ls', incl ls all -> own_names all (fst (fst st)) (snd (fst st)) -> write_wiredata st ls = (st', ls') ->
  own_names all (fst (fst st')) (snd (fst st')) /\ ls' = ls.
Proof.
  intros C. induction ls as [|l ls IH]; intros st st' ls' Il H E; cbn [write_wiredata] in E; [injection E as <- <-; auto|].
  destruct (name_wires (underground l) st (l_wires l)) as [st1 ws1] eqn:E1. destruct (write_wiredata st1 ls) as [st2 ls2] eqn:E2. injection E as <- <-.
  apply (name_wires_kept all l C) in E1; [|apply Il; left; reflexivity|apply incl_refl|exact H]. destruct E1 as [Q ->].
  apply IH in E2; [|intros x Hx; apply Il; right; exact Hx|exact Q]. destruct E2 as [E2 ->]. split; [exact E2|]. destruct l; reflexivity.
Qed.
Lemma write_geometry_wires ws cs : forall ls t cpt t' ls', write_linegeometry ws cs t cpt ls = Ok (t', ls') -> map l_wires ls' = map l_wires ls.
Proof.
  induction ls as [|l ls IH]; intros t cpt t' ls' E; cbn [write_linegeometry] in E; [injection E as <- <-; reflexivity|]. destruct (parse_line_geometry ws cs l) as [g|]; [|discriminate]. cbn [bind] in E.
  destruct (give_name geom_eqb "Geometry" t cpt (l_class l) g) as [[t1 cpt1] c]. destruct (write_linegeometry ws cs t1 cpt1 ls) as [[t2 ls2]|] eqn:Er; [|discriminate]. cbn [bind fst snd] in E. injection E as <- <-. cbn. f_equal. eapply IH, Er.
Qed.

Lemma write_geometry_from ws cs : forall ls t cpt t' ls' (P : geometry -> Prop), (forall k v, dget t k = Some v -> P v) -> (forall l g, In l ls -> parse_line_geometry ws cs l = Ok g -> P g) ->
  write_linegeometry ws cs t cpt ls = Ok (t', ls') -> forall k v, dget t' k = Some v -> P v.
Proof.
  induction ls as [|l ls IH]; intros t cpt t' ls' P Ht Hl E; cbn [write_linegeometry] in E; [injection E as <- <-; exact Ht|]. destruct (parse_line_geometry ws cs l) as [g|] eqn:Ep; [|discriminate]. cbn [bind] in E.
  destruct (give_name geom_eqb "Geometry" t cpt (l_class l) g) as [[t1 cpt1] c] eqn:Eg. destruct (write_linegeometry ws cs t1 cpt1 ls) as [[t2 ls2]|] eqn:Er; [|discriminate]. cbn [bind fst snd] in E. injection E as <- <-.
  apply (IH t1 cpt1 t2 ls2 P); [|intros l' g' Hl'; apply Hl; right; exact Hl'|exact Er]. intros k v Q. destruct (give_name_from _ _ _ _ _ _ _ _ _ Eg _ _ Q) as [Q'|Q']; [apply (Ht k v Q')|subst v; apply (Hl l g (or_introl eq_refl) Ep)].
Qed.

Lemma entry_same k a b : oeq a b -> same_data (entry k a) (entry k b).
Proof. destruct a, b; cbn; try contradiction; intros H; repeat constructor; cbn; auto. Qed.
Lemma pair_same k u m a b : oeq a b -> same_data (match a with Some q => [(k, DNum q); (u, DStr m)] | None => [] end) (match b with Some q => [(k, DNum q); (u, DStr m)] | None => [] end).
Proof. destruct a, b; cbn; try contradiction; intros H; [|constructor]. constructor; [split; cbn; auto|]. constructor; [split; cbn; auto|constructor]. Qed.
Lemma alike_wire_same w w' : alike_wire w w' -> same_data (parse_wire w) (parse_wire w').
Proof. intros (H1 & H2 & H3 & H4 & H5). unfold parse_wire, same_data. repeat (apply Forall2_app; [first [apply entry_same; assumption|apply pair_same; assumption]|]). apply entry_same; assumption. Qed.
Lemma alike_cable_same w w' : alike_cable w w' -> same_data (parse_cable w) (parse_cable w').
Proof.
  intros (H1 & H2 & H3 & H4 & H5 & H6 & H7 & H8 & H9). unfold parse_cable, same_data. apply Forall2_app.
  - destruct (w_ins w), (w_ins w'); cbn in H4; try contradiction; [|constructor]. constructor; [split; cbn; auto|]. destruct (w_diam w), (w_diam w'); cbn in H2; try contradiction; [|constructor].
    constructor; [|constructor]. split; [reflexivity|]. cbn [snd same_val]. rewrite H2, H4. reflexivity.
  - repeat (apply Forall2_app; [apply entry_same; assumption|]). apply F2_refl. intros x. split; [reflexivity|apply same_val_refl].
Qed.
Lemma underground_spec l : underground l = true <-> l_type l = Some "underground".
Proof. unfold underground. destruct (l_type l) as [t|]; [|split; intros Q; discriminate Q]. rewrite String.eqb_eq. split; congruence. Qed.
Lemma consistent_spec ls : consistent_names ls -> consistent ls.
Proof.
  intros [H1 H2]. split; [exact H1|]. intros l1 l2 w1 w2 I1 I2 J1 J2 Eu Ec. destruct (H2 l1 l2 w1 w2 I1 I2 J1 J2 Ec) as [A B]. destruct (underground l1) eqn:U.
  - apply alike_cable_same, B; apply underground_spec; congruence.
  - apply alike_wire_same, A; intros Q; apply underground_spec in Q; congruence.
Qed.
