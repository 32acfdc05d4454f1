From Coq Require Import QArith.
From Verif Require Import Base BaseFacts StoreModel NetworkModel NetworkSpec NetworkDown NetworkProps VoltModel VoltProofs UndersizedProofs NodeVoltModel NodeVoltSpec.
Local Open Scope string_scope.
Local Open Scope nat_scope.
Local Open Scope list_scope.

Lemma final_last {A} (l : list A) d : l <> [] -> final l = Ok (last l d).
Proof.
  induction l as [|x l IH]; intros N; [easy|]. destruct l as [|y l]; [reflexivity|].
  change (final (x :: y :: l)) with (final (y :: l)). rewrite IH by easy. reflexivity.
Qed.

Definition write (g : elem -> option (option Q)) (vs : volts) (p : nat * elem) : volts :=
  match g (snd p) with Some v => vset vs (fst p) v | None => vs end.
Lemma foldM_write (f : volts -> nat * elem -> res volts) (g : elem -> option (option Q)) l : forall k vs,
  (forall k e vs, In e l -> f vs (k, e) = Ok (write g vs (k, e))) -> foldM f (numbered k l) vs = Ok (fold_left (write g) (numbered k l) vs).
Proof.
  induction l as [|e l IH]; intros k vs H; [reflexivity|]. cbn [numbered foldM fold_left].
  rewrite H by now left. apply IH. intros. apply H. now right.
Qed.
Lemma fold_write_nth g l : forall k vs i, nth_error (fold_left (write g) (numbered k l) vs) i =
  if Nat.ltb i k then nth_error vs i else
  match nth_error l (i - k) with
  | Some e => match g e with Some v => match nth_error vs i with Some (Some _) => Some (Some v) | x => x end | None => nth_error vs i end
  | None => nth_error vs i
  end.
Proof.
  induction l as [|e l IH]; intros k vs i; cbn [numbered fold_left].
  - destruct (Nat.ltb i k); [reflexivity|]. now destruct (i - k).
  - rewrite IH. unfold write. cbn [fst snd].
    destruct (Nat.ltb_spec i k) as [L | L].
    + destruct (Nat.ltb_spec i (S k)); [|lia]. destruct (g e); [|reflexivity]. rewrite nth_vset. destruct (Nat.eqb_spec k i); [lia | reflexivity].
    + destruct (Nat.ltb_spec i (S k)) as [M | M].
      * assert (i = k) by lia. subst i. rewrite Nat.sub_diag. cbn [nth_error]. destruct (g e); [|reflexivity]. rewrite nth_vset, Nat.eqb_refl. reflexivity.
      * replace (i - k) with (S (i - S k)) by lia. cbn [nth_error].
        destruct (g e) as [v|]; [|reflexivity]. rewrite !nth_vset. destruct (Nat.eqb_spec k i); [lia | reflexivity].
Qed.
Lemma foldM_stop (f : volts -> nat * elem -> res volts) l e : In e l -> (forall k vs, exists x, f vs (k, e) = Err x) -> forall k vs, exists x, foldM f (numbered k l) vs = Err x.
Proof.
  intros I H. induction l as [|a l IH]; [destruct I|]. intros k vs. cbn [numbered foldM].
  destruct (f vs (k, a)) as [vs'|x] eqn:E; [|now exists x].
  destruct I as [-> | I]; [destruct (H k vs) as (x & X); congruence | now apply IH].
Qed.

(** What is written to a node. *)
Definition value es windings fuel n (e : elem) : option (option Q) :=
  match e_name e with
  | Some (Some x) =>
    if String.eqb (e_cls e) "Node" then
      match get_upstream_transformer fuel n x with
      | Ok (Some t) => match lookup es (Some t) with Some q => match windings q with Ok ws => Some (last ws None) | Err _ => None end | None => None end
      | _ => None
      end
    else None
  | _ => None
  end.

(** C125: every node gets the voltage of the last winding of the nearest transformer above it; a node with no
    transformer above keeps its own, as do the other objects. *)
Theorem C125_voltages : forall es s n fuel windings vs, all_named es -> build es s = Ok n -> length (d_nodes (net_di n)) < fuel ->
  nodes_connected es (net_di n) -> have_windings es windings -> (forall e, In e es -> e_name e <> Some None) ->
  exists vs', set_node_voltages es windings fuel n vs = Ok vs' /\
  forall i e, nth_error es i = Some e ->
    (forall x t p ws v, named_node e x -> fed es (net_di n) x t -> bears es t p -> windings p = Ok ws -> nth_error vs i = Some (Some v) -> nth_error vs' i = Some (Some (last ws None))) /\
    (forall x, named_node e x -> climbs_over es (net_di n) x s -> nth_error vs' i = nth_error vs i) /\
    ((forall x, ~ named_node e x) -> nth_error vs' i = nth_error vs i).
Proof.
  intros es s n fuel windings vs A B F C W U.
  assert (LN : lookup es None = None).
  { destruct (lookup es None) as [p|] eqn:E; [|reflexivity]. apply UndersizedProofs.lookup_from_spec in E.
    destruct E as (j & e & _ & N & X). apply nth_error_In in N. now apply U in N. }
  assert (H : forall k e vs, In e es -> set_one es windings fuel n vs (k, e) = Ok (write (value es windings fuel n) vs (k, e))).
  { intros k e vs0 I. unfold set_one, write, value. cbn [fst snd]. destruct (e_name e) as [[x|]|] eqn:E; try reflexivity.
    destruct (String.eqb_spec (e_cls e) "Node") as [K|]; [|reflexivity].
    destruct (C e x I (conj K E)) as (X & P). destruct (C18_nearest_upstream_transformer es s n x fuel A B X F) as (G1 & G2 & G3).
    destruct (get_upstream_transformer fuel n x) as [[t|]|err] eqn:G.
    - cbn [bind]. destruct (proj1 (G1 t) eq_refl) as (z & y & i & T1 & T2 & T3 & T4 & T5).
      destruct (lookup es (Some t)) as [p|] eqn:L; [|reflexivity].
      assert (I' : In i es). { destruct T3 as (b & a & -> & _). apply in_or_app. right. now left. }
      apply lookup_spec in L. destruct (W i t p I' T4 T5 L) as (ws & Q & N). rewrite Q. cbn [bind]. now rewrite (final_last ws None N).
    - cbn [bind]. now rewrite LN.
    - exfalso. destruct (proj1 (G3 err) eq_refl) as (_ & z & y & T1 & T2 & T3). destruct (P y z T1 T2) as (i & I' & S).
      destruct (T3 i I'). tauto. }
  unfold set_node_voltages. rewrite (foldM_write _ (value es windings fuel n)) by exact H.
  eexists. split; [reflexivity|]. intros i e I. rewrite fold_write_nth. cbn [Nat.ltb Nat.leb]. rewrite Nat.sub_0_r, I.
  assert (J : In e es) by (eapply nth_error_In; exact I).
  split; [|split].
  - intros x t p ws v [K E] T L Q V. unfold value. rewrite E, K. cbn [String.eqb Ascii.eqb Bool.eqb].
    destruct (C e x J (conj K E)) as (X & _). destruct (C18_nearest_upstream_transformer es s n x fuel A B X F) as (G1 & _).
    apply G1 in T. rewrite T. apply lookup_spec in L. rewrite L, Q, V. reflexivity.
  - intros x [K E] T. unfold value. rewrite E, K. cbn [String.eqb Ascii.eqb Bool.eqb].
    destruct (C e x J (conj K E)) as (X & _). destruct (C18_nearest_upstream_transformer es s n x fuel A B X F) as (_ & G2 & _).
    apply G2 in T. now rewrite T.
  - intros N. unfold value. destruct (e_name e) as [[x|]|] eqn:E; try reflexivity.
    destruct (String.eqb_spec (e_cls e) "Node") as [K|]; [|reflexivity]. exfalso. now apply (N x).
Qed.
Print Assumptions C125_voltages.

(** C125: a named node that is not connected to the source stops it. *)
Theorem C125_unconnected_refuted : forall es fuel n windings vs e x, In e es -> named_node e x -> ~ In x (d_nodes (net_di n)) ->
  exists err, set_node_voltages es windings fuel n vs = Err err.
Proof.
  intros es fuel n windings vs e x I [K E] N. apply foldM_stop with e; [exact I|]. intros k vs0. unfold set_one. cbn [snd]. rewrite E, K. cbn [String.eqb Ascii.eqb Bool.eqb].
  unfold get_upstream_transformer. destruct fuel as [|f]; [now exists EFuel|]. cbn [upstream_loop]. unfold predecessors.
  destruct (smem x (d_nodes (net_di n))) eqn:S; [exfalso; apply N; now apply smem_In|]. now exists ENetworkX.
Qed.
Print Assumptions C125_unconnected_refuted.

(** C125: a node with no transformer above it stops it as soon as some object without windings has no name. *)
Theorem C125_unnamed_refuted : forall es s n fuel windings vs e x u, all_named es -> build es s = Ok n -> length (d_nodes (net_di n)) < fuel ->
  In e es -> named_node e x -> In x (d_nodes (net_di n)) -> climbs_over es (net_di n) x s ->
  In u es -> e_name u = Some None -> (forall p u, nth_error es p = Some u -> e_name u = Some None -> windings p = Err EAttr) ->
  exists err, set_node_voltages es windings fuel n vs = Err err.
Proof.
  intros es s n fuel windings vs e x u A B F I [K E] X T J U W. apply foldM_stop with e; [exact I|]. intros k vs0.
  unfold set_one. cbn [snd]. rewrite E, K. cbn [String.eqb Ascii.eqb Bool.eqb].
  destruct (C18_nearest_upstream_transformer es s n x fuel A B X F) as (_ & G2 & _). apply G2 in T. rewrite T. cbn [bind].
  destruct (lookup es None) as [p|] eqn:L.
  - apply UndersizedProofs.lookup_from_spec in L. destruct L as (j & e' & -> & N & Q). change (0 + j) with j. rewrite (W _ _ N Q). now exists EAttr.
  - exfalso. eapply UndersizedProofs.lookup_from_none in L; [|exact J]. contradiction.
Qed.
Print Assumptions C125_unnamed_refuted.

Definition vnode (x : string) : elem := mkElem "Node" (Some (Some x)) None None None None None None.
Definition vspan (c x a b : string) : elem := mkElem c (Some (Some x)) (Some a) (Some b) None None None None.
Definition ves : list elem :=
  [vnode "s"; vnode "a"; vspan "Line" "l1" "s" "a"; vspan "PowerTransformer" "t" "a" "b"; vnode "b"; vspan "Line" "l2" "c" "b"; vnode "c"].
Definition vwind (p : nat) : res (list (option Q)) := if Nat.eqb p 3 then Ok [Some 7200%Q; Some 120%Q] else Err EAttr.
Example C125_hypotheses_met : exists n, build ves "s" = Ok n /\ all_named ves /\ nodes_connected ves (net_di n) /\ have_windings ves vwind /\ (forall e, In e ves -> e_name e <> Some None) /\
  set_node_voltages ves vwind 10 n (map (fun e => if String.eqb (e_cls e) "Node" then Some (Some 1%Q) else None) ves) =
    Ok [Some (Some 1%Q); Some (Some 1%Q); None; None; Some (Some 120%Q); None; Some (Some 120%Q)].
Proof.
  destruct (build ves "s") as [n|] eqn:B; [|discriminate]. exists n. vm_compute in B. injection B as <-.
  split; [reflexivity|]. split; [|split; [|split; [|split]]].
  - intros e I _. cbn in I. repeat (destruct I as [<- | I]; [eexists; reflexivity|]). destruct I.
  - intros e x I [K E]. split.
    + cbn in I. repeat (destruct I as [<- | I]; [cbn in K, E; try discriminate; inversion E; subst; cbn; tauto|]). destruct I.
    + intros y z _ (a & D). cbn in D. destruct D as [D | [D | [D | []]]]; inversion D; subst.
      * exists (vspan "Line" "l1" "s" "a"). cbn. split; [tauto|]. left. now split.
      * exists (vspan "PowerTransformer" "t" "a" "b"). cbn. split; [tauto|]. left. now split.
      * exists (vspan "Line" "l2" "c" "b"). cbn. split; [tauto|]. right. now split.
  - intros i t p I K E L. cbn in I. repeat (destruct I as [<- | I]; [cbn in K, E; try discriminate|]); [|destruct I].
    inversion E; subst. apply lookup_spec in L. vm_compute in L. inversion L; subst. eexists. split; [reflexivity | discriminate].
  - intros e I. cbn in I. repeat (destruct I as [<- | I]; [discriminate|]). destruct I.
  - vm_compute. reflexivity.
Qed.
