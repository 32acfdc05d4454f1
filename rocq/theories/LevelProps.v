(** C89: nominal voltages by voltage levels. *)
From Verif Require Import Base StoreModel NetworkModel NetworkSpec NetworkBfs NetworkQueries NetworkDown NetworkTop VoltModel VoltSpec VoltProofs SplitModel LevelModel LevelSpec LevelProofs.
From Coq Require Import QArith Permutation.
Local Open Scope string_scope.
Local Open Scope nat_scope.
Local Open Scope list_scope.

(** C89: in a network without loops the objects of a voltage level, all but those that the search pops, get the
    smallest winding voltage of the transformer that feeds them, and the loads its name. *)
Theorem C89_levels : forall es windings order s n fuel vs us vs' us',
  build es s = Ok n -> all_named es -> length (d_nodes (net_di n)) < fuel -> (forall l, Permutation l (order l)) ->
  radial es (net_di n) -> set_nominal_voltages es windings order fuel n vs us = Ok (vs', us') ->
  exists left, one_per_level es left /\
    forall x, on_network es x -> ~ In x left -> exists i o w t, bears es x i /\
       fed_by es (net_di n) s x o /\ (forall o', fed_by es (net_di n) s x o' -> o' = o) /\ secondary_volt es windings o w /\ feeder_name o t /\
       (forall old, nth_error vs i = Some (Some old) -> ~ names_a es "Line" x -> nth_error vs' i = Some (Some w)) /\
       (names_a es "Load" x -> i < length us -> nth_error us' i = Some t).
Proof. exact nominal_radial. Qed.
Print Assumptions C89_levels.

(** In any network each level takes what feeds one of its Nodes; nothing else changes, except that lines without a
    voltage take the one at their from end. *)
Theorem C89_groups : forall es windings order s n fuel vs us vs' us',
  build es s = Ok n -> all_named es -> length (d_nodes (net_di n)) < fuel -> (forall l, Permutation l (order l)) ->
  set_nominal_voltages es windings order fuel n vs us = Ok (vs', us') ->
  exists left, one_per_level es left /\ (forall x, on_network es x -> reach (linked es) s x) /\
    (forall x, on_network es x -> ~ In x left -> exists y i o w t, In y left /\ names_a es "Node" y /\ same_level es x y /\
       fed_by es (net_di n) s y o /\ secondary_volt es windings o w /\ feeder_name o t /\ bears es x i /\
       (forall old, nth_error vs i = Some (Some old) -> ~ names_a es "Line" x -> nth_error vs' i = Some (Some w)) /\
       (names_a es "Load" x -> i < length us -> nth_error us' i = Some t)) /\
    (forall i, (forall x, on_network es x -> ~ In x left -> ~ bears es x i) ->
       nth_error us' i = nth_error us i /\
       ((forall e, nth_error es i = Some e -> e_cls e <> "Line") -> nth_error vs' i = nth_error vs i) /\
       (forall e, nth_error es i = Some e -> e_cls e = "Line" -> volt vs i <> None \/ e_from e = None -> nth_error vs' i = nth_error vs i) /\
       (forall e f, nth_error es i = Some e -> e_cls e = "Line" -> nth_error vs i = Some (Some None) -> e_from e = Some f ->
          exists p, bears es f p /\ ((forall e', nth_error es p = Some e' -> e_cls e' <> "Line") -> nth_error vs' i = Some (Some (volt vs' p))))) /\
    (forall x i, bears es x i -> ~ names_a es "Load" x -> nth_error us' i = nth_error us i) /\
    length vs' = length vs /\ length us' = length us.
Proof. exact nominal_spec. Qed.
Print Assumptions C89_groups.

(** It succeeds on a connected network whose names are objects, with a Node on every level, when no Node is fed
    over something that merely hangs on another object and the transformers know a winding voltage. *)
Theorem C89_succeeds : forall es windings order s n fuel vs us,
  build es s = Ok n -> all_named es -> length (d_nodes (net_di n)) < fuel -> (forall l, Permutation l (order l)) ->
  (forall x, on_network es x -> reach (linked es) s x) -> (exists y, linked es s y /\ y <> s) ->
  (forall x, on_network es x -> exists p, bears es x p) ->
  (forall x, on_network es x -> exists y, same_level es x y /\ names_a es "Node" y) ->
  (forall x y z, names_a es "Node" x -> climbs_over es (net_di n) x z -> arc (net_di n) y z -> exists i, last_span es y z i) ->
  (forall y x i, arc (net_di n) y x -> last_span es y x i -> e_cls i = "PowerTransformer" ->
     exists m p, e_name i = Some (Some m) /\ bears es m p /\ forall ws, windings p = Ok ws -> exists w, In (Some w) ws) ->
  (forall i f, In i es -> e_cls i = "Line" -> e_from i = Some f -> exists p, bears es f p) ->
  exists r, set_nominal_voltages es windings order fuel n vs us = Ok r.
Proof. exact nominal_total. Qed.
Print Assumptions C89_succeeds.

(** On every level one Node keeps the voltage it had: [group.pop()] takes the volunteer out of the group. *)
Theorem C89_volunteer_refuted : forall es windings order s n fuel vs us vs' us',
  build es s = Ok n -> all_named es -> length (d_nodes (net_di n)) < fuel -> (forall l, Permutation l (order l)) ->
  set_nominal_voltages es windings order fuel n vs us = Ok (vs', us') ->
  forall x, on_network es x -> exists y i, same_level es x y /\ names_a es "Node" y /\ bears es y i /\ nth_error vs' i = nth_error vs i.
Proof. exact nominal_volunteer. Qed.
Print Assumptions C89_volunteer_refuted.

(** ** Examples *)

(** s - a = (t1) = b - c, with a load at c. *)
Definition yes_ : list elem :=
  [xnode "s"; xnode "a"; xnode "b"; xnode "c"; xline "l1" "s" "a" 10; xtrafo "t1" "a" "b"; xline "l2" "b" "c" 3; xload "ld" "c"].
Definition ynet : network := net_or_empty (build yes_ "s").
Definition ywind (p : nat) : res (list (option Q)) := if Nat.eqb p 5 then Ok [Some 7200%Q; None; Some 240%Q] else Err EAttr.
Definition yvolts : volts := [Some (Some 7200%Q); Some (Some 7200%Q); Some None; Some None; Some None; None; Some None; Some None].
Definition yup : list (option string) := repeat None 8.

Lemma ynet_built : build yes_ "s" = Ok ynet. Proof. vm_compute. reflexivity. Qed.
Lemma yes_named : all_named yes_.
Proof. intros i Hi _. unfold yes_ in Hi. cbn [In] in Hi. repeat (destruct Hi as [<-|Hi]; [eexists; reflexivity|]). destruct Hi. Qed.
Lemma yradial : radial yes_ (net_di ynet).
Proof.
  intros u v (i & Hi & L) _. unfold spans, hangs in L. unfold yes_ in Hi. cbn [In] in Hi.
  repeat (destruct Hi as [<-|Hi]; [cbn in L; destruct L as [[L1 L2]|[[L1 L2]|[[L1 L2]|[L1 L2]]]]; try discriminate; injection L1 as <-; injection L2 as <-;
    solve [left; eexists; vm_compute; tauto|right; eexists; vm_compute; tauto]|]). destruct Hi.
Qed.

Example C89_hypotheses_met :
  build yes_ "s" = Ok ynet /\ all_named yes_ /\ length (d_nodes (net_di ynet)) < 9 /\ radial yes_ (net_di ynet) /\
  set_nominal_voltages yes_ ywind (fun l => l) 9 ynet yvolts yup =
    Ok ([Some None; Some (Some 7200%Q); Some None; Some (Some 240%Q); Some None; None; Some None; Some (Some 240%Q)],
        [None; None; None; None; None; None; None; Some "t1"]) /\
  set_nominal_voltages yes_ ywind (fun l => rev l) 9 ynet yvolts yup =
    Ok ([Some (Some 7200%Q); Some None; Some (Some 240%Q); Some None; Some (Some 7200%Q); None; Some (Some 240%Q); Some None],
        repeat None 8).
Proof.
  split; [exact ynet_built|]. split; [exact yes_named|]. split; [vm_compute; lia|]. split; [exact yradial|]. split; vm_compute; reflexivity.
Qed.

(** The level of the source has no transformer above it: the known voltage of its nodes is forgotten, while
    set_nominal_voltages_recur gives them the voltage of the source. *)
Theorem C89_source_refuted : exists vs' us' vr,
  set_nominal_voltages yes_ ywind (fun l => l) 9 ynet yvolts yup = Ok (vs', us') /\
  bears yes_ "s" 0 /\ nth_error yvolts 0 = Some (Some (Some 7200%Q)) /\ nth_error vs' 0 = Some (Some None) /\
  set_nominal_voltages_recur yes_ ywind 9 (mkModifier "s" (Some 7200%Q) ynet) yvolts = Ok vr /\ nth_error vr 0 = Some (Some (Some 7200%Q)).
Proof.
  eexists. eexists. eexists. split; [vm_compute; reflexivity|]. split; [apply lookup_spec; vm_compute; reflexivity|]. split; [reflexivity|]. split; [reflexivity|]. split; [vm_compute; reflexivity|]. reflexivity.
Qed.
Print Assumptions C89_source_refuted.

Definition mes : list elem :=
  [xnode "s"; xnode "b"; xnode "c"; xnode "e"; xtrafo "t1" "s" "b"; xtrafo "t2" "s" "c"; xline "l" "b" "e" 3; xline "l2" "e" "c" 3].
Definition mnet : network := net_or_empty (build mes "s").
Definition mwind (p : nat) : res (list (option Q)) := if Nat.eqb p 4 then Ok [Some 240%Q] else if Nat.eqb p 5 then Ok [Some 480%Q] else Err EAttr.
(** Two transformers that feed the same level: what its nodes get depends on the order in which the set is popped. *)
Theorem C89_meshed_refuted : exists o1 o2 vs1 us1 vs2 us2, (forall l : list string, Permutation l (o1 l)) /\ (forall l : list string, Permutation l (o2 l)) /\
  set_nominal_voltages mes mwind o1 9 mnet (repeat (Some None) 8) (repeat None 8) = Ok (vs1, us1) /\
  set_nominal_voltages mes mwind o2 9 mnet (repeat (Some None) 8) (repeat None 8) = Ok (vs2, us2) /\
  bears mes "e" 3 /\ nth_error vs1 3 = Some (Some (Some 240%Q)) /\ nth_error vs2 3 = Some (Some (Some 480%Q)).
Proof.
  exists (fun l => l), (fun l => rev l). eexists. eexists. eexists. eexists. split; [intros l; apply Permutation_refl|]. split; [intros l; apply Permutation_rev|].
  split; [vm_compute; reflexivity|]. split; [vm_compute; reflexivity|]. split; [apply lookup_spec; vm_compute; reflexivity|]. split; reflexivity.
Qed.
Print Assumptions C89_meshed_refuted.

Definition pes : list elem := [mkElem "PowerSource" (Some (Some "s")) None None None None None (Some []); xnode "b"; xtrafo "t1" "s" "b"].
(** A source that is itself the end of the transformer: its level has no Node and the search pops from an empty set. *)
Theorem C89_no_node_refuted : forall vs us, (forall x, on_network pes x -> exists p, bears pes x p) /\
  set_nominal_voltages pes (fun _ => Ok [Some 240%Q]) (fun l => l) 9 (net_or_empty (build pes "s")) vs us = Err EKey.
Proof.
  intros vs us. split.
  - intros x (y & i & Hi & L). unfold spans, hangs in L. cbn [In pes] in Hi.
    repeat (destruct Hi as [<-|Hi]; [cbn in L; destruct L as [[L1 L2]|[[L1 L2]|[[L1 L2]|[L1 L2]]]]; try discriminate; injection L1 as <-; injection L2 as <-;
      solve [exists 0; apply lookup_spec; vm_compute; reflexivity|exists 1; apply lookup_spec; vm_compute; reflexivity]|]). destruct Hi.
  - vm_compute. reflexivity.
Qed.
Print Assumptions C89_no_node_refuted.
