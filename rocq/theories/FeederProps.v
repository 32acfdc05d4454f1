(** C36: feeders. *)
From Verif Require Import Base StoreModel NetworkModel NetworkSpec NetworkTop NetworkDown FeederModel FeederSpec FeederProofs.
From Coq Require Import Permutation.
Local Open Scope string_scope.
Local Open Scope nat_scope.
Local Open Scope list_scope.

(** What a run without exception does, in whatever order the objects below a substation come:
    everything below a lowest substation gets its names, and had none before; nothing else changes;
    no object is in two feeders; the list of feeders is the list of these sets. *)
Theorem C36_assigns : forall arrange, (forall l, Permutation l (arrange l)) ->
  forall es s n, build es s = Ok n -> all_named es ->
  forall ts ts' fs', proper es n ts -> feeder_preprocessing arrange es n ts = (ts', fs', None) ->
  (forall i nm t p, lowest es n ts i nm t -> under es n t p ->
     exists tg, nth_error ts p = Some tg /\ blank (t_sub tg) /\ blank (t_feeder tg) /\
       nth_error ts' p = Some (mkTags (t_issub tg) (Some (Some nm)) (Some (Some ("Feeder_" ++ nm)%string)))) /\
  (forall p, (forall i nm t, lowest es n ts i nm t -> ~ under es n t p) -> nth_error ts' p = nth_error ts p) /\
  (forall i i' nm nm' t t' p, lowest es n ts i nm t -> lowest es n ts i' nm' t' -> under es n t p -> under es n t' p -> i = i') /\
  (forall f, In f fs' -> exists i nm t, lowest es n ts i nm t /\ forall p, In p f <-> under es n t p) /\
  (forall i nm t, lowest es n ts i nm t -> exists f, In f fs' /\ forall p, In p f <-> under es n t p).
Proof. exact feeder_spec. Qed.
Print Assumptions C36_assigns.

(** Whether it raises or not, no name that was set is changed. *)
Theorem C36_never_overwrites : forall arrange, (forall l, Permutation l (arrange l)) ->
  forall es s n, build es s = Ok n -> all_named es ->
  forall ts ts' fs' x, feeder_preprocessing arrange es n ts = (ts', fs', x) ->
  forall p tg, nth_error ts p = Some tg -> exists tg', nth_error ts' p = Some tg' /\ t_issub tg' = t_issub tg /\
    (filled (t_sub tg) -> t_sub tg' = t_sub tg) /\ (filled (t_feeder tg) -> t_feeder tg' = t_feeder tg).
Proof. exact feeder_any. Qed.
Print Assumptions C36_never_overwrites.

(** A name already set below a lowest substation: it raises. *)
Theorem C36_raises : forall arrange es s n ts ts' fs' x i nm t p tg, (forall l, Permutation l (arrange l)) -> build es s = Ok n -> all_named es ->
  proper es n ts -> lowest es n ts i nm t -> under es n t p -> nth_error ts p = Some tg -> filled (t_sub tg) \/ filled (t_feeder tg) ->
  feeder_preprocessing arrange es n ts = (ts', fs', x) -> x <> None.
Proof. exact feeder_raises. Qed.
Print Assumptions C36_raises.

(** When it does not raise. *)
Theorem C36_succeeds : forall arrange, (forall l, Permutation l (arrange l)) ->
  forall es s n, build es s = Ok n -> all_named es -> forall ts, proper es n ts ->
  (forall i nm t p, lowest es n ts i nm t -> under es n t p -> exists tg, nth_error ts p = Some tg /\ blank (t_sub tg) /\ blank (t_feeder tg)) ->
  (forall i i' nm nm' t t' p, lowest es n ts i nm t -> lowest es n ts i' nm' t' -> under es n t p -> under es n t' p -> i = i') ->
  exists ts' fs', feeder_preprocessing arrange es n ts = (ts', fs', None).
Proof. exact feeder_total. Qed.
Print Assumptions C36_succeeds.

Example C36_hypotheses_met :
  build xes "s" = Ok xnet /\ all_named xes /\ proper xes xnet xtags /\ substation xes xtags 7 "t1" "b" /\
  feeder_preprocessing (@rev nat) xes xnet xtags =
    (map (fun p => if existsb (Nat.eqb p) [2; 8; 4; 11] then mkTags (Some (Some false)) (Some (Some "t1")) (Some (Some "Feeder_t1"))
                   else mkTags (Some (Some (Nat.eqb p 7))) (Some None) (Some None)) (seq 0 12), [[11; 4; 8; 2]], None) /\
  (* a name set before: the run stops *)
  match feeder_preprocessing (fun l => l) xes xnet (set_tags xtags 4 (mkTags (Some None) (Some (Some "other")) (Some None))) with
  | (ts', _, x) => x = Some EValue /\ option_map t_sub (nth_error ts' 4) = Some (Some (Some "other"))
  end.
Proof.
  split; [exact xnet_built|]. split; [exact xes_named|]. split; [|split; [|split; [vm_compute; reflexivity|vm_compute; split; reflexivity]]].
  - intros i e He Hc Hf. assert (Li : i < 12) by (assert (Q : nth_error xes i <> None) by congruence; apply nth_error_Some in Q; exact Q).
    assert (i = 7). { destruct Hf as (t & Ht & Ft). unfold xtags in Ht. do 12 (destruct i as [|i]; [cbn in Ht; injection Ht as <-; cbn in Ft; congruence|]). lia. }
    subst i. injection He as <-. split; [exists "t1"; split; [reflexivity|discriminate]|]. exists "b". split; [reflexivity|].
    assert (D : exists l, get_all_elements_downstream xes xnet "b" = Ok l) by (eexists; vm_compute; reflexivity). destruct D as [l D].
    destruct (proj1 (downstream_result xes "s" xnet "b" xnet_built xes_named) l D) as (H1 & _ & _ & H2). split; [exact H1|exact H2].
  - split; [exists (mkTags (Some (Some true)) (Some None) (Some None)); split; reflexivity|]. exists (xtrafo "t1" "a" "b"). repeat split; reflexivity.
Qed.
