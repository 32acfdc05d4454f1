(** Concrete worlds for the merge theorems: witnesses of refutations and of satisfiable hypotheses. *)
From Verif Require Import Base BaseFacts StoreModel StoreSpec StoreProofs ModifyProofs CopyProofs
  AddDeleteProofs MergeProofs MergeTopProofs PhaseMergeProofs PhaseMergeTop.
Local Open Scope string_scope.
Local Open Scope nat_scope.
Local Open Scope list_scope.

Definition exm_load (v m : option Z) (l : list nat) : obj :=
  mkObj "Load" [("name", Scal (Some (SStr "l"))); ("voltage", Scal (option_map SVal v));
                ("model", Scal (option_map SVal m)); ("phase_loads", Lst (Some (map EObj l)));
                ("positions", Lst (Some []))].
Definition exm_pl (p : string) (x : option Z) : obj :=
  mkObj "PhaseLoad" [("phase", Scal (Some (SStr p))); ("p", Scal (option_map SVal x))].
Definition exm_node (n : string) : obj := mkObj "Node" [("name", Scal (Some (SStr n)))].

(** Model 1: a load with phases C and A and a node; model 2: the same load with phases C and B. *)
Definition exm_heap : heap :=
  [exm_load None (Some 1%Z) [1; 2]; exm_pl "C" (Some 10%Z); exm_pl "A" (Some 20%Z); exm_node "n";
   exm_load (Some 7%Z) (Some 2%Z) [5; 6]; exm_pl "C" (Some 50%Z); exm_pl "B" None].
Definition exm_world : world :=
  mkWorld exm_heap (mkStore [0; 1; 2; 3] []) (mkStore [4; 5; 6] []).

(** A load whose only list holds plain values. *)
Definition exr_heap : heap :=
  [mkObj "Load" [("name", Scal (Some (SStr "l"))); ("phases", Lst (Some []))];
   mkObj "Load" [("name", Scal (Some (SStr "l"))); ("phases", Lst (Some [ERaw (SStr "A")]))]].
Definition exr_world : world := mkWorld exr_heap (mkStore [0] []) (mkStore [1] []).

(** Phase B in model 1, phase A in model 2. *)
Definition exo_heap : heap :=
  [exm_load None None [1]; exm_pl "B" None; exm_load None None [3]; exm_pl "A" None].
Definition exo_world : world := mkWorld exo_heap (mkStore [0; 1] []) (mkStore [2; 3] []).

(** Phase A in model 1, phases A and B in model 2. *)
Definition exl_heap : heap :=
  [exm_load None None [1]; exm_pl "A" None; exm_load None None [3; 4]; exm_pl "A" None; exm_pl "B" (Some 3%Z)].

(** Decision procedures for the heap conditions. *)
Fixpoint nodupb (l : list string) : bool :=
  match l with [] => true | x :: t => negb (smem x t) && nodupb t end.

Lemma nodupb_NoDup l : nodupb l = true -> NoDup l.
Proof.
  induction l as [|x t IH]; cbn [nodupb]; [constructor|]. intros H. apply andb_true_iff in H as [H1 H2].
  constructor; [|auto]. intros Q. apply smem_In in Q. rewrite Q in H1. discriminate.
Qed.

Lemma unique_attrs_b h : forallb (fun ob => nodupb (map fst (attrs ob))) h = true -> unique_attrs h.
Proof.
  intros H o ob Ho. rewrite forallb_forall in H. apply nodupb_NoDup, H. eapply nth_error_In, Ho.
Qed.

Definition attr_elts (v : attr) : list elt := match v with Lst (Some l) => l | _ => [] end.
Definition is_unnamed (h : heap) (e : elt) : bool :=
  match e with EObj o => match name_of h o with None => true | Some _ => false end | _ => true end.

Lemma unnamed_elements_b h :
  forallb (fun ob => forallb (fun p => forallb (is_unnamed h) (attr_elts (snd p))) (attrs ob)) h = true ->
  unnamed_elements h.
Proof.
  intros H o ob a l e k Ho Ha He Hn. rewrite forallb_forall in H.
  specialize (H ob (nth_error_In _ _ Ho)). rewrite forallb_forall in H. specialize (H _ Ha).
  cbn [snd attr_elts] in H. rewrite forallb_forall in H. specialize (H _ He). cbn [is_unnamed] in H.
  apply name_of_named in Hn. rewrite Hn in H. discriminate.
Qed.

Lemma registered_b h s : forallb (fun o => o <? length h) (elems s) = true -> registered h s.
Proof. intros H o Ho. rewrite forallb_forall in H. apply Nat.ltb_lt, H, Ho. Qed.

Lemma separate_b h l1 l2 : (forall o, In o l1 -> ~ In o l2) -> separate h l1 l2.
Proof. intros H o k H1 H2. exfalso. exact (H o H1 H2). Qed.

Ltac heap_conditions :=
  split; [apply unnamed_elements_b; reflexivity|]; split; [apply unique_attrs_b; reflexivity|];
  split; [apply registered_b; reflexivity|].
Ltac not_in := simpl; intuition (subst; discriminate).

Ltac has_attr_now := eexists; split; reflexivity.

Lemma exm_met :
  unnamed_elements (hp exm_world) /\ unique_attrs (hp exm_world) /\ registered (hp exm_world) (m1 exm_world) /\
  registered (hp exm_world) (m2 exm_world) /\
  separate (hp exm_world) (elems (m1 exm_world)) (elems (m2 exm_world)) /\
  common (hp exm_world) (elems (m1 exm_world)) (elems (m2 exm_world)) (Some (SStr "l")) 0 4 /\
  (exists w1 w2, merge 5 false exm_world = Ok w1 /\ merge 5 false w1 = Ok w2 /\
     has_attr (hp w1) 0 "voltage" (Scal (Some (SVal 7))) /\
     has_attr (hp w1) 0 "model" (Scal (Some (SVal 1)))) /\
  (exists w1, merge 5 true exm_world = Ok w1 /\ has_attr (hp w1) 0 "model" (Scal (Some (SVal 2)))).
Proof.
  heap_conditions. split; [apply registered_b; reflexivity|].
  split; [apply separate_b; not_in|]. split; [split; apply set_names_kget; reflexivity|]. split.
  - eexists. eexists. split; [vm_compute; reflexivity|]. split; [vm_compute; reflexivity|].
    split; has_attr_now.
  - eexists. split; [vm_compute; reflexivity|]. has_attr_now.
Qed.

Lemma exr_met :
  unnamed_elements (hp exr_world) /\ unique_attrs (hp exr_world) /\ registered (hp exr_world) (m1 exr_world) /\
  separate (hp exr_world) (elems (m1 exr_world)) (elems (m2 exr_world)) /\
  common (hp exr_world) (elems (m1 exr_world)) (elems (m2 exr_world)) (Some (SStr "l")) 0 1 /\
  has_attr (hp exr_world) 1 "phases" (Lst (Some [ERaw (SStr "A")])) /\
  merge 5 true exr_world = Err EAttr.
Proof.
  heap_conditions. split; [apply separate_b; not_in|]. split; [split; apply set_names_kget; reflexivity|].
  split; [has_attr_now|]. vm_compute. reflexivity.
Qed.

Lemma merge_twice_order :
  exists w w1 w2 o a l,
    unnamed_elements (hp w) /\ unique_attrs (hp w) /\ registered (hp w) (m1 w) /\
    separate (hp w) (elems (m1 w)) (elems (m2 w)) /\
    merge 5 true w = Ok w1 /\ merge 5 true w1 = Ok w2 /\
    has_attr (hp w1) o a l /\ ~ has_attr (hp w2) o a l.
Proof.
  exists exo_world. eexists. eexists. exists 0, "phase_loads", (Lst (Some [EObj 1; EObj 3])).
  heap_conditions. split; [apply separate_b; not_in|].
  split; [vm_compute; reflexivity|]. split; [vm_compute; reflexivity|]. split; [has_attr_now|].
  intros (ob & Ho & Ha). injection Ho as <-. vm_compute in Ha. discriminate.
Qed.

(** [phase_list] and [apart] on the concrete heaps. *)
Lemma phase_of_get h z p : phase_of h z p <-> get_attr h z "phase" = Some (Scal (Some (SStr p))).
Proof. apply has_attr_get. Qed.

Lemma pl_leaf h z p x : nth_error h z = Some (exm_pl p x) -> leaf h z.
Proof.
  intros H. eexists. split; [exact H|]. intros a v [E|[E|[]]]; injection E as <- <-; eauto.
Qed.

Lemma pl_phase h z p x q : nth_error h z = Some (exm_pl p x) -> phase_of h z q <-> q = p.
Proof.
  intros H. rewrite phase_of_get. unfold get_attr. rewrite H. cbn [exm_pl attrs dget].
  rewrite String.eqb_refl. split; [intros E; injection E; auto|intros ->; reflexivity].
Qed.

Lemma one_phase h x p v n : nth_error h x = Some (exm_pl p v) -> rank p = Some n -> phase_list h [x].
Proof.
  intros H R. split; [repeat constructor; simpl; tauto|]. split.
  - intros z [<-|[]]. split; [eapply pl_leaf, H|]. exists p, n. split; [apply (pl_phase _ _ _ _ _ H); reflexivity|exact R].
  - intros z y q [<-|[]] [<-|[]] _ _. reflexivity.
Qed.

Lemma two_phases h x y p q v w n m :
  nth_error h x = Some (exm_pl p v) -> nth_error h y = Some (exm_pl q w) -> x <> y -> p <> q ->
  rank p = Some n -> rank q = Some m -> phase_list h [x; y].
Proof.
  intros Hx Hy Hne Hpq R1 R2. split; [|split].
  - constructor; [simpl; intros [E|[]]; congruence|]. repeat constructor. simpl; tauto.
  - intros z [<-|[<-|[]]].
    + split; [eapply pl_leaf, Hx|]. exists p, n. split; [apply (pl_phase _ _ _ _ _ Hx); reflexivity|exact R1].
    + split; [eapply pl_leaf, Hy|]. exists q, m. split; [apply (pl_phase _ _ _ _ _ Hy); reflexivity|exact R2].
  - intros z u r [<-|[<-|[]]] [<-|[<-|[]]]; try reflexivity;
      rewrite (pl_phase _ _ _ _ _ Hx), (pl_phase _ _ _ _ _ Hy); congruence.
Qed.

(** A load has no other non-empty list. *)
Lemma load_apart h o1 o2 v1 m1 l1 v2 m2 l2 xs :
  nth_error h o1 = Some (exm_load v1 m1 l1) -> nth_error h o2 = Some (exm_load v2 m2 l2) ->
  apart h o1 o2 "phase_loads" xs.
Proof.
  intros H1 H2 o ob b l z x Ho Hn Hb Hin Hz _. exfalso.
  assert (Hl : forall v m k, In (b, Lst (Some l)) (attrs (exm_load v m k)) -> False).
  { intros v m k [E|[E|[E|[E|[E|[]]]]]]; try discriminate.
    - injection E as <- _. exact (Hb eq_refl).
    - injection E as <- <-. destruct Hz. }
  destruct Ho as [->| ->]; [rewrite H1 in Hn|rewrite H2 in Hn]; injection Hn as <-; exact (Hl _ _ _ Hin).
Qed.

Lemma phase_lost :
  exists h s o1 o2 a l1 l2 h' s' y p,
    unique_attrs h /\ o1 <> o2 /\
    has_attr h o1 a (Lst (Some (map EObj l1))) /\ has_attr h o2 a (Lst (Some (map EObj l2))) /\
    phase_list h l1 /\ phase_list h l2 /\ (forall x, In x l1 -> ~ In x l2) /\
    apart h o1 o2 a (o1 :: o2 :: l1 ++ l2) /\
    set_attributes 5 true (h, s) o1 o2 = Ok (h', s') /\
    In y l2 /\ phase_of h y p /\
    forall l' z, has_attr h' o1 a (Lst (Some (map EObj l'))) -> In z l' -> ~ phase_of h' z p.
Proof.
  exists exl_heap, empty_store, 0, 2, "phase_loads", [1], [3; 4]. eexists. eexists. exists 4, "B".
  split; [apply unique_attrs_b; reflexivity|]. split; [discriminate|].
  split; [has_attr_now|]. split; [has_attr_now|].
  split; [eapply one_phase; reflexivity|].
  split; [eapply two_phases; try reflexivity; discriminate|]. split; [not_in|].
  split; [eapply load_apart; reflexivity|]. split; [vm_compute; reflexivity|].
  split; [right; left; reflexivity|]. split; [has_attr_now|].
  intros l' z (ob & Ho & Ha) Hz (ob' & Ho' & Hp). injection Ho as <-. cbn in Ha.
  destruct l' as [|u [|u' t]]; try discriminate. injection Ha as <-. destruct Hz as [<-|[]].
  injection Ho' as <-. discriminate.
Qed.

Lemma exm_phases_met :
  let h := hp exm_world in
  unique_attrs h /\ has_attr h 0 "phase_loads" (Lst (Some (map EObj [1; 2]))) /\
  has_attr h 4 "phase_loads" (Lst (Some (map EObj [5; 6]))) /\
  phase_list h [1; 2] /\ phase_list h [5; 6] /\ (forall x, In x [1; 2] -> ~ In x [5; 6]) /\
  apart h 0 4 "phase_loads" [0; 4; 1; 2; 5; 6] /\
  exists h' s', set_attributes 5 true (h, m1 exm_world) 0 4 = Ok (h', s') /\
    has_attr h' 0 "phase_loads" (Lst (Some (map EObj [2; 1; 6]))) /\
    has_attr h' 1 "p" (Scal (Some (SVal 50))).
Proof.
  cbv zeta. split; [apply unique_attrs_b; reflexivity|]. split; [has_attr_now|]. split; [has_attr_now|].
  split; [eapply two_phases; try reflexivity; discriminate|].
  split; [eapply two_phases; try reflexivity; discriminate|]. split; [not_in|].
  split; [eapply load_apart; reflexivity|].
  eexists. eexists. split; [vm_compute; reflexivity|]. split; has_attr_now.
Qed.
