(** Property theorems on Modifier.merge and Modifier.set_attributes: C14, C15. *)
From Verif Require Import Base BaseFacts StoreModel StoreSpec StoreProofs ModifyProofs CopyProofs
  AddDeleteProofs MergeProofs MergeTopProofs PhaseMergeProofs PhaseMergeTop MergeExamples.
Local Open Scope string_scope.
Local Open Scope nat_scope.
Local Open Scope list_scope.

(** ** C14 *)

(** The effect of a successful merge: only fresh copies are registered in addition, model 2's
    registration and model 1's name index are unchanged, every common scalar attribute follows
    the merge rule, scalars of model 2 are unchanged, and every named object that does not take
    part is untouched. *)
Theorem C14_merge_effect :
  forall fuel ow w w',
    unnamed_elements (hp w) -> unique_attrs (hp w) -> registered (hp w) (m1 w) ->
    separate (hp w) (elems (m1 w)) (elems (m2 w)) ->
    merge fuel ow w = Ok w' ->
    (exists n, elems (m1 w') = elems (m1 w) ++ seq (length (hp w)) n /\
               length (hp w') = length (hp w) + n) /\
    elems (m2 w') = elems (m2 w) /\
    (forall k o, getitem (m1 w') k = Ok o <-> last_named (hp w) (elems (m1 w)) k o) /\
    (forall k o1 o2, common (hp w) (elems (m1 w)) (elems (m2 w)) k o1 o2 ->
       (exists b1 b2, nth_error (hp w) o1 = Some b1 /\ nth_error (hp w) o2 = Some b2 /\ cls b1 = cls b2) /\
       (forall a c1 c2, has_attr (hp w) o1 a (Scal c1) -> has_attr (hp w) o2 a (Scal c2) ->
          has_attr (hp w') o1 a (Scal (merged_value ow c1 c2))) /\
       (forall a c1, has_attr (hp w) o1 a (Scal c1) -> (forall v, ~ has_attr (hp w) o2 a v) ->
          has_attr (hp w') o1 a (Scal c1)) /\
       (forall a c2, has_attr (hp w) o2 a (Scal c2) -> has_attr (hp w') o2 a (Scal c2))) /\
    (forall o k0, named (hp w) o k0 ->
       (forall k o1 o2, common (hp w) (elems (m1 w)) (elems (m2 w)) k o1 o2 -> o <> o1 /\ o <> o2) ->
       nth_error (hp w') o = nth_error (hp w) o).
Proof. exact merge_effect. Qed.
Print Assumptions C14_merge_effect.

(** The hypotheses of [C14_merge_effect] are preserved, so that it applies to any number of
    merges in a row. *)
Theorem C14_hypotheses_preserved :
  forall fuel ow w w',
    unnamed_elements (hp w) -> unique_attrs (hp w) -> registered (hp w) (m1 w) -> registered (hp w) (m2 w) ->
    separate (hp w) (elems (m1 w)) (elems (m2 w)) ->
    merge fuel ow w = Ok w' ->
    unnamed_elements (hp w') /\ unique_attrs (hp w') /\ registered (hp w') (m1 w') /\ registered (hp w') (m2 w') /\
    separate (hp w') (elems (m1 w')) (elems (m2 w')) /\
    (forall k o1 o2, common (hp w') (elems (m1 w')) (elems (m2 w')) k o1 o2 <->
                     common (hp w) (elems (m1 w)) (elems (m2 w)) k o1 o2).
Proof. exact merge_keeps_hypotheses. Qed.
Print Assumptions C14_hypotheses_preserved.

(** Merging a second time changes no scalar attribute of a named object.  Missing for the full
    claim: list attributes, for which it is false (next theorem). *)
Theorem C14_merge_twice_partial :
  forall fuel fuel' ow w w1 w2,
    unnamed_elements (hp w) -> unique_attrs (hp w) -> registered (hp w) (m1 w) -> registered (hp w) (m2 w) ->
    separate (hp w) (elems (m1 w)) (elems (m2 w)) ->
    merge fuel ow w = Ok w1 -> merge fuel' ow w1 = Ok w2 ->
    forall o k a c0 c, named (hp w) o k -> has_attr (hp w) o a (Scal c0) ->
      has_attr (hp w1) o a (Scal c) -> has_attr (hp w2) o a (Scal c).
Proof. exact merge_twice. Qed.
Print Assumptions C14_merge_twice_partial.

(** The order of a list of per-phase objects may differ between one merge and two. *)
Theorem C14_merge_twice_refuted :
  exists w w1 w2 o a l,
    unnamed_elements (hp w) /\ unique_attrs (hp w) /\ registered (hp w) (m1 w) /\
    separate (hp w) (elems (m1 w)) (elems (m2 w)) /\
    merge 5 true w = Ok w1 /\ merge 5 true w1 = Ok w2 /\
    has_attr (hp w1) o a l /\ ~ has_attr (hp w2) o a l.
Proof. exact merge_twice_order. Qed.
Print Assumptions C14_merge_twice_refuted.

(** A merge never succeeds if a common object of model 2 has a list of plain values (phases,
    reactances, impedance_matrix, ...): the list branch calls traits() on its elements. *)
Theorem C14_plain_lists_break_merge :
  forall fuel ow w w' k o1 o2 a v t,
    unnamed_elements (hp w) -> unique_attrs (hp w) -> registered (hp w) (m1 w) ->
    separate (hp w) (elems (m1 w)) (elems (m2 w)) ->
    common (hp w) (elems (m1 w)) (elems (m2 w)) k o1 o2 ->
    has_attr (hp w) o2 a (Lst (Some (ERaw v :: t))) ->
    merge fuel ow w <> Ok w'.
Proof. exact merge_raw_fails. Qed.
Print Assumptions C14_plain_lists_break_merge.

Example C14_hypotheses_met :
  unnamed_elements (hp exm_world) /\ unique_attrs (hp exm_world) /\ registered (hp exm_world) (m1 exm_world) /\
  registered (hp exm_world) (m2 exm_world) /\
  separate (hp exm_world) (elems (m1 exm_world)) (elems (m2 exm_world)) /\
  common (hp exm_world) (elems (m1 exm_world)) (elems (m2 exm_world)) (Some (SStr "l")) 0 4 /\
  (exists w1 w2, merge 5 false exm_world = Ok w1 /\ merge 5 false w1 = Ok w2 /\
     has_attr (hp w1) 0 "voltage" (Scal (Some (SVal 7))) /\
     has_attr (hp w1) 0 "model" (Scal (Some (SVal 1)))) /\
  (exists w1, merge 5 true exm_world = Ok w1 /\ has_attr (hp w1) 0 "model" (Scal (Some (SVal 2)))).
Proof. exact exm_met. Qed.

Example C14_plain_hypotheses_met :
  unnamed_elements (hp exr_world) /\ unique_attrs (hp exr_world) /\ registered (hp exr_world) (m1 exr_world) /\
  separate (hp exr_world) (elems (m1 exr_world)) (elems (m2 exr_world)) /\
  common (hp exr_world) (elems (m1 exr_world)) (elems (m2 exr_world)) (Some (SStr "l")) 0 1 /\
  has_attr (hp exr_world) 1 "phases" (Lst (Some [ERaw (SStr "A")])) /\
  merge 5 true exr_world = Err EAttr.
Proof. exact exr_met. Qed.

(** ** C15 *)

(** Exact effect on a list of per-phase sub-objects: every phase that both have is merged by the
    scalar rule, phases of obj_1 that obj_2 lacks are untouched, sub-objects of obj_2 are
    untouched, and the resulting list is that of obj_1 plus those phases of obj_2 that obj_1
    lacks AND that precede some phase of obj_1.  Missing for the full claim: phases after the
    last phase of obj_1 are lost (next theorem). *)
Theorem C15_phase_merge_partial :
  forall fuel ow h s o1 o2 a l1 l2 h' s',
    unique_attrs h -> o1 <> o2 ->
    has_attr h o1 a (Lst (Some (map EObj l1))) -> has_attr h o2 a (Lst (Some (map EObj l2))) ->
    l1 <> [] -> l2 <> [] -> phase_list h l1 -> phase_list h l2 -> (forall x, In x l1 -> ~ In x l2) ->
    apart h o1 o2 a (o1 :: o2 :: l1 ++ l2) ->
    set_attributes fuel ow (h, s) o1 o2 = Ok (h', s') ->
    exists l',
      has_attr h' o1 a (Lst (Some (map EObj l'))) /\ NoDup l' /\
      (forall z, In z l' <->
         In z l1 \/ (In z l2 /\ exists p, phase_of h z p /\ ~ has_phase h l1 p /\ has_later_phase h l1 p)) /\
      (forall x y p, In x l1 -> In y l2 -> phase_of h x p -> phase_of h y p ->
         (forall b c1 c2, has_attr h x b (Scal c1) -> has_attr h y b (Scal c2) ->
            has_attr h' x b (Scal (merged_value ow c1 c2))) /\
         (forall b c1, has_attr h x b (Scal c1) -> (forall v, ~ has_attr h y b v) -> has_attr h' x b (Scal c1))) /\
      (forall x, In x l1 -> (forall p, phase_of h x p -> ~ has_phase h l2 p) -> nth_error h' x = nth_error h x) /\
      (forall y, In y l2 -> nth_error h' y = nth_error h y).
Proof. exact set_attributes_phases. Qed.
Print Assumptions C15_phase_merge_partial.

(** A phase that obj_1 lacks can be lost. *)
Theorem C15_missing_phases_added_refuted :
  exists h s o1 o2 a l1 l2 h' s' y p,
    unique_attrs h /\ o1 <> o2 /\
    has_attr h o1 a (Lst (Some (map EObj l1))) /\ has_attr h o2 a (Lst (Some (map EObj l2))) /\
    phase_list h l1 /\ phase_list h l2 /\ (forall x, In x l1 -> ~ In x l2) /\
    apart h o1 o2 a (o1 :: o2 :: l1 ++ l2) /\
    set_attributes 5 true (h, s) o1 o2 = Ok (h', s') /\
    In y l2 /\ phase_of h y p /\
    forall l' z, has_attr h' o1 a (Lst (Some (map EObj l'))) -> In z l' -> ~ phase_of h' z p.
Proof. exact phase_lost. Qed.
Print Assumptions C15_missing_phases_added_refuted.

Example C15_hypotheses_met :
  let h := hp exm_world in
  unique_attrs h /\ has_attr h 0 "phase_loads" (Lst (Some (map EObj [1; 2]))) /\
  has_attr h 4 "phase_loads" (Lst (Some (map EObj [5; 6]))) /\
  phase_list h [1; 2] /\ phase_list h [5; 6] /\ (forall x, In x [1; 2] -> ~ In x [5; 6]) /\
  apart h 0 4 "phase_loads" [0; 4; 1; 2; 5; 6] /\
  exists h' s', set_attributes 5 true (h, m1 exm_world) 0 4 = Ok (h', s') /\
    has_attr h' 0 "phase_loads" (Lst (Some (map EObj [2; 1; 6]))) /\
    has_attr h' 1 "p" (Scal (Some (SVal 50))).
Proof. exact exm_phases_met. Qed.
