(** Property theorems on the store and on Modifier.copy / add / delete: C08 - C13. *)
From Coq Require Import Sorted.
From Verif Require Import Base BaseFacts StoreModel StoreSpec StoreProofs ModifyProofs CopyProofs
  AddDeleteProofs.
Local Open Scope string_scope.
Local Open Scope nat_scope.
Local Open Scope list_scope.

(** ** C08 *)

(** The index means "last registered object with that name", whatever the dictionary held. *)
Theorem C08_lookup_is_last_registered :
  forall (h : heap) (s : store) (k : key) (o : oid),
    getitem (set_names h s) k = Ok o <-> last_named h (elems s) k o.
Proof. exact set_names_lookup. Qed.
Print Assumptions C08_lookup_is_last_registered.

Theorem C08_keyerror_iff_absent :
  forall (h : heap) (s : store) (k : key),
    getitem (set_names h s) k = Err EKey <-> forall o, In o (elems s) -> ~ named h o k.
Proof. exact set_names_keyerror. Qed.
Print Assumptions C08_keyerror_iff_absent.

(** set_names does not touch the list of models. *)
Theorem C08_models_unchanged :
  forall h s, models (set_names h s) = models s.
Proof. exact (fun h s => eq_refl). Qed.
Print Assumptions C08_models_unchanged.

(** ** C09: every history of create / remove / rename / set_names / set item *)

Theorem C09_models_after_any_history :
  forall (ops : list op),
    let l := models (snd (run ops)) in
    NoDup l /\ StronglySorted lt l /\ forall o, In o l <-> alive ops o.
Proof.
  exact (fun ops => conj (StronglySorted_lt_NoDup _ (proj1 (run_elems ops))) (run_elems ops)).
Qed.
Print Assumptions C09_models_after_any_history.

(** Creating appends exactly the new object. *)
Theorem C09_create_appends :
  forall ops ob,
    models (snd (run (ops ++ [OCreate ob]))) = models (snd (run ops)) ++ [created ops] /\
    nth_error (fst (run (ops ++ [OCreate ob]))) (created ops) = Some ob.
Proof. exact create_appends. Qed.
Print Assumptions C09_create_appends.

(** Removing takes out exactly one object and keeps the order of the rest. *)
Theorem C09_remove_exactly_one :
  forall ops o, alive ops o ->
    snd (step (run ops) (ORemove o)) = None /\
    exists before after,
      models (snd (run ops)) = before ++ o :: after /\
      models (snd (run (ops ++ [ORemove o]))) = before ++ after.
Proof. exact remove_exactly_one. Qed.
Print Assumptions C09_remove_exactly_one.

Theorem C09_remove_unregistered_fails :
  forall ops o, ~ alive ops o -> step (run ops) (ORemove o) = (run ops, Some EValue).
Proof. exact (fun ops o => proj2 (remove_step ops o)). Qed.
Print Assumptions C09_remove_unregistered_fails.

(** The other operations leave the list of models alone. *)
Theorem C09_other_operations_keep_models :
  forall ops c, (forall ob, c <> OCreate ob) -> (forall o, c <> ORemove o) ->
    models (snd (run (ops ++ [c]))) = models (snd (run ops)).
Proof. exact other_ops_keep. Qed.
Print Assumptions C09_other_operations_keep_models.

Definition ex_node (n : string) : obj := mkObj "Node" [("name", Scal (Some (SStr n)))].

Example C08_C09_hypotheses_met :
  let ops := [OCreate (ex_node "a"); OCreate (ex_node "b"); OCreate (ex_node "a");
              OCreate (ex_node "c"); ORemove 1; OSetNames] in
  models (snd (run ops)) = [0; 2; 3] /\ alive ops 2 /\ ~ alive ops 1 /\
  getitem (snd (run ops)) (Some (SStr "a")) = Ok 2 /\
  getitem (snd (run ops)) (Some (SStr "b")) = Err EKey.
Proof.
  cbv zeta. split; [reflexivity|]. split.
  - exists [OCreate (ex_node "a"); OCreate (ex_node "b")], (ex_node "a"),
      [OCreate (ex_node "c"); ORemove 1; OSetNames].
    split; [reflexivity|]. split; [reflexivity|]. simpl. intros [H|[H|[H|[]]]]; discriminate.
  - split; [|split; reflexivity].
    intros H. apply (proj2 (run_elems _)) in H. vm_compute in H. intuition discriminate.
Qed.

(** ** C10 *)

(** A successful deletion removes exactly the parts of the object. *)
Theorem C10_delete_removes_exactly_the_parts :
  forall fuel h s o s',
    NoDup (elems s) -> delete_element fuel h s o = Ok s' ->
    names s' = names s /\
    (forall x, part_of h o x -> In x (elems s)) /\
    (exists keep, (forall x, keep x = true <-> ~ part_of h o x) /\
                  elems s' = filter keep (elems s)).
Proof. exact delete_element_post. Qed.
Print Assumptions C10_delete_removes_exactly_the_parts.

(** It succeeds (with enough stack) exactly when the parts form a finite tree whose nodes are
    pairwise different and all registered ... *)
Theorem C10_delete_succeeds_iff :
  forall h s o, NoDup (elems s) ->
    ((exists fuel s', delete_element fuel h s o = Ok s') <->
     (exists l, tree_of h o l /\ NoDup l /\ incl l (elems s))).
Proof. exact delete_element_succeeds_iff. Qed.
Print Assumptions C10_delete_succeeds_iff.

(** ... and otherwise, for a finite tree, it raises ValueError. *)
Theorem C10_delete_shared_or_unregistered_fails :
  forall h s o l, NoDup (elems s) -> tree_of h o l -> ~ (NoDup l /\ incl l (elems s)) ->
    exists n, forall fuel, n <= fuel -> delete_element fuel h s o = Err EValue.
Proof. exact delete_element_valueerror. Qed.
Print Assumptions C10_delete_shared_or_unregistered_fails.

(** A load with two phase loads, a plain list, and an unrelated node. *)
Definition ex_phase_load (p : string) (z : Z) : obj :=
  mkObj "PhaseLoad" [("phase", Scal (Some (SStr p))); ("p", Scal (Some (SVal z)))].
Definition ex_load (n : string) (l : list elt) : obj :=
  mkObj "Load" [("name", Scal (Some (SStr n))); ("phase_loads", Lst (Some l)); ("positions", Lst None);
                ("reactances", Lst (Some [ERaw (SVal 7)])); ("nominal_voltage", Scal None)].
Definition ex_heap : heap :=
  [ex_phase_load "A" 1; ex_node "n"; ex_phase_load "B" 2; ex_load "l" [EObj 0; EObj 2]].
Definition ex_store : store := mkStore [0; 1; 2; 3] [].

Example ex_tree : tree_of ex_heap 3 [0; 2; 3].
Proof.
  apply (tree_node ex_heap 3 (ex_load "l" [EObj 0; EObj 2]) [0; 2]); [reflexivity|].
  apply (forest_cons ex_heap 0 [EObj 2] [0] [2]).
  - apply (tree_node ex_heap 0 (ex_phase_load "A" 1) []); [reflexivity|constructor].
  - apply (forest_cons ex_heap 2 [] [2] []); [|constructor].
    apply (tree_node ex_heap 2 (ex_phase_load "B" 2) []); [reflexivity|constructor].
Qed.

Example C10_hypotheses_met :
  NoDup (elems ex_store) /\ tree_of ex_heap 3 [0; 2; 3] /\ NoDup [0; 2; 3] /\
  incl [0; 2; 3] (elems ex_store) /\
  option_map elems (match delete_element 5 ex_heap ex_store 3 with Ok s => Some s | Err _ => None end)
    = Some [1] /\
  (* a part that is not registered *)
  ~ incl [0; 2; 3] (elems (mkStore [1; 2; 3] [])) /\
  delete_element 5 ex_heap (mkStore [1; 2; 3] []) 3 = Err EValue.
Proof.
  split; [repeat constructor; simpl; intuition discriminate|].
  split; [exact ex_tree|]. split; [repeat constructor; simpl; intuition discriminate|].
  split; [intros x; simpl; tauto|]. split; [reflexivity|]. split; [|reflexivity].
  intros H. specialize (H 0 (or_introl eq_refl)). simpl in H. intuition discriminate.
Qed.

(** ** C11 *)

Theorem C11_copy_is_fresh_and_complete :
  forall fuel h s o h' s' o',
    closed_heap h -> o < length h -> copy fuel h s o = Ok (h', s', o') ->
    (* old objects keep their state; exactly the new ones are registered *)
    (exists new, h' = h ++ new /\ elems s' = elems s ++ seq (length h) (length new)) /\
    names s' = names s /\
    (* the result is a copy, made of new objects only, and there are no other new objects *)
    copy_of h h' o o' /\
    (forall x, part_of h' o' x <-> length h <= x < length h').
Proof. exact copy_effect. Qed.
Print Assumptions C11_copy_is_fresh_and_complete.

Theorem C11_copy_succeeds :
  forall h o l, closed_heap h -> tree_of h o l ->
    exists n, forall fuel s, n <= fuel -> exists h' s' o', copy fuel h s o = Ok (h', s', o').
Proof. exact copy_succeeds. Qed.
Print Assumptions C11_copy_succeeds.

Example C11_hypotheses_met :
  closed_heap ex_heap /\ 3 < length ex_heap /\ tree_of ex_heap 3 [0; 2; 3] /\
  copy 5 ex_heap ex_store 3 =
    Ok (ex_heap ++ [ex_load "l" [EObj 5; EObj 6]; ex_phase_load "A" 1; ex_phase_load "B" 2],
        mkStore [0; 1; 2; 3; 4; 5; 6] [], 4).
Proof.
  split; [|split; [simpl; lia|split; [exact ex_tree|reflexivity]]].
  intros o ob a l o' Ho Ha Hl.
  do 4 (destruct o as [|o]; [injection Ho as <-; simpl in Ha;
    repeat (destruct Ha as [Ha|Ha]; [try discriminate; injection Ha as <- <-; simpl in Hl; simpl;
      repeat (destruct Hl as [Hl|Hl]; [try discriminate; injection Hl as <-; lia|]); destruct Hl|]);
    destruct Ha|]).
  destruct o; discriminate.
Qed.

(** ** C12 *)

Theorem C12_add_effect :
  forall fuel w w',
    closed_heap (hp w) -> unnamed_parts (hp w) ->
    registered (hp w) (m1 w) -> registered (hp w) (m2 w) ->
    add fuel w = Ok w' ->
    (* objects of model 1 are kept in order, exactly the new objects are appended *)
    (exists new, hp w' = hp w ++ new /\
                 elems (m1 w') = elems (m1 w) ++ seq (length (hp w)) (length new)) /\
    elems (m2 w') = elems (m2 w) /\
    (* a name of model 2 now means a copy of model 2's object in model 1 *)
    (forall k o, last_named (hp w) (elems (m2 w)) k o ->
       exists c, getitem (m1 w') k = Ok c /\ length (hp w) <= c /\ copy_of (hp w) (hp w') o c) /\
    (* other names resolve as before *)
    (forall k, (forall o, In o (elems (m2 w)) -> ~ named (hp w) o k) ->
       forall o, getitem (m1 w') k = Ok o <-> last_named (hp w) (elems (m1 w)) k o) /\
    (* nothing else is new *)
    (forall x, length (hp w) <= x < length (hp w') ->
       exists k o c, last_named (hp w) (elems (m2 w)) k o /\ copy_of (hp w) (hp w') o c /\
                     part_of (hp w') c x).
Proof. exact add_effect. Qed.
Print Assumptions C12_add_effect.

Theorem C12_add_succeeds :
  forall w,
    closed_heap (hp w) -> registered (hp w) (m2 w) ->
    (forall k o, last_named (hp w) (elems (m2 w)) k o -> exists l, tree_of (hp w) o l) ->
    exists n, forall fuel, n <= fuel -> exists w', add fuel w = Ok w'.
Proof. exact add_succeeds. Qed.
Print Assumptions C12_add_succeeds.

(** Objects of model 2 that are shadowed by a later object of the same name are not added:
    the literal reading "appends copies of all named objects" is false. *)
Theorem C12_add_all_named_refuted :
  exists w w', add 5 w = Ok w' /\
    (exists o k, In o (elems (m2 w)) /\ named (hp w) o k /\
       forall x, In x (elems (m1 w')) -> nth_error (hp w') x <> nth_error (hp w) o).
Proof. exact add_shadowed. Qed.
Print Assumptions C12_add_all_named_refuted.

Definition ex_world : world :=
  mkWorld (ex_heap ++ [ex_node "n"; ex_load "l" [EObj 6]; ex_phase_load "C" 9; ex_node "z"])
          (mkStore [0; 1; 2; 3] []) (mkStore [4; 5; 6] []).

Example C12_hypotheses_met :
  closed_heap (hp ex_world) /\ unnamed_parts (hp ex_world) /\ registered (hp ex_world) (m1 ex_world) /\
  registered (hp ex_world) (m2 ex_world) /\
  last_named (hp ex_world) (elems (m2 ex_world)) (Some (SStr "l")) 5 /\
  match add 5 ex_world with
  | Ok w' => elems (m1 w') = [0; 1; 2; 3; 8; 9; 10] /\ getitem (m1 w') (Some (SStr "l")) = Ok 9
  | Err _ => False
  end.
Proof.
  split; [|split; [|split; [|split; [|split]]]].
  - intros o ob a l o' Ho Ha Hl.
    do 8 (destruct o as [|o]; [injection Ho as <-; simpl in Ha;
      repeat (destruct Ha as [Ha|Ha]; [try discriminate; injection Ha as <- <-; simpl in Hl; simpl;
        repeat (destruct Hl as [Hl|Hl]; [try discriminate; injection Hl as <-; lia|]); destruct Hl|]);
      destruct Ha|]).
    destruct o; discriminate.
  - intros o ob o' k Ho (a & l & Ha & Hp & He).
    do 8 (destruct o as [|o]; [injection Ho as <-; simpl in Ha;
      repeat (destruct Ha as [Ha|Ha]; [try discriminate; injection Ha as <- <-; simpl in He;
        repeat (destruct He as [He|He]; [try discriminate; injection He as <-;
           intros (ob' & Ho' & Hn); injection Ho' as <-; discriminate Hn|]); destruct He|]);
      destruct Ha|]).
    destruct o; discriminate.
  - intros o; simpl. intros H. lia.
  - intros o; simpl. intros H. lia.
  - exists [4], [6]. split; [reflexivity|]. split.
    + exists (ex_load "l" [EObj 6]). split; reflexivity.
    + intros o' [<-|[]] (ob & Ho & Hn). injection Ho as <-. discriminate Hn.
  - split; reflexivity.
Qed.

(** ** C13 *)

Theorem C13_delete_effect :
  forall fuel w w',
    NoDup (elems (m1 w)) -> delete fuel w = Ok w' ->
    hp w' = hp w /\ elems (m2 w') = elems (m2 w) /\
    (* all pairs of equally named objects had equal classes, otherwise it would have raised *)
    (forall k o1 o2, common (hp w) (elems (m1 w)) (elems (m2 w)) k o1 o2 ->
       exists b1 b2, nth_error (hp w) o1 = Some b1 /\ nth_error (hp w) o2 = Some b2 /\ cls b1 = cls b2) /\
    (* exactly the parts of the common objects are removed *)
    (exists keep,
       elems (m1 w') = filter keep (elems (m1 w)) /\
       forall x, keep x = false <->
         exists k o1 o2, common (hp w) (elems (m1 w)) (elems (m2 w)) k o1 o2 /\ part_of (hp w) o1 x) /\
    (forall k o, getitem (m1 w') k = Ok o <-> last_named (hp w) (elems (m1 w')) k o).
Proof. exact delete_effect. Qed.
Print Assumptions C13_delete_effect.

(** With unique names in model 1, no name of model 2 is left in model 1. *)
Theorem C13_delete_names_gone :
  forall fuel w w',
    NoDup (elems (m1 w)) ->
    (forall k o o', In o (elems (m1 w)) -> In o' (elems (m1 w)) ->
       named (hp w) o k -> named (hp w) o' k -> o = o') ->
    delete fuel w = Ok w' ->
    forall k o2, In o2 (elems (m2 w)) -> named (hp w) o2 k ->
      (forall o, In o (elems (m1 w')) -> ~ named (hp w) o k) /\ getitem (m1 w') k = Err EKey.
Proof. exact delete_names_gone. Qed.
Print Assumptions C13_delete_names_gone.

(** It succeeds when equally named objects have equal classes and disjoint registered trees. *)
Theorem C13_delete_succeeds :
  forall w,
    NoDup (elems (m1 w)) ->
    (forall k o1 o2, common (hp w) (elems (m1 w)) (elems (m2 w)) k o1 o2 ->
       (exists b1 b2, nth_error (hp w) o1 = Some b1 /\ nth_error (hp w) o2 = Some b2 /\ cls b1 = cls b2) /\
       (exists l, tree_of (hp w) o1 l /\ NoDup l /\ incl l (elems (m1 w)))) ->
    (forall k o1 o2 k' o1' o2' x,
       common (hp w) (elems (m1 w)) (elems (m2 w)) k o1 o2 ->
       common (hp w) (elems (m1 w)) (elems (m2 w)) k' o1' o2' -> k <> k' ->
       part_of (hp w) o1 x -> ~ part_of (hp w) o1' x) ->
    exists n, forall fuel, n <= fuel -> exists w', delete fuel w = Ok w'.
Proof. exact delete_succeeds. Qed.
Print Assumptions C13_delete_succeeds.

(** Without unique names the property fails: only the last registered bearer is removed. *)
Theorem C13_delete_all_bearers_refuted :
  exists w w' k o o2, NoDup (elems (m1 w)) /\ delete 5 w = Ok w' /\
    In o2 (elems (m2 w)) /\ named (hp w) o2 k /\
    In o (elems (m1 w')) /\ named (hp w) o k.
Proof. exact delete_duplicates. Qed.
Print Assumptions C13_delete_all_bearers_refuted.

Example C13_hypotheses_met :
  NoDup (elems (m1 ex_world)) /\
  common (hp ex_world) (elems (m1 ex_world)) (elems (m2 ex_world)) (Some (SStr "l")) 3 5 /\
  match delete 5 ex_world with
  | Ok w' => elems (m1 w') = [] /\ getitem (m1 w') (Some (SStr "l")) = Err EKey
  | Err _ => False
  end.
Proof.
  split; [repeat constructor; simpl; intuition discriminate|]. split.
  - split.
    + exists [0; 1; 2], []. split; [reflexivity|]. split; [|intros o' []].
      exists (ex_load "l" [EObj 0; EObj 2]). split; reflexivity.
    + exists [4], [6]. split; [reflexivity|]. split.
      * exists (ex_load "l" [EObj 6]). split; reflexivity.
      * intros o' [<-|[]] (ob & Ho & Hn). injection Ho as <-. discriminate Hn.
  - split; reflexivity.
Qed.
