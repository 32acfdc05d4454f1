(** The CSV reader (C52). *)
From Verif Require Import Base BaseFacts CsvModel CsvSpec CsvProofs.

From Coq Require Import QArith.
Local Open Scope string_scope.
Local Open Scope nat_scope.
Local Open Scope list_scope.

(** For every table whose headers have the documented form, a successful read adds for each row its
    own new objects: per class one, every non-empty cell stored in the attribute of the element its
    header names, lists just as long as the indices need, nothing else set, older objects unchanged. *)
Theorem C52_cells known empty_lists elem accept cols rows h h' :
  (forall p, In p cols -> wf_path p) -> (forall row, In row rows -> length row = length cols) ->
  parse_csv known empty_lists elem accept (map render cols) rows h = Ok h' ->
  rows_result known elem accept cols rows h h'.
Proof. intros W L R. apply (parse_csv_spec known empty_lists elem accept cols W rows h L) in R. apply R. Qed.
Print Assumptions C52_cells.

(** The read succeeds exactly if every non-empty cell can be stored. *)
Theorem C52_succeeds known empty_lists elem accept cols rows h :
  (forall p, In p cols -> wf_path p) -> (forall row, In row rows -> length row = length cols) ->
  (exists h', parse_csv known empty_lists elem accept (map render cols) rows h = Ok h') <->
  (forall row p v, In row rows -> In (p, v) (nonempty (combine cols row)) -> storable known elem accept p v).
Proof.
  intros W L. destruct (parse_csv_spec known empty_lists elem accept cols W rows h L) as [H1 H2]. split; [|exact H2].
  intros [h' R]. apply (H1 h' R).
Qed.
Print Assumptions C52_succeeds.

(** Different columns are different texts, so the table determines what is stored where. *)
Theorem C52_headers_distinct p q : wf_path p -> wf_path q -> render p = render q -> p = q.
Proof. apply render_inj. Qed.
Print Assumptions C52_headers_distinct.

(** An index written in another way than str() does, such as 00, is not accepted. *)
Theorem C52_odd_index_fails known empty_lists elem accept c l a v h : wf_path (mkPath c [(l, 0)] a) -> v <> CEmpty ->
  exists e, parse_row known empty_lists elem accept [(c ++ "." ++ (l ++ "[00]") ++ "." ++ a)%string] h [v] = Err e.
Proof.
  intros ((Wc & Wl) & Wa) Hv. cbn [p_class p_steps p_attr] in *. destruct (Wl l 0) as [Fl Fl']; [left; reflexivity|].
  assert (E : split_on "." (c ++ "." ++ (l ++ "[00]") ++ "." ++ a)%string = [c; (l ++ "[00]")%string; a]).
  { replace (c ++ "." ++ (l ++ "[00]") ++ "." ++ a)%string with ((c ++ String "." (l ++ "[00]")) ++ String "." a)%string by (rewrite sapp_assoc; reflexivity).
    rewrite split_snoc by exact Wa. rewrite split_snoc; [rewrite split_free by exact Wc; reflexivity|]. apply free_app; [exact Fl|cbn; intuition discriminate]. }
  unfold parse_row. cbn [combine foldM]. unfold column_step. cbn [fst snd]. rewrite E. cbn [tl removelast last dget c_objs].
  assert (G : forall st p, dget (c_objs st) (c ++ "." ++ l ++ "[00]")%string = None ->
     (forall j, dget (c_objs st) (c ++ "." ++ l ++ "[" ++ str_of j ++ "]")%string = None) ->
     exists e, foldM (layer_step known empty_lists elem) [(l ++ "[00]")%string] (st, p, c) = Err e).
  { intros st p D D'. cbn [foldM]. unfold layer_step. change (l ++ "[00]")%string with (l ++ String "[" "00]")%string at 1 2.
    rewrite split_snoc by (cbn; intuition discriminate). rewrite split_free by exact Fl'. cbn [app nth_error of_opt bind].
    change (int_of (strip_bracket "00]")) with (@Ok nat 0). cbn [bind]. destruct (nth_error (c_heap st) p) as [o|]; [|cbn; eauto]. cbn [of_opt bind].
    destruct (elem (o_class o) l) as [k|]; [|cbn; eauto]. cbn [bind]. change (c ++ "." ++ l ++ String "[" "00]")%string with (c ++ "." ++ l ++ "[00]")%string.
    unfold dmem. rewrite D. cbn [seq foldM]. unfold add_elem, dmem. cbn [c_objs]. rewrite D'. unfold create. destruct (known k); [|cbn; eauto]. cbn [bind c_objs c_heap].
    rewrite dget_dset_other; [rewrite D; cbn; eauto|]. intros Q.
    assert (X : forall x y z : string, (x ++ y = x ++ z)%string -> y = z) by (induction x; cbn; intros y z H; [exact H|injection H as H; auto]).
    apply X in Q. apply (X "."%string) in Q. apply X in Q. discriminate. }
  destruct (known c) eqn:K.
  - unfold create. rewrite K. cbn [bind].
    assert (Z : forall t, (c ++ String "." t)%string <> c).
    { intros t Q. assert (Q' := f_equal String.length Q). assert (L2 : forall x y, String.length (x ++ y) = String.length x + String.length y) by (induction x; cbn; intros; [reflexivity|f_equal; auto]).
      rewrite L2 in Q'. cbn in Q'. lia. }
    destruct (G (mkCstate (h ++ [new_obj empty_lists c]) (dset [] c (length h))) (length h)) as [e Ee].
    { cbn [c_objs dset dget]. destruct (String.eqb_spec c (c ++ "." ++ l ++ "[00]")) as [Q|]; [exfalso; symmetry in Q; exact (Z _ Q)|reflexivity]. }
    { intros j. cbn [c_objs dset dget]. destruct (String.eqb_spec c (c ++ "." ++ l ++ "[" ++ str_of j ++ "]")) as [Q|]; [exfalso; symmetry in Q; exact (Z _ Q)|reflexivity]. }
    cbn [c_heap c_objs]. rewrite Ee. destruct v; [congruence| |]; cbn; eauto.
  - unfold create. rewrite K. destruct v; [congruence| |]; cbn; eauto.
Qed.
Print Assumptions C52_odd_index_fails.

(** Part of the schema of ditto/models. *)
Definition ex_elem (c l : string) : res string :=
  if String.eqb c "Line" && String.eqb l "wires" then Ok "Wire"
  else if String.eqb c "PowerTransformer" && String.eqb l "windings" then Ok "Winding"
  else if String.eqb c "Winding" && String.eqb l "phase_windings" then Ok "PhaseWinding" else Err EKey.
Definition ex_known (c : string) : bool := smem c ["Line"; "Wire"; "PowerTransformer"; "Winding"; "PhaseWinding"].
Definition ex_read := parse_csv ex_known (fun _ => []) ex_elem (fun _ _ v => Ok v).
Definition ex_cols : list path :=
  [mkPath "PowerTransformer" [] "name"; mkPath "PowerTransformer" [("windings", 1); ("phase_windings", 0)] "phase";
   mkPath "PowerTransformer" [("windings", 0)] "rated_power"].

Example C52_hypotheses_met : (forall p, In p ex_cols -> wf_path p) /\
  map render ex_cols = ["PowerTransformer.name"; "PowerTransformer.windings[1].phase_windings[0].phase"; "PowerTransformer.windings[0].rated_power"] /\
  exists h', ex_read (map render ex_cols) [[CStr "TR1"; CStr "A"; CNum (5 # 1)]; [CStr "TR2"; CEmpty; CNum (7 # 1)]] [] = Ok h' /\ length h' = 6 /\
    nav h' 0 [("windings", 1); ("phase_windings", 0)] = Some 3 /\ att h' 3 "phase" = Some (CStr "A") /\ att h' 0 "name" = Some (CStr "tr1") /\
    nav h' 4 [("windings", 0)] = Some 5 /\ lst h' 4 "windings" = [5].
Proof.
  split; [|split; [reflexivity|eexists; split; [vm_compute; reflexivity|repeat split; reflexivity]]].
  intros p [<-|[<-|[<-|[]]]]; (split; [split; [cbn; intuition discriminate|]|cbn; intuition discriminate]); intros l i H; cbn in H;
    intuition; match goal with E : (_, _) = (_, _) |- _ => injection E as <- <- end; cbn; intuition discriminate.
Qed.
