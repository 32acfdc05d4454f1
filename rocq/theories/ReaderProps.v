(** The base reader (C51, C54, C55, C58). *)
From Verif Require Import Base BaseFacts ReaderModel ReaderSpec ReaderProofs.
Local Open Scope string_scope.
Local Open Scope list_scope.

(** ** C51: default values *)

(** Every object keeps its class and every attribute the table of defaults does not cover; a
    covered attribute becomes None (remove flag) or the entry of the table; matrices that the
    object has are converted. *)
Theorem C51_effect V none cmatrix zmatrix flag file m m' :
  parse_default_values V none cmatrix zmatrix flag file m = Ok m' ->
  Forall2 (defaulted V none cmatrix zmatrix flag (match file with Some t => t | None => [("Line", [])] end)) m m'.
Proof. intros E. eapply mapM_rel; [|exact E]. intros o o' H. exact (one_object V none cmatrix zmatrix flag _ o o' H). Qed.
Print Assumptions C51_effect.

(** With the remove flag it never fails, if the table has a Line section or there is none. *)
Theorem C51_remove_succeeds V none cmatrix zmatrix file m :
  (forall t, file = Some t -> dget t "Line" <> None) ->
  exists m', parse_default_values V none cmatrix zmatrix true file m = Ok m'.
Proof. intros H. apply remove_total. destruct file as [t|]; [apply H; reflexivity|discriminate]. Qed.
Print Assumptions C51_remove_succeeds.

(** An attribute that the given table does not mention is overwritten with None. *)
Theorem C51_unmentioned_refuted : exists t o o', dget t "Load" = None /\
  parse_default_values (option Z) None (fun x => x) (fun x _ => Ok x) false (Some t) [o] = Ok [o'] /\
  dget (d_attrs _ o) "vmin" = Some (Some 95%Z) /\ dget (d_attrs _ o') "vmin" = Some None.
Proof.
  exists [("Line", [])], (mkDobj _ "Load" [("vmin", Some 95%Z)]). eexists. split; [reflexivity|]. split; [vm_compute; reflexivity|]. split; reflexivity.
Qed.
Print Assumptions C51_unmentioned_refuted.

(** Objects get attributes of other classes. *)
Theorem C51_foreign_attributes_refuted : exists t o o',
  parse_default_values (option Z) None (fun x => x) (fun x _ => Ok x) false (Some t) [o] = Ok [o'] /\
  d_class _ o = "Node" /\ dget (d_attrs _ o) "faultrate" = None /\ dget (d_attrs _ o') "faultrate" = Some (Some 1%Z).
Proof. exists [("Line", [("faultrate", Some 1%Z)])], (mkDobj _ "Node" []). eexists. split; [vm_compute; reflexivity|]. repeat split. Qed.
Print Assumptions C51_foreign_attributes_refuted.

Example C51_hypotheses_met : exists m', parse_default_values (option Z) None (fun x => x) (fun x _ => Ok x) false
  (Some [("Line", [("cmatrix", Some 7%Z)]); ("Load", [("connection_type", Some 3%Z)])])
  [mkDobj _ "Load" [("connection_type", None); ("p", Some 2%Z)]; mkDobj _ "Line" [("capacitance_matrix", None)]] = Ok m' /\
  listed "Load" "connection_type" "Load" "connection_type" /\ (forall s k, ~ listed "Load" "p" s k).
Proof.
  eexists. split; [vm_compute; reflexivity|]. split; [right; cbn; auto 20|].
  intros s k [H|[H _]]; cbn in H; intuition congruence.
Qed.

(** ** C54: combine *)

Theorem C54_combine {V} (ds : list (list (string * V))) k v : (forall d, In d ds -> NoDup (map fst d)) ->
  (dget (combine_dicts ds) k = Some v <-> last_value ds k v) /\
  (dget (combine_dicts ds) k = None <-> forall d, In d ds -> dget d k = None) /\
  NoDup (map fst (combine_dicts ds)).
Proof.
  intros N. change (combine_dicts ds) with (fold_left dict_update ds (@nil (string * V))).
  destruct (combine_spec ds [] k N) as [(w & L & E)|[Hn E]]; rewrite E.
  - split; [split; [intros Q; injection Q as <-; exact L|intros L'; f_equal; exact (last_value_fun _ _ _ _ L L')]|].
    split; [|apply combine_NoDup; constructor]. split; [discriminate|]. intros H. destruct L as (b & d & a & Ed & Ev & _).
    rewrite (H d) in Ev; [discriminate|]. rewrite Ed. apply in_app_iff. right. left. reflexivity.
  - split; [split; [discriminate|]|split; [|apply combine_NoDup; constructor]].
    + intros (b & d & a & Ed & Ev & _). rewrite (Hn d) in Ev; [discriminate|]. rewrite Ed. apply in_app_iff. right. left. reflexivity.
    + split; [intros _; exact Hn|reflexivity].
Qed.
Print Assumptions C54_combine.

Example C54_hypotheses_met : combine_dicts [[("a", 1); ("b", 2)]; []; [("b", 3); ("c", 4)]] = [("a", 1); ("b", 3); ("c", 4)].
Proof. reflexivity. Qed.

(** ** C55: parse order *)

(** parse leaves exactly the model and the exception of running the parsers in the documented
    order, the default values last and only if they are configured. *)
Theorem C55_order M (r : reader M) m m' e : (forall f, r_files M r = Some f -> fst f <> None /\ snd f <> None) ->
  parse M r m = (m', e) <->
  in_order ([r_nodes M r; r_lines M r; r_transformers M r; r_loads M r; r_regulators M r; r_generators M r; r_capacitors M r; r_dg M r] ++
            match r_files M r with
            | Some (Some true, _) | Some (_, Some true) => [r_defaults M r]
            | _ => []
            end) m m' e.
Proof.
  intros F. unfold parse.
  assert (H0 : forall m' e, r_nodes M r m = (m', e) <-> in_order [r_nodes M r] m m' e) by (intros; symmetry; apply in_order_one).
  assert (H1 := and_then_order _ (r_lines M r) _ _ H0). assert (H2 := and_then_order _ (r_transformers M r) _ _ H1).
  assert (H3 := and_then_order _ (r_loads M r) _ _ H2). assert (H4 := and_then_order _ (r_regulators M r) _ _ H3).
  assert (H5 := and_then_order _ (r_generators M r) _ _ H4). assert (H6 := and_then_order _ (r_capacitors M r) _ _ H5).
  assert (H7 := and_then_order _ (r_dg M r) _ _ H6). cbn [app] in H7.
  set (s := and_then M _ (r_dg M r)) in *. clearbody s. clear - F H7.
  unfold parse_defaults_if. destruct (r_files M r) as [[[[|]|] [[|]|]]|] eqn:Q;
    try (exfalso; destruct (F _ eq_refl) as [A B]; cbn in A, B; congruence).
  - exact (and_then_order _ (r_defaults M r) m s H7 m' e).
  - exact (and_then_order _ (r_defaults M r) m s H7 m' e).
  - exact (and_then_order _ (r_defaults M r) m s H7 m' e).
  - rewrite app_nil_r. rewrite <- H7. destruct s as [ms [x|]]; reflexivity.
  - rewrite app_nil_r. rewrite <- H7. destruct s as [ms [x|]]; reflexivity.
Qed.
Print Assumptions C55_order.

(** A reader that notes the calls: the lines parser raises. *)
Definition note (n : nat) (e : option exn) : parser (list nat) := fun m => (m ++ [n], e).
Example C55_hypotheses_met :
  let r e := mkReader (list nat) (note 0 None) (note 1 e) (note 2 None) (note 3 None) (note 4 None) (note 5 None) (note 6 None) (note 7 None)
               (note 8 None) (Some (Some false, Some true)) in
  parse _ (r None) [] = ([0; 1; 2; 3; 4; 5; 6; 7; 8], None) /\ parse _ (r (Some EValue)) [] = ([0; 1], Some EValue) /\
  forall e f, r_files _ (r e) = Some f -> fst f <> None /\ snd f <> None.
Proof. cbv zeta. split; [reflexivity|]. split; [reflexivity|]. intros e f E. injection E as <-. split; discriminate. Qed.

(** ** C58: update_dict *)

(** With separate inner dictionaries the result holds, at every pair of keys, the entry of the
    second dictionary or else that of the first; dictionaries that belong to no shared key stay. *)
Theorem C58_update_dict {V} (h : heap V) d1 d2 : separate h d1 d2 ->
  exists h' d', update_dict h d1 d2 = Ok (h', d') /\
    (forall k l, at2 h' d' k l = match at2 h d2 k l with Some v => Some v | None => at2 h d1 k l end) /\
    (forall k, (In k (map fst d1) \/ In k (map fst d2)) <-> In k (map fst d')) /\
    (forall k l, at2 h' d2 k l = at2 h d2 k l).
Proof.
  intros S. destruct (update_dict_run d2 h d1 S) as (h' & d' & E & L & A & K & U). exists h', d'.
  split; [exact E|]. split; [exact A|]. split; [exact K|]. intros k l. unfold at2. destruct (dget d2 k) as [r|] eqn:Er; [|reflexivity].
  rewrite U; [reflexivity|]. intros k' Hk' _. destruct S as (_ & _ & _ & Sep & _). exact (Sep k' r k r Hk' (dget_In _ _ _ Er) eq_refl).
Qed.
Print Assumptions C58_update_dict.

(** Afterwards the first dictionary shares inner dictionaries with the second: a further update
    of the first changes the second. *)
Theorem C58_sharing_refuted : exists (h : heap nat) d1 d2 d3 h1 e1 h2 e2,
  separate h d1 d2 /\ separate h d2 d3 /\ separate h d1 d3 /\
  update_dict h d1 d2 = Ok (h1, e1) /\ update_dict h1 e1 d3 = Ok (h2, e2) /\
  at2 h d2 "k" "x" = Some 1 /\ at2 h2 d2 "k" "x" = Some 2.
Proof.
  exists [[("x", 1)]; [("x", 2)]], [], [("k", 0)], [("k", 1)].
  eexists; eexists; eexists; eexists.
  assert (W : forall r e, nth_error [[("x", 1)]; [("x", 2)]] r = Some e -> NoDup (map fst e)).
  { intros [|[|[|r]]] e E; cbn in E; try discriminate; injection E as <-; repeat constructor; intros []. }
  split; [|split; [|split; [|split; [vm_compute; reflexivity|split; [vm_compute; reflexivity|split; reflexivity]]]]];
  (split; [repeat constructor; intros []|]; split; [repeat constructor; intros []|]; split;
    [intros k r [H|H]; cbn in H; intuition; try discriminate; match goal with E : (_, _) = (_, _) |- _ => injection E as <- <- end; cbn; lia|]; split;
    [intros k r k' r' H H'; cbn in H, H'; intuition; congruence|]; split; [intros k k' r H H'; cbn in H, H'; intuition; congruence|];
    split; [intros k k' r H H'; cbn in H, H'; intuition; congruence|exact W]).
Qed.
Print Assumptions C58_sharing_refuted.

Example C58_hypotheses_met : let h := [[("x", 1)]; [("x", 2); ("y", 3)]] in separate h [("k", 0)] [("k", 1)] /\
  exists h', update_dict h [("k", 0)] [("k", 1)] = Ok (h', [("k", 0)]) /\ at2 h' [("k", 0)] "k" "x" = Some 2.
Proof.
  cbv zeta. split; [|eexists; split; reflexivity].
  split; [repeat constructor; intros []|]. split; [repeat constructor; intros []|]. split.
  - intros k r [[H|[]]|[H|[]]]; injection H as <- <-; cbn; lia.
  - split; [intros k r k' r' [H|[]] [H'|[]]; congruence|]. split; [intros k k' r [H|[]] [H'|[]]; congruence|].
    split; [intros k k' r [H|[]] [H'|[]]; congruence|]. intros [|[|[|r]]] e E; cbn in E; try discriminate; injection E as <-; repeat constructor; cbn; intuition congruence.
Qed.
