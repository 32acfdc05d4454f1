(** C65: the OpenDSS writer defines the wires, the cables and the geometries that its lines refer to. *)
From Verif Require Import Base BaseFacts CsvModel CsvProofs DssNameModel DssCodeModel DssCodeSpec DssCodeProofs.
From Coq Require Import QArith Lia.
Local Open Scope string_scope.
Local Open Scope nat_scope.
Local Open Scope list_scope.

(** The names of the lines and of their wires do not collide with generated ones, and no cable has the name of a wire. *)
Definition good_names (ls : list line) : Prop :=
  clean ["Wire"; "CNCable"] (wire_classes false ls ++ wire_classes true ls) /\
  (forall c, In c (wire_classes false ls) -> ~ In c (wire_classes true ls)) /\
  clean ["Geometry"] (line_classes ls).

(** A line is written with a geometry exactly if it has wires and all of them have the data. *)
Theorem C65_choice : forall l, use_geometry l = true <-> enough l.
Proof. exact use_geometry_spec. Qed.
Print Assumptions C65_choice.

(** Each of these lines ends up with the name of a geometry that is defined and stands for it: one conductor per wire, in
    order, each with the name of a wire (or, for underground lines, a cable) that is defined with the data of that wire.
    Nothing else of the line changes. *)
Theorem C65_geometries : forall ls ws cs gs ls', good_names (filter use_geometry ls) -> catalogue ls = Ok (ws, cs, gs, ls') ->
  Forall2 (fun l l' => exists c g ws', l' = set_lclass (set_lwires l ws') (Some c) /\ Forall2 (fun w w' => exists x, w' = set_wclass w x) (l_wires l) ws' /\
             dget gs c = Some g /\ geometry_of ws cs g l) (filter use_geometry ls) ls'.
Proof.
  intros ls ws cs gs ls' (Cl & Dj & Cg) E. unfold catalogue in E. destruct (write_wiredata ([], [], 1) (filter use_geometry ls)) as [[[ws1 cs1] cnt] ls1] eqn:Ew.
  destruct (write_linegeometry ws1 cs1 [] 1 ls1) as [[g1 ls2]|] eqn:Eg; [|discriminate]. cbn [bind fst snd] in E. injection E as <- <- <- <-.
  assert (En : Forall enough (filter use_geometry ls)) by (apply Forall_forall; intros l Hl; apply filter_In in Hl; apply use_geometry_spec, Hl).
  apply (write_wiredata_spec (wire_classes false (filter use_geometry ls)) (wire_classes true (filter use_geometry ls)) Cl) in Ew; [|split; [constructor|]; split; [constructor|]; exists (fun _ => False), (fun _ => False); repeat split; try contradiction; intros k Hk; exfalso; apply Hk; reflexivity|exact En|apply incl_refl|apply incl_refl].
  destruct Ew as (Gd & _ & F). eapply (write_geometry_spec _ _ Cl Dj ws1 cs1 cnt Gd _ Cg) with (J := fun _ => False) in Eg; [|exact F|apply incl_refl|intros k Hk; exfalso; apply Hk; reflexivity|contradiction|constructor].
  exact (proj2 Eg).
Qed.
Print Assumptions C65_geometries.

(** Whatever the names are, the run succeeds. *)
Theorem C65_succeeds : forall ls, exists out, catalogue ls = Ok out.
Proof.
  intros ls. unfold catalogue. destruct (write_wiredata ([], [], 1) (filter use_geometry ls)) as [[[ws1 cs1] cnt] ls1] eqn:Ew.
  assert (En : Forall enough (filter use_geometry ls)) by (apply Forall_forall; intros l Hl; apply filter_In in Hl; apply use_geometry_spec, Hl).
  apply wiredata_keeps in Ew; [|constructor|constructor|exact En]. destruct Ew as (_ & _ & K). destruct (write_geometry_total ws1 cs1 ls1 [] 1 K) as [r ->]. cbn. eauto.
Qed.
Print Assumptions C65_succeeds.

(** Nothing else is defined: every wire, cable and geometry of the files is one of the model. *)
Theorem C65_only : forall ls ws cs gs ls', catalogue ls = Ok (ws, cs, gs, ls') ->
  (forall k v, dget ws k = Some v -> exists l w, In l ls /\ enough l /\ In w (l_wires l) /\ l_type l <> Some "underground" /\ describes_wire v w) /\
  (forall k v, dget cs k = Some v -> exists l w, In l ls /\ enough l /\ In w (l_wires l) /\ l_type l = Some "underground" /\ describes_cable v w) /\
  (good_names (filter use_geometry ls) -> forall k g, dget gs k = Some g -> exists l, In l ls /\ enough l /\ geometry_of ws cs g l).
Proof.
  intros ls ws cs gs ls' E. unfold catalogue in E. destruct (write_wiredata ([], [], 1) (filter use_geometry ls)) as [[[ws1 cs1] cnt] ls1] eqn:Ew.
  destruct (write_linegeometry ws1 cs1 [] 1 ls1) as [[g1 ls2]|] eqn:Eg; [|discriminate]. cbn [bind fst snd] in E. injection E as <- <- <- <-.
  assert (En : Forall enough (filter use_geometry ls)) by (apply Forall_forall; intros l Hl; apply filter_In in Hl; apply use_geometry_spec, Hl).
  assert (Inl : forall l, In l (filter use_geometry ls) -> In l ls /\ enough l) by (intros l Hl; split; [apply filter_In in Hl; apply Hl|rewrite Forall_forall in En; apply En, Hl]).
  assert (Fw : from_wires (filter use_geometry ls) ws1 cs1) by (apply (write_wiredata_from (filter use_geometry ls) _ ([], [], 1) (ws1, cs1, cnt) ls1 (incl_refl _)); [split; intros k v Q; discriminate Q|exact Ew]).
  destruct Fw as [Fw Fc]. split; [|split].
  - intros k v H. destruct (Fw k v H) as (l & w & Hl & Hw & Hu & ->). exists l, w. destruct (Inl l Hl). repeat (split; [assumption|]). split; [intros Q; apply underground_spec in Q; congruence|apply parse_wire_states].
  - intros k v H. destruct (Fc k v H) as (l & w & Hl & Hw & Hu & ->). exists l, w. destruct (Inl l Hl). repeat (split; [assumption|]). split; [apply underground_spec; exact Hu|apply parse_cable_states].
  - intros (Cl & Dj & Cg). apply (write_wiredata_spec (wire_classes false (filter use_geometry ls)) (wire_classes true (filter use_geometry ls)) Cl) in Ew; [|split; [constructor|]; split; [constructor|]; exists (fun _ => False), (fun _ => False); repeat split; try contradiction; intros k Hk; exfalso; apply Hk; reflexivity|exact En|apply incl_refl|apply incl_refl].
    destruct Ew as (Gd & _ & F). apply (write_geometry_from ws1 cs1 ls1 [] 1 g1 ls2); [intros k v Q; discriminate Q| |exact Eg].
    intros l' g Hl' Ep. assert (Hl : exists l, In l (filter use_geometry ls) /\ exists ws', l' = set_lwires l ws' /\ Forall2 same_wire (l_wires l) ws' /\ Forall (defined (ws1, cs1, cnt) (underground l)) ws').
    { clear - F Hl'. induction F as [|l l1 a b R F IH]; [destruct Hl'|]. destruct Hl' as [<-|H]; [exists l; split; [left; reflexivity|exact R]|destruct (IH H) as (l0 & H0 & H1); exists l0; split; [right; exact H0|exact H1]]. }
    destruct Hl as (l & Hl & ws' & -> & Sw & Df). exists l. destruct (Inl l Hl). repeat (split; [assumption|]). eapply geometry_spec; eauto.
Qed.
Print Assumptions C65_only.

(** Where all wires have names and equal names mean equal data, the wires keep their names. *)
Theorem C65_names : forall ls ws cs gs ls', consistent_names (filter use_geometry ls) -> catalogue ls = Ok (ws, cs, gs, ls') ->
  map l_wires ls' = map l_wires (filter use_geometry ls) /\
  (forall k, dget ws k <> None -> In k (wire_classes false ls)) /\ (forall k, dget cs k <> None -> In k (wire_classes true ls)).
Proof.
  intros ls ws cs gs ls' Cn E. unfold catalogue in E. destruct (write_wiredata ([], [], 1) (filter use_geometry ls)) as [[[ws1 cs1] cnt] ls1] eqn:Ew.
  destruct (write_linegeometry ws1 cs1 [] 1 ls1) as [[g1 ls2]|] eqn:Eg; [|discriminate]. cbn [bind fst snd] in E. injection E as <- <- <- <-.
  apply (write_wiredata_kept _ (consistent_spec _ Cn) _ _ _ _ (incl_refl _)) in Ew; [|split; intros k v Q; discriminate Q].
  cbn [fst snd] in Ew. destruct Ew as [[Ow Oc] ->]. split; [eapply write_geometry_wires, Eg|].
  assert (M : forall u l w k, In l (filter use_geometry ls) -> In w (l_wires l) -> underground l = u -> w_class w = Some k -> In k (wire_classes u ls)).
  { intros u l w k Hl Hw Hu Hk. apply filter_In in Hl. unfold wire_classes. apply in_flat_map. exists l. split; [apply Hl|]. rewrite Hu, Bool.eqb_reflx. apply in_flat_map. exists w. split; [exact Hw|]. rewrite Hk. left. reflexivity. }
  split; intros k Hk; [destruct (dget ws1 k) as [v|] eqn:Q|destruct (dget cs1 k) as [v|] eqn:Q]; try congruence; [destruct (Ow k v Q) as (l & w & H1 & H2 & H3 & H4 & _)|destruct (Oc k v Q) as (l & w & H1 & H2 & H3 & H4 & _)]; eapply M; eauto.
Qed.
Print Assumptions C65_names.

Definition wr (c : option string) (gmr : Q) : wire := mkWire (Some "A") c (Some 0%Q) (Some 10%Q) (Some gmr) (Some (1#100))%Q (Some 100%Q) None None None None None None None None.
Definition nw (c : option string) (gmr : Q) : wire := mkWire (Some "N") c (Some 0%Q) (Some 9%Q) (Some gmr) (Some (1#100))%Q (Some 100%Q) None None None None None None None None.
Definition cb (c : option string) (gmr : Q) : wire := mkWire (Some "B") c (Some 0%Q) (Some (-1)%Q) (Some gmr) (Some (1#100))%Q (Some 100%Q) None None (Some (1#1000))%Q (Some (1#500))%Q (Some (1#10))%Q (Some (1#200))%Q (Some (1#50))%Q (Some 10%Q).
Definition ohl (c : option string) (ws : list wire) : line := mkLine (Some "overhead") c ws None [] [] false None None.
Definition ugl (c : option string) (ws : list wire) : line := mkLine (Some "underground") c ws None [] [] false None None.

Definition dls : list line :=
  [ohl (Some "g") [wr (Some "ACSR") (1#100); nw None (1#200)]; ohl None []; ugl None [cb (Some "XLP") (1#300)];
   ohl (Some "g") [wr (Some "ACSR") (1#50)]; ugl None [cb (Some "XLP") (1#400); cb None (1#300)]; ohl None [wr None (1#50)]].
Example C65_hypotheses_met : good_names (filter use_geometry dls) /\ exists ws cs gs ls', catalogue dls = Ok (ws, cs, gs, ls') /\
  dkeys ws = ["ACSR"; "Wire_1"; "ACSR_2"] /\ dkeys cs = ["XLP"; "XLP_3"] /\ dkeys gs = ["g"; "Geometry_1"; "g_2"; "Geometry_3"] /\
  map (fun l => (l_class l, map w_class (l_wires l))) ls' =
  [(Some "g", [Some "ACSR"; Some "Wire_1"]); (Some "Geometry_1", [Some "XLP"]); (Some "g_2", [Some "ACSR_2"]); (Some "Geometry_3", [Some "XLP_3"; Some "XLP"]); (Some "g_2", [Some "ACSR_2"])].
Proof.
  split; [|do 4 eexists; split; [vm_compute; reflexivity|]; repeat split; vm_compute; reflexivity].
  assert (V : forall c k g, (forall x, In x g -> length (split_on "_" x) = 1) -> ~ In (variant c k) g).
  { intros c k g H Q. apply H in Q. rewrite variant_split, app_length in Q. cbn in Q. assert (Z := split_nonnil "_" c). destruct (split_on "_" c); [congruence|cbn in Q; lia]. }
  split; [|split].
  - intros c k _. apply V. intros x Hx. vm_compute in Hx. repeat (destruct Hx as [<-|Hx]; [reflexivity|]). destruct Hx.
  - intros c H1 H2. vm_compute in H1, H2. intuition congruence.
  - intros c k _. apply V. intros x Hx. vm_compute in Hx. repeat (destruct Hx as [<-|Hx]; [reflexivity|]). destruct Hx.
Qed.

Example C65_names_hypotheses_met : consistent_names (filter use_geometry [ohl None [wr (Some "a") 1; nw (Some "b") 2]; ohl None [wr (Some "b") 2]; ugl None [cb (Some "a") 5]]).
Proof.
  split; [intros l w Hl Hw; vm_compute in Hl; repeat (destruct Hl as [<-|Hl]; [vm_compute in Hw; repeat (destruct Hw as [<-|Hw]; [intros Q; discriminate Q|]); destruct Hw|]); destruct Hl|].
  intros l1 l2 w1 w2 H1 H2 W1 W2 Ec. vm_compute in H1, H2.
  repeat (destruct H1 as [<-|H1]; [|]); try destruct H1; repeat (destruct H2 as [<-|H2]; [|]); try destruct H2;
  cbn in W1, W2; repeat (destruct W1 as [<-|W1]; [|]); try destruct W1; repeat (destruct W2 as [<-|W2]; [|]); try destruct W2; try discriminate Ec;
  (split; intros T1 T2; [try (exfalso; apply T1; reflexivity); try (exfalso; apply T2; reflexivity)|try discriminate T1; try discriminate T2]); repeat split; cbn; try reflexivity; exact I.
Qed.

(** The full statement fails: a wire is named A_1; then two different wires are named A, and the second of them gets the
    name A_1, whose definition is overwritten.  The first line now uses a wire that is not its own. *)
Theorem C65_capture_refuted : exists ls ws cs gs ls' l l' g d w, catalogue ls = Ok (ws, cs, gs, ls') /\
  hd_error ls = Some l /\ hd_error ls' = Some l' /\ enough l /\ l_class l' = Some "g" /\ dget gs "g" = Some g /\ l_wires l = [w] /\ g_conds g = [d] /\ In ("Wire", DStr "A_1") d /\
  exists v, dget ws "A_1" = Some v /\ ~ describes_wire v w.
Proof.
  exists [ohl (Some "g") [wr (Some "A_1") 1]; ohl (Some "h") [wr (Some "A") 2]; ohl (Some "i") [wr (Some "A") 3]]. do 9 eexists. split; [vm_compute; reflexivity|]. split; [reflexivity|]. split; [reflexivity|].
  split; [apply use_geometry_spec; reflexivity|]. split; [reflexivity|]. split; [vm_compute; reflexivity|]. split; [reflexivity|]. split; [reflexivity|]. split; [right; left; reflexivity|].
  eexists. split; [vm_compute; reflexivity|]. intros (H & _). destruct (proj2 (H 1%Q)) as (q & Hq & Eq); [exists 1%Q; split; reflexivity|]. cbn in Hq.
  destruct Hq as [Hq|Hq]; [injection Hq as <-; discriminate Eq|]. intuition discriminate.
Qed.
Print Assumptions C65_capture_refuted.

(** A wire and a cable of the same name: the underground line refers to the wire. *)
Theorem C65_cable_refuted : exists ls ws cs gs l' l2' g d, catalogue ls = Ok (ws, cs, gs, [l'; l2']) /\ map l_type ls = [Some "overhead"; Some "underground"] /\ Forall enough ls /\
  l_class l2' = Some "h" /\ dget gs "h" = Some g /\ g_conds g = [d] /\ In ("Wire", DStr "A") d /\ ~ In ("CNCable", DStr "A") d /\ dget cs "A" <> None.
Proof.
  exists [ohl (Some "g") [wr (Some "A") 1]; ugl (Some "h") [cb (Some "A") 2]]. do 7 eexists. split; [vm_compute; reflexivity|]. split; [reflexivity|].
  split; [repeat (apply Forall_cons; [apply use_geometry_spec; reflexivity|]); apply Forall_nil|]. split; [reflexivity|]. split; [vm_compute; reflexivity|]. split; [reflexivity|]. split; [right; left; reflexivity|].
  split; [intros H; cbn in H; intuition discriminate|vm_compute; discriminate].
Qed.
Print Assumptions C65_cable_refuted.
