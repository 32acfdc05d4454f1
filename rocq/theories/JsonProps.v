(** JSON round trip (C31). *)
From Verif Require Import Base BaseFacts JsonModel JsonSpec JsonProofs.
Local Open Scope string_scope.
Local Open Scope list_scope.

(** ** C31: writing a model and reading it back *)

(** For every model of supported objects the writer and the reader succeed and every object that
    is not a part of another one comes back, in order, with its class and attribute values. *)
Theorem C31_round_trip (dflt : string -> list (string * pv)) m k :
  (forall o, In o m -> object_ok dflt o) -> whole m k ->
  exists j m', write_model m = Ok j /\ read_model dflt (reload j) = Ok m' /\ Forall2 (kept dflt) k m'.
Proof. exact (round_trip dflt m k). Qed.
Print Assumptions C31_round_trip.

(** The written file: one entry per object, in order, under its class, with an entry for its name and for each of its
    attributes; and the number of objects. *)
Lemma write_object_keys c l j : write_object (c, l) = Ok j -> exists d, j = JDict d /\
  (forall a, In a (dkeys d) <-> a = "class" \/ a = "name" \/ In a (dkeys l)) /\ (~ In "class" (dkeys l) -> dget d "class" = Some (JLeaf (SText c))).
Proof.
  unfold write_object. set (nm := match dget l "name" with Some v => raw v | None => JLeaf SNone end). clearbody nm.
  set (d0 := [("class", JLeaf (SText c)); ("name", entry "str" nm)]). 
  assert (H0 : (forall a, In a (dkeys d0) <-> a = "class" \/ a = "name" \/ In a (@nil string)) /\ dget d0 "class" = Some (JLeaf (SText c))).
  { split; [|reflexivity]. intros a. cbn. intuition congruence. }
  assert (G : forall l d seen d', ((forall a, In a (dkeys d) <-> a = "class" \/ a = "name" \/ In a seen) /\ (~ In "class" seen -> dget d "class" = Some (JLeaf (SText c)))) ->
    foldM (fun d (p : string * pv) => do j <- write_trait (fst p) (snd p); Ok (dset d (fst p) j)) l d = Ok d' ->
    (forall a, In a (dkeys d') <-> a = "class" \/ a = "name" \/ In a seen \/ In a (dkeys l)) /\ (~ In "class" seen -> ~ In "class" (dkeys l) -> dget d' "class" = Some (JLeaf (SText c)))).
  { clear. induction l as [|[k v] l IH]; intros d seen d' [H1 H2] E; cbn [foldM] in E.
    - injection E as <-. split; [intros a; rewrite H1; cbn; tauto|auto].
    - cbn [fst snd] in E. destruct (write_trait k v) as [j|] eqn:W; cbn [bind] in E; [|discriminate].
      destruct (IH (dset d k j) (k :: seen) d') as [I1 I2].
      + split.
        * intros a. rewrite In_dkeys_dset, H1. cbn [In]. intuition.
        * intros N. rewrite dget_dset_other; [apply H2; intros C; apply N; right; exact C|intros C; apply N; left; congruence].
      + exact E.
      + split.
        * intros a. rewrite I1. cbn [dkeys map fst In]. tauto.
        * intros N1 N2. apply I2; [intros [C|C]; [apply N2; left; exact C|contradiction]|intros C; apply N2; right; exact C]. }
  match goal with |- (do d <- ?X; _) = _ -> _ => destruct X as [d|] eqn:F end; cbn [bind]; [|discriminate]. intros E. injection E as <-. exists d. split; [reflexivity|].
  destruct (G l d0 [] d) as [G1 G2]; [split; [exact (proj1 H0)|intros _; exact (proj2 H0)]|exact F|].
  split; [intros a; rewrite G1; cbn; tauto|]. intros N. apply G2; [intros []|exact N].
Qed.
Theorem C31_file (m : list (string * list (string * pv))) j : write_model m = Ok j ->
  exists d js md, j = JDict d /\ dget d "model" = Some (JList js) /\ dget d "metadata" = Some (JDict md) /\
    dget md "model_size" = Some (JLeaf (SInt (Z.of_nat (length m)))) /\
    Forall2 (fun o x => exists l, x = JDict l /\ (forall a, In a (dkeys l) <-> a = "class" \/ a = "name" \/ In a (dkeys (snd o))) /\
                       (~ In "class" (dkeys (snd o)) -> dget l "class" = Some (JLeaf (SText (fst o))))) m js.
Proof.
  unfold write_model. destruct (mapM write_object m) as [js|] eqn:E; cbn [bind]; [|discriminate]. intros H. injection H as <-.
  eexists. exists js. eexists. split; [reflexivity|]. split; [reflexivity|]. split; [reflexivity|]. split; [reflexivity|].
  apply mapM_Forall2 in E. induction E as [|[c l] x m js W E IH]; constructor; [|exact IH]. exact (write_object_keys c l x W).
Qed.
Print Assumptions C31_file.

(** A small table of defaults: excerpts of the classes. *)
Definition jdflt (c : string) : list (string * pv) :=
  if String.eqb c "Line" then
    [("name", PVal SNone); ("wires", PList []); ("impedance_matrix", PList []); ("length", PVal (SInt 0)); ("nominal_voltage", PVal SNone)]
  else if String.eqb c "Wire" then [("phase", PVal SNone); ("ampacity", PVal SNone)]
  else if String.eqb c "PowerTransformer" then [("name", PVal SNone); ("windings", PList []); ("reactances", PList [])]
  else if String.eqb c "Winding" then [("connection_type", PVal SNone); ("phase_windings", PList [])]
  else if String.eqb c "PhaseWinding" then [("phase", PVal SNone); ("tap_position", PVal SNone)]
  else if String.eqb c "Storage" then [("name", PVal SNone); ("phase_storages", PList [])]
  else if String.eqb c "Load" then [("name", PVal (SText "")); ("phase_loads", PList [])]
  else [("name", PVal SNone)].

Definition jwire : pv := PObj "Wire" [("phase", PVal (SText "A")); ("ampacity", PVal (SNpFloat 600))].
Definition jwinding : list (string * pv) :=
  [("connection_type", PVal (SText "Y")); ("phase_windings", PList [PObj "PhaseWinding" [("phase", PVal (SText "B")); ("tap_position", PVal SNone)]])].
Definition jm : list (string * list (string * pv)) :=
  [("Wire", [("phase", PVal (SText "A")); ("ampacity", PVal (SNpFloat 600))]);
   ("Line", [("name", PVal (SText "l1")); ("wires", PList [jwire]); ("nominal_voltage", PVal SNone);
             ("impedance_matrix", PList [PList [PVal (SCplx 1 2); PVal (SFloat 3)]])]);
   ("Winding", jwinding);
   ("PowerTransformer", [("reactances", PList [PVal (SFloat 7)]); ("windings", PList [PObj "Winding" jwinding]); ("is_open", PVal (SBool true))])].

Ltac nodup := split; [repeat constructor; cbn; intuition congruence|cbn; intuition congruence].
Lemma jwire_part : part jdflt "Wire" [("phase", PVal (SText "A")); ("ampacity", PVal (SNpFloat 600))].
Proof.
  split; [nodup|]. intros a v [E|[E|[]]]; injection E as <- <-; left; eexists; split; try reflexivity; exact I.
Qed.
Lemma jwinding_ok : winding_ok jdflt jwinding.
Proof.
  split; [nodup|]. intros a v [E|[E|[]]]; injection E as <- <-.
  - left. split; [discriminate|]. left. eexists. split; [reflexivity|exact I].
  - right. split; [reflexivity|]. eexists. split; [reflexivity|]. intros p [<-|[]]. eexists. split; [reflexivity|]. split; [nodup|].
    intros a v [E|[E|[]]]; injection E as <- <-; [left; eexists; split; [reflexivity|exact I]|right; split; reflexivity].
Qed.

Example C31_hypotheses_met :
  (forall o, In o jm -> object_ok jdflt o) /\ whole jm [nth 1 jm ("", []); nth 3 jm ("", [])] /\
  exists j l1 l2, write_model jm = Ok j /\ read_model jdflt (reload j) = Ok [("Line", l1); ("PowerTransformer", l2)] /\
    dget l1 "wires" = Some (PList [jwire]) /\ dget l1 "length" = Some (PVal (SInt 0)) /\
    dget l2 "name" = Some (PVal (SText "None")).
Proof.
  split; [|split].
  - intros o [<-|[<-|[<-|[<-|[]]]]].
    + left. split; [cbn; auto 20|]. split; [left; exact jwire_part|]. cbn. intuition congruence.
    + right. split; [cbn; auto 20|]. split; [nodup|]. intros a v [E|[E|[E|[E|[]]]]]; injection E as <- <-.
      * right. split; [cbn; intuition congruence|]. left. left. eexists. split; [reflexivity|exact I].
      * right. split; [cbn; intuition congruence|]. right. right. eexists. split; [reflexivity|]. intros x [<-|[]]. right. right. left.
        eexists; eexists. split; [reflexivity|]. split; [cbn; auto|exact jwire_part].
      * right. split; [cbn; intuition congruence|]. left. right. split; reflexivity.
      * left. split; [cbn; auto 20|]. eexists. split; [reflexivity|]. intros x [<-|[]]. right. eexists. split; [reflexivity|].
        intros y [<-|[<-|[]]]; eexists; (split; [reflexivity|]); [right; eauto|left; exact I].
    + left. split; [cbn; auto 20|]. split; [right; split; [reflexivity|exact jwinding_ok]|]. cbn. intuition congruence.
    + right. split; [cbn; auto 20|]. split; [nodup|]. intros a v [E|[E|[E|[]]]]; injection E as <- <-.
      * left. split; [cbn; auto 20|]. eexists. split; [reflexivity|]. intros x [<-|[]]. left. eexists. split; [reflexivity|left; exact I].
      * right. split; [cbn; intuition congruence|]. right. right. eexists. split; [reflexivity|]. intros x [<-|[]]. right. right. right.
        eexists. split; [reflexivity|exact jwinding_ok].
      * right. split; [cbn; intuition congruence|]. left. left. eexists. split; [reflexivity|exact I].
  - apply whole_part; [cbn; auto 20|]. apply whole_keep; [cbn; intuition congruence|]. apply whole_part; [cbn; auto 20|].
    apply whole_keep; [cbn; intuition congruence|]. constructor.
  - eexists; eexists; eexists. split; [vm_compute; reflexivity|]. split; [vm_compute; reflexivity|]. repeat split; reflexivity.
Qed.

(** The phase storages of a storage do not survive, though both steps succeed. *)
Theorem C31_phase_storages_refuted : exists v j l,
  write_model [("Storage", [("name", PVal (SText "s")); ("phase_storages", PList [v])])] = Ok j /\
  read_model jdflt (reload j) = Ok [("Storage", l)] /\ dget l "phase_storages" = Some (PList []).
Proof. exists (PObj "PhaseStorage" [("phase", PVal (SText "A"))]). eexists; eexists. split; [reflexivity|]. split; vm_compute; reflexivity. Qed.
Print Assumptions C31_phase_storages_refuted.

(** A model with a reactor is written but cannot be read. *)
Theorem C31_reactor_refuted : exists l j,
  write_model [("Reactor", l)] = Ok j /\ read_model jdflt (reload j) = Err EValue.
Proof. exists [("name", PVal (SText "r"))]. eexists. split; vm_compute; reflexivity. Qed.
Print Assumptions C31_reactor_refuted.

(** An attribute set to None comes back as its default. *)
Theorem C31_none_refuted : exists j l,
  write_model [("Line", [("name", PVal (SText "l")); ("length", PVal SNone)])] = Ok j /\
  read_model jdflt (reload j) = Ok [("Line", l)] /\ dget l "length" = Some (PVal (SInt 0)).
Proof. eexists; eexists. split; [reflexivity|]. split; vm_compute; reflexivity. Qed.
Print Assumptions C31_none_refuted.

(** A line whose impedance matrix is None cannot be written. *)
Theorem C31_none_matrix_refuted :
  write_model [("Line", [("name", PVal (SText "l")); ("impedance_matrix", PVal SNone)])] = Err EType.
Proof. reflexivity. Qed.
Print Assumptions C31_none_matrix_refuted.
