(** Lemmas for C127. *)
From Coq Require Import QArith.
From Verif Require Import Base BaseFacts UnitsModel WmLineModel WmLineSpec.
Local Open Scope string_scope.
Local Open Scope list_scope.
Local Open Scope nat_scope.

Lemma known_cases p : known p ->
  p = "A" \/ p = "B" \/ p = "C" \/ p = "AB" \/ p = "AC" \/ p = "BC" \/ p = "ABC".
Proof. unfold known; cbn; intros H; intuition congruence. Qed.

Lemma letters_known p : known p -> Forall (fun x => x = "A" \/ x = "B" \/ x = "C") (letters p).
Proof. intros H; destruct (known_cases _ H) as [->|[->|[->|[->|[->|[->| ->]]]]]]; cbn; repeat (constructor; [tauto|]); constructor. Qed.

Lemma letters_nonempty p : known p -> letters p <> [].
Proof. intros H; destruct (known_cases _ H) as [->|[->|[->|[->|[->|[->| ->]]]]]]; cbn; discriminate. Qed.

(** The dictionary: the places of the letters, and then some 3s. *)
Definition tab_ok (tab : @dict (list nat)) : Prop :=
  (forall p l, dget tab p = Some l ->
     known p /\ exists x, l = map place (letters p) ++ x /\ Forall (eq 3) x)
  /\ (forall p, known p -> exists l, dget tab p = Some l).

Lemma tab_ok_start : tab_ok phase_2_index.
Proof.
  split.
  - intros p l H. unfold phase_2_index in H; cbn [dget] in H.
    repeat match type of H with
    | (if String.eqb ?a p then _ else _) = _ =>
        destruct (String.eqb_spec a p) as [<-|?];
        [injection H as <-; split; [unfold known; cbn; tauto | exists []; split; [reflexivity | constructor]] | ]
    end. discriminate.
  - intros p H; destruct (known_cases _ H) as [->|[->|[->|[->|[->|[->| ->]]]]]]; eexists; reflexivity.
Qed.

Lemma tab_ok_dset tab p l n : tab_ok tab -> dget tab p = Some l -> n <= 1 ->
  tab_ok (dset tab p (l ++ seq 3 n)).
Proof.
  intros [H1 H2] Hp Hn. split.
  - intros q l' Hq. rewrite dget_dset in Hq.
    destruct (String.eqb p q) eqn:E.
    + apply String.eqb_eq in E; subst q. injection Hq as <-.
      destruct (H1 _ _ Hp) as [Hk [x [-> Hx]]]. split; [exact Hk|].
      exists (x ++ seq 3 n). rewrite app_assoc. split; [reflexivity|].
      apply Forall_app; split; [exact Hx|].
      destruct n as [|[|n]]; [constructor | repeat constructor | lia].
    + eapply H1; exact Hq.
  - intros q Hq. rewrite dget_dset. destruct (String.eqb p q); eauto.
Qed.

Lemma combine_app_r {A B} (a : list A) (b : list B) a2 b2 : length a = length b ->
  combine (a ++ a2) (b ++ b2) = combine a b ++ combine a2 b2.
Proof. revert b; induction a as [|x a IH]; intros [|y b] H; cbn in *; try discriminate; [reflexivity|]. f_equal. apply IH. lia. Qed.

Lemma combine_map {A B} (f : A -> B) l : combine l (map f l) = map (fun x => (x, f x)) l.
Proof. induction l as [|x l IH]; cbn; [reflexivity | now rewrite IH]. Qed.

Lemma combine_short {A B} (f : A -> B) l x : combine l (map f l ++ x) = map (fun x => (x, f x)) l.
Proof.
  rewrite <- (app_nil_r l) at 1. rewrite combine_app_r; [|now rewrite map_length].
  cbn. rewrite app_nil_r. apply combine_map.
Qed.

Lemma pairs_of e x : Forall (eq 3) x -> e_neutrals e <= 1 ->
  combine (letters (e_phases e) ++ repeat "N" (e_neutrals e))
          ((map place (letters (e_phases e)) ++ x) ++ seq 3 (e_neutrals e))
  = map (fun p => (p, place p)) (wires_of e).
Proof.
  intros Hx Hn. rewrite <- app_assoc, combine_app_r by now rewrite map_length.
  unfold wires_of. rewrite map_app, combine_map. f_equal.
  destruct (e_neutrals e) as [|[|n]]; [reflexivity | | lia].
  destruct Hx as [|y x <- Hx]; reflexivity.
Qed.

Lemma replaced_one c s : replaced [c] s (underscore c s).
Proof.
  unfold replaced. induction s as [|d s IH]; cbn; constructor; [|exact IH].
  destruct (Ascii.eqb_spec d c) as [->|N]; [left; auto|].
  right. split; [|reflexivity]. intros [E|[]]; congruence.
Qed.

Lemma replaced_two s : replaced [" "%char; "."%char] s (underscore "."%char (underscore " "%char s)).
Proof.
  unfold replaced. induction s as [|d s IH]; cbn; constructor; [|exact IH].
  destruct (Ascii.eqb_spec d " "%char) as [->|N]; [left; split; [auto | reflexivity]|].
  destruct (Ascii.eqb_spec d "."%char) as [->|N2]; [left; split; [auto | reflexivity]|].
  right. split; [|reflexivity]. intros [E|[E|[]]]; congruence.
Qed.

Section Line.
Context {M : Type}.
Variable v : env M.

Lemma line_loop e ps : forall ws0 m0 s,
  foldM (line_step v e) (map (fun p => (p, place p)) ps) (ws0, m0) = Ok s ->
  exists ws1, fst s = ws0 ++ ws1
    /\ Forall2 (fun p w => line_wire v e p (place p) = Ok w) ps ws1
    /\ (ps = [] /\ snd s = m0 \/ exists m, snd s = Some m
         /\ v_matrix v (negb (Nat.eqb (e_neutrals e) 0)) (fst s) = Ok m).
Proof.
  induction ps as [|p ps IH]; intros ws0 m0 s H; cbn [map foldM] in H.
  - injection H as <-. exists []. rewrite app_nil_r. split; [reflexivity|]. split; [constructor | left; auto].
  - unfold line_step at 1 in H. cbn [fst snd] in H.
    destruct (line_wire v e p (place p)) as [w|] eqn:Ew; cbn [bind] in H; [|discriminate].
    destruct (v_matrix v (negb (e_neutrals e =? 0)%nat) (ws0 ++ [w])) as [m|] eqn:Em; cbn [bind] in H; [|discriminate].
    destruct (IH _ _ _ H) as [ws1 [E1 [F1 C]]].
    exists (w :: ws1). rewrite E1, <- app_assoc. split; [reflexivity|].
    split; [now constructor|]. right.
    destruct C as [[-> C]|[m' [C1 C2]]].
    + inversion F1; subst ws1. exists m. split; [exact C|]. exact Em.
    + exists m'. split; [exact C1|]. rewrite E1, <- app_assoc in C2. exact C2.
Qed.

Lemma line_loop_ok e ps : (forall b ws, exists m, v_matrix v b ws = Ok m) ->
  Forall (fun p => exists w, line_wire v e p (place p) = Ok w) ps ->
  forall s0, exists s, foldM (line_step v e) (map (fun p => (p, place p)) ps) s0 = Ok s.
Proof.
  intros HM F. induction F as [|p ps [w Hw] F IH]; intros s0; cbn [map foldM]; [eauto|].
  unfold line_step at 1. cbn [fst snd]. rewrite Hw. cbn [bind].
  destruct (HM (negb (e_neutrals e =? 0)%nat) (fst s0 ++ [w])) as [m ->]. cbn [bind]. apply IH.
Qed.

Lemma q_one x : (x == 1 * x)%Q.
Proof. ring. Qed.

Lemma cell1_default r c x y : r_cell r c = Ok x -> (y == (3048 # 10000) * x)%Q ->
  cell1 r c (3048 # 10000) (if Qeq_bool y 0 then Some 1%Q else Some y).
Proof.
  intros Hc Hy. destruct (Qeq_bool y 0) eqn:E; exists x; eexists; split; try exact Hc; split; try reflexivity.
  - right. split; [|reflexivity]. apply Qeq_bool_iff in E. now rewrite <- Hy.
  - left. split; [|exact Hy]. rewrite <- Hy. now apply Qeq_bool_neq.
Qed.

Lemma conductor_spec e p name : (p = "A" \/ p = "B" \/ p = "C" \/ p = "N") ->
  conductor_name e (place p) = Ok name -> conductor e p name.
Proof.
  unfold conductor_name, conductor. intros Hp H.
  destruct (nth_error (e_conductors e) (place p)) as [[s|]|] eqn:E; [| |discriminate].
  - injection H as <-. now left.
  - right. split; [reflexivity|]. injection H as <-.
    destruct Hp as [->|[->|[->| ->]]]; reflexivity.
Qed.

Lemma line_wire_ok e p w : (p = "A" \/ p = "B" \/ p = "C" \/ p = "N") ->
  line_wire v e p (place p) = Ok w -> wire_ok (v_oh v) (v_ug v) e p w.
Proof.
  intros Hp H. unfold line_wire in H.
  destruct (conductor_name e (place p)) as [name|] eqn:En; cbn [bind] in H; [|discriminate].
  pose proof (conductor_spec _ _ _ Hp En) as Hc.
  destruct (String.eqb (e_type e) "overhead") eqn:Eo.
  - assert (Eu : String.eqb (e_type e) "underground" = false)
      by (apply String.eqb_eq in Eo; now rewrite Eo).
    rewrite Eu in H.
    destruct (first_row (v_oh v) name) as [r|] eqn:Er.
    + unfold overhead in H.
      destruct (r_cell r "Geometric Mean Radius") as [g|] eqn:E1; cbn [bind] in H; [|discriminate].
      destruct (r_cell r "Diameter") as [d|] eqn:E2; cbn [bind] in H; [|discriminate].
      destruct (r_cell r "Carrying Capacity") as [a|] eqn:E3; cbn [bind] in H; [|discriminate].
      destruct (r_cell r "Resistance @ 50") as [z|] eqn:E4; cbn [bind] in H; [|discriminate].
      injection H as <-. unfold wire_ok. do 5 (split; [reflexivity|]).
      exists name. split; [exact Hc|]. split; [eexists; split; [reflexivity | apply replaced_two]|].
      unfold data_of. rewrite Eo, Er. 
      split; [apply cell1_default with g; [exact E1 | reflexivity]|].
      split; [exists d; eexists; split; [exact E2|]; split; [reflexivity | reflexivity]|].
      split; [exists a; eexists; split; [exact E3|]; split; [reflexivity | apply q_one]|].
      exists z; eexists; split; [exact E4|]; split; [reflexivity | reflexivity].
    + injection H as <-. unfold wire_ok. do 5 (split; [reflexivity|]).
      exists name. split; [exact Hc|]. split; [eexists; split; [reflexivity | apply replaced_two]|].
      unfold data_of. rewrite Eo, Er. auto.
  - cbn [bind] in H. destruct (String.eqb (e_type e) "underground") eqn:Eu.
    + destruct (first_row (v_ug v) name) as [r|] eqn:Er.
      * unfold underground in H.
        destruct (r_cell r "Geometric Mean Radius In Feet") as [g|] eqn:E1; cbn [bind] in H; [|discriminate].
        destruct (r_cell r "GMR (Neutral) In Feed") as [cg|] eqn:E2; cbn [bind] in H; [|discriminate].
        destruct (r_cell r "Diameter of Conductor In Feet") as [d|] eqn:E3; cbn [bind] in H; [|discriminate].
        destruct (r_cell r "OD of Cable Insulation In Feet") as [i|] eqn:E4; cbn [bind] in H; [|discriminate].
        destruct (r_cell r "OD of Cable Including Neutral In Fee") as [cd|] eqn:E5; cbn [bind] in H; [|discriminate].
        destruct (r_cell r "Carrying Capacity In Amps") as [a|] eqn:E6; cbn [bind] in H; [|discriminate].
        destruct (r_cell r "Phase Conductor Resistance Ohms/Mile") as [z|] eqn:E7; cbn [bind] in H; [|discriminate].
        destruct (r_cell r "Concentric Neutral Resist Ohms/Mile") as [cz|] eqn:E8; cbn [bind] in H; [|discriminate].
        injection H as <-. unfold wire_ok. do 5 (split; [reflexivity|]).
        exists name. split; [exact Hc|]. split; [eexists; split; [reflexivity | apply replaced_two]|].
        unfold data_of. rewrite Eo, Eu, Er.
        split; [apply cell1_default with g; [exact E1 | reflexivity]|].
        split; [exists d; eexists; split; [exact E3|]; split; [reflexivity | reflexivity]|].
        split; [exists a; eexists; split; [exact E6|]; split; [reflexivity | apply q_one]|].
        split; [exists z; eexists; split; [exact E7|]; split; [reflexivity | reflexivity]|].
        split; [exists cg; eexists; split; [exact E2|]; split; [reflexivity | reflexivity]|].
        exists cd; eexists; split; [exact E5|]; split; [reflexivity | reflexivity].
      * injection H as <-. unfold wire_ok. do 5 (split; [reflexivity|]).
        exists name. split; [exact Hc|]. split; [eexists; split; [reflexivity | apply replaced_two]|].
        unfold data_of. rewrite Eo, Eu, Er. auto.
    + injection H as <-. unfold wire_ok. do 5 (split; [reflexivity|]).
      exists name. split; [exact Hc|]. split; [eexists; split; [reflexivity | apply replaced_two]|].
      unfold data_of. rewrite Eo, Eu. auto.
Qed.

Lemma line_wire_total e p : good v -> length (e_conductors e) = 4 ->
  exists w, line_wire v e p (place p) = Ok w.
Proof.
  intros [HC _] HL. unfold line_wire, conductor_name.
  assert (Hp : place p < 4).
  { unfold place. destruct (String.eqb p "A"); [lia|]. destruct (String.eqb p "B"); [lia|].
    destruct (String.eqb p "C"); lia. }
  destruct (nth_error (e_conductors e) (place p)) as [o|] eqn:E;
    [|apply nth_error_None in E; lia].
  assert (exists name, match o with Some s => Ok s | None => Ok (if (place p <? 3)%nat then "default_ph_cond" else "default_nt_cond") end = Ok name) as [name ->].
  { destruct o; eauto. }
  cbn [bind].
  assert (HO : forall w, exists w1, (if String.eqb (e_type e) "overhead" then
              match first_row (v_oh v) name with Some r => overhead r w | None => Ok w end
            else Ok w) = Ok w1).
  { intros w. destruct (String.eqb (e_type e) "overhead"); [|eauto].
    destruct (first_row (v_oh v) name) as [r|] eqn:Er; [|eauto].
    apply find_some in Er as [Er _].
    assert (HI : In r (v_oh v ++ v_ug v)) by (apply in_or_app; now left).
    unfold overhead.
    destruct (HC r "Geometric Mean Radius" HI) as [? ->]; cbn [bind].
    destruct (HC r "Diameter" HI) as [? ->]; cbn [bind].
    destruct (HC r "Carrying Capacity" HI) as [? ->]; cbn [bind].
    destruct (HC r "Resistance @ 50" HI) as [? ->]; cbn [bind]. eauto. }
  assert (HU : forall w, exists w1, (if String.eqb (e_type e) "underground" then
              match first_row (v_ug v) name with Some r => underground r w | None => Ok w end
            else Ok w) = Ok w1).
  { intros w. destruct (String.eqb (e_type e) "underground"); [|eauto].
    destruct (first_row (v_ug v) name) as [r|] eqn:Er; [|eauto].
    apply find_some in Er as [Er _].
    assert (HI : In r (v_oh v ++ v_ug v)) by (apply in_or_app; now right).
    unfold underground.
    destruct (HC r "Geometric Mean Radius In Feet" HI) as [? ->]; cbn [bind].
    destruct (HC r "GMR (Neutral) In Feed" HI) as [? ->]; cbn [bind].
    destruct (HC r "Diameter of Conductor In Feet" HI) as [? ->]; cbn [bind].
    destruct (HC r "OD of Cable Insulation In Feet" HI) as [? ->]; cbn [bind].
    destruct (HC r "OD of Cable Including Neutral In Fee" HI) as [? ->]; cbn [bind].
    destruct (HC r "Carrying Capacity In Amps" HI) as [? ->]; cbn [bind].
    destruct (HC r "Phase Conductor Resistance Ohms/Mile" HI) as [? ->]; cbn [bind].
    destruct (HC r "Concentric Neutral Resist Ohms/Mile" HI) as [? ->]; cbn [bind]. eauto. }
  match goal with |- context [bind (if String.eqb (e_type e) "overhead" then match _ with Some r => overhead r ?w | None => _ end else _)] =>
    destruct (HO w) as [w1 ->] end.
  cbn [bind]. destruct (HU w1) as [w2 ->]. cbn [bind]. eauto.
Qed.

Lemma prefix_app p : forall s, prefix p s = true -> exists b, s = (p ++ b)%string.
Proof.
  induction p as [|c p IH]; intros s H; [exists s; reflexivity|].
  destruct s as [|d s]; [discriminate|]. cbn in H.
  destruct (ascii_dec c d) as [->|]; [|discriminate].
  destruct (IH _ H) as [b ->]. exists b. reflexivity.
Qed.

Lemma drop_clean s : (forall a b, s <> a ++ "node_" ++ b)%string -> drop_node 0 s = s.
Proof.
  induction s as [|c t IH]; intros H; [reflexivity|].
  cbn [drop_node]. destruct (prefix "node_" (String c t)) eqn:E.
  - exfalso. 
    assert (exists b, String c t = ("node_" ++ b)%string) as [b Hb].
    { now apply prefix_app. }
    exact (H "" b Hb).
  - f_equal. apply IH. intros a b Ht. apply (H (String c a) b). cbn. now rewrite Ht.
Qed.

Lemma drop_name x : (forall a b, x <> a ++ "node_" ++ b)%string -> drop_node 0 ("node_" ++ x) = x.
Proof. intros H. transitivity (drop_node 0 x); [|now apply drop_clean]. destruct x; reflexivity. Qed.

Lemma ends_of e (b1 b2 : bool) len ty ws m :
  ends_ok v e (mkLine (drop_node 0 (e_to e)) (e_from e) (e_to e) b1 b2 len ty (text (e_feeder e))
                 (text (e_substation e)) (positions v e) ws m).
Proof.
  unfold ends_ok; cbn. do 2 (split; [reflexivity|]). split; [destruct (e_feeder e); reflexivity|].
  split; [destruct (e_substation e); reflexivity|]. split; [now rewrite app_nil_r|]. intros x -> Hx. now apply drop_name.
Qed.

Lemma create_line_ok tab e tl : tab_ok tab -> e_class e = "line" -> e_neutrals e <= 1 ->
  create_line v tab e = Ok tl -> tab_ok (fst tl) /\ line_ok v e (snd tl).
Proof.
  intros HT Hcl Hn H. unfold create_line in H.
  destruct (e_length e) as [len|] eqn:El; cbn [bind] in H; [|discriminate].
  destruct (dget tab (e_phases e)) as [l0|] eqn:E0; cbn [bind of_opt] in H; [|discriminate].
  pose proof (tab_ok_dset _ _ _ _ HT E0 Hn) as HT'.
  destruct (proj1 HT _ _ E0) as [Hk [x [Hl Hx]]]. 
  rewrite Hl, (pairs_of e x Hx Hn), <- Hl in H.
  destruct (foldM (line_step v e) (map (fun p => (p, place p)) (wires_of e)) ([], None)) as [s|] eqn:Ef;
    cbn [bind] in H; [|discriminate].
  injection H as <-. cbn [fst snd]. split; [exact HT'|].
  split; [apply ends_of|]. rewrite Hcl. split; [intros _|split; discriminate].
  cbn [l_fuse l_switch l_type l_length l_wires l_matrix].
  do 3 (split; [reflexivity|]).
  split; [exists len; eexists; split; [exact El|]; split; reflexivity|].
  destruct (line_loop _ _ _ _ _ Ef) as [ws1 [E1 [F1 C]]]. cbn [app] in E1.
  split.
  - rewrite E1.
    assert (HP : Forall (fun p => p = "A" \/ p = "B" \/ p = "C" \/ p = "N") (wires_of e)).
    { unfold wires_of. apply Forall_app; split.
      - eapply Forall_impl; [|apply letters_known; exact Hk]. intros a Ha; cbv beta in Ha; destruct Ha as [Ha|[Ha|Ha]]; auto.
      - apply Forall_forall. intros p Hp. apply repeat_spec in Hp. auto. }
    clear -F1 HP. induction F1 as [|p w ps ws Hw F IH]; constructor.
    + apply line_wire_ok; [now inversion HP | exact Hw].
    + apply IH. now inversion HP.
  - destruct C as [[C _]|C]; [|exact C].
    exfalso. unfold wires_of in C. apply app_eq_nil in C as [C _]. exact (letters_nonempty _ Hk C).
Qed.

Lemma create_switch_ok tab e l : tab_ok tab -> e_class e = "switch" ->
  create_switch v tab e = Ok l -> line_ok v e l.
Proof.
  intros HT Hcl H. unfold create_switch in H.
  destruct (dget tab (e_phases e)) as [l0|] eqn:E0; cbn [bind of_opt] in H; [|discriminate].
  injection H as <-. destruct (proj1 HT _ _ E0) as [Hk [x [-> Hx]]].
  split; [apply ends_of|]. rewrite Hcl. split; [discriminate|]. split; [intros _|discriminate].
  cbn [l_fuse l_switch l_wires]. do 2 (split; [reflexivity|]).
  rewrite combine_short, map_map. cbn [fst].
  clear. induction (letters (e_phases e)) as [|p ps IH]; cbn [map]; constructor; [|exact IH].
  cbn. split; [reflexivity|]. split; [reflexivity|]. apply String.eqb_eq.
Qed.

Lemma create_device_ok tab e l : tab_ok tab -> e_class e = "device" ->
  create_device v tab e = Ok l -> line_ok v e l.
Proof.
  intros HT Hcl H. unfold create_device in H.
  destruct (dget tab (e_phases e)) as [l0|] eqn:E0; cbn [bind of_opt] in H; [|discriminate].
  destruct (proj1 HT _ _ E0) as [Hk [x [-> Hx]]]. rewrite combine_short in H.
  destruct (mapM (device_wire v e) _) as [ws|] eqn:Em; cbn [bind] in H; [|discriminate].
  injection H as <-.
  split; [apply ends_of|]. rewrite Hcl. split; [discriminate|]. split; [discriminate|]. intros _.
  cbn [l_fuse l_switch l_wires]. do 2 (split; [reflexivity|]).
  revert ws Em. clear. induction (letters (e_phases e)) as [|p ps IH]; intros ws Em; cbn [map mapM] in Em.
  - injection Em as <-. constructor.
  - destruct (device_wire v e (p, place p)) as [w|] eqn:Ew; [|discriminate].
    destruct (mapM (device_wire v e) (map (fun p => (p, place p)) ps)) as [ws'|] eqn:Em'; [|discriminate].
    injection Em as <-. constructor; [|now apply IH].
    unfold device_wire in Ew; cbn [fst snd] in Ew.
    destruct (nth_error (e_equipment e) (place p)) as [eq|] eqn:E1; cbn [bind of_opt] in Ew; [|discriminate].
    destruct eq as [name|]; cbn [bind of_opt] in Ew; [|discriminate].
    destruct (nth_error (e_closed e) (place p)) as [c|] eqn:E2; cbn [bind of_opt] in Ew; [|discriminate].
    destruct (first_row (v_dev v) name) as [r|] eqn:E3; cbn [bind of_opt] in Ew; [|discriminate].
    destruct (r_cell r "Current Rating") as [a|] eqn:E4; cbn [bind] in Ew; [|discriminate].
    destruct (r_cell r "Max Asymmetrical Fault") as [f|] eqn:E5; cbn [bind] in Ew; [|discriminate].
    injection Ew as <-. cbn. split; [reflexivity|]. split; [reflexivity|].
    exists name, r. split; [reflexivity|]. split; [exact E3|]. split; [eexists; split; [reflexivity | apply replaced_one]|].
    split; [exists a; eexists; split; [exact E4|]; split; [reflexivity | apply q_one]|].
    exists f; eexists; split; [exact E5|]; split; [reflexivity | apply q_one].
Qed.

Definition few (e : edge) : Prop := e_class e = "line" -> e_neutrals e <= 1.

Lemma edges_ok es : Forall few es -> forall tab ls0 s, tab_ok tab ->
  foldM (edge_step v) es (tab, ls0) = Ok s ->
  tab_ok (fst s) /\ exists ls, snd s = ls0 ++ ls /\ Forall2 (line_ok v) (filter is_line es) ls.
Proof.
  induction 1 as [|e es He F IH]; intros tab ls0 s HT H; cbn [foldM] in H.
  - injection H as <-. split; [exact HT|]. exists []. rewrite app_nil_r. split; [reflexivity | constructor].
  - unfold edge_step at 1 in H. cbn [fst snd] in H.
    destruct (String.eqb_spec (e_class e) "line") as [Ec|N1].
    + destruct (create_line v tab e) as [tl|] eqn:E; cbn [bind] in H; [|discriminate].
      destruct (create_line_ok _ _ _ HT Ec (He Ec) E) as [HT' Hl].
      destruct (IH _ _ _ HT' H) as [HT'' [ls [E2 F2]]]. split; [exact HT''|].
      exists (snd tl :: ls). rewrite E2, <- app_assoc. split; [reflexivity|].
      cbn [filter]. replace (is_line e) with true by (unfold is_line; now rewrite Ec). now constructor.
    + destruct (String.eqb_spec (e_class e) "switch") as [Ec|N2].
      * destruct (create_switch v tab e) as [l|] eqn:E; cbn [bind] in H; [|discriminate].
        pose proof (create_switch_ok _ _ _ HT Ec E) as Hl.
        destruct (IH _ _ _ HT H) as [HT'' [ls [E2 F2]]]. split; [exact HT''|].
        exists (l :: ls). rewrite E2, <- app_assoc. split; [reflexivity|].
        cbn [filter]. replace (is_line e) with true by (unfold is_line; now rewrite Ec). now constructor.
      * destruct (String.eqb_spec (e_class e) "device") as [Ec|N3].
        -- destruct (create_device v tab e) as [l|] eqn:E; cbn [bind] in H; [|discriminate].
           pose proof (create_device_ok _ _ _ HT Ec E) as Hl.
           destruct (IH _ _ _ HT H) as [HT'' [ls [E2 F2]]]. split; [exact HT''|].
           exists (l :: ls). rewrite E2, <- app_assoc. split; [reflexivity|].
           cbn [filter]. replace (is_line e) with true by (unfold is_line; now rewrite Ec). now constructor.
        -- destruct (IH _ _ _ HT H) as [HT'' [ls [E2 F2]]]. split; [exact HT''|].
           exists ls. split; [exact E2|]. cbn [filter].
           replace (is_line e) with false; [exact F2|]. unfold is_line.
           apply String.eqb_neq in N1, N2, N3. now rewrite N1, N2, N3.
Qed.

Lemma edges_total es : good v -> Forall (readable v) es -> forall tab ls0, tab_ok tab ->
  exists s, foldM (edge_step v) es (tab, ls0) = Ok s.
Proof.
  intros HG F. induction F as [|e es [Hk [HL HD]] F IH]; intros tab ls0 HT; cbn [foldM]; [eauto|].
  unfold edge_step at 1. cbn [fst snd].
  destruct (proj2 HT _ Hk) as [l0 E0].
  destruct (proj1 HT _ _ E0) as [_ [x [Hl Hx]]].
  destruct (String.eqb_spec (e_class e) "line") as [Ec|N1].
  - destruct (HL Ec) as [[q Hq] [H4 Hn]].
    assert (exists tl, create_line v tab e = Ok tl) as [tl E].
    { unfold create_line. rewrite Hq, E0. cbn [bind of_opt].
      rewrite Hl, (pairs_of e x Hx Hn).
      destruct (line_loop_ok e (wires_of e) (proj2 HG)) with (s0 := (@nil wire, @None M)) as [s ->].
      { apply Forall_forall. intros p _. now apply line_wire_total. }
      cbn [bind]. eauto. }
    rewrite E. cbn [bind].
    destruct (create_line_ok _ _ _ HT Ec Hn E) as [HT' _]. now apply IH.
  - destruct (String.eqb_spec (e_class e) "switch") as [Ec|N2].
    + unfold create_switch. rewrite E0. cbn [bind of_opt]. now apply IH.
    + destruct (String.eqb_spec (e_class e) "device") as [Ec|N3]; [|now apply IH].
      assert (exists l, create_device v tab e = Ok l) as [l ->].
      { unfold create_device. rewrite E0. cbn [bind of_opt]. rewrite Hl, combine_short.
        assert (exists ws, mapM (device_wire v e) (map (fun p => (p, place p)) (letters (e_phases e))) = Ok ws) as [ws ->].
        { pose proof (letters_known _ Hk) as LK. specialize (HD Ec). clear -LK HD.
          induction LK as [|p ps Hp LK IH']; cbn [map mapM]; [eauto|].
          assert (place p < 3) as Hp3 by (destruct Hp as [->|[->| ->]]; cbn; lia).
          destruct (HD _ Hp3) as [name [r [c [E1 [E2 [E3 [[a E4] [f E5]]]]]]]].
          unfold device_wire at 1. cbn [fst snd]. rewrite E1. cbn [bind of_opt].
          rewrite E3. cbn [bind of_opt]. rewrite E2. cbn [bind of_opt].
          rewrite E4. cbn [bind]. rewrite E5. cbn [bind].
          destruct IH' as [ws ->]. eauto. }
        cbn [bind]. eauto. }
      cbn [bind]. now apply IH.
Qed.
End Line.
