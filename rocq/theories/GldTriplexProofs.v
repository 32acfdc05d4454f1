(** Proofs about triplex lines and about the loop over all lines. *)
From Coq Require Import Reals Lra Lia Ring.
From Verif Require Import Base BaseFacts TextModel GlmModel GldModel MatrixModel MatrixSpec MatrixProofs KronProofs KronTop
  ImpedModel ImpedSpec ImpedProofs ImpedTop SpacingModel SpacingSpec GldLineModel GldLineSpec GldLineProofs.
Local Open Scope string_scope.
Local Open Scope list_scope.
Local Open Scope R_scope.

Section Num.
Variable num : string -> res R.
Hypothesis FL : floats num.
Variable objs : dict obj.

(** ** The wires *)
Definition data_of (len : option R) (wn : wire * string) : res wire := do c <- get objs (snd wn); triplex_data num len c (fst wn).
Lemma data_all len ws : forall p names, length names = length ws ->
  foldM (triplex_one num objs len) (combine (seq (length p) (length ws)) names) (p ++ ws) =
  (do r <- mapM (data_of len) (combine ws names); Ok (p ++ r)).
Proof.
  induction ws as [|w ws IH]; intros p [|n names] L; try discriminate L; [reflexivity|]. cbn [length seq combine foldM mapM].
  unfold triplex_one at 1, data_of at 1. cbn [fst snd]. destruct (get objs n) as [c|]; cbn [bind]; [|reflexivity].
  replace (load_w (p ++ w :: ws) (length p)) with w by (unfold load_w; rewrite app_nth2, Nat.sub_diag by lia; reflexivity).
  destruct (triplex_data num len c w) as [w'|]; cbn [bind]; [|reflexivity].
  replace (update (p ++ w :: ws) (length p) (fun _ => w')) with ((p ++ [w']) ++ ws)
    by (rewrite <- (Nat.add_0_r (length p)) at 1; rewrite update_app, <- app_assoc; reflexivity).
  replace (S (length p)) with (length (p ++ [w'])) by (rewrite app_length; cbn; lia).
  rewrite IH by (cbn in L; congruence). destruct (mapM (data_of len) (combine ws names)); cbn [bind]; [|reflexivity]. now rewrite <- app_assoc.
Qed.

Definition names_of (cfg : obj) (c2 : option string) : res (list (string * string)) := do r <- triplex_conductors cfg c2; Ok (fst r).
(** the last of some wires is changed *)
Fixpoint on_last (f : wire -> wire) (ws : list wire) : list wire :=
  match ws with [] => [] | [w] => [f w] | w :: r => w :: on_last f r end.
Lemma update_last f ws : ws <> [] -> update ws (length ws - 1) f = on_last f ws.
Proof.
  induction ws as [|w ws IH]; intros N; [congruence|]. destruct ws as [|v ws]; [reflexivity|].
  replace (length (w :: v :: ws) - 1)%nat with (S (length (v :: ws) - 1)) by (cbn; lia). change (w :: update (v :: ws) (length (v :: ws) - 1) f = w :: on_last f (v :: ws)). now rewrite IH by discriminate.
Qed.
Lemma on_last_length f ws : length (on_last f ws) = length ws.
Proof. induction ws as [|w [|v ws] IH]; [reflexivity|reflexivity|]. cbn [length] in *. change (on_last f (w :: v :: ws)) with (w :: on_last f (v :: ws)). cbn [length]. now rewrite IH. Qed.
Definition opt_last (f : R -> wire -> wire) (x : option R) (ws : list wire) : list wire := match x with Some v => on_last (f (v * inch)) ws | None => ws end.
Lemma opt_last_length f x ws : length (opt_last f x ws) = length ws.
Proof. destruct x; cbn; [apply on_last_length|reflexivity]. Qed.

Lemma conf_result st o len c cfg st' : attr o "configuration" = Some c -> dget objs c = Some cfg -> triplex_phases cfg <> [] ->
  triplex_conf num objs st o len = Ok st' ->
  exists l c2 xi xd ws, triplex_conductors cfg (conn2 st) = Ok (l, c2) /\ fnum num cfg "insulation_thickness" = Ok xi /\ fnum num cfg "diameter" = Ok xd /\
    mapM (data_of len) (combine (opt_last set_diam xd (opt_last set_ins xi (map (fun pn => new_wire (fst pn)) l))) (map snd l)) = Ok ws /\
    length ws = length l /\ heap st' = heap st ++ ws /\ cur st' = Some (cfg, seq (length (heap st)) (length ws)).
Proof.
  intros Hc Hcfg NE. unfold triplex_conf. rewrite Hc. unfold get at 1. rewrite Hcfg. cbn [of_opt bind].
  destruct (triplex_conductors cfg (conn2 st)) as [[l c2]|] eqn:Ec; cbn [bind]; [|discriminate].
  assert (NL : l <> []).
  { intros ->. apply NE. clear NE. revert Ec. unfold triplex_conductors, triplex_phases, has, triplex_key. cbn [filter String.eqb Ascii.eqb Bool.eqb].
    destruct (attr cfg "conductor_1"), (attr cfg "conductor_2"), (attr cfg "conductor_N"); cbn; try discriminate; try reflexivity;
    destruct (conn2 st); cbn; discriminate. }
  set (ws0 := map (fun pn => new_wire (fst pn)) l). unfold add_wires. cbn [heap cur conn2 api_wire].
  assert (LW : length ws0 = length l) by (unfold ws0; apply map_length). assert (NW : ws0 <> []) by (intros Q; destruct l; [congruence|discriminate]).
  replace (match ws0 with [] => api_wire st | _ => Some (length (heap st) + length ws0 - 1)%nat end) with (Some (length (heap st) + length ws0 - 1)%nat) by (destruct ws0; congruence).
  assert (LA : forall f x ws s, length ws = length ws0 -> fnum num cfg s = Ok x ->
     last_wire num f cfg s (mkState (heap st ++ ws) (Some (cfg, seq (length (heap st)) (length ws0))) c2 (Some (length (heap st) + length ws0 - 1)%nat)) =
     Ok (mkState (heap st ++ opt_last f x ws) (Some (cfg, seq (length (heap st)) (length ws0))) c2 (Some (length (heap st) + length ws0 - 1)%nat))).
  { intros f x ws s L E. unfold last_wire. rewrite E. cbn [bind]. destruct x as [x|]; [|reflexivity]. cbn [api_wire of_opt bind heap cur conn2 opt_last].
    assert (0 < length ws0)%nat by (destruct ws0; [congruence|cbn; lia]).
    replace (length (heap st) + length ws0 - 1)%nat with (length (heap st) + (length ws - 1))%nat at 1 by lia.
    rewrite update_app, update_last; [reflexivity|]. intros ->. cbn in L. lia. }
  destruct (fnum num cfg "insulation_thickness") as [xi|] eqn:Ei; [|unfold last_wire at 1; rewrite Ei; discriminate].
  rewrite (LA set_ins xi ws0 _ eq_refl Ei). cbn [bind].
  destruct (fnum num cfg "diameter") as [xd|] eqn:Ed; [|unfold last_wire at 1; rewrite Ed; discriminate].
  rewrite (LA set_diam xd (opt_last set_ins xi ws0) _ (opt_last_length _ _ _) Ed). cbn [bind heap cur conn2 api_wire].
  set (ws2 := opt_last set_diam xd (opt_last set_ins xi ws0)). assert (L2 : length ws2 = length ws0) by (unfold ws2; now rewrite !opt_last_length).
  rewrite <- L2. rewrite data_all by (rewrite map_length; congruence).
  destruct (mapM (data_of len) (combine ws2 (map snd l))) as [ws|] eqn:Em; cbn [bind]; [|discriminate]. intros Q. injection Q as <-.
  exists l, c2, xi, xd, ws. pose proof (mapM_length _ _ _ Em) as LL. rewrite combine_length, map_length in LL.
  split; [reflexivity|]. split; [reflexivity|]. split; [reflexivity|]. split; [exact Em|]. cbn [heap cur].
  assert (length ws = length l) by lia. split; [assumption|]. split; [reflexivity|]. do 3 f_equal. congruence.
Qed.

(** what the wires become *)
Lemma data_keeps len c w w' : triplex_data num len c w = Ok w' ->
  w_phase w' = w_phase w /\ w_diam w' = w_diam w /\ w_ins w' = w_ins w /\ (w_gmr w = None -> w_res w = None -> twisted num len c w').
Proof.
  unfold triplex_data. destruct (fnum num c "geometric_mean_radius") as [g|] eqn:Eg; cbn [bind]; [|discriminate].
  destruct len as [len|].
  - destruct (fnum num c "resistance") as [r|] eqn:Er; cbn [bind]; [|discriminate]. intros Q. injection Q as <-. cbn.
    repeat (split; [reflexivity|]). intros -> ->. split.
    + replace (or_else (scale feet g) None) with (scale feet g) by (destruct g; reflexivity). now apply fnum_told.
    + rewrite scale_scale. replace (or_else (scale (len * mile) r) None) with (scale (len / 1609.34) r) by (destruct r; reflexivity). now apply fnum_told.
  - intros Q. cbn [bind] in Q. injection Q as <-. cbn. repeat (split; [reflexivity|]). intros -> ->. split; [|reflexivity].
    replace (or_else (scale feet g) None) with (scale feet g) by (destruct g; reflexivity). now apply fnum_told.
Qed.

Definition blank (w : wire) : Prop := w_gmr w = None /\ w_res w = None.
Lemma datas len : forall l ws r, length ws = length l -> Forall blank ws ->
  mapM (data_of len) (combine ws (map snd l)) = Ok r -> map w_phase ws = map fst l ->
  Forall2 (fun (pn : string * string) w => w_phase w = fst pn /\ exists c, dget objs (snd pn) = Some c /\ twisted num len c w) l r /\
  Forall2 (fun w w' => w_diam w' = w_diam w /\ w_ins w' = w_ins w) ws r.
Proof.
  induction l as [|[ph n] l IH]; intros [|w ws] r L B E P; try discriminate L; cbn [map combine mapM snd fst] in *.
  - injection E as <-. split; constructor.
  - unfold data_of at 1 in E. cbn [fst snd] in E. unfold get in E. destruct (dget objs n) as [c|] eqn:Ec; cbn [of_opt bind] in E; [|discriminate].
    destruct (triplex_data num len c w) as [w'|] eqn:Ew; cbn [bind] in E; [|discriminate].
    destruct (mapM (data_of len) (combine ws (map snd l))) as [r'|] eqn:Er; cbn [bind] in E; [|discriminate]. injection E as <-.
    inversion B as [|? ? [B1 B2] Bs]; subst. injection P as P1 P2. injection L as L.
    destruct (IH ws r' L Bs Er P2) as [A1 A2]. destruct (data_keeps _ _ _ _ Ew) as (K1 & K2 & K3 & K4).
    split; constructor; auto. cbn. split; [congruence|]. exists c. auto.
Qed.

Definition keeps_phase (f : wire -> wire) : Prop := forall w, w_phase (f w) = w_phase w /\ (blank w -> blank (f w)).
Lemma on_last_keeps f ws : keeps_phase f -> map w_phase (on_last f ws) = map w_phase ws /\ (Forall blank ws -> Forall blank (on_last f ws)).
Proof.
  intros K. induction ws as [|w ws [IH1 IH2]]; [split; [reflexivity|auto]|]. destruct ws as [|v ws].
  - cbn. destruct (K w) as [K1 K2]. split; [now rewrite K1|]. intros B. inversion B; subst. constructor; auto.
  - change (on_last f (w :: v :: ws)) with (w :: on_last f (v :: ws)). cbn [map]. cbn [map] in IH1. split; [now rewrite IH1|].
    intros B. inversion B; subst. constructor; auto.
Qed.
Lemma opt_last_keeps f x ws : (forall v, keeps_phase (f v)) -> map w_phase (opt_last f x ws) = map w_phase ws /\ (Forall blank ws -> Forall blank (opt_last f x ws)).
Proof. intros K. destruct x; cbn; [now apply on_last_keeps|auto]. Qed.
Lemma keeps_ins v : keeps_phase (set_ins v). Proof. intros w. split; [reflexivity|intros [A B]; split; assumption]. Qed.
Lemma keeps_diam v : keeps_phase (set_diam v). Proof. intros w. split; [reflexivity|intros [A B]; split; assumption]. Qed.

(** all but the last wire have no diameter *)
Definition given (xi xd : option R) (ws : list wire) : Prop :=
  forall pre w, ws = pre ++ [w] -> Forall (fun v => w_diam v = None) pre /\ w_diam w = scale inch xd /\ w_ins w = (match xi with Some v => Some (v * inch) | None => Some 0 end).
Lemma on_last_app f pre w : on_last f (pre ++ [w]) = pre ++ [f w].
Proof. induction pre as [|v pre IH]; [reflexivity|]. cbn [app]. destruct (pre ++ [w]) eqn:E; [destruct pre; discriminate|]. change (v :: on_last f (w0 :: l) = v :: pre ++ [f w]). now rewrite IH. Qed.
Lemma given_new (l : list (string * string)) xi xd : given xi xd (opt_last set_diam xd (opt_last set_ins xi (map (fun pn => new_wire (fst pn)) l))).
Proof.
  destruct l as [|[p n] l'] using rev_ind.
  - intros pre w Q. destruct xi, xd; destruct pre; discriminate.
  - clear IHl'. rewrite map_app. cbn [map].
    assert (N : Forall (fun v => w_diam v = None) (map (fun pn : string * string => new_wire (fst pn)) l')) by (apply Forall_forall; intros v I; apply in_map_iff in I as (? & <- & _); reflexivity).
    set (pre0 := map (fun pn : string * string => new_wire (fst pn)) l') in *. clearbody pre0. intros pre w Q.
    assert (G : pre = pre0 /\ w_diam w = scale inch xd /\ w_ins w = (match xi with Some v => Some (v * inch) | None => Some 0 end)).
    { destruct xi, xd; cbn [opt_last] in Q; rewrite ?on_last_app in Q; apply app_inj_tail in Q as [<- <-]; cbn; auto. }
    destruct G as (-> & G). auto.
Qed.
Lemma given_cable xi xd ws : given xi xd ws -> cable ws = between ws.
Proof.
  intros G. destruct ws as [|w pre] using rev_ind; [reflexivity|]. clear IHpre. destruct (G pre w eq_refl) as (N & _). unfold between. rewrite rev_app_distr. cbn [rev app].
  clear G. induction N as [|v pre V N IH]; cbn [app cable]; [destruct (w_diam w), (w_ins w); reflexivity|]. now rewrite V.
Qed.
Lemma given_data xi xd ws ws' : Forall2 (fun w w' => w_diam w' = w_diam w /\ w_ins w' = w_ins w) ws ws' -> given xi xd ws -> given xi xd ws'.
Proof.
  intros F G pre w ->. apply Forall2_app_inv_r in F as (p0 & w0 & F1 & F2 & ->). inversion F2 as [|v ? ? ? [V1 V2] F3]; subst. inversion F3; subst.
  destruct (G p0 v eq_refl) as (N & D & J). rewrite V1, V2. split; [|auto].
  clear - F1 N. induction F1 as [|a b x y [E _] F IH]; [constructor|]. inversion N; subst. constructor; [congruence|auto].
Qed.

(** the conductors *)
Lemma triplex_list cfg c2 l c2' : triplex_conductors cfg c2 = Ok (l, c2') ->
  map fst l = triplex_phases cfg /\
  (forall p n, In (p, n) l -> p <> "N" -> attr cfg (triplex_key p) = Some n) /\
  (has cfg "conductor_2" = true -> forall n, In ("N", n) l -> attr cfg "conductor_2" = Some n).
Proof.
  unfold triplex_conductors, triplex_phases, has, triplex_key. cbn [filter String.eqb Ascii.eqb Bool.eqb].
  destruct (attr cfg "conductor_1") as [n1|] eqn:E1, (attr cfg "conductor_2") as [n2|] eqn:E2, (attr cfg "conductor_N") as [nN|] eqn:E3, c2 as [m|]; cbn [of_opt bind app]; intros E;
    try discriminate; injection E as <- <-; (split; [reflexivity|]); (split; [intros p n I NN|intros Q n I]); try discriminate Q;
    repeat (destruct I as [I|I]; [first [injection I as <- <-; cbn; congruence|injection I as <-; cbn; congruence|discriminate I]|]); destruct I.
Qed.

(** ** The matrix *)
Add Field c_field_tri : c_field.
Definition zcell (ws : list wire) (i j : nat) : C := twisted_impedance ws (cable ws) i j.
Definition kron2 (m : cmat) : res cmat :=
  mapM (fun i => mapM (fun j =>
    do q <- cdiv (cmul (centry m i 2) c1) (centry m 2 2);
    Ok (csub (centry m i j) (cmul q (centry m 2 j)))) (seq 0 2)) (seq 0 2).
Lemma kron2_ok m r : kron2 m = Ok r -> centry m 2 2 <> c0 /\
  r = tabulate 2 2 (fun i j => csub (centry m i j) (cmul (cmul (cmul (centry m i 2) c1) (cinv (centry m 2 2))) (centry m 2 j))).
Proof.
  unfold kron2. intros E. assert (N : centry m 2 2 <> c0).
  { cbn [mapM seq] in E. destruct (cdiv (cmul (centry m 0 2) c1) (centry m 2 2)) as [q|] eqn:Eq; [|discriminate]. apply cdiv_inv in Eq. apply Eq. }
  split; [exact N|]. cbn [mapM seq] in E. rewrite !cdiv_ok in E by exact N. cbn [bind] in E. injection E as <-. reflexivity.
Qed.
Lemma kron2_grounded m r zf : kron2 m = Ok r -> (forall a b, (a < 3)%nat -> (b < 3)%nat -> centry m a b = zf a b) ->
  grounded_reduction c0 cadd cmul zf [0%nat; 1%nat] [2%nat] r.
Proof.
  intros E Z. apply kron2_ok in E as [N ->]. split; [apply tabulate_dims|].
  intros c Hc a p row Hp Hrow. specialize (Hc 2%nat (or_introl eq_refl)). unfold drop in Hc. cbn [sum_over] in Hc. rewrite <- !Z in Hc by lia.
  assert (La : (a < 2)%nat) by (change 2%nat with (length [0%nat; 1%nat]); apply nth_error_Some; congruence).
  rewrite tabulate_row, (proj2 (Nat.ltb_lt a 2) La) in Hrow. injection Hrow as <-.
  assert (p = a) by (destruct a as [|[|]]; cbn in Hp; try congruence; lia). subst p.
  unfold drop. cbn [length seq map sum_over nth]. rewrite <- !Z by lia.
  assert (Hn : c 2%nat = copp (cmul (cinv (centry m 2 2)) (cadd (cmul (centry m 2 0) (c 0%nat)) (cmul (centry m 2 1) (c 1%nat))))).
  { transitivity (cmul (cmul (cinv (centry m 2 2)) (centry m 2 2)) (c 2%nat)); [rewrite cinv_l by exact N; ring|].
    transitivity (cmul (cinv (centry m 2 2)) (csub (cadd (cadd (cmul (centry m 2 0) (c 0%nat)) (cadd (cmul (centry m 2 1) (c 1%nat)) c0))
       (cadd (cmul (centry m 2 2) (c 2%nat)) c0)) (cadd (cmul (centry m 2 0) (c 0%nat)) (cmul (centry m 2 1) (c 1%nat))))); [ring|].
    rewrite Hc. ring. }
  rewrite Hn. ring.
Qed.

Lemma self_z_ok w z : self_z 60 100 w = Ok z -> z = self_impedance 60 100 w.
Proof.
  unfold self_z, self_impedance, reactance. destruct (ImpedModel.w_res w) as [r|]; [|intros Q; now injection Q as <-].
  destruct (ImpedModel.w_gmr w) as [g|]; [|intros Q; now injection Q as <-].
  unfold log_term. destruct (pydiv 1 g) as [q|] eqn:E1; cbn [bind]; [|discriminate]. destruct (pylog q) as [l1|] eqn:E2; cbn [bind]; [|discriminate].
  destruct (pydiv 100 60) as [q2|] eqn:E3; cbn [bind]; [|discriminate]. destruct (pylog q2) as [l2|] eqn:E4; cbn [bind]; [|discriminate].
  intros Q. injection Q as <-. unfold pydiv, pylog in *.
  destruct (Req_EM_T g 0); [discriminate|]. injection E1 as <-. destruct (Rlt_dec 0 (1 / g)); [|discriminate]. injection E2 as <-.
  destruct (Req_EM_T 60 0); [discriminate|]. injection E3 as <-. destruct (Rlt_dec 0 (100 / 60)); [|discriminate]. injection E4 as <-. reflexivity.
Qed.
Lemma log_term_val d l : log_term 60 100 d = Ok l -> 202237 / 100000000 * 60 * l = reactance 60 100 d.
Proof.
  unfold log_term, reactance. destruct (pydiv 1 d) as [q|] eqn:E1; cbn [bind]; [|discriminate]. destruct (pylog q) as [l1|] eqn:E2; cbn [bind]; [|discriminate].
  destruct (pydiv 100 60) as [q2|] eqn:E3; cbn [bind]; [|discriminate]. destruct (pylog q2) as [l2|] eqn:E4; cbn [bind]; [|discriminate].
  intros Q. injection Q as <-. unfold pydiv, pylog in *.
  destruct (Req_EM_T d 0); [discriminate|]. injection E1 as <-. destruct (Rlt_dec 0 (1 / d)); [|discriminate]. injection E2 as <-.
  destruct (Req_EM_T 60 0); [discriminate|]. injection E3 as <-. destruct (Rlt_dec 0 (100 / 60)); [|discriminate]. injection E4 as <-. reflexivity.
Qed.

Definition loop2 (ws : list wire) : res cmat :=
  foldM (fun m i => foldM (secondary_cell 60 100 ws i) (seq 0 (length ws)) m) (seq 0 (length ws)) (tabulate 3 3 (fun _ _ => c0)).

(** the entries, for the four sets of phases with a neutral and the others *)
Ltac cells H :=
  repeat match type of H with
  | context[self_z 60 100 (plain ?w)] => let E := fresh "S" in destruct (self_z 60 100 (plain w)) eqn:E; cbn [bind] in H; [|discriminate H]; apply self_z_ok in E; subst
  | context[log_term 60 100 ?d] => let E := fresh "L" in destruct (log_term 60 100 d) eqn:E; cbn [bind] in H; [|discriminate H]; apply log_term_val in E
  end.
Lemma loop2_entries ws m : In (map w_phase ws) [["A"; "B"; "N"]; ["A"; "N"]; ["B"; "N"]; ["N"]; ["A"; "B"]; ["A"]; ["B"]; []] -> loop2 ws = Ok m ->
  forall a b, (a < 3)%nat -> (b < 3)%nat -> centry m a b = zcell ws a b.
Proof.
  intros I E a b Ha Hb. unfold loop2 in E. unfold zcell, twisted_impedance.
  remember (cable ws) as cb eqn:Ecb.
  destruct ws as [|w0 [|w1 [|w2 [|w3 ws]]]]; cbn [map In] in I.
  5: { exfalso. repeat (destruct I as [I|I]; [discriminate I|]). destruct I. }
  all: cbn [length seq foldM] in E; try unfold secondary_cell in E; try rewrite <- Ecb in E; cbn [nth_error of_opt bind Nat.eqb] in E.
  all: repeat match type of I with _ \/ _ => destruct I as [I|I]; [try discriminate I|] | False => destruct I end; try (injection I; clear I; intros).
  all: repeat match goal with H : "A" = w_phase _ |- _ => symmetry in H | H : "B" = w_phase _ |- _ => symmetry in H | H : "N" = w_phase _ |- _ => symmetry in H end.
  all: repeat match goal with H : w_phase _ = _ |- _ => try rewrite H in E; revert H end; intros.
  all: cbn [wire_map2 dget String.eqb Ascii.eqb Bool.eqb of_opt bind tabulate seq map orb] in E.
  all: destruct cb as [[d12 d1n]|].
  all: repeat (progress (cbn [bind set2 nth_error of_opt set_nth] in E; unfold set2 in E; cbn in E; cells E)).
  all: try (injection E as <-).
  all: try (destruct a as [|[|[|a]]]; [| | |lia]; destruct b as [|[|[|b]]]; try lia).
  all: unfold wire_at; cbn [find nth Nat.eqb orb].
  all: repeat match goal with H : w_phase _ = _ |- _ => rewrite H; revert H end; intros.
  all: cbn [String.eqb Ascii.eqb Bool.eqb].
  all: unfold centry, entry, get2; cbn [nth_error].
  all: try reflexivity.
  all: unfold cscale, mile; cbn [fst snd]; try (f_equal; f_equal; assumption); try congruence.
Qed.
Lemma secondary_grounded ws z : In (map w_phase ws) [["A"; "B"; "N"]; ["A"; "N"]; ["B"; "N"]; ["N"]; ["A"; "B"]; ["A"]; ["B"]; []] ->
  compute_secondary_matrix ws 60 100 = Ok z -> grounded_reduction c0 cadd cmul (zcell ws) [0%nat; 1%nat] [2%nat] z.
Proof.
  intros I E. change (compute_secondary_matrix ws 60 100) with (do m <- loop2 ws; kron2 m) in E.
  destruct (loop2 ws) as [m|] eqn:L; cbn [bind] in E; [|discriminate]. eapply kron2_grounded; [exact E|]. now apply loop2_entries.
Qed.
Lemma triplex_subsets cfg : In (triplex_phases cfg) [["A"; "B"; "N"]; ["A"; "N"]; ["B"; "N"]; ["N"]; ["A"; "B"]; ["A"]; ["B"]; []].
Proof.
  unfold triplex_phases. cbn [filter]. destruct (has cfg (triplex_key "A")), (has cfg (triplex_key "B")), (has cfg (triplex_key "N")); cbn [In]; tauto.
Qed.

Lemma triplex_result st o c cfg st' l : attr o "configuration" = Some c -> dget objs c = Some cfg -> triplex_phases cfg <> [] ->
  conv_triplex_line num objs st o = Ok (st', l) ->
  extends st st' /\ fresh_wires st st' l /\ triplex_of num objs (heap st') o l.
Proof.
  intros Hc Hcfg NE. unfold conv_triplex_line. destruct (length_m num o) as [len|] eqn:El; cbn [bind]; [|discriminate].
  destruct (triplex_conf num objs st o len) as [s1|] eqn:E1; cbn [bind]; [|discriminate].
  destruct (conf_result _ _ _ _ _ _ Hc Hcfg NE E1) as (cs & c2 & xi & xd & ws & Ec & Ei & Ed & Em & L & Hh & Hcur).
  rewrite Hcur. cbn [of_opt bind]. destruct (direct keys2 cfg); [discriminate|]. rewrite Hh, load_app.
  destruct (compute_secondary_matrix ws 60 100) as [z|] eqn:Ez; cbn [bind]; [|discriminate]. intros Q. injection Q as <- <-.
  split; [now exists ws|]. unfold fresh_wires. cbn [l_wires finish_line]. rewrite Hh, app_length. split; [split; [f_equal; lia|lia]|].
  destruct (triplex_list _ _ _ _ Ec) as (T1 & T2 & T3).
  set (ws2 := opt_last set_diam xd (opt_last set_ins xi (map (fun pn => new_wire (fst pn)) cs))) in *.
  assert (P2 : map w_phase ws2 = map fst cs /\ Forall blank ws2).
  { unfold ws2. destruct (opt_last_keeps set_ins xi (map (fun pn : string * string => new_wire (fst pn)) cs) keeps_ins) as [A1 A2].
    destruct (opt_last_keeps set_diam xd (opt_last set_ins xi (map (fun pn : string * string => new_wire (fst pn)) cs)) keeps_diam) as [B1 B2].
    split; [rewrite B1, A1, map_map; reflexivity|]. apply B2, A2. apply Forall_forall. intros w I. apply in_map_iff in I as (? & <- & _). split; reflexivity. }
  destruct P2 as [P2 BL]. assert (L2 : length ws2 = length cs) by (unfold ws2; rewrite !opt_last_length; apply map_length).
  destruct (datas len cs ws2 ws L2 BL Em P2) as [D1 D2].
  assert (G : given xi xd ws) by (eapply given_data; [exact D2|apply given_new]).
  assert (PH : map w_phase ws = triplex_phases cfg) by (rewrite <- T1; clear - D1; induction D1 as [|a b x y [E _] F IH]; [reflexivity|]; cbn; congruence).
  assert (W : forall w, In w ws -> exists pn c, In pn cs /\ w_phase w = fst pn /\ dget objs (snd pn) = Some c /\ twisted num len c w).
  { intros w I. clear - D1 I. induction D1 as [|a b x y [E (c & C1 & C2)] F IH]; [destruct I|]. destruct I as [->|I].
    - exists a, c. cbn. auto.
    - destruct (IH I) as (pn & c' & I' & R). exists pn, c'. cbn. auto. }
  exists cfg. split; [exists c; auto|]. split; [now apply header_finish|]. unfold wires_of. cbn [l_wires l_z l_len finish_line]. rewrite load_app.
  split; [exact PH|]. split.
  - apply Forall_forall. intros w I NN. destruct (W w I) as ([p n] & c' & I' & E' & E'' & TW). cbn [fst snd] in *. subst p. exists c'. split; [|exact TW]. exists n. split; [|exact E'']. now apply T2.
  - split.
    + intros Q. apply Forall_forall. intros w I NN. destruct (W w I) as ([p n] & c' & I' & E' & E'' & TW). cbn [fst snd] in *. subst p. exists c'. split; [|exact TW]. exists n. split; [|exact E'']. apply T3; [exact Q|]. now rewrite <- NN.
    + split.
      * intros w Hw. destruct ws as [|w0 pre] using rev_ind; [discriminate|]. clear IHpre. rewrite rev_app_distr in Hw. cbn in Hw. injection Hw as ->.
        destruct (G pre w eq_refl) as (_ & G1 & G2). rewrite G1, G2. split; [now apply fnum_told|].
        intros HI. apply (fnum_told num FL _ _ _ (/ 39.3701)) in Ei. unfold has in HI. destruct xi as [xi|]; [exact Ei|].
        destruct Ei as [[Ei _]|(? & ? & _ & _ & Q)]; [|discriminate Q]. rewrite Ei in HI. discriminate.
      * rewrite <- (given_cable _ _ _ G). apply secondary_grounded; [|exact Ez]. rewrite PH. apply triplex_subsets.
Qed.

(** ** All lines *)
Definition in_heap (h : list wire) (l : line) : Prop := Forall (fun i => (i < length h)%nat) (l_wires l).
Lemma wires_more h more l : in_heap h l -> wires_of (h ++ more) l = wires_of h l.
Proof. intros F. unfold wires_of. now apply load_more. Qed.
Lemma read_more h more o l : in_heap h l -> read_as num objs h o l -> read_as num objs (h ++ more) o l.
Proof.
  intros F [[A H]|[[A H]|[A H]]]; [left|right; left|right; right]; (split; [exact A|]);
  (unfold overhead_of, triplex_of, underground_of in *; rewrite wires_more by exact F; exact H).
Qed.
Lemma fresh_in st st' l : fresh_wires st st' l -> in_heap (heap st') l.
Proof. intros [E L]. unfold in_heap. rewrite E. apply Forall_forall. intros i I. apply in_seq in I. lia. Qed.

Lemma step_result st o st' l : configured objs o -> is_line o = true -> forall ls, conv_line num objs (st, ls) o = Ok (st', l) ->
  exists x, l = ls ++ [x] /\ extends st st' /\ fresh_wires st st' x /\ read_as num objs (heap st') o x.
Proof.
  intros CF IL ls. unfold conv_line. destruct (CF IL) as (c & Hc & HT).
  assert (P : forall r, (do x <- r; Ok (fst x, ls ++ [snd x])) = Ok (st', l) -> exists x, r = Ok (st', x) /\ l = ls ++ [x]).
  { intros r E. destruct r as [[s x]|]; cbn in E; [|discriminate]. injection E as <- <-. eauto. }
  destruct (String.eqb_spec (o_cls o) "overhead_line") as [K|K1].
  { intros E. apply P in E as (x & E & ->). apply (overhead_result num FL objs _ _ c) in E as (A & B & D); [|exact Hc]. exists x. split; [reflexivity|]. split; [exact A|]. split; [exact B|]. left. auto. }
  destruct (String.eqb_spec (o_cls o) "triplex_line") as [K|K2].
  { destruct (HT K) as (cfg & Hcfg & NE). intros E. apply P in E as (x & E & ->). apply (triplex_result _ _ c cfg) in E as (A & B & D); try assumption.
    exists x. split; [reflexivity|]. split; [exact A|]. split; [exact B|]. right. left. auto. }
  destruct (String.eqb_spec (o_cls o) "underground_line") as [K|K3].
  { intros E. apply P in E as (x & E & ->). apply (underground_result num FL objs _ _ c) in E as (A & B & D); [|exact Hc]. exists x. split; [reflexivity|]. split; [exact A|]. split; [exact B|]. right. right. auto. }
  exfalso. unfold is_line in IL. apply smem_In in IL. cbn [In] in IL. intuition congruence.
Qed.
Lemma not_line acc o : is_line o = false -> conv_line num objs acc o = Ok acc.
Proof.
  unfold is_line, conv_line. destruct acc as [st ls]. destruct (String.eqb_spec (o_cls o) "overhead_line") as [->|]; [discriminate|].
  destruct (String.eqb_spec (o_cls o) "triplex_line") as [->|]; [discriminate|]. destruct (String.eqb_spec (o_cls o) "underground_line") as [->|]; [discriminate|]. reflexivity.
Qed.

Lemma lines_loop os : forall st ls done st' ls', Forall (configured objs) os ->
  Forall2 (read_as num objs (heap st)) done ls -> Forall (in_heap (heap st)) ls ->
  foldM (conv_line num objs) os (st, ls) = Ok (st', ls') ->
  (exists more, heap st' = heap st ++ more) /\ Forall2 (read_as num objs (heap st')) (done ++ filter is_line os) ls' /\ Forall (in_heap (heap st')) ls' /\
  exists new, ls' = ls ++ new /\ flat_map l_wires new = seq (length (heap st)) (length (heap st') - length (heap st)).
Proof.
  induction os as [|o os IH]; intros st ls done st' ls' CF F H E; cbn [foldM filter] in *.
  - injection E as <- <-. split; [exists []; now rewrite app_nil_r|]. rewrite app_nil_r. split; [exact F|]. split; [exact H|]. exists []. rewrite app_nil_r, Nat.sub_diag. split; reflexivity.
  - inversion CF as [|? ? C1 C2]; subst. destruct (is_line o) eqn:IL.
    + destruct (conv_line num objs (st, ls) o) as [[s1 l1]|] eqn:E1; [|discriminate].
      destruct (step_result _ _ _ _ C1 IL _ E1) as (x & -> & (more & Hm) & FW & RA).
      destruct (IH s1 (ls ++ [x]) (done ++ [o]) st' ls' C2) as ((m2 & Hm2) & A & B & new & -> & N); [| |exact E|].
      * apply Forall2_app; [|constructor; [exact RA|constructor]]. rewrite Hm. clear - F H. induction F as [|a b p q R F IH]; constructor; inversion H; subst; [now apply read_more|auto].
      * apply Forall_app. split; [|constructor; [now apply (fresh_in st)|constructor]]. rewrite Hm. eapply Forall_impl; [|exact H]. intros l0 H0. unfold in_heap in *.
        eapply Forall_impl; [|exact H0]. cbn. intros i Hi. rewrite app_length. lia.
      * split; [exists (more ++ m2); rewrite Hm2, Hm, app_assoc; reflexivity|]. rewrite <- app_assoc in A. split; [exact A|]. split; [exact B|].
        exists (x :: new). rewrite <- app_assoc. split; [reflexivity|]. cbn [flat_map]. rewrite N. destruct FW as [-> Lh].
        assert (length (heap s1) <= length (heap st'))%nat by (rewrite Hm2, app_length; lia).
        replace (length (heap st') - length (heap st))%nat with ((length (heap s1) - length (heap st)) + (length (heap st') - length (heap s1)))%nat by lia.
        rewrite seq_app. do 2 f_equal. lia.
    + rewrite not_line in E by exact IL. eapply IH; eassumption.
Qed.
End Num.
