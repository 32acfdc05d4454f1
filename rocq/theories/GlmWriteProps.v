(** C90, C91, C92: the files of the GridLAB-D writer. *)
From Verif Require Import Base BaseFacts NetworkModel GlmWriteModel GlmWriteSpec GlmWriteProofs GlmConfProofs GlmConfLineProofs GlmFileProofs GlmPartsProofs GlmRefsProofs.
From Coq Require Import QArith Lia Permutation DecimalNat DecimalString.
Local Open Scope string_scope.
Local Open Scope nat_scope.
Local Open Scope list_scope.

(** Whatever a process wrote before, a file has one object per node, capacitor, load, line and transformer (those of
    regulators excepted), in the order of the network, with its data. *)
Theorem C90_elements : forall num cplx order, (forall d, Permutation d (order d)) ->
  forall hs st ww ms rows st', reached num cplx order hs st -> phases_ok ms -> write_glm num cplx order ww ms st = Ok (rows, st') ->
  Forall2 (node_says num) (nodes ms) (of_class ["node"] (file rows)) /\
  Forall2 (cap_says num) (capacitors ms) (of_class ["capacitor"] (file rows)) /\
  Forall2 (load_says num cplx) (loads ms) (of_class ["load"] (file rows)) /\
  Forall2 trafo_says (own_trafos ms) (of_class ["transformer"] (file rows)) /\
  Forall2 (line_says num) (lines ms) (of_class line_classes (file rows)).
Proof. exact elements. Qed.
Print Assumptions C90_elements.

(** Regulators have their objects if no two of them, in this network and those written before, have the same text
    from_to. *)
Theorem C90_regulators : forall num cplx order, (forall d, Permutation d (order d)) ->
  forall hs st ww ms rows st', reached num cplx order hs st -> phases_ok ms -> write_glm num cplx order ww ms st = Ok (rows, st') ->
  NoDup (flat_map joined (regs ms)) -> (forall k, In k (flat_map joined (regs ms)) -> ~ In k (flat_map joined (flat_map regs hs))) ->
  Forall2 reg_says (regs ms) (of_class ["regulator"] (file rows)).
Proof. exact regulators. Qed.
Print Assumptions C90_regulators.

(** In the first file of a process every named transformer, line and regulator refers to one configuration in the file,
    and this has its data. *)
Theorem C91_transformers : forall num cplx order, (forall d, Permutation d (order d)) ->
  forall ww ms rows st, phases_ok ms -> write_glm num cplx order ww ms wstate0 = Ok (rows, st) -> NoDup (map t_name (trafos ms)) ->
  Forall2 (fun t b => trafo_says t b /\ (t_name t <> None -> exists conf, refers (file rows) b "transformer_configuration" conf /\ trafo_conf_says num t conf))
    (own_trafos ms) (of_class ["transformer"] (file rows)).
Proof. exact trafo_refs. Qed.
Print Assumptions C91_transformers.

(** Lines that are no switches and no fuses; their impedances if no phase appears twice and no entry of the matrix is a
    negative reactance alone. *)
Theorem C91_lines : forall num cplx order, (forall d, Permutation d (order d)) ->
  forall ms rows st, number_texts num cplx -> phases_ok ms -> write_glm num cplx order None ms wstate0 = Ok (rows, st) -> NoDup (map l_name (filter plain (lines ms))) ->
  Forall2 (fun l b => line_says num l b /\ (l_name l <> None -> plain l = true -> exists conf, refers (file rows) b "line_configuration" conf /\
      (distinct_phases l -> positive_entries l -> line_conf_says num l conf)))
    (lines ms) (of_class line_classes (file rows)).
Proof. exact line_refs. Qed.
Print Assumptions C91_lines.

(** Regulators; their taps if no other regulator has the same controls. *)
Theorem C91_regulators : forall num cplx order, (forall d, Permutation d (order d)) ->
  forall ww ms rows st, phases_ok ms -> write_glm num cplx order ww ms wstate0 = Ok (rows, st) -> NoDup (map r_name (regs ms)) -> NoDup (flat_map joined (regs ms)) ->
  Forall2 (fun r b => reg_says r b /\ (r_name r <> None -> exists conf, refers (file rows) b "regulator_configuration" conf /\ reg_conf_says num r conf /\
      (filter (fun r' => same_controls r' r) (regs ms) = [r] -> tap_says num ms r conf)))
    (regs ms) (of_class ["regulator"] (file rows)).
Proof. exact reg_refs. Qed.
Print Assumptions C91_regulators.

(** Transformers with the same data share a configuration, and so do lines with the same wires and impedances, after
    every history. *)
Theorem C91_shared : forall num cplx order, (forall d, Permutation d (order d)) ->
  forall ms hs st0 rows st, reached num cplx order hs st0 -> phases_ok ms -> write_glm num cplx order None ms st0 = Ok (rows, st) ->
  (NoDup (map t_name (trafos ms)) ->
   Forall2 (fun t b => Forall2 (fun t' b' => t_name t <> None -> t_name t' <> None -> t_install t = t_install t' -> t_noload t = t_noload t' -> t_wds t = t_wds t' -> t_react t = t_react t' ->
      values b "configuration" = values b' "configuration") (own_trafos ms) (of_class ["transformer"] (file rows))) (own_trafos ms) (of_class ["transformer"] (file rows))) /\
  (NoDup (map l_name (filter plain (lines ms))) ->
   Forall2 (fun l b => Forall2 (fun l' b' => l_name l <> None -> l_name l' <> None -> plain l = true -> plain l' = true -> l_wires l = l_wires l' -> l_z l = l_z l' ->
      values b "configuration" = values b' "configuration") (lines ms) (of_class line_classes (file rows))) (lines ms) (of_class line_classes (file rows))).
Proof. intros num cplx order perm ms hs st0 rows st R P E. split; intros N; [exact (trafo_shared num cplx order perm None ms hs st0 rows st R P E N)|exact (line_shared num cplx order perm ms hs st0 rows st R P E N)]. Qed.
Print Assumptions C91_shared.

(** ** A network *)
Definition ex_num (q : Q) : string :=
  let q := Qred q in
  ((if Qle_bool 0 q then "" else "-") ++ nat_str (Z.abs_nat (Qnum q)) ++ (if Pos.eqb (Qden q) 1 then "" else "/" ++ nat_str (Pos.to_nat (Qden q))) ++ ".0")%string.
Definition ex_cplx (a b : Q) : string :=
  if Qeq_bool a 0 then (ex_num b ++ "j")%string else ("(" ++ ex_num a ++ (if Qle_bool 0 b then "+" else "") ++ ex_num b ++ "j)")%string.
Definition ex_order (d : dict gval) : dict gval := rev d.
Lemma ex_perm d : Permutation d (ex_order d).
Proof. apply Permutation_rev. Qed.
Definition ex_write := write_glm ex_num ex_cplx ex_order.

Lemma uint_head u : u <> Decimal.Nil -> exists c s, DecimalString.NilEmpty.string_of_uint u = String c s /\ is_digit c = true.
Proof. destruct u; [congruence|..]; intros _; cbn; eexists _, _; split; reflexivity. Qed.
Lemma nat_str_head k : exists c s, nat_str k = String c s /\ is_digit c = true.
Proof.
  apply uint_head. intros H. pose proof (DecimalNat.Unsigned.of_to k) as E. rewrite H in E. cbn in E. subst k. discriminate H.
Qed.
Lemma uint_digits u c : In c (list_ascii_of_string (DecimalString.NilEmpty.string_of_uint u)) -> is_digit c = true.
Proof. induction u; cbn; [intros []|..]; (intros [<-|H]; [reflexivity|auto]). Qed.
Lemma no_minus q a b : (0 <= q)%Q -> ex_num q = (a ++ "-" ++ b)%string -> False.
Proof.
  intros H E. assert (I : In "-"%char (list_ascii_of_string (ex_num q))) by (rewrite E, list_ascii_app; apply in_or_app; right; now left). clear E. unfold ex_num in I. cbv zeta in I.
  assert (Qle_bool 0 (Qred q) = true) as L by (apply Qle_bool_iff; now rewrite Qred_correct). rewrite L in I. rewrite !list_ascii_app in I. repeat (apply in_app_or in I; destruct I as [I|I]).
  - destruct I.
  - discriminate (uint_digits _ _ I).
  - destruct (Pos.eqb _ _); [destruct I|]. cbn in I. destruct I as [I|I]; [discriminate I|]. discriminate (uint_digits _ _ I).
  - cbn in I. intuition discriminate.
Qed.
Lemma ex_texts : number_texts ex_num ex_cplx.
Proof.
  split; [|split; [|split; [|split]]].
  - intros q. unfold ex_num. cbv zeta. exists ((if Qle_bool 0 (Qred q) then "" else "-") ++ nat_str (Z.abs_nat (Qnum (Qred q))) ++ (if Pos.eqb (Qden (Qred q)) 1 then "" else "/" ++ nat_str (Pos.to_nat (Qden (Qred q)))) ++ ".")%string, "0"%char.
    split; [|reflexivity]. rewrite !sapp_assoc. reflexivity.
  - intros q. unfold ex_num. cbv zeta. destruct (Qle_bool 0 (Qred q)); [|eexists _, _; split; [reflexivity|auto]].
    destruct (nat_str_head (Z.abs_nat (Qnum (Qred q)))) as (c & s & -> & D). eexists _, _. split; [reflexivity|auto].
  - intros q H. unfold ex_num. cbv zeta. assert (Qle_bool 0 (Qred q) = false) as ->; [|eexists; reflexivity].
    destruct (Qle_bool 0 (Qred q)) eqn:E; [|reflexivity]. apply Qle_bool_iff in E. rewrite (Qred_correct q) in E. exfalso. exact (Qlt_irrefl _ (Qlt_le_trans _ _ _ H E)).
  - intros q a b H E. destruct (no_minus q a b H E).
  - intros a b. reflexivity.
Qed.

Definition ex_node := GNode (mkGnode (Some "sourcebus") (Some ["A"; "B"]) (Some 7200%Q)).
Definition ex_pw (p : string) (tap : Q) : gpw := mkGpw (Some p) (Some tap) (Some 1%Q) (Some 2%Q).
Definition ex_w (v : Q) (tap : Q) : gwinding := mkGwinding (Some "Y") (Some v) None (Some 50000%Q) (Some 1%Q) (Some [ex_pw "A" tap; ex_pw "B" tap]).
Definition ex_trafo (n : string) (v : Q) : gobj := GTrafo (mkGtrafo (Some n) (Some "sourcebus") (Some "low") None (Some 3%Q) (Some [ex_w v 0; ex_w 240 0]) (Some [5%Q])).
Definition ex_reg (n f t : string) (tap : Q) : gobj :=
  GReg (mkGreg (Some n) (Some f) (Some t) (Some 30%Q) (Some 16%Q) None (Some 60%Q) (Some 700%Q) (Some 2%Q) (Some 120%Q) (Some "A") None (Some [ex_w 7200 tap])).
Definition ex_line (n : string) (x : Q) : gobj :=
  GLine (mkGline (Some n) (Some "sourcebus") (Some "low") None (Some 100%Q) None None (Some [mkGwire (Some "B") None; mkGwire (Some "A") None; mkGwire (Some "N") None]) (Some [[(1, x); (2, 3)]; [(2, 3); (4, 5)]]%Q)).
Definition ex_cap (low high delay : option Q) (sw : option Z) : gobj :=
  GCap (mkGcap (Some "c") (Some 7200%Q) delay (Some "VOLT") low high None (Some "low") (Some [mkGpcap (Some "A") (Some 100000%Q) sw])).
Definition ex_load : gobj := GLoad (mkGload (Some "l") (Some 7200%Q) (Some "low")
  (Some [mkGpload (Some "A") (Some 0%Z) (Some 1000%Q) (Some 500%Q) None None None None None None;
         mkGpload (Some "B") (Some 1%Z) (Some 1000%Q) (Some 500%Q) (Some (1#4)%Q) (Some (1#4)%Q) (Some (1#4)%Q) (Some (1#4)%Q) (Some (1#2)%Q) (Some (1#2)%Q)])).
Definition ex_net : list gobj := [ex_node; ex_cap (Some 110%Q) (Some 130%Q) None (Some 0%Z); ex_load; ex_trafo "t" 7200; ex_trafo "t2" 7200; ex_trafo "t3" 14400;
  ex_reg "r" "low" "x" 4; ex_line "l1" 2; ex_line "l2" 2; ex_line "l3" (-2)].
Lemma ex_blank p : In p ["A"; "B"] -> no_blank p.
Proof. intros [<-|[<-|[]]] [|x [|y a]] b E; discriminate E. Qed.
Ltac phases_in := repeat match goal with
  | H : In _ (_ :: _) |- _ => destruct H as [<-|H]
  | H : _ \/ _ |- _ => destruct H as [<-|H]
  | H : In _ [] |- _ => destruct H
  | H : Some _ = Some _ |- _ => injection H as <-
  | H : False |- _ => destruct H end.
Ltac phases_tac := split; [|split; [|split]]; intros x j p H1 H2 H3; cbn in H1; phases_in; cbn in H2; phases_in; cbn in H3; phases_in; apply ex_blank; cbn; first [left; reflexivity|right; left; reflexivity].

Example C90_hypotheses_met : exists rows st, ex_write None ex_net wstate0 = Ok (rows, st) /\ reached ex_num ex_cplx ex_order [] wstate0 /\ phases_ok ex_net /\ number_texts ex_num ex_cplx /\
  NoDup (flat_map joined (regs ex_net)) /\ NoDup (map r_name (regs ex_net)) /\ NoDup (map t_name (trafos ex_net)) /\ NoDup (map l_name (filter plain (lines ex_net))) /\
  length (own_trafos ex_net) = 3 /\ length (of_class ["transformer_configuration"] (file rows)) = 2 /\ length (of_class ["line_configuration"] (file rows)) = 2 /\
  Forall (fun l => distinct_phases l /\ positive_entries l) (lines ex_net) /\ Forall (fun r => filter (fun r' => same_controls r' r) (regs ex_net) = [r]) (regs ex_net) /\
  map (fun b => values b "tap_pos_A") (of_class ["regulator_configuration"] (file rows)) = [["4.0"]].
Proof.
  eexists _, _. split; [vm_compute; reflexivity|]. split; [constructor|]. split; [phases_tac|]. split; [exact ex_texts|].


  split; [repeat constructor; cbn; intuition discriminate|]. split; [repeat constructor; cbn; intuition discriminate|]. split; [repeat constructor; cbn; intuition discriminate|]. split; [repeat constructor; cbn; intuition discriminate|].
  split; [reflexivity|]. split; [vm_compute; reflexivity|]. split; [vm_compute; reflexivity|]. split.
  - assert (G : forall l, In l (lines ex_net) -> distinct_phases l /\ positive_entries l); [|apply Forall_forall; exact G].
    intros l H. cbn in H. phases_in; (split; [unfold distinct_phases; vm_compute; repeat constructor; cbn; intuition discriminate|]); intros i j z E; left;
      (destruct i as [|[|i]]; [destruct j as [|[|j]]|destruct j as [|[|j]]|]); vm_compute in E; try (destruct j; discriminate E); try (destruct i; discriminate E); injection E as <-; discriminate.
  - split; [repeat constructor|vm_compute; reflexivity].
Qed.

(** ** C90: what is not written *)
(** The delay of a capacitor goes to the property [time_dela], which GridLAB-D does not have; [time_delay] is never written. *)
Theorem C90_delay_refuted : forall num cplx order, (forall d, Permutation d (order d)) -> forall hs st ww ms rows st',
  reached num cplx order hs st -> phases_ok ms -> write_glm num cplx order ww ms st = Ok (rows, st') ->
  Forall2 (fun c b => values b "time_delay" = [] /\ values b "time_dela" = opt (c_delay c) num) (capacitors ms) (of_class ["capacitor"] (file rows)).
Proof.
  intros num cplx order perm hs st ww ms rows st' R P E. destruct (reached_good num cplx order perm hs st R) as [G _].
  destruct (file_parts num cplx order perm ww ms st rows st' G P E) as (lps & tds & tnew & lds & lnew & rnew & _ & _ & _ & _ & _ & _ & _ & _ & _ & F). rewrite F. clear F.
  part. rewrite oc_all by reflexivity. apply forall2_map. intros c _. unfold cap_b. rewrite !values_vals. unfold cap_props. rewrite !vals_app, !vals_oprop. cbn [String.eqb Ascii.eqb Bool.eqb app].
  assert (T : forall k, (forall x, String.eqb ("capacitor_" ++ x)%string k = false) -> (forall x, String.eqb ("switch" ++ x)%string k = false) -> String.eqb "phases" k = false ->
    vals (match c_pcs c with Some l => flat_map (pcap_props num) l ++ (if String.eqb (phase_text pc_phase l) "" then [] else [("phases", phase_text pc_phase l)]) | None => [] end) k = []).
  { intros k K1 K2 K3. destruct (c_pcs c) as [l|]; [|reflexivity]. rewrite vals_app, vals_flat, vals_phases, K3, app_nil_r. apply flat_nil. intros j _. now apply pcap_vals_other. }
  rewrite !T by reflexivity. destruct (c_low c); split; rewrite ?app_nil_r; reflexivity.
Qed.
Print Assumptions C90_delay_refuted.

(** The high limit of a capacitor without a low limit is not written, and an unknown one beside a low limit is [None]. *)
Theorem C90_limits_refuted : exists rows st rows' st',
  ex_write None [ex_cap None (Some 130%Q) None None] wstate0 = Ok (rows, st) /\ map (fun b => values b "voltage_set_high") (file rows) = [[]] /\
  ex_write None [ex_cap (Some 110%Q) None None None] wstate0 = Ok (rows', st') /\ map (fun b => values b "voltage_set_high") (file rows') = [["None"]].
Proof. eexists _, _, _, _. split; [vm_compute; reflexivity|]. split; [vm_compute; reflexivity|]. split; vm_compute; reflexivity. Qed.
Print Assumptions C90_limits_refuted.

(** A capacitor that is switched in (1) is written OPEN, one that is not (0) CLOSED. *)
Theorem C90_switched_refuted : exists rows st rows' st',
  ex_write None [ex_cap None None None (Some 1%Z)] wstate0 = Ok (rows, st) /\ map (fun b => values b "switchA") (file rows) = [["OPEN"]] /\
  ex_write None [ex_cap None None None (Some 0%Z)] wstate0 = Ok (rows', st') /\ map (fun b => values b "switchA") (file rows') = [["CLOSED"]].
Proof. eexists _, _, _, _. split; [vm_compute; reflexivity|]. split; [vm_compute; reflexivity|]. split; vm_compute; reflexivity. Qed.
Print Assumptions C90_switched_refuted.

(** Loads and regulators are written without their phases. *)
Theorem C90_phases_refuted : forall num cplx order, (forall d, Permutation d (order d)) -> forall hs st ww ms rows st',
  reached num cplx order hs st -> phases_ok ms -> write_glm num cplx order ww ms st = Ok (rows, st') ->
  Forall (fun b => values b "phases" = []) (of_class ["load"; "regulator"] (file rows)).
Proof.
  intros num cplx order perm hs st ww ms rows st' R P E. destruct (reached_good num cplx order perm hs st R) as [G _].
  destruct (file_parts num cplx order perm ww ms st rows st' G P E) as (lps & tds & tnew & lds & lnew & rnew & Fl & _ & _ & _ & _ & _ & _ & _ & _ & F). rewrite F. clear F.
  part. rewrite !oc_all by reflexivity. apply Forall_app. split; apply Forall_forall; intros b H; apply in_map_iff in H.
  - destruct H as (ps & <- & H). unfold load_b. rewrite values_vals. assert (exists l, load_props num cplx l = Ok ps) as (l & El) by (clear -Fl H; induction Fl as [|l x ls xs Hx F IH]; [destruct H|]; destruct H as [->|H]; eauto). unfold load_props in El.
    destruct (match ld_pls l with Some pls => mapM (pload_props num cplx) pls | None => Ok [] end) as [r|] eqn:Er; [|discriminate]. cbn [bind] in El. injection El as <-.
    rewrite !vals_app, !vals_oprop. cbn [String.eqb Ascii.eqb Bool.eqb app]. destruct (ld_pls l) as [pls|]; [|injection Er as <-; reflexivity].
    rewrite (vals_concat (pload_props num cplx) (fun _ => []) "phases" pls r Er); [apply flat_nil; reflexivity|]. intros j ps _ Ej. destruct (pload_inv num cplx j ps Ej) as [[-> _]|(ph & _ & Hp)]; [reflexivity|].
    destruct Hp as [(z & a & b & _ & _ & _ & _ & ->)|Hp]; [reflexivity|]. repeat (destruct Hp as (? & Hp)). subst. reflexivity.
  - destruct H as (r & <- & _). unfold reg_b. rewrite values_vals. unfold reg_props. rewrite !vals_app, !vals_oprop, vals_conf. reflexivity.
Qed.
Print Assumptions C90_phases_refuted.

(** Two regulators whose ends give the same text from_to: only the first is written. *)
Theorem C90_joined_refuted : exists rows st, let ms := [ex_reg "r1" "a_b" "c" 4; ex_reg "r2" "a" "b_c" 5] in
  ex_write None ms wstate0 = Ok (rows, st) /\ length (regs ms) = 2 /\ map (fun b => values b "name") (of_class ["regulator"] (file rows)) = [["nr1"]].
Proof. eexists _, _. cbv zeta. split; [vm_compute; reflexivity|]. split; [reflexivity|vm_compute; reflexivity]. Qed.
Print Assumptions C90_joined_refuted.

(** Open and closed lines are written alike. *)
Definition reopen (o : option bool) (m : gobj) : gobj :=
  match m with
  | GLine l => GLine (mkGline (l_name l) (l_from l) (l_to l) (l_type l) (l_length l) (l_switch l) (l_fuse l) (option_map (map (fun w => mkGwire (wi_phase w) o)) (l_wires l)) (l_z l))
  | _ => m
  end.
(** The state of the wires of a line, and so of a switch, has no influence on the file. *)
Theorem C90_open_refuted : forall num cplx order ww ms st o, write_glm num cplx order ww (map (reopen o) ms) st = write_glm num cplx order ww ms st.
Proof.
  intros num cplx order ww ms st o.
  assert (Hf : forall {B} (f : gobj -> list B) l, (forall m, f (reopen o m) = f m) -> flat_map f (map (reopen o) l) = flat_map f l) by (intros B f l H; induction l as [|m l IH]; [reflexivity|]; cbn; now rewrite H, IH).
  assert (Hm : forall {B} (f : gobj -> res B) l, (forall m, f (reopen o m) = f m) -> mapM f (map (reopen o) l) = mapM f l) by (intros B f l H; induction l as [|m l IH]; [reflexivity|]; cbn; now rewrite H, IH).
  assert (HF : forall {B} (f : B -> gobj -> res B) l b, (forall b m, f b (reopen o m) = f b m) -> foldM f (map (reopen o) l) b = foldM f l b).
  { intros B f l b H. revert b. induction l as [|m l IH]; intros b; [reflexivity|]. cbn. rewrite H. destruct (f b m); [apply IH|reflexivity]. }
  assert (Hl : forall {B} (f g : B -> gobj -> B) l b, (forall b m, f b (reopen o m) = g b m) -> fold_left f (map (reopen o) l) b = fold_left g l b).
  { intros B f g l b H. revert b. induction l as [|m l IH]; intros b; [reflexivity|]. cbn. now rewrite H, IH. }
  assert (Hx : forall f l, (forall m, f (reopen o m) = f m) -> existsb f (map (reopen o) l) = existsb f l) by (intros f l H; induction l as [|m l IH]; [reflexivity|]; cbn; now rewrite H, IH).
  assert (Ph : forall l, phase_text wi_phase (map (fun w => mkGwire (wi_phase w) o) l) = phase_text wi_phase l).
  { intros l. unfold phase_text. f_equal. induction l as [|w l IH]; [reflexivity|]. cbn. now rewrite IH. }
  assert (Lp : forall l, line_phases (mkGline (l_name l) (l_from l) (l_to l) (l_type l) (l_length l) (l_switch l) (l_fuse l) (option_map (map (fun w => mkGwire (wi_phase w) o)) (l_wires l)) (l_z l)) = line_phases l).
  { intros l. unfold line_phases. cbn [l_wires]. destruct (l_wires l) as [ws|]; [|reflexivity]. cbn [option_map]. f_equal. induction ws as [|w ws IH]; [reflexivity|]. cbn [map flat_map wi_phase]. now rewrite IH. }
  assert (E1 : write_loads num cplx (map (reopen o) ms) = write_loads num cplx ms) by (unfold write_loads; rewrite Hm; [reflexivity|intros []; reflexivity]).
  assert (E2 : write_transformer_configurations num cplx (map (reopen o) ms) (ws_tc st) (ws_tn st) = write_transformer_configurations num cplx ms (ws_tc st) (ws_tn st)) by (apply HF; intros b []; reflexivity).
  assert (E3 : forall x, fold_left (reg_step num (map (reopen o) ms)) (map (reopen o) ms) x = fold_left (reg_step num ms) ms x).
  { intros x. apply Hl. intros b []; try reflexivity. cbn [reopen reg_step]. destruct b as [[[cs ns] ph] k].
    assert (forall d, reg_settings num (map (reopen o) ms) r d = reg_settings num ms r d) as Rs by (intros d; unfold reg_settings; destruct (r_trafo r); [|reflexivity]; apply Hl; intros e []; reflexivity).
    now rewrite Rs. }
  assert (E4 : forall rn x, fold_left (reg_write rn) (map (reopen o) ms) x = fold_left (reg_write rn) ms x) by (intros rn x; apply Hl; intros b []; reflexivity).
  assert (E5 : write_line_configurations num cplx (map (reopen o) ms) (ws_lc st) (ws_ln st) = write_line_configurations num cplx ms (ws_lc st) (ws_ln st)).
  { apply HF. intros b []; try reflexivity. cbn [reopen l_switch l_fuse l_name]. unfold line_dic. rewrite Lp. reflexivity. }
  assert (E6 : forall tn, write_transformers (map (reopen o) ms) tn = write_transformers ms tn).
  { intros tn. unfold write_transformers. rewrite Hf; [|intros []; reflexivity]. apply flat_ext'. intros [] _; try reflexivity. unfold is_reg. rewrite Hx; [reflexivity|intros []; reflexivity]. }
  assert (E7 : write_nodes num (map (reopen o) ms) = write_nodes num ms) by (apply Hf; intros []; reflexivity).
  assert (E8 : write_capacitors num (map (reopen o) ms) = write_capacitors num ms) by (apply Hf; intros []; reflexivity).
  assert (E9 : forall ln, write_lines num (map (reopen o) ms) ln = write_lines num ms ln).
  { intros ln. apply Hf. intros []; try reflexivity. cbn [reopen]. unfold line_rows, line_head, line_props. cbn [l_name l_from l_to l_type l_length l_switch l_fuse l_wires]. destruct (l_wires l) as [ws|]; [|reflexivity]. cbn [option_map]. now rewrite Ph. }
  unfold write_glm. rewrite E1, E2, E3, E5, E7, E8.
  destruct (write_loads num cplx ms); [|reflexivity]. cbn [bind]. destruct (write_transformer_configurations num cplx ms (ws_tc st) (ws_tn st)) as [[[[tc tn] tk] trows]|]; [|reflexivity]. cbn [bind].
  destruct (fold_left (reg_step num ms) ms _) as [[[rc rn] rp] rk]. rewrite E4, E6. destruct (fold_left (reg_write rn) ms _) as [seen rrows].
  destruct (match ww with Some _ => _ | None => _ end) as [[[[lc ln] lk] lrows]|]; [|reflexivity]. cbn [bind]. now rewrite E9.
Qed.
Print Assumptions C90_open_refuted.

(** A ZIP load without constant current (or power, or impedance) on a phase stops the writing. *)
Theorem C90_zip_refuted : forall num cplx order ww ms st l j ph,
  In l (loads ms) -> In j (olist (ld_pls l)) -> pl_phase j = Some ph -> pl_zip j = Some 1%Z ->
  (exists a b, (a + b == 0)%Q /\ (pl_pc j = Some a /\ pl_qc j = Some b \/ pl_pp j = Some a /\ pl_qp j = Some b \/ pl_pi j = Some a /\ pl_qi j = Some b)) ->
  exists e, write_glm num cplx order ww ms st = Err e.
Proof.
  intros num cplx order ww ms st l j ph Il Ij Hp Hz (a & b & Z & H).
  assert (B : forall kind p, zip_pair num kind p (Some a) (Some b) = Err EZeroDiv) by (intros kind p; unfold zip_pair, qdiv; cbn [of_opt bind]; assert (Qeq_bool (a + b) 0 = true) as -> by (now apply Qeq_bool_iff); reflexivity).
  assert (J : exists e, pload_props num cplx j = Err e).
  { unfold pload_props. rewrite Hp, Hz. cbn [Z.eqb Pos.eqb]. destruct H as [[-> ->]|[[-> ->]|[-> ->]]]; rewrite B.
    - cbn [bind]. eauto.
    - destruct (zip_pair num "current" ph (pl_pc j) (pl_qc j)); cbn [bind]; eauto.
    - destruct (zip_pair num "current" ph (pl_pc j) (pl_qc j)); cbn [bind]; [|eauto]. destruct (zip_pair num "power" ph (pl_pp j) (pl_qp j)); cbn [bind]; eauto. }
  assert (M : forall {A C} (f : A -> res C) xs x e, In x xs -> f x = Err e -> exists e', mapM f xs = Err e').
  { intros A C f xs x e. induction xs as [|y xs IH]; [intros []|]. intros [->|I] E; cbn; [rewrite E; eauto|]. destruct (f y); [|eauto]. destruct (IH I E) as (e' & ->). eauto. }
  destruct J as (e & J). assert (L : exists e, load_props num cplx l = Err e).
  { unfold load_props. destruct (ld_pls l) as [pls|]; [|destruct Ij]. cbn [olist] in Ij. destruct (M _ _ _ _ _ _ Ij J) as (e' & ->). cbn. eauto. }
  destruct L as (e1 & L). unfold write_glm, write_loads. unfold loads in Il. apply in_flat_map in Il. destruct Il as (m & Im & Il). destruct m; try (destruct Il; fail). cbn in Il. destruct Il as [->|[]].
  match goal with |- context [mapM ?f ms] => destruct (M _ _ f ms _ e1 Im) as (e' & ->) end; [cbn; rewrite L; reflexivity|]. cbn. eauto.
Qed.
Print Assumptions C90_zip_refuted.

(** ** C91: what the configurations do not say *)
(** Two regulators with the same controls share a configuration, and it has the taps of the last one. *)
Theorem C91_shared_taps_refuted : exists rows st, let ms := [ex_reg "r1" "a" "b" 4; ex_reg "r2" "c" "d" 5] in
  ex_write None ms wstate0 = Ok (rows, st) /\ map (fun b => values b "configuration") (of_class ["regulator"] (file rows)) = [["regulator_config_1"]; ["regulator_config_1"]] /\
  map (fun b => values b "tap_pos_A") (of_class ["regulator_configuration"] (file rows)) = [["5.0"]].
Proof. eexists _, _. cbv zeta. split; [vm_compute; reflexivity|]. split; vm_compute; reflexivity. Qed.
Print Assumptions C91_shared_taps_refuted.

(** No regulator has a reactance of its compensator in the file. *)
Theorem C91_compensator_refuted : forall num cplx order, (forall d, Permutation d (order d)) -> forall hs st ww ms rows st' p,
  reached num cplx order hs st -> phases_ok ms -> write_glm num cplx order ww ms st = Ok (rows, st') ->
  Forall (fun b => values b ("compensator_x_setting_" ++ p) = []) (of_class ["regulator_configuration"] (file rows)).
Proof.
  intros num cplx order perm hs st ww ms rows st' p R P E. destruct (reached_good num cplx order perm hs st R) as [G _].
  destruct (file_parts num cplx order perm ww ms st rows st' G P E) as (lps & tds & tnew & lds & lnew & rnew & _ & _ & _ & Rr & _ & Gs & _ & _ & _ & F). rewrite F. clear F.
  part. rewrite !oc_all by reflexivity. apply Forall_forall. intros b H. apply in_map_iff in H. destruct H as ([d c] & <- & H). destruct Gs as [G1 G2].
  assert (Gset : good_settings (settings_in (ws_rp st') d)).
  { unfold settings_in. destruct (cfind (ws_rp st') d) as [s|] eqn:Ef; [|split; [constructor|intros x []]]. destruct (cfind_in _ _ _ Ef) as (e & He & _). exact (G2 e s He). }
  rewrite rconf_val by (try exact perm; try exact Gset; try discriminate; apply (G1 d c H)).
  assert (dget (settings_in (ws_rp st') d) ("compensator_x_setting_" ++ p) = None) as ->.
  { apply dget_none. intros X. destruct Gset as [_ K]. destruct (K _ X) as (_ & q & [Y|Y]); discriminate Y. }
  assert (Kc : forall hs st, reached num cplx order hs st -> forall d c, In (d, c) (ws_rc st) -> exists r, d = reg_dic r).
  { clear -perm. induction 1 as [|hs st ww ms rows st' R IH P E]; [intros d c []|]. destruct (reached_good num cplx order perm hs st R) as [G _].
    destruct (file_parts num cplx order perm ww ms st rows st' G P E) as (lps & tds & tnew & lds & lnew & rnew & _ & _ & _ & Rr & _). destruct Rr as (Er & _ & D & _). rewrite Er. intros d c H. apply in_app_or in H.
    destruct H as [H|H]; [exact (IH d c H)|]. destruct (D d c H) as (H' & _). unfold rds in H'. rewrite map_map in H'. apply in_map_iff in H'. destruct H' as (r & <- & _). exists r. reflexivity. }
  destruct (Kc (ms :: hs) st' (reached_write _ _ _ hs st ww ms rows st' R P E) d c H) as (r & ->). rewrite reg_dic_get. reflexivity.
Qed.
Print Assumptions C91_compensator_refuted.

(** A negative reactance without a resistance is written as 0+-2.0j, which is no complex number. *)
Theorem C91_reactance_refuted : exists rows st, let l := mkGline (Some "l") None None None None None None (Some [mkGwire (Some "A") None]) (Some [[(0, -2)]]%Q) in
  ex_write None [GLine l] wstate0 = Ok (rows, st) /\ z_key l 0 0 = Some "z11" /\ entry l 0 0 = Some (0, -2)%Q /\
  map (fun b => values b "z11") (of_class ["line_configuration"] (file rows)) = [["0+-2.0j"]] /\ ~ complex_text ex_num 0 (-2) "0+-2.0j".
Proof.
  eexists _, _. cbv zeta. split; [vm_compute; reflexivity|]. split; [reflexivity|]. split; [reflexivity|]. split; [vm_compute; reflexivity|].
  intros [[H _]|[[_ H]|[[_ [_ H]]|[_ [H _]]]]]; [now elim H| | |now elim H]; vm_compute in H; discriminate H.
Qed.
Print Assumptions C91_reactance_refuted.

(** A transformer with three windings and three reactances, as every center-tapped one has, stops the writing. *)
Theorem C91_three_windings_refuted : forall num cplx order ww ms st t w1 w2 w3 x1 x2 x3,
  In t (trafos ms) -> t_wds t = Some [w1; w2; w3] -> t_react t = Some [x1; x2; x3] -> exists e, write_glm num cplx order ww ms st = Err e.
Proof.
  intros num cplx order ww ms st t w1 w2 w3 x1 x2 x3 It Hw Hx. unfold write_glm. destruct (write_loads num cplx ms); [|cbn; eauto]. cbn [bind].
  assert (D : exists e, trafo_dic t = Err e). { unfold trafo_dic. rewrite Hw, Hx. cbv zeta. unfold react_dic. destruct (w_res w1); cbn; eauto. }
  destruct D as (e & D).
  assert (F : exists e', write_transformer_configurations num cplx ms (ws_tc st) (ws_tn st) = Err e').
  { unfold write_transformer_configurations. generalize (ws_tc st, ws_tn st, 1, @nil string). unfold trafos in It. apply in_flat_map in It. destruct It as (m & Im & It).
    induction ms as [|o ms IH]; [destruct Im|]. intros x. cbn [foldM]. destruct Im as [->|Im].
    - destruct m; try (destruct It; fail). cbn in It. destruct It as [->|[]]. rewrite D. cbn. eauto.
    - destruct (match o with GTrafo t0 => _ | _ => _ end); [apply (IH Im)|eauto]. }
  destruct F as (e' & ->). cbn. eauto.
Qed.
Print Assumptions C91_three_windings_refuted.

(** With write_wires given, also as False, the file has no configurations of lines and the lines of a fresh process refer to
    none. *)
Theorem C91_write_wires_refuted : forall num cplx order, (forall d, Permutation d (order d)) -> forall b ms rows st, phases_ok ms ->
  write_glm num cplx order (Some b) ms wstate0 = Ok (rows, st) ->
  of_class ["line_configuration"] (file rows) = [] /\ Forall (fun b => values b "configuration" = []) (of_class line_classes (file rows)).
Proof.
  intros num cplx order perm b ms rows st P E. destruct (file_parts num cplx order perm (Some b) ms wstate0 rows st good_state0 P E) as (lps & tds & tnew & lds & lnew & rnew & _ & _ & _ & _ & Rl & _ & _ & _ & _ & F).
  rewrite F. clear F. destruct Rl as (-> & _ & Ln). split; [part; reflexivity|].
  rewrite !oc_app. repeat (match goal with |- context [of_class ?cs (map ?f ?l)] => rewrite (oc_none cs f l) by (intros; reflexivity) end; cbn [app]). rewrite oc_all by (intros l; apply line_class_smem).
  apply Forall_forall. intros x H. apply in_map_iff in H. destruct H as (l & <- & _). rewrite (proj2 (line_ok num _ l)), Ln. unfold conf_of. destruct (smem _ _), (l_name l); reflexivity.
Qed.
Print Assumptions C91_write_wires_refuted.

(** ** C92: what a process wrote before *)
(** The second file of a network has no configurations of transformers and lines, though its transformers still refer to
    them, and no regulator with two known ends: the whole network was written before. *)
Theorem C92_second_file_refuted : forall num cplx order, (forall d, Permutation d (order d)) ->
  forall hs st0 ww ms rows1 st1 rows2 st2, reached num cplx order hs st0 -> phases_ok ms ->
  write_glm num cplx order None ms st0 = Ok (rows1, st1) -> write_glm num cplx order ww ms st1 = Ok (rows2, st2) ->
  of_class ["transformer_configuration"; "line_configuration"] (file rows2) = [] /\
  (NoDup (map t_name (trafos ms)) -> Forall2 (fun t b => t_name t <> None -> values b "configuration" <> []) (own_trafos ms) (of_class ["transformer"] (file rows2))) /\
  ((forall r, In r (regs ms) -> r_from r <> None /\ r_to r <> None) -> of_class ["regulator"] (file rows2) = []).
Proof. exact second_write. Qed.
Print Assumptions C92_second_file_refuted.

(** What holds after every history: the objects of nodes, capacitors, loads, transformers and lines. *)
Theorem C92_elements_partial : forall num cplx order, (forall d, Permutation d (order d)) ->
  forall hs st st2 ww ms rows1 st1 rows2 st2', reached num cplx order hs st -> reached num cplx order [] st2 -> phases_ok ms ->
  write_glm num cplx order ww ms st = Ok (rows1, st1) -> write_glm num cplx order ww ms st2 = Ok (rows2, st2') ->
  of_class ["node"; "capacitor"; "load"] (file rows1) = of_class ["node"; "capacitor"; "load"] (file rows2) /\
  map (fun b => filter (fun p => negb (String.eqb (fst p) "configuration")) (snd b)) (of_class ("transformer" :: line_classes) (file rows1)) =
  map (fun b => filter (fun p => negb (String.eqb (fst p) "configuration")) (snd b)) (of_class ("transformer" :: line_classes) (file rows2)).
Proof.
  intros num cplx order perm hs st st2 ww ms rows1 st1 rows2 st2' R R2 P E1 E2. destruct (reached_good num cplx order perm hs st R) as [G _]. destruct (reached_good num cplx order perm [] st2 R2) as [G2 _].
  destruct (file_parts num cplx order perm ww ms st rows1 st1 G P E1) as (lps & tds & tnew & lds & lnew & rnew & Fl & _ & _ & _ & _ & _ & _ & _ & _ & F1).
  destruct (file_parts num cplx order perm ww ms st2 rows2 st2' G2 P E2) as (lps' & tds' & tnew' & lds' & lnew' & rnew' & Fl' & _ & _ & _ & _ & _ & _ & _ & _ & F2).
  rewrite F1, F2. clear F1 F2. assert (lps = lps') as <-.
  { clear -Fl Fl'. revert lps' Fl'. induction Fl as [|l x ls xs H F IH]; intros lps' F'; inversion F'; subst; [reflexivity|]. f_equal; [congruence|auto]. }
  split; [part; rewrite !oc_all by reflexivity; reflexivity|].
  rewrite !oc_app. repeat (match goal with |- context [of_class ?cs (map ?f ?l)] => rewrite (oc_none cs f l) by (intros; reflexivity) end; cbn [app]).
  assert (Ls : forall l, smem (line_class l) ("transformer" :: line_classes) = true) by (intros l; pose proof (line_class_smem l) as H; unfold smem in *; cbn [existsb]; rewrite H; apply orb_true_r).
  rewrite !(oc_all _ (trafo_b _)) by reflexivity. rewrite !(oc_all _ (line_b _ _)) by (intros l; apply Ls). rewrite !map_app, !map_map.
  assert (Cf : forall ns n, filter (fun p => negb (String.eqb (fst p) "configuration")) (conf_prop ns n) = []) by (intros ns [n|]; [|reflexivity]; cbn; now destruct (oget ns (Some n))).
  f_equal; apply map_ext.
  - intros t. unfold trafo_b, trafo_props. cbn [snd]. rewrite !filter_app, !Cf. reflexivity.
  - intros l. unfold line_b, line_head, line_props. cbn [snd]. destruct (oeqb _ _), (is_true (l_fuse l)), (is_true (l_switch l)); cbn [snd]; rewrite ?filter_app, ?Cf; reflexivity.
Qed.
Print Assumptions C92_elements_partial.

(** A transformer of a second network gets the configuration of another one: the numbers start again. *)
Theorem C92_wrong_configuration_refuted : exists rows1 st1 rows2 st2,
  ex_write None [ex_trafo "t" 7200] wstate0 = Ok (rows1, st1) /\ ex_write None [ex_trafo "u" 14400; ex_trafo "v" 7200] st1 = Ok (rows2, st2) /\
  map (fun b => (values b "name", values b "configuration")) (of_class ["transformer"] (file rows2)) = [(["nu"], ["transformer_config_1"]); (["nv"], ["transformer_config_1"])] /\
  map (fun b => (values b "name", values b "primary_voltage")) (of_class ["transformer_configuration"] (file rows2)) = [(["transformer_config_1"], ["14400.0"])].
Proof. eexists _, _, _, _. split; [vm_compute; reflexivity|]. split; [vm_compute; reflexivity|]. split; vm_compute; reflexivity. Qed.
Print Assumptions C92_wrong_configuration_refuted.

(** The configurations of regulators of an earlier network appear again, with the same names as new ones. *)
Theorem C92_two_of_a_name_refuted : exists rows1 st1 rows2 st2,
  ex_write None [ex_reg "r" "a" "b" 4] wstate0 = Ok (rows1, st1) /\
  ex_write None [GReg (mkGreg (Some "s") (Some "c") (Some "d") (Some 60%Q) None None None None None None None None None)] st1 = Ok (rows2, st2) /\
  map (fun b => (values b "name", values b "time_delay")) (of_class ["regulator_configuration"] (file rows2)) = [(["regulator_config_1"], ["30.0"]); (["regulator_config_1"], ["60.0"])].
Proof. eexists _, _, _, _. split; [vm_compute; reflexivity|]. split; vm_compute; reflexivity. Qed.
Print Assumptions C92_two_of_a_name_refuted.

Example C92_hypotheses_met : exists rows1 st1 rows2 st2, ex_write None ex_net wstate0 = Ok (rows1, st1) /\ ex_write None ex_net st1 = Ok (rows2, st2) /\
  (forall r, In r (regs ex_net) -> r_from r <> None /\ r_to r <> None) /\ length (file rows1) = 15 /\ length (file rows2) = 10.
Proof. eexists _, _, _, _. split; [vm_compute; reflexivity|]. split; [vm_compute; reflexivity|]. split; [intros r H; cbn in H; phases_in; split; discriminate|]. split; vm_compute; reflexivity. Qed.
