(** Theorems about the PV systems of the OpenDSS script (C87). *)
From Verif Require Import Base BaseFacts CsvModel DssNameModel DssTextModel DssPvModel DssNameSpec DssTextSpec DssLoadSpec DssPvSpec
  DssNameProofs DssTextProofs DssLoadProofs DssStoreProofs DssPvProofs DssTextProps.
From Coq Require Import QArith Qabs Lia Permutation.
Local Open Scope string_scope.
Local Open Scope nat_scope.
Local Open Scope list_scope.

Lemma pvs_read show num parent isfile datasets fmts removed key ps : faithful show num -> Forall (good_pv parent isfile datasets fmts key) ps ->
  exists ts els, mapM (pv_text show parent isfile datasets fmts removed key) ps = Ok ts /\ reads (texts ts) els /\
    Forall2 (pv_is num parent isfile datasets fmts removed key) ps els.
Proof.
  intros FS H. induction H as [|p r G _ (ts & els & M & R & F)]; [exists [], []; split; [reflexivity|]; split; [exact reads_nil | constructor]|].
  destruct (pv_reads show num FS parent isfile datasets fmts removed key p G) as (t & e & T & I & Rd).
  exists (t :: ts), (e :: els). cbn [mapM]. rewrite T. cbn [bind]. rewrite M. split; [reflexivity|]. split; [exact (reads_app t (texts ts) [e] els Rd R) | constructor; assumption].
Qed.

(** *** C87: PV systems *)
Theorem C87_pvs : forall show num parent isfile datasets fmts removed key ps,
  faithful show num -> Forall (good_pv parent isfile datasets fmts key) ps ->
  exists ts els, mapM (pv_text show parent isfile datasets fmts removed key) ps = Ok ts /\
    read_dss (String.concat "" ts) = Some els /\ Forall2 (pv_is num parent isfile datasets fmts removed key) ps els.
Proof.
  intros show num parent isfile datasets fmts removed key ps FS H. destruct (pvs_read show num parent isfile datasets fmts removed key ps FS H) as (ts & els & M & R & F).
  exists ts, els. split; [exact M|]. split; [|exact F]. rewrite concat_texts. apply reads_whole. exact R.
Qed.
Print Assumptions C87_pvs.

Lemma good_named parent isfile datasets fmts key ps : Forall (good_pv parent isfile datasets fmts key) ps -> forall p, In p ps -> exists n, pv_name p = Some n /\ token n.
Proof. intros F p I. rewrite Forall_forall in F. exact (proj1 (F p I)). Qed.

(** What is written for a group without volt-watt control: the PV systems and then their controls. *)
Theorem C87_group : forall show num parent isfile datasets fmts removed order key loc ps,
  faithful show num -> Forall (good_pv parent isfile datasets fmts key) ps -> (forall l, Permutation (order l) l) -> token loc ->
  (forall p, In p ps -> pv_control p <> Some "voltwatt") ->
  exists t els cs, pv_group show parent isfile datasets fmts removed order key loc ps = Ok t /\ read_dss t = Some (els ++ cs) /\
    Forall2 (pv_is num parent isfile datasets fmts removed key) ps els /\ controls_are ps cs.
Proof.
  intros show num parent isfile datasets fmts removed order key loc ps FS H O L NW.
  destruct (pvs_read show num parent isfile datasets fmts removed key ps FS H) as (ts & els & M & R & F).
  pose proof (good_named _ _ _ _ _ _ H) as GN.
  assert (NN : forall p, In p ps -> pv_name p <> None) by (intros p I; destruct (GN p I) as (n & -> & _); discriminate).
  assert (TV : forall c n, In n (collect_names c ps) -> token n).
  { intros c n I. apply (mode_has ps c n NN) in I as (p & I & A & _). destruct (GN p I) as (m & B & T). rewrite A in B. injection B as ->. exact T. }
  assert (TB : forall c n, In n (last_names c ps) -> token n).
  { intros c n I. apply (mode_last ps c n NN) in I as (a & p & I & A & _). destruct (GN p) as (m & B & T); [subst ps; apply in_app_iff; right; left; reflexivity|].
    rewrite A in B. injection B as ->. exact T. }
  assert (W : collect_names "voltwatt" ps = []).
  { destruct (collect_names "voltwatt" ps) as [|x r] eqn:E; [reflexivity|]. exfalso. assert (I : In x (collect_names "voltwatt" ps)) by (rewrite E; left; reflexivity).
    apply collect_In in I as (p & I & C & _). exact (NW p I C). }
  exists (texts ts ++ nl ++ inv_text order loc (collect_names "voltvar" ps) [] (last_names "voltwatt_voltvar" ps))%string, els,
    (control_elts loc (order (collect_names "voltvar" ps)) (order (last_names "voltwatt_voltvar" ps))).
  split; [unfold pv_group; rewrite M; cbn [bind]; rewrite W; reflexivity|]. split; [|split; [exact F|]].
  - apply reads_whole. apply reads_app; [exact R|]. apply (reads_app _ _ []); [exact reads_nl|]. apply inv_reads; [exact O | exact L | apply TV | apply TB].
  - apply controls_spec.
    + exact NN.
    + intros n I. exact (TV _ n (Permutation_in _ (O _) I)).
    + intros n I. exact (TB _ n (Permutation_in _ (O _) I)).
    + apply (Permutation_NoDup (Permutation_sym (O _))). apply collect_NoDup.
    + apply (Permutation_NoDup (Permutation_sym (O _))). apply last_NoDup.
    + intros n. rewrite <- (mode_has ps "voltvar" n NN). split; apply Permutation_in; [|symmetry]; apply O.
    + intros n. rewrite <- (mode_last ps "voltwatt_voltvar" n NN). split; apply Permutation_in; [|symmetry]; apply O.
Qed.
Print Assumptions C87_group.

(** One PV system with volt-watt control makes the script unreadable: a stray "]" follows its controls. *)
Theorem C87_voltwatt_refuted : forall show num parent isfile datasets fmts removed order key loc ps p,
  faithful show num -> Forall (good_pv parent isfile datasets fmts key) ps -> (forall l, Permutation (order l) l) -> token loc ->
  In p ps -> pv_control p = Some "voltwatt" ->
  exists t, pv_group show parent isfile datasets fmts removed order key loc ps = Ok t /\ read_dss t = None.
Proof.
  intros show num parent isfile datasets fmts removed order key loc ps p FS H O L I C.
  destruct (pvs_read show num parent isfile datasets fmts removed key ps FS H) as (ts & els & M & R & F).
  pose proof (good_named _ _ _ _ _ _ H) as GN.
  assert (NN : forall p, In p ps -> pv_name p <> None) by (intros q J; destruct (GN q J) as (n & -> & _); discriminate).
  eexists. split; [unfold pv_group; rewrite M; cbn [bind]; reflexivity|].
  rewrite R. change (String "010" "" ++ ?x)%string with (nl ++ x)%string. rewrite blank_read, inv_stray; [reflexivity | exact O | exact L | |].
  - intros n J. apply (mode_has ps "voltwatt" n NN) in J as (q & J & A & _). destruct (GN q J) as (m & B & T). rewrite A in B. injection B as ->. exact T.
  - intros Q. assert (J : In (show_opt (pv_name p)) (collect_names "voltwatt" ps)) by (apply collect_In; exists p; repeat split; assumption). rewrite Q in J. exact J.
Qed.
Print Assumptions C87_voltwatt_refuted.

(** Of the PV systems with volt-var and volt-watt control, only the one that comes last in its group is controlled. *)
Theorem C87_combined_refuted : forall show num parent isfile datasets fmts removed order key loc a p b q n,
  faithful show num -> Forall (good_pv parent isfile datasets fmts key) (a ++ p :: b ++ [q]) -> (forall l, Permutation (order l) l) -> token loc ->
  (forall x, In x (a ++ p :: b ++ [q]) -> pv_control x <> Some "voltwatt") ->
  pv_name p = Some n -> pv_control p = Some "voltwatt_voltvar" ->
  (forall x, In x (a ++ b ++ [q]) -> pv_name x <> Some n) ->
  exists t els, pv_group show parent isfile datasets fmts removed order key loc (a ++ p :: b ++ [q]) = Ok t /\ read_dss t = Some els /\
    forall e, In e els -> ~ steers e n.
Proof.
  intros show num parent isfile datasets fmts removed order key loc a p b q n FS H O L NW N C U.
  destruct (C87_group show num parent isfile datasets fmts removed order key loc _ FS H O L NW) as (t & els & cs & G & R & F & K).
  exists t, (els ++ cs). split; [exact G|]. split; [exact R|]. intros e I S. apply in_app_iff in I as [I|I].
  - destruct S as [S _]. assert (E : exists x, pv_is num parent isfile datasets fmts removed key x e).
    { clear - F I. induction F as [|x y l m P F IH]; [destruct I|]. destruct I as [->|I]; [exists x; exact P | exact (IH I)]. }
    destruct E as [x E]. rewrite (vi_class _ _ _ _ _ _ _ _ _ E) in S. discriminate S.
  - destruct (ca_mode _ _ K e n I S) as [[M _]|[_ M]].
    + assert (X : has_mode (a ++ p :: b ++ [q]) "voltvar" n) by (apply (ca_voltvar _ _ K); exists e; repeat split; assumption || apply S).
      destruct X as (x & J & A & B). apply in_app_iff in J as [J|[<-|J]].
      * apply (U x); [apply in_app_iff; left; exact J | exact A].
      * congruence.
      * apply (U x); [apply in_app_iff; right; exact J | exact A].
    + assert (X : last_mode (a ++ p :: b ++ [q]) "voltwatt_voltvar" n) by (apply (ca_both _ _ K); exists e; repeat split; assumption || apply S).
      destruct X as (l & x & J & A & B). change (a ++ p :: b ++ [q]) with (a ++ (p :: b) ++ [q]) in J. rewrite app_assoc in J. apply app_inj_tail in J as [_ <-].
      apply (U q); [apply in_app_iff; right; apply in_app_iff; right; left; reflexivity | exact A].
Qed.
Print Assumptions C87_combined_refuted.

(** The other control schemes that the data model names are written without power factor and without control. *)
Theorem C87_schemes_refuted : forall show num parent isfile datasets fmts removed order key loc ps p n,
  faithful show num -> Forall (good_pv parent isfile datasets fmts key) ps -> (forall l, Permutation (order l) l) -> token loc ->
  (forall x, In x ps -> pv_control x <> Some "voltwatt") ->
  In p ps -> pv_name p = Some n -> (forall x, In x ps -> pv_name x = Some n -> x = p) ->
  In (pv_control p) (map Some ["voltvar_vars_over_watts"; "voltvar_watts_over_vars"; "voltvar_fixed_vars"; "voltvar_novars"; "watt_powerfactor"; "none"]) ->
  exists t els, pv_group show parent isfile datasets fmts removed order key loc ps = Ok t /\ read_dss t = Some els /\
    (forall e, In e els -> ~ steers e n) /\ forall e, In e els -> e_class e = "PVSystem" -> e_name e = n -> prop e "pf" = None /\ prop e "kvar" = None.
Proof.
  intros show num parent isfile datasets fmts removed order key loc ps p n FS H O L NW I N U C.
  destruct (C87_group show num parent isfile datasets fmts removed order key loc _ FS H O L NW) as (t & els & cs & G & R & F & K).
  assert (E : forall e, In e els -> exists x, In x ps /\ pv_is num parent isfile datasets fmts removed key x e).
  { clear - F. induction F as [|x y l m P F IH]; intros e I; [destruct I|]. destruct I as [<-|I]; [exists x; split; [left; reflexivity | exact P]|].
    destruct (IH e I) as (z & A & B). exists z. split; [right; exact A | exact B]. }
  assert (ND : pv_control p <> None /\ ~ In (pv_control p) (map Some ["powerfactor"; "voltwatt"; "voltvar"]) /\ pv_control p <> Some "voltvar" /\ pv_control p <> Some "voltwatt_voltvar").
  { cbn [map In] in C. repeat (destruct C as [C|C]; [rewrite <- C; split; [discriminate|]; split; [intros J; cbn in J; repeat (destruct J as [J|J]; [discriminate J|]); exact J|]; split; discriminate|]). destruct C. }
  destruct ND as (D1 & D2 & D3 & D4).
  exists t, (els ++ cs). split; [exact G|]. split; [exact R|]. split.
  - intros e J S. apply in_app_iff in J as [J|J].
    + destruct (E e J) as (x & _ & X). destruct S as [S _]. rewrite (vi_class _ _ _ _ _ _ _ _ _ X) in S. discriminate S.
    + destruct (ca_mode _ _ K e n J S) as [[M _]|[_ M]].
      * assert (X : has_mode ps "voltvar" n) by (apply (ca_voltvar _ _ K); exists e; repeat split; assumption || apply S).
        destruct X as (x & A & B & D). rewrite (U x A B) in D. contradiction.
      * assert (X : last_mode ps "voltwatt_voltvar" n) by (apply (ca_both _ _ K); exists e; repeat split; assumption || apply S).
        destruct X as (l & x & A & B & D). rewrite (U x) in D; [contradiction | subst ps; apply in_app_iff; right; left; reflexivity | exact B].
  - intros e J Cl En. apply in_app_iff in J as [J|J].
    + destruct (E e J) as (x & A & X). pose proof (vi_name _ _ _ _ _ _ _ _ _ X) as Nx. rewrite En in Nx. rewrite (U x A Nx) in X.
      exact (vi_neither _ _ _ _ _ _ _ _ _ X D1 D2).
    + pose proof (ca_class _ _ K e J) as Q. rewrite Cl in Q. cbn in Q. destruct Q as [Q|[Q|[]]]; discriminate Q.
Qed.
Print Assumptions C87_schemes_refuted.

(** A PV system on one phase with 300 V or more is written with three phases at a single node. *)
Theorem C87_phases_refuted : forall num parent isfile datasets fmts removed key p e x v b, pv_is num parent isfile datasets fmts removed key p e ->
  pv_phases p = [x] -> pv_bus p = Some b -> pv_kv p = Some v -> (300 <= v)%Q ->
  prop e "phases" = Some "3" /\ exists w c n, prop e "bus1" = Some w /\ terminal w = (c, [n]) /\ at_node x n.
Proof.
  intros num parent isfile datasets fmts removed key p e x v b H P B V G. destruct (vi_kv _ _ _ _ _ _ _ _ _ H) as (u & A & _ & Ph).
  unfold pv_voltage_is in A. rewrite V in A. subst u. apply Qle_bool_iff in G. rewrite G in Ph. split; [exact Ph|].
  destruct (vi_bus _ _ _ _ _ _ _ _ _ H) as (ns & F & C). rewrite P in F. inversion F as [|? n ? r At F']; subst. inversion F'; subst.
  unfold connects in C. rewrite B in C. destruct C as (w & c & C & T & _). exists w, c, n. repeat split; assumption.
Qed.
Print Assumptions C87_phases_refuted.

Lemma section_fails show num parent isfile datasets fmts removed key a p b x : faithful show num -> Forall (good_pv parent isfile datasets fmts key) a ->
  pv_text show parent isfile datasets fmts removed key p = Err x ->
  mapM (pv_text show parent isfile datasets fmts removed key) (a ++ p :: b) = Err x.
Proof.
  intros FS F E. induction F as [|y r G _ IH]; cbn [app mapM]; [rewrite E; reflexivity|].
  destruct (pv_reads show num FS parent isfile datasets fmts removed key y G) as (t & e & -> & _). cbn [bind]. rewrite IH. reflexivity.
Qed.
(** A power factor of zero makes the section fail. *)
Theorem C87_zero_factor_refuted : forall show num parent isfile datasets fmts removed key a p b, faithful show num -> Forall (good_pv parent isfile datasets fmts key) a ->
  (exists v, pv_voltage_is parent p v) -> pv_active p <> None -> (factor p == 0)%Q ->
  mapM (pv_text show parent isfile datasets fmts removed key) (a ++ p :: b) = Err EZeroDiv.
Proof.
  intros show num parent isfile datasets fmts removed key a p b FS F (v & V) A Z. apply (section_fails show num); [exact FS | exact F|].
  unfold pv_text. assert (Vo : pv_voltage parent p = Ok v).
  { unfold pv_voltage, pv_voltage_is in *. destruct (pv_kv p); [subst v; reflexivity|]. destruct V as (c & -> & V). cbn [of_opt bind]. rewrite V. reflexivity. }
  rewrite Vo. cbn [bind]. unfold pv_rating. destruct (pv_active p) as [q|]; [|contradiction A; reflexivity]. fold (factor p). apply Qeq_bool_iff in Z. rewrite Z. reflexivity.
Qed.
Print Assumptions C87_zero_factor_refuted.

(** So do a PV system without a voltage that is not connected to anything, *)
Theorem C87_unconnected_refuted : forall show num parent isfile datasets fmts removed key a p b, faithful show num -> Forall (good_pv parent isfile datasets fmts key) a ->
  pv_kv p = None -> pv_bus p = None -> mapM (pv_text show parent isfile datasets fmts removed key) (a ++ p :: b) = Err EKey.
Proof.
  intros show num parent isfile datasets fmts removed key a p b FS F V B. apply (section_fails show num); [exact FS | exact F|].
  unfold pv_text, pv_voltage. rewrite V, B. reflexivity.
Qed.
Print Assumptions C87_unconnected_refuted.

(** and one with a data file that is not among the load shapes of its group. *)
Theorem C87_missing_shape_refuted : forall show num parent isfile datasets fmts removed key a p b l, faithful show num -> Forall (good_pv parent isfile datasets fmts key) a ->
  (exists v, pv_voltage_is parent p v) -> (pv_active p <> None -> ~ (factor p == 0)%Q) -> In (pv_conn p) [None; Some "D"; Some "Y"] ->
  pv_ts p = [Some l] -> isfile l = true -> (forall d, dget datasets key = Some d -> dget d l = None) ->
  mapM (pv_text show parent isfile datasets fmts removed key) (a ++ p :: b) = Err EKey.
Proof.
  intros show num parent isfile datasets fmts removed key a p b l FS F (v & V) PF C T I D. apply (section_fails show num); [exact FS | exact F|].
  unfold pv_text. assert (Vo : pv_voltage parent p = Ok v).
  { unfold pv_voltage, pv_voltage_is in *. destruct (pv_kv p); [subst v; reflexivity|]. destruct V as (c & -> & V). cbn [of_opt bind]. rewrite V. reflexivity. }
  rewrite Vo. cbn [bind].
  assert (R : exists t, pv_rating show p = Ok t).
  { unfold pv_rating. destruct (pv_active p); [|eexists; reflexivity]. fold (factor p). destruct (Qeq_bool (factor p) 0) eqn:Z; [|eexists; reflexivity].
    apply Qeq_bool_iff in Z. contradiction (PF ltac:(discriminate) Z). }
  destruct R as [t ->]. cbn [bind].
  assert (K : exists t, pv_conn_text p = Ok t) by (unfold pv_conn_text; destruct C as [<-|[<-|[<-|[]]]]; eexists; reflexivity).
  destruct K as [u ->]. cbn [bind]. rewrite T. cbn [mapM]. unfold pv_series. rewrite I. destruct (dget datasets key) as [d|]; [|reflexivity]. cbn [of_opt bind].
  rewrite (D d eq_refl). reflexivity.
Qed.
Print Assumptions C87_missing_shape_refuted.

(** *** A group that meets the hypotheses *)
Definition roof (n : string) (ph : list string) (c : option string) : pv :=
  mkPv (Some n) (Some "bus 7") ph (Some 240%Q) (Some 4000%Q) (Some (9 # 10)%Q) None (Some 1000%Q) (Some "Y") None (Some 20%Q) (Some 1%Q) (Some (1 # 2)%Q) None None c [Some "pv.csv"].
Definition roofs : list pv := [roof "pv1" ["A"] (Some "voltvar"); roof "pv2" ["A"; "B"; "C"] (Some "voltwatt_voltvar"); roof "pv3" ["C"] None; roof "pv4" ["B"] (Some "voltwatt_voltvar")].
Definition shapes : dict (dict string) := [("s_f", [("pv.csv", "pv_shape")])].
Definition shape_formats : dict string := [("pv_shape", "yearly")].
Definition is_csv (l : string) : bool := String.eqb l "pv.csv".
Definition nobody : string -> option (option Q) := fun _ => None.

Lemma roof_good n ph c : token n -> Forall (fun x => In x ["A"; "B"; "C"]) ph -> good_pv nobody is_csv shapes shape_formats "s_f" (roof n ph c).
Proof.
  intros T P. split; [exists n; split; [reflexivity | exact T]|]. split; [discriminate|]. split.
  - intros x I. cbn [pv_phases roof] in I. rewrite Forall_forall in P. specialize (P x I). cbn in P. destruct P as [<-|[<-|[<-|[]]]]; [exists "1" | exists "2" | exists "3"]; constructor.
  - split; [exists (Some 240%Q); reflexivity|]. split; [intros _ Q; discriminate Q|]. split; [right; right; left; reflexivity|].
    constructor; [|constructor]. right. exists "yearly", "pv_shape". split; [|split; [right; reflexivity | split; [discriminate | reflexivity]]].
    exists "pv.csv", [("pv.csv", "pv_shape")]. repeat split; reflexivity.
Qed.
Lemma roofs_good : Forall (good_pv nobody is_csv shapes shape_formats "s_f") roofs.
Proof. repeat (constructor; [apply roof_good; [split; [discriminate | reflexivity] | repeat (constructor; [cbn; tauto|]); constructor]|]). constructor. Qed.
Example C87_hypotheses_met :
  Forall (good_pv nobody is_csv shapes shape_formats "s_f") roofs /\ (forall l : list string, Permutation (rev l) l) /\ token "s_f" /\
  (forall p, In p roofs -> pv_control p <> Some "voltwatt") /\ has_mode roofs "voltvar" "pv1" /\ last_mode roofs "voltwatt_voltvar" "pv4" /\
  pv_control (roof "pv2" ["A"; "B"; "C"] (Some "voltwatt_voltvar")) = Some "voltwatt_voltvar".
Proof.
  split; [exact roofs_good|]. split; [intros l; symmetry; apply Permutation_rev|]. split; [split; [discriminate | reflexivity]|]. split.
  - intros p I. cbn in I. repeat (destruct I as [<-|I]; [discriminate|]). destruct I.
  - split; [eexists; split; [left; reflexivity|]; split; reflexivity|]. split; [|reflexivity]. eexists [_; _; _], _. split; [reflexivity|]. split; reflexivity.
Qed.
Definition roofs_text : string := Eval vm_compute in match pv_group show_q nobody is_csv shapes shape_formats false (@rev string) "s_f" "s_f" roofs with Ok t => t | Err _ => "" end.
Example C87_text : option_map (map (fun e => (e_class e, e_name e))) (read_dss roofs_text) =
  Some [("PVSystem", "pv1"); ("PVSystem", "pv2"); ("PVSystem", "pv3"); ("PVSystem", "pv4"); ("XYCurve", "VoltVarCurve_s_f"); ("InvControl", "InvPVCtrVV_pv1");
        ("XYCurve", "VoltWattCurve_s_f"); ("InvControl", "InvPVCtrVW_pv4")].
Proof. vm_compute. reflexivity. Qed.
Example C87_voltwatt_met : exists p, In p [roof "pv1" ["A"] (Some "voltwatt")] /\ pv_control p = Some "voltwatt".
Proof. eexists. split; [left; reflexivity | reflexivity]. Qed.
