(** C128, C129: the loads and the capacitors of a Windmil file. *)
From Coq Require Import QArith.
From Verif Require Import Base BaseFacts WmLineModel WmLineSpec WmLineProofs WmLoadModel WmLoadSpec.
Local Open Scope string_scope.
Local Open Scope list_scope.
Local Open Scope nat_scope.

(** The dictionary after any lines: the places of the letters, and then anything. *)
Definition tab_any (tab : @dict (list nat)) : Prop :=
  forall p l, dget tab p = Some l -> exists x, l = map place (letters p) ++ x.

Lemma tab_any_dset tab p l y : tab_any tab -> dget tab p = Some l -> tab_any (dset tab p (l ++ y)).
Proof.
  intros H Hp q l' Hq. rewrite dget_dset in Hq. destruct (String.eqb p q) eqn:E; [|now apply H].
  apply String.eqb_eq in E; subst q. injection Hq as <-. destruct (H _ _ Hp) as [x ->].
  exists (x ++ y). now rewrite app_assoc.
Qed.

Lemma tab_any_lines {M} (v : env M) es : forall s s', tab_any (fst s) ->
  foldM (edge_step v) es s = Ok s' -> tab_any (fst s').
Proof.
  induction es as [|e es IH]; intros s s' H HF; cbn [foldM] in HF; [now injection HF as <-|].
  unfold edge_step at 1 in HF.
  destruct (String.eqb (e_class e) "line").
  - destruct (create_line v (fst s) e) as [tl|] eqn:E; cbn [bind] in HF; [|discriminate].
    apply (IH _ _) in HF; [exact HF|]. cbn [fst]. unfold create_line in E.
    destruct (e_length e) as [len|]; cbn [bind] in E; [|discriminate].
    destruct (dget (fst s) (e_phases e)) as [l0|] eqn:E0; cbn [bind of_opt] in E; [|discriminate].
    destruct (foldM (line_step v e) _ _) as [wm|]; cbn [bind] in E; [|discriminate].
    injection E as <-. cbn [fst]. now apply tab_any_dset.
  - destruct (String.eqb (e_class e) "switch").
    + destruct (create_switch v (fst s) e) as [l|]; cbn [bind] in HF; [|discriminate].
      apply (IH _ _) in HF; assumption.
    + destruct (String.eqb (e_class e) "device").
      * destruct (create_device v (fst s) e) as [l|]; cbn [bind] in HF; [|discriminate].
        apply (IH _ _) in HF; assumption.
      * apply (IH _ _) in HF; assumption.
Qed.

Lemma tab_any_parse {M} (v : env M) es tab ls : parse_lines v es = Ok (tab, ls) -> tab_any tab.
Proof.
  intros H. apply (tab_any_lines v es _ _) in H; [exact H|].
  intros p l Hp. destruct (proj1 tab_ok_start _ _ Hp) as [_ [x [-> _]]]. eauto.
Qed.

Lemma find_first mixes name m : find (fun m => String.eqb (m_id m) name) mixes = Some m ->
  exists ms1 ms2, mixes = ms1 ++ m :: ms2 /\ m_id m = name /\ Forall (fun m' => m_id m' <> name) ms1.
Proof.
  induction mixes as [|m0 ms IH]; cbn; [discriminate|].
  destruct (String.eqb_spec (m_id m0) name) as [E|E].
  - intros H; injection H as <-. exists [], ms. split; [reflexivity|]. split; [exact E | constructor].
  - intros H. destruct (IH H) as [ms1 [ms2 [-> [Hn HF]]]].
    exists (m0 :: ms1), ms2. split; [reflexivity|]. split; [exact Hn | now constructor].
Qed.

Lemma mixture_ok mixes name z i p zip conn :
  mixture mixes name = Ok (z, i, p, zip, conn) -> mix_ok mixes name z i p zip conn.
Proof.
  unfold mixture, mix_ok. destruct (String.eqb_spec (squeeze name) "NONE") as [E|E]; cbn [negb].
  - intros H; injection H as <- <- <- <- <-. left. auto 10.
  - destruct (find _ mixes) as [m|] eqn:Ef; cbn [bind of_opt]; [|discriminate].
    destruct (m_z m) as [z'|] eqn:Ez; cbn [bind]; [|discriminate].
    destruct (m_i m) as [i'|] eqn:Ei; cbn [bind]; [|discriminate].
    destruct (m_p m) as [p'|] eqn:Ep; cbn [bind]; [|discriminate].
    intros H; injection H as <- <- <- <- <-. right. split; [exact E|]. split; [reflexivity|].
    destruct (find_first _ _ _ Ef) as [ms1 [ms2 [H1 [H2 H3]]]].
    exists ms1, m, ms2. do 3 (split; [assumption|]). rewrite Ez, Ei, Ep. do 3 (split; [reflexivity|]).
    destruct (String.eqb_spec (m_conn m) "W"); [left | right]; auto.
Qed.

Lemma one_phase_ok c z i p zip ps ws :
  mapM (one_phase c z i p zip) (map (fun x => (x, place x)) ps) = Ok ws ->
  Forall2 (phase_ok c z i p zip) ps ws.
Proof.
  revert ws; induction ps as [|x ps IH]; intros ws H; cbn [map mapM] in H; [injection H as <-; constructor|].
  destruct (one_phase c z i p zip (x, place x)) as [w|] eqn:Ew; [|discriminate].
  destruct (mapM (one_phase c z i p zip) (map (fun x => (x, place x)) ps)) as [ws'|]; [|discriminate].
  injection H as <-. constructor; [|now apply IH].
  unfold one_phase in Ew; cbn [fst snd] in Ew.
  destruct (nth_error (c_kw c) (place x)) as [kw|] eqn:E1; cbn [bind of_opt] in Ew; [|discriminate].
  destruct kw as [kw|]; cbn [bind] in Ew; [|discriminate].
  destruct (nth_error (c_kvar c) (place x)) as [kvar|] eqn:E2; cbn [bind of_opt] in Ew; [|discriminate].
  destruct kvar as [kvar|]; cbn [bind] in Ew; [|discriminate].
  injection Ew as <-. unfold phase_ok; cbn. rewrite E1, E2. auto 10.
Qed.

Lemma node_load_clean s : (forall a b, s <> a ++ "node" ++ b)%string -> node_load 0 s = s.
Proof.
  induction s as [|c t IH]; intros H; [reflexivity|].
  cbn [node_load]. destruct (prefix "node" (String c t)) eqn:E.
  - exfalso. apply prefix_app in E as [b Hb]. exact (H "" b Hb).
  - f_equal. apply IH. intros a b Ht. apply (H (String c a) b). cbn. now rewrite Ht.
Qed.

Lemma one_load_ok mixes tab n f s rest c ls : tab_any tab -> n_out n = (f, s) :: rest ->
  one_load mixes tab n (f, s) c = Ok ls ->
  Forall2 (load_ok mixes) (map (pair n) (filter c_enabled [c])) ls.
Proof.
  intros HT Ho H. unfold one_load in H. cbn [filter]. destruct (c_enabled c); [|injection H as <-; constructor].
  destruct (mixture mixes (c_mix c)) as [m|] eqn:Em; cbn [bind] in H; [|discriminate].
  destruct m as [[[[z i] p] zip] conn].
  destruct (dget tab (c_phases c)) as [l0|] eqn:E0; cbn [bind of_opt] in H; [|discriminate].
  destruct (HT _ _ E0) as [x ->]. rewrite combine_short in H.
  destruct (mapM (one_phase c z i p zip) _) as [ps|] eqn:Ep; cbn [bind] in H; [|discriminate].
  injection H as <-. cbn [map]. constructor; [|constructor].
  unfold load_ok; cbn. split; [reflexivity|]. split; [apply node_load_clean|].
  split; [exists f, s, rest; split; [exact Ho|]; split; [destruct f | destruct s]; reflexivity|].
  split; [reflexivity|]. exists z, i, p, zip. split; [now apply mixture_ok | now apply one_phase_ok].
Qed.

Lemma loads_of_node mixes tab n f s rest cs : tab_any tab -> n_out n = (f, s) :: rest -> forall lss,
  mapM (one_load mixes tab n (f, s)) cs = Ok lss ->
  Forall2 (load_ok mixes) (map (pair n) (filter c_enabled cs)) (concat lss).
Proof.
  intros HT Ho. induction cs as [|c cs IH]; intros lss H; cbn [mapM] in H; [injection H as <-; constructor|].
  destruct (one_load mixes tab n (f, s) c) as [ls|] eqn:E; [|discriminate].
  destruct (mapM (one_load mixes tab n (f, s)) cs) as [lss'|]; [|discriminate].
  injection H as <-. cbn [concat].
  pose proof (one_load_ok _ _ _ _ _ _ _ _ HT Ho E) as F1.
  replace (filter c_enabled (c :: cs)) with (filter c_enabled [c] ++ filter c_enabled cs)
    by (cbn; destruct (c_enabled c); reflexivity).
  rewrite map_app. apply Forall2_app; [exact F1 | now apply IH].
Qed.

(** C128: after any lines, the loads of the model are the enabled loads at the
    nodes with an outgoing edge, in order, each with its node, the feeder of that
    edge, its mix, and on each phase the numbers of the file for that phase. *)
Theorem C128_loads : forall (M : Type) (v : env M) es tab lines mixes ns ls,
  parse_lines v es = Ok (tab, lines) ->
  parse_loads mixes tab ns = Ok ls ->
  Forall2 (load_ok mixes) (served ns) ls.
Proof.
  intros M v es tab lines mixes ns ls Hp H. pose proof (tab_any_parse _ _ _ _ Hp) as HT. clear Hp.
  unfold parse_loads in H.
  destruct (mapM (one_node mixes tab) ns) as [lss|] eqn:Em; cbn [bind] in H; [|discriminate].
  injection H as <-. revert lss Em.
  induction ns as [|n ns IH]; intros lss Em; cbn [mapM] in Em; [injection Em as <-; constructor|].
  destruct (one_node mixes tab n) as [l|] eqn:E; [|discriminate].
  destruct (mapM (one_node mixes tab) ns) as [lss'|]; [|discriminate].
  injection Em as <-. cbn [concat served flat_map]. apply Forall2_app; [|now apply IH].
  unfold one_node in E. destruct (n_loads n) as [cs|], (n_out n) as [|[f s] rest] eqn:Ho;
    try (injection E as <-; constructor).
  destruct (mapM (one_load mixes tab n (f, s)) cs) as [ls0|] eqn:E1; cbn [bind] in E; [|discriminate].
  injection E as <-. eapply loads_of_node; eassumption.
Qed.
Print Assumptions C128_loads.

(** Refutation of "every load of the file is read": the loads at a node without an
    outgoing edge, such as the end of a line, are as if they were not there. *)
Theorem C128_end_refuted : forall mixes tab ns1 n ns2,
  n_out n = [] -> parse_loads mixes tab (ns1 ++ n :: ns2) = parse_loads mixes tab (ns1 ++ ns2).
Proof.
  intros mixes tab ns1 n ns2 Ho. unfold parse_loads.
  assert (E : one_node mixes tab n = Ok []) by (unfold one_node; rewrite Ho; now destruct (n_loads n)).
  induction ns1 as [|m ns1 IH]; cbn [app mapM].
  - rewrite E. destruct (mapM (one_node mixes tab) ns2); reflexivity.
  - destruct (one_node mixes tab m) as [l|]; [|reflexivity].
    destruct (mapM (one_node mixes tab) (ns1 ++ n :: ns2)) as [a|e1],
             (mapM (one_node mixes tab) (ns1 ++ ns2)) as [b|e2]; cbn [bind] in *; try discriminate; try congruence.
    injection IH as IH. cbn [concat]. now rewrite IH.
Qed.
Print Assumptions C128_end_refuted.

(** Refutation of "the power of a load is in watts": of the loads read, a phase
    with a power other than 0 does not have 1000 times the kW of the file. *)
Theorem C128_watts_refuted : forall mixes n c l w kw,
  load_ok mixes (n, c) l -> In w (d_phases l) ->
  nth_error (c_kw c) (place (p_phase w)) = Some (Ok kw) -> ~ (kw == 0)%Q -> ~ (p_p w == 1000 * kw)%Q.
Proof.
  intros mixes n c l w kw HL Hw Hk H0.
  destruct HL as [_ [_ [_ [_ [z [i [p [zip [_ F]]]]]]]]].
  assert (p_p w = kw) as ->.
  { clear -F Hw Hk. induction F as [|ph w' phs ws HP F IH]; [destruct Hw|].
    destruct Hw as [->|Hw]; [|now apply IH].
    destruct HP as [<- [H1 _]]. congruence. }
  intros HE. apply H0.
  assert (X : (kw == (1000 * kw - kw) * (1 # 999))%Q) by ring.
  rewrite X, <- HE. ring.
Qed.
Print Assumptions C128_watts_refuted.

(** Refutation of C129 as wished, for every file: the reader never makes a
    capacitor. It stops with a KeyError if a node with capacitors has an outgoing
    edge, unless its dictionary of loads is there and empty; else there are none. *)
Theorem C129_capacitors_refuted : forall ns,
  (parse_capacitors ns = Ok [] /\ (forall n, In n ns -> n_capacitors n = true -> n_out n <> [] -> n_loads n = Some []))
  \/ (parse_capacitors ns = Err EKey
      /\ exists n, In n ns /\ n_capacitors n = true /\ n_out n <> [] /\ n_loads n <> Some []).
Proof.
  intros ns. unfold parse_capacitors.
  induction ns as [|n ns IH]; cbn [mapM].
  - left. split; [reflexivity | intros n []].
  - assert (HN : node_capacitors n = Ok [] /\ (n_capacitors n = true -> n_out n <> [] -> n_loads n = Some [])
        \/ node_capacitors n = Err EKey /\ n_capacitors n = true /\ n_out n <> [] /\ n_loads n <> Some []).
    { unfold node_capacitors. destruct (n_capacitors n); [|left; split; [reflexivity | discriminate]].
      destruct (n_out n) as [|o os]; [left; split; [reflexivity | congruence]|].
      destruct (n_loads n) as [[|c cs]|]; cbn.
      - left. auto.
      - right. split; [reflexivity|]. split; [reflexivity|]. split; discriminate.
      - right. split; [reflexivity|]. split; [reflexivity|]. split; discriminate. }
    destruct HN as [[-> H1]|[-> H1]]; cbn [bind].
    + destruct (mapM node_capacitors ns) as [cs|e]; cbn [bind] in *.
      * destruct IH as [[E IH]|[E _]]; [|discriminate]. injection E as E. left. cbn [concat]. rewrite E.
        split; [reflexivity|]. intros m [<-|Hm]; [exact H1 | now apply IH].
      * destruct IH as [[E _]|[E [m [Hm IH]]]]; [discriminate|]. right. split; [exact E|].
        exists m. split; [now right | exact IH].
    + right. split; [reflexivity|]. exists n. split; [now left | exact H1].
Qed.
Print Assumptions C129_capacitors_refuted.

Definition ex_load (name m : string) (en : bool) : consumer :=
  mkConsumer name en m "AC" [Ok 3%Q; Ok 4%Q; Ok 5%Q] [Ok 1%Q; Ok 2%Q; Ok 6%Q].
Definition ex_nodes : list node :=
  [mkNode "node_a" None (Some [ex_load "home" "None" true; ex_load "shop" "mall" true; ex_load "off" "x" false])
          true [(Some "f", None)];
   mkNode "node_b" (Some (1%Q, 2%Q)) (Some [ex_load "end" "None" true]) false []].

(** The hypotheses are met: a home without a mix, a shop with one, a load that is
    off, and one at the end of a line; a node with a capacitor. *)
Example C128_hypotheses_met :
  exists tab lines l1 l2,
    parse_lines (mkEnv [] [] [] (fun _ => None) (fun _ ws => Ok (length ws)))
      [mkEdge "node_a" "node_b" "line" "AC" 1 [None; None; None; None] "overhead" (Ok 1%Q) None None "" [] []]
      = Ok (tab, lines)
    /\ parse_loads [mkMix "mall" (Ok (1 # 2)) (Ok (1 # 4)) (Ok (1 # 4)) "D"] tab ex_nodes = Ok [l1; l2]
    /\ d_name l1 = "home" /\ map p_p (d_phases l1) = [3%Q; 5%Q] /\ d_conn l2 = "D"
    /\ parse_capacitors ex_nodes = Err EKey.
Proof.
  do 4 eexists. split; [vm_compute; reflexivity|]. split; [vm_compute; reflexivity|].
  split; [reflexivity|]. split; [reflexivity|]. split; reflexivity.
Qed.

(** A network without capacitors at nodes with an outgoing edge is read. *)
Example C129_hypotheses_met :
  parse_capacitors [mkNode "node_a" None None false [(None, None)]; mkNode "node_b" None None true []] = Ok [].
Proof. reflexivity. Qed.
