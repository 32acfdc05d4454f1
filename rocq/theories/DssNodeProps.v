(** Theorems about the nodes of the OpenDSS reader (C94). *)
From Verif Require Import Base BaseFacts CsvModel TextModel DssNameModel DssTextSpec DssTextProofs DssNodeModel DssNodeSpec DssNodeProofs.
From Coq Require Import QArith Lia.
Local Open Scope string_scope.
Local Open Scope nat_scope.
Local Open Scope list_scope.

(** Every bus of a line, a transformer or a load, and every bus of the
    coordinates file, is a node, once, and there are no others. Its phases
    are those of the terminals that stand there, its position is that of the
    last row with its name. *)
Theorem C94_nodes : forall int_ num delim source rows c,
  reads_nodes int_ -> good_rows num delim rows -> good_ends (ends c) ->
  exists ns, parse_nodes int_ num delim source (Some rows) c = Ok ns /\
    NoDup (map rn_name ns) /\
    (forall k, In k (map rn_name ns) <-> exists b, k = Some b /\ (located num delim rows b \/ used c b)) /\
    forall n b, In n ns -> rn_name n = Some b ->
      rn_feeder n = source /\
      (forall p, In p (rn_phases n) <-> exists l, p = Some l /\ at_bus c b l) /\
      (once c -> NoDup (rn_phases n)) /\
      (forall x y, placed num delim rows b x y -> rn_pos n = [(Some x, Some y)]) /\
      (~ located num delim rows b -> rn_pos n = []).
Proof.
  intros int_ num delim source rows c I R G. destruct (rows_ok num delim rows R) as (N & Nn & K & P). set (bs0 := fold_left (row_step num delim) rows []) in *.
  assert (P0 : forall k e, bget bs0 k = Some e -> b_phases e = None).
  { intros [b|] e E; [exact (proj1 (P b e E))|]. exfalso. apply Nn. apply bget_some. eauto. }
  destruct (good_stops _ G) as [ss F]. destruct (touches_ok num source bs0 N P0 ss) as (bs & E & Nb & Kb & Pb).
  exists (map (make_node source) bs). split.
  { unfold parse_nodes. fold bs0. rewrite <- (circuit_steps int_ I c bs0 ss F) in E. destruct (foldM (line_step int_) (c_lines c) bs0) as [b1|]; [|discriminate]. cbn [bind] in *.
    destruct (foldM (trafo_step int_) (c_trafos c) b1) as [b2|]; [|discriminate]. cbn [bind] in *. rewrite E. reflexivity. }
  assert (Nm : map rn_name (map (make_node source) bs) = map fst bs) by (rewrite map_map; reflexivity). rewrite Nm. split; [exact Nb|].
  assert (U : forall b zs, In (b, zs) ss -> exists t n ps, In (t, n) (ends c) /\ stands t n b ps /\ zs = map letterz ps).
  { intros b zs H. clear -F H. induction F as [|[t n] [b' zs'] es ss (ps & Hs & Hz) F IH]; [destruct H|]. destruct H as [H|H]; [injection H as -> ->; exists t, n, ps; cbn in *; auto|]. destruct (IH H) as (t' & n' & ps' & Q & Q'). exists t', n', ps'. split; [now right|exact Q']. }
  assert (V : forall t n b ps, In (t, n) (ends c) -> stands t n b ps -> In (b, map letterz ps) ss).
  { intros t n b ps H S. clear -F H S I. induction F as [|e [b' zs'] es ss (ps' & Hs & Hz) F IH]; [destruct H|]. destruct H as [->|H]; [|right; auto]. left. cbn in Hs, Hz. apply (bus_of_stands int_ I) in Hs, S. rewrite S in Hs. injection Hs as <- Q. now rewrite Hz, Q. }
  split.
  { intros k. rewrite Kb. split.
    - intros [H|(b & zs & -> & H)].
      + destruct k as [b|]; [|destruct (Nn H)]. exists b. split; [reflexivity|]. left. now apply K.
      + exists b. split; [reflexivity|]. right. destruct (U b zs H) as (t & n & ps & H1 & H2 & _). exists t, n, ps. auto.
    - intros (b & -> & [H|(t & n & ps & H1 & H2)]); [left; now apply K|right; exists b, (map letterz ps); eauto]. }
  intros nd b Hn Eb. apply in_map_iff in Hn. destruct Hn as ([k e] & <- & Hn). cbn in Eb. subst k.
  assert (Ee : bget bs (Some b) = Some e).
  { clear -Nb Hn. induction bs as [|[k' e'] bs IH]; [destruct Hn|]. cbn in Nb. inversion Nb as [|? ? N1 N2]; subst. destruct Hn as [Hn|Hn]; [injection Hn as -> ->; cbn; now rewrite String.eqb_refl|].
    cbn. destruct (same_name k' (Some b)) eqn:E; [|auto]. apply same_name_eq in E. subst k'. destruct N1. apply (in_map fst) in Hn. exact Hn. }
  destruct (Pb _ _ Ee) as [Pp Ph]. split; [reflexivity|].
  assert (Back : forall ps, Forall abc ps -> map r_phase_int (map letterz ps) = map Some ps) by (intros ps H; induction H as [|p ps Hp H IH]; [reflexivity|]; cbn [map]; now rewrite (proj1 (abc_back p Hp)), IH).
  split; [|split; [|split]].
  - cbn [make_node rn_phases snd]. destruct (b_phases e) as [[l|]|]; [|destruct Ph|].
    + destruct Ph as (_ & Q & _). intros p. rewrite in_map_iff. split.
      * intros (z & <- & Hz). apply Q in Hz. destruct Hz as (b' & zs & Q1 & H1 & H2). injection Q1 as <-. destruct (U b zs H1) as (t & n & ps & U1 & U2 & ->). apply in_map_iff in H2. destruct H2 as (x & <- & Hx).
        exists x. pose proof (stands_abc _ _ _ _ U2) as A. rewrite Forall_forall in A. split; [exact (proj1 (abc_back x (A x Hx)))|]. exists t, n, ps. auto.
      * intros (x & -> & (t & n & ps & U1 & U2 & Hx)). pose proof (stands_abc _ _ _ _ U2) as A. rewrite Forall_forall in A. exists (letterz x). split; [exact (proj1 (abc_back x (A x Hx)))|]. apply Q. exists b, (map letterz ps). split; [reflexivity|]. split; [eauto|]. now apply in_map.
    + intros p. split; [intros []|]. intros (x & _ & (t & n & ps & U1 & U2 & Hx)). exact (Ph b _ eq_refl (V t n b ps U1 U2)).
  - intros On. cbn [make_node rn_phases snd]. destruct (b_phases e) as [[l|]|]; [|constructor|constructor]. destruct Ph as (_ & Q & D).
    assert (Dl : NoDup l). { apply D. intros b' zs H. destruct (U b' zs H) as (t & n & ps & U1 & U2 & ->). pose proof (On t n b' ps U1 U2) as Np. pose proof (stands_abc _ _ _ _ U2) as A. assert (X : NoDup (map r_phase_int (map letterz ps))). { rewrite (Back ps A). apply FinFun.Injective_map_NoDup; [intros x y X; congruence|exact Np]. } apply NoDup_map_inv in X. exact X. }
    assert (A : Forall (fun z => exists p, abc p /\ z = letterz p) l). { apply Forall_forall. intros z Hz. apply Q in Hz. destruct Hz as (b' & zs & _ & H1 & H2). destruct (U b' zs H1) as (t & n & ps & _ & U2 & ->). apply in_map_iff in H2. destruct H2 as (x & <- & Hx). apply stands_abc in U2. rewrite Forall_forall in U2. eauto. }
    clear -Dl A. induction Dl as [|z l Nz Dl IH]; [constructor|]. inversion A as [|? ? (p & Hp & ->) A']; subst. cbn [map]. constructor; [|auto]. rewrite (proj1 (abc_back p Hp)), in_map_iff. intros (z & Ez & Hz). rewrite Forall_forall in A'. destruct (A' z Hz) as (q & Hq & ->). rewrite (proj1 (abc_back q Hq)) in Ez. injection Ez as ->. auto.
  - intros x y Hxy. cbn [make_node rn_pos snd]. rewrite Pp. assert (L : In (Some b) (map fst bs0)). { apply K. destruct Hxy as (a & r & z & -> & H & _). exists r, x, y. split; [apply in_or_app; right; now left|exact H]. }
    apply bget_some in L. destruct L as (e0 & E0). rewrite E0. destruct (P b e0 E0) as (_ & x' & y' & -> & Hxy'). assert (X : x' = x /\ y' = y); [|destruct X as [-> ->]; reflexivity].
    destruct Hxy as (a & r & z & Q & H & Hz), Hxy' as (a' & r' & z' & Q' & H' & Hz'). assert (r' = r); [|subst r'; destruct (row_unique _ _ _ _ _ _ _ _ _ H H') as (_ & -> & ->); auto].
    rewrite Q in Q'. clear -Q' H H' Hz Hz'. revert a' Q'. induction a as [|a0 a IH]; intros [|a0' a'] Q'; cbn in Q'.
    + injection Q' as -> _. reflexivity.
    + injection Q' as _ ->. destruct (Hz r' x' y'); [apply in_or_app; right; now left|exact H'].
    + injection Q' as _ <-. destruct (Hz' r x y); [apply in_or_app; right; now left|exact H].
    + injection Q' as _ Q'. eauto.
  - intros L. cbn [make_node rn_pos snd]. rewrite Pp. destruct (bget bs0 (Some b)) as [e0|] eqn:E0; [|reflexivity]. destruct L. apply K. apply bget_some. eauto.
Qed.
Print Assumptions C94_nodes.
(** A file of coordinates that cannot be opened counts as an empty one. *)
Corollary C94_without_file : forall int_ num delim source c, reads_nodes int_ -> good_ends (ends c) ->
  exists ns, parse_nodes int_ num delim source None c = Ok ns /\ NoDup (map rn_name ns) /\ (forall k, In k (map rn_name ns) <-> exists b, k = Some b /\ used c b) /\ forall n, In n ns -> rn_pos n = [].
Proof.
  intros int_ num delim source c I G. destruct (C94_nodes int_ num delim source [] c I ltac:(intros r []) G) as (ns & E & N & K & P). exists ns.
  assert (L : forall b, ~ located num delim [] b) by (intros b (r & x & y & [] & _)).
  split; [exact E|]. split; [exact N|]. split.
  - intros k. rewrite K. split; intros (b & -> & H); exists b; (split; [reflexivity|]); [destruct H as [H|H]; [destruct (L b H)|exact H]|now right].
  - intros n Hn. destruct (proj1 (K (rn_name n)) (in_map rn_name ns n Hn)) as (b & Eb & _). now apply (P n b Hn Eb).
Qed.
Print Assumptions C94_without_file.

Definition ex_int (s : string) : option Z := if String.eqb s "0" then Some 0%Z else if String.eqb s "1" then Some 1%Z else if String.eqb s "2" then Some 2%Z else if String.eqb s "3" then Some 3%Z else if String.eqb s "4" then Some 4%Z else None.
Definition ex_num (s : string) : option Q := if String.eqb s "1.5" then Some (3#2)%Q else if String.eqb s "2.5" then Some (5#2)%Q else None.
Definition ex_rows : list string := ["Main, 1.5, 2.5"; "  "; "far,2.5,1.5"; "main,2.5,2.5"].
Definition ex_circuit : circuit := mkCircuit [mkCline "main" "mid" "3"; mkCline "mid.3.1" "end.3.1" "2"] [mkCtrafo ["mid.2"; "low.2"] "1"] [mkCload "low.2" "1"; mkCload "main" "3"] ["cap.1"].
Lemma ex_ints : reads_nodes ex_int.
Proof. repeat split. Qed.
Example C94_hypotheses_met : reads_nodes ex_int /\ good_rows ex_num "," ex_rows /\ good_ends (ends ex_circuit) /\ once ex_circuit /\
  parse_nodes ex_int ex_num "," "src" (Some ex_rows) ex_circuit = Ok
    [mkRnode (Some "main") [(Some (5#2)%Q, Some (5#2)%Q)] [Some "A"; Some "B"; Some "C"] "src"; mkRnode (Some "far") [(Some (5#2)%Q, Some (3#2)%Q)] [] "src";
     mkRnode (Some "mid") [] [Some "A"; Some "B"; Some "C"] "src"; mkRnode (Some "end") [] [Some "C"; Some "A"] "src"; mkRnode (Some "low") [] [Some "B"] "src"].
Proof.
  split; [exact ex_ints|]. split; [|split; [|split; [|vm_compute; reflexivity]]].
  - intros r [<-|[<-|[<-|[<-|[]]]]]; [right|left; reflexivity|right|right]; eexists _, _, _; (split; [discriminate|]); eexists _, _, _; (split; [reflexivity|]); (split; [reflexivity|split; reflexivity]).
  - intros t n H. cbn in H. repeat (destruct H as [H|H]; [injection H as <- <-; eexists _, _, _, _; split; [reflexivity|]; split; [reflexivity|]; first [right; split; [reflexivity|split; reflexivity]|left; split; [discriminate|repeat constructor]]|]). destruct H.
  - intros t n b ps H (b0 & ns & T & _ & [(_ & F)|(_ & _ & ->)]); [|repeat constructor; cbn; intuition discriminate].
    cbn in H. repeat (destruct H as [H|H]; [injection H as <- <-; vm_compute in T; injection T as <- <-; repeat match goal with F : Forall2 _ (_ :: _) _ |- _ => inversion F; clear F; subst | F : Forall2 _ [] _ |- _ => inversion F; clear F; subst | F : node_letter _ _ |- _ => inversion F; clear F; subst end; repeat constructor; cbn; intuition discriminate|]). destruct H.
Qed.

(** A load with one or two phases whose terminal names no nodes stops the
    reading, whatever the rest of the circuit is. OpenDSS connects such a
    load to the first nodes of the bus. *)
Theorem C94_unnamed_load_refuted : forall int_ num delim source rows ls ts a x z others,
  reads_nodes int_ -> good_rows num delim rows -> good_ends (flat_map line_ends ls ++ flat_map trafo_ends ts ++ flat_map load_ends a) ->
  snd (terminal (co_bus1 x)) = [] -> co_phases x <> "3" ->
  parse_nodes int_ num delim source (Some rows) (mkCircuit ls ts (a ++ x :: z) others) = Err EKey.
Proof.
  intros int_ num delim source rows ls ts a x z others I R G T Ph. destruct (rows_ok num delim rows R) as (N & Nn & K & P). set (bs0 := fold_left (row_step num delim) rows []) in *.
  assert (P0 : forall k e, bget bs0 k = Some e -> b_phases e = None).
  { intros [b|] e E; [exact (proj1 (P b e E))|]. exfalso. apply Nn. apply bget_some. eauto. }
  destruct (good_stops _ G) as [ss F]. destruct (touches_ok num source bs0 N P0 ss) as (bs & E & Nb & Kb & Pb).
  unfold parse_nodes. fold bs0. cbn [c_lines c_trafos c_loads]. rewrite <- (circuit_steps int_ I (mkCircuit ls ts a others) bs0 ss F) in E. cbn [c_lines c_trafos c_loads] in E. destruct (foldM (line_step int_) ls bs0) as [b1|]; [|discriminate]. cbn [bind] in *.
  destruct (foldM (trafo_step int_) ts b1) as [b2|]; [|discriminate]. cbn [bind] in *. rewrite foldM_app, E. cbn [bind foldM]. unfold load_step at 1, end_step, bus_of. rewrite split_pieces. unfold terminal in T.
  destruct (pieces (Ascii.eqb ".") (co_bus1 x)) as [|b1' ns'] eqn:Ep; [destruct (pieces_nonempty _ _ Ep)|]. cbn in T. subst ns'. apply String.eqb_neq in Ph. rewrite Ph. cbn [bind]. unfold touch.
  assert (X : bget bs None = None). { apply bget_none. rewrite Kb. intros [H|(b & zs & H & _)]; [auto|discriminate]. } rewrite X. reflexivity.
Qed.
Print Assumptions C94_unnamed_load_refuted.
(** A line stops the reading when a node of it is not 1, 2 or 3, for example
    a neutral 0 or 4, or when it has fewer than three phases and names no
    nodes. *)
Theorem C94_neutral_line_refuted : forall int_ num delim source rows a x z ts lds others,
  reads_nodes int_ -> good_rows num delim rows -> good_ends (flat_map line_ends a) ->
  (exists n, In n (snd (terminal (cl_bus1 x))) /\ int_ n <> Some 1%Z /\ int_ n <> Some 2%Z /\ int_ n <> Some 3%Z) \/ (snd (terminal (cl_bus1 x)) = [] /\ cl_phases x <> "3") ->
  parse_nodes int_ num delim source (Some rows) (mkCircuit (a ++ x :: z) ts lds others) = Err EValue.
Proof.
  intros int_ num delim source rows a x z ts lds others I R G T. destruct (rows_ok num delim rows R) as (N & Nn & K & P). set (bs0 := fold_left (row_step num delim) rows []) in *.
  assert (P0 : forall k e, bget bs0 k = Some e -> b_phases e = None).
  { intros [b|] e E; [exact (proj1 (P b e E))|]. exfalso. apply Nn. apply bget_some. eauto. }
  destruct (good_stops _ G) as [ss F]. destruct (touches_ok num source bs0 N P0 ss) as (bs & E & _).
  unfold parse_nodes. fold bs0. cbn [c_lines]. rewrite <- (line_steps int_ I _ _ _ F) in E. rewrite foldM_app, E. cbn [bind foldM]. unfold line_step at 1.
  assert (X : line_end int_ (cl_bus1 x) (cl_phases x) = Err EValue); [|rewrite X; reflexivity]. unfold line_end, bus_of. rewrite split_pieces. unfold terminal in T.
  destruct (pieces (Ascii.eqb ".") (cl_bus1 x)) as [|b1 ns] eqn:Ep; [destruct (pieces_nonempty _ _ Ep)|]. cbn [snd] in T. destruct T as [(n & Hn & T)|(-> & T)].
  - destruct ns as [|m ns]; [destruct Hn|]. assert (M : mapM (fun s => of_opt EValue (int_ s)) (m :: ns) = Err EValue \/ exists zs, mapM (fun s => of_opt EValue (int_ s)) (m :: ns) = Ok zs /\ forallb (fun z => existsb (Z.eqb z) [1; 2; 3]%Z) zs = false).
    { clear -Hn T. induction (m :: ns) as [|h t IH]; [destruct Hn|]. cbn [mapM]. destruct (int_ h) as [q|] eqn:Eh; cbn [of_opt bind]; [|auto]. destruct Hn as [->|Hn].
      - assert (C : mapM (fun s => of_opt EValue (int_ s)) t = Err EValue \/ exists zs, mapM (fun s => of_opt EValue (int_ s)) t = Ok zs).
        { clear. induction t as [|h t IH]; [right; eexists; reflexivity|]. cbn [mapM]. destruct (int_ h); cbn [of_opt bind]; [|auto]. destruct IH as [->|(zs & ->)]; [auto|right; eexists; reflexivity]. }
        destruct C as [->|(zs & ->)]; [auto|]. right. eexists. split; [reflexivity|]. cbn [forallb]. rewrite Eh in T. destruct T as (T1 & T2 & T3). assert (existsb (Z.eqb q) [1; 2; 3]%Z = false) as ->; [|reflexivity].
        cbn. repeat match goal with |- context [Z.eqb q ?k] => destruct (Z.eqb_spec q k); [subst; congruence|] end. reflexivity.
      - destruct (IH Hn) as [->|(zs & -> & Q)]; [auto|]. right. eexists. split; [reflexivity|]. cbn [forallb]. rewrite Q. apply Bool.andb_false_r. }
    destruct M as [->|(zs & -> & Q)]; [reflexivity|]. cbn [bind of_opt snd]. rewrite Q. reflexivity.
  - apply String.eqb_neq in T. rewrite T. reflexivity.
Qed.
Print Assumptions C94_neutral_line_refuted.
Example C94_stops_met : parse_nodes ex_int ex_num "," "src" (Some ex_rows) (mkCircuit (c_lines ex_circuit) (c_trafos ex_circuit) (c_loads ex_circuit ++ [mkCload "main" "1"]) []) = Err EKey /\
  parse_nodes ex_int ex_num "," "src" (Some ex_rows) (mkCircuit (c_lines ex_circuit ++ [mkCline "main.1.2.3.4" "x" "3"]) [] [] []) = Err EValue /\
  parse_nodes ex_int ex_num "," "src" (Some ex_rows) (mkCircuit (c_lines ex_circuit ++ [mkCline "main" "x" "1"]) [] [] []) = Err EValue.
Proof.
  destruct C94_hypotheses_met as (I & R & G & _). split; [|split].
  - apply C94_unnamed_load_refuted; [exact I|exact R|exact G|reflexivity|discriminate].
  - apply C94_neutral_line_refuted; [exact I|exact R| |left; exists "4"; repeat split; try discriminate; cbn; auto]. intros t n H. apply G. unfold ends. apply in_or_app. now left.
  - apply C94_neutral_line_refuted; [exact I|exact R| |right; split; [reflexivity|discriminate]]. intros t n H. apply G. unfold ends. apply in_or_app. now left.
Qed.
(** A bus that no line, transformer or load touches and that is not in the
    coordinates file, for example one with only a capacitor, is no node. *)
Theorem C94_others_refuted : forall int_ num delim source rows c b,
  reads_nodes int_ -> good_rows num delim rows -> good_ends (ends c) -> In b (map (fun t => fst (terminal t)) (c_others c)) -> ~ located num delim rows b -> ~ used c b ->
  exists ns, parse_nodes int_ num delim source (Some rows) c = Ok ns /\ ~ In (Some b) (map rn_name ns).
Proof.
  intros int_ num delim source rows c b I R G _ L U. destruct (C94_nodes int_ num delim source rows c I R G) as (ns & E & _ & K & _). exists ns. split; [exact E|]. rewrite K. intros (b' & Q & [H|H]); injection Q as <-; auto.
Qed.
Print Assumptions C94_others_refuted.
Example C94_others_met : In "cap" (map (fun t => fst (terminal t)) (c_others ex_circuit)) /\ ~ In (Some "cap") (map rn_name match parse_nodes ex_int ex_num "," "src" (Some ex_rows) ex_circuit with Ok l => l | Err _ => [] end).
Proof. split; [now left|]. vm_compute. intuition discriminate. Qed.
(** The ground node 0 of a load is a phase without letter of the node. *)
Theorem C94_ground_refuted : parse_nodes ex_int ex_num "," "src" None (mkCircuit [] [] [mkCload "b.1.0" "1"] []) = Ok [mkRnode (Some "b") [] [Some "A"; None] "src"].
Proof. vm_compute. reflexivity. Qed.
Print Assumptions C94_ground_refuted.
(** A row of the coordinates file that has not three fields gives a node
    without name. *)
Theorem C94_row_refuted : exists n, parse_nodes ex_int ex_num "," "src" (Some ["x y"]) (mkCircuit [] [] [] []) = Ok [n] /\ rn_name n = None.
Proof. eexists. split; [vm_compute; reflexivity|reflexivity]. Qed.
Print Assumptions C94_row_refuted.
(** Names of the coordinates file are in lower case and those of terminals
    are not changed: a bus with a capital letter gives two nodes. *)
Theorem C94_case_refuted : exists a b, parse_nodes ex_int ex_num "," "src" (Some ["Main,1.5,2.5"]) (mkCircuit [] [] [mkCload "Main" "3"] []) = Ok [a; b] /\
  rn_name a = Some "main" /\ rn_phases a = [] /\ rn_name b = Some "Main" /\ rn_pos b = [].
Proof. eexists _, _. split; [vm_compute; reflexivity|]. repeat split. Qed.
Print Assumptions C94_case_refuted.
