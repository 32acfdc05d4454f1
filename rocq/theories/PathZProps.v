From Coq Require Import Reals Lra.
From Verif Require Import Base BaseFacts MatrixModel MatrixSpec ImpedModel ImpedSpec ImpedProofs PathZModel PathZSpec.
Local Open Scope string_scope.
Local Open Scope nat_scope.
Local Open Scope list_scope.

Lemma pair_eqb_spec a b : pair_eqb a b = true <-> a = b.
Proof. destruct a, b. unfold pair_eqb. cbn. rewrite andb_true_iff, !String.eqb_eq. split; [intros [-> ->]; reflexivity | intros H; inversion H; auto]. Qed.
Lemma mget_mset m k v k' : mget (mset m k v) k' = if pair_eqb k k' then Some v else mget m k'.
Proof.
  induction m as [|e m IH]; unfold mget in *; cbn [mset find].
  - cbn [fst]. destruct (pair_eqb k k'); reflexivity.
  - destruct (pair_eqb (fst e) k) eqn:E.
    + apply pair_eqb_spec in E. cbn [find fst]. rewrite E. destruct (pair_eqb k k'); reflexivity.
    + cbn [find]. destruct (pair_eqb (fst e) k') eqn:E'; [|exact IH].
      destruct (pair_eqb k k') eqn:K; [|reflexivity]. apply pair_eqb_spec in E', K. rewrite E', K in E.
      assert (X : pair_eqb k' k' = true) by now apply pair_eqb_spec. congruence.
Qed.
Lemma goes_dec o a b : {goes o a b} + {~ goes o a b}.
Proof.
  destruct o as [l f t n m]. unfold goes. cbn. destruct l; [|right; intros (H & _); discriminate].
  destruct f as [f|]; [|right; intros (_ & H & _); discriminate]. destruct t as [t|]; [|right; intros (_ & _ & H); discriminate].
  destruct (string_dec f a) as [->|N]; [|right; intros (_ & H & _); congruence].
  destruct (string_dec t b) as [->|N]; [|right; intros (_ & _ & H); congruence]. now left.
Qed.
Lemma map_line_get m o a b : mget (map_line m o) (a, b) = if goes_dec o a b then Some (z_name o) else mget m (a, b).
Proof.
  unfold map_line. destruct (goes_dec o a b) as [(L & F & T)|N].
  - rewrite L, F, T, mget_mset. assert (X : pair_eqb (a, b) (a, b) = true) by now apply pair_eqb_spec. now rewrite X.
  - destruct (z_line o) eqn:L; [|reflexivity]. destruct (z_from o) as [f|] eqn:F; [|reflexivity]. destruct (z_to o) as [t|] eqn:T; [|reflexivity].
    rewrite mget_mset. destruct (pair_eqb (f, t) (a, b)) eqn:E; [|reflexivity]. apply pair_eqb_spec in E. inversion E; subst. exfalso. apply N. now split.
Qed.
Lemma mapping_get objs a b :
  match mget (node_line_mapping objs) (a, b) with
  | Some n => exists o, last_line objs a b o /\ z_name o = n
  | None => forall o, In o objs -> ~ goes o a b
  end.
Proof.
  unfold node_line_mapping. induction objs as [|o l IH] using rev_ind.
  - cbn. intros o [].
  - rewrite fold_left_app. cbn [fold_left]. rewrite map_line_get. destruct (goes_dec o a b) as [G|N].
    + exists o. split; [|reflexivity]. exists l, []. split; [reflexivity|]. split; [exact G | intros ? []].
    + destruct (mget (fold_left map_line l []) (a, b)) as [n|].
      * destruct IH as (o' & (l1 & l2 & -> & G & H) & E). exists o'. split; [|exact E]. exists l1, (l2 ++ [o]).
        split; [now rewrite <- app_assoc|]. split; [exact G|]. intros x I. apply in_app_or in I. destruct I as [I | [<- | []]]; auto.
      * intros x I. apply in_app_or in I. destruct I as [I | [<- | []]]; auto.
Qed.
Lemma along_all objs p : exists os, along objs p os /\ flat_map (line_at (node_line_mapping objs)) (zip_edges p) = map z_name os.
Proof.
  induction p as [|a [|b r] IH].
  - exists []. split; [constructor | reflexivity].
  - exists []. split; [constructor | reflexivity].
  - destruct IH as (os & A & E). change (zip_edges (a :: b :: r)) with ((a, b) :: zip_edges (b :: r)). cbn [flat_map].
    rewrite E. unfold line_at. cbn [fst snd]. pose proof (mapping_get objs a b) as G. pose proof (mapping_get objs b a) as G'.
    destruct (mget (node_line_mapping objs) (a, b)) as [n|].
    + destruct G as (o & L & <-). exists (o :: os). split; [|reflexivity]. constructor; [now left | exact A].
    + destruct (mget (node_line_mapping objs) (b, a)) as [n|].
      * destruct G' as (o & L & <-). exists (o :: os). split; [|reflexivity]. constructor; [right; now split | exact A].
      * exists os. split; [|reflexivity]. apply along_skip; [|exact A]. intros o I. split; auto.
Qed.
Lemma last_line_in objs a b o : last_line objs a b o -> In o objs.
Proof. intros (l & r & -> & _). apply in_or_app. right. now left. Qed.
Lemma last_line_fun objs : forall x y o1 o2, last_line objs x y o1 -> last_line objs x y o2 -> o1 = o2.
Proof.
  induction objs as [|c objs IH]; intros x y o1 o2 (l & r & E1 & G1 & H1) (l' & r' & E2 & G2 & H2).
  - now destruct l.
  - destruct l as [|c1 l], l' as [|c2 l']; cbn [app] in E1, E2.
    + congruence.
    + exfalso. inversion E1; subst. inversion E2; subst. apply (H1 o2); [|exact G2]. apply in_or_app. right. now left.
    + exfalso. inversion E2; subst. inversion E1; subst. apply (H2 o1); [|exact G1]. apply in_or_app. right. now left.
    + inversion E1. inversion E2. apply (IH x y); [exists l, r | exists l', r']; auto.
Qed.
Lemma last_line_goes objs x y o : last_line objs x y o -> In o objs /\ goes o x y.
Proof. intros K. split; [now apply last_line_in in K|]. now destruct K as (? & ? & _ & K & _). Qed.
Lemma along_fun objs p os : along objs p os -> forall os', along objs p os' -> os = os'.
Proof.
  induction 1 as [|a|a b r o os V A IH|a b r os V A IH]; intros os' A'; inversion A' as [|?|? ? ? o' os1 W B|? ? ? os1 W B]; subst; try reflexivity.
  - f_equal; [|now apply IH]. destruct V as [V | [V0 V]], W as [W | [W0 W]].
    + exact (last_line_fun objs a b _ _ V W).
    + exfalso. destruct (last_line_goes _ _ _ _ V) as [X Y]. now apply (W0 o).
    + exfalso. destruct (last_line_goes _ _ _ _ W) as [X Y]. now apply (V0 o').
    + exact (last_line_fun objs b a _ _ V W).
  - exfalso. destruct V as [V | [_ V]]; destruct (last_line_goes _ _ _ _ V) as [X Y]; destruct (W o X); contradiction.
  - exfalso. destruct W as [W | [_ W]]; destruct (last_line_goes _ _ _ _ W) as [X Y]; destruct (V o' X); contradiction.
  - now apply IH.
Qed.
Lemma along_in objs p os : along objs p os -> forall o, In o os -> In o objs.
Proof.
  induction 1; intros x I; try (now destruct I).
  - destruct I as [<- | I]; [|auto]. destruct H as [L | [_ L]]; now apply last_line_in in L.
  - auto.
Qed.
Lemma oname_eqb_spec a b : oname_eqb a b = true <-> a = b.
Proof. destruct a, b; cbn; rewrite ?String.eqb_eq; split; congruence. Qed.
Lemma by_name_own objs o : names_differ objs -> In o objs -> by_name objs (z_name o) = Ok o.
Proof.
  intros N I. unfold by_name. destruct (find (fun o' => oname_eqb (z_name o') (z_name o)) (rev objs)) as [o'|] eqn:F.
  - apply find_some in F. destruct F as [J E]. apply in_rev in J. apply oname_eqb_spec in E. cbn [of_opt]. f_equal.
    unfold names_differ in N. clear -N I J E. induction objs as [|x l IH]; [destruct I|]. cbn in N. inversion N; subst.
    destruct I as [-> | I], J as [-> | J]; auto.
    + exfalso. apply H1. rewrite <- E. now apply in_map.
    + exfalso. apply H1. rewrite E. now apply in_map.
  - exfalso. apply find_none with (x := o) in F; [|now apply in_rev; rewrite rev_involutive].
    assert (X : oname_eqb (z_name o) (z_name o) = true) by now apply oname_eqb_spec. congruence.
Qed.

Lemma positive3 m : dims m 3 3 -> exists z, get_seq_entry 1 (get_sequence_impedance_matrix m) = Ok z /\ positive m z.
Proof.
  intros D. destruct (dims3 m D) as (a & b & c & d & e & f & g & h & i & ->). rewrite seq3_entries. unfold get_seq_entry. cbn [get2 nth_error of_opt].
  eexists. split; [reflexivity|]. apply positive_three; try reflexivity. unfold row3. cbn [nth].
  match goal with |- cadd (cmul third ?x) _ = _ => transitivity x end.
  - match goal with |- cadd (cmul third ?x) _ = _ => generalize x end. intros [u v]. unfold cadd, cmul, third. cbn. f_equal; lra.
  - ring.
Qed.
Lemma positive2 m : dims m 2 2 -> exists z, get_seq_entry 1 (get_sequence_impedance_matrix m) = Ok z /\ positive m z.
Proof.
  intros D. destruct (dims2 m D) as (a & b & c & d & ->). rewrite seq2_entries. unfold get_seq_entry. cbn [get2 nth_error of_opt].
  eexists. split; [reflexivity|]. apply positive_two; try reflexivity. unfold row2. cbn [nth].
  match goal with |- cadd (cmul _ ?x) _ = _ => transitivity x end.
  - match goal with |- cadd (cmul _ ?x) _ = _ => generalize x end. intros [u v]. unfold cadd, cmul. cbn. f_equal; lra.
  - ring.
Qed.
Lemma add_impedance_spec objs o zs : names_differ objs -> In o objs -> reduced o ->
  exists zs', add_impedance objs zs (z_name o) = Ok (zs ++ zs') /\ forall os ws, impeding os ws -> impeding (o :: os) (zs' ++ ws).
Proof.
  intros N I R. unfold add_impedance. rewrite by_name_own by assumption. cbn [bind]. unfold reduced in R.
  destruct (z_matrix o) as [m|] eqn:M.
  - destruct R as [-> | (n & L & D)].
    + exists []. rewrite app_nil_r. split; [reflexivity|]. intros. apply imp_none; auto.
    + assert (K : exists z, (if shape_is m 1 then do z <- of_opt EIndex (get2 m 0 0); Ok (zs ++ [z]) else do z <- get_seq_entry 1 (get_sequence_impedance_matrix m); Ok (zs ++ [z])) = Ok (zs ++ [z]) /\ positive m z).
      { assert (n = 1 \/ n = 2 \/ n = 3) as [-> | [-> | ->]] by lia.
        - assert (S : shape_is m 1 = true) by now apply shape_is_dims. rewrite S. destruct D as [D1 D2].
          destruct m as [|r [|]]; try discriminate. assert (L1 := D2 r (or_introl eq_refl)). destruct r as [|z [|]]; try discriminate.
          exists z. split; [reflexivity | constructor].
        - assert (S : shape_is m 1 = false). { destruct (shape_is m 1) eqn:S; [|reflexivity]. apply shape_is_dims in S. destruct S, D. congruence. }
          rewrite S. destruct (positive2 m D) as (z & -> & P). exists z. split; [reflexivity | exact P].
        - assert (S : shape_is m 1 = false). { destruct (shape_is m 1) eqn:S; [|reflexivity]. apply shape_is_dims in S. destruct S, D. congruence. }
          rewrite S. destruct (positive3 m D) as (z & -> & P). exists z. split; [reflexivity | exact P]. }
      destruct K as (z & E & P). exists [z]. destruct m as [|r m]; [inversion P|]. split; [exact E|].
      intros os ws H. cbn [app]. now apply imp_some with (r :: m).
  - exists []. rewrite app_nil_r. split; [reflexivity|]. intros. apply imp_none; auto.
Qed.
Lemma fold_impedance objs os : names_differ objs -> (forall o, In o os -> In o objs /\ reduced o) ->
  forall zs, exists ws, foldM (add_impedance objs) (map z_name os) zs = Ok (zs ++ ws) /\ impeding os ws.
Proof.
  intros N. induction os as [|o os IH]; intros H zs.
  - exists []. rewrite app_nil_r. split; [reflexivity | constructor].
  - destruct (H o (or_introl eq_refl)) as [I R]. destruct (add_impedance_spec objs o zs N I R) as (zs' & E & K).
    destruct (IH (fun x J => H x (or_intror J)) (zs ++ zs')) as (ws & F & P). exists (zs' ++ ws). cbn [map foldM]. rewrite E.
    rewrite F, <- app_assoc. split; [reflexivity | now apply K].
Qed.

(** C126: the lines between two nodes are those along the shortest way, in its order, and the impedances their
    positive-sequence impedances. *)
Theorem C126_impedances : forall (net : Type) route (g : net) objs a b p, route g a b = Ok p ->
  exists os, along objs p os /\ lines_between route objs g a b = Ok (map z_name os) /\
  (names_differ objs -> (forall o, In o objs -> reduced o) -> exists zs, impedances_between route objs g a b = Ok zs /\ impeding os zs).
Proof.
  intros net route g objs a b p R. destruct (along_all objs p) as (os & A & E). exists os. split; [exact A|].
  assert (L : lines_between route objs g a b = Ok (map z_name os)) by (unfold lines_between; rewrite R; cbn [bind]; now rewrite E).
  split; [exact L|]. intros N D. unfold impedances_between. rewrite L. cbn [bind].
  destruct (fold_impedance objs os N) with (zs := @nil C) as (ws & F & P).
  - intros o I. apply (along_in objs p os A) in I. auto.
  - exists ws. now split.
Qed.
Print Assumptions C126_impedances.

(** C126: without a way there is no list. *)
Theorem C126_no_way : forall (net : Type) route (g : net) objs a b e, route g a b = Err e -> lines_between route objs g a b = Err e /\ impedances_between route objs g a b = Err e.
Proof. intros net route g objs a b e R. unfold impedances_between, lines_between. now rewrite R. Qed.
Print Assumptions C126_no_way.

(** C126: a line on the way whose matrix has four rows, that is with the neutral, stops it. *)
Theorem C126_neutral_refuted : forall (net : Type) route (g : net) objs a b p os o m, route g a b = Ok p -> along objs p os -> names_differ objs ->
  In o os -> z_matrix o = Some m -> dims m 4 4 -> (forall o', In o' objs -> o' = o \/ reduced o') ->
  impedances_between route objs g a b = Err EValue.
Proof.
  intros net route g objs a b p os o m R A N I M D H.
  destruct (along_all objs p) as (os' & A' & E).
  assert (os' = os) by exact (along_fun objs p os' A' os A).
  subst os'. unfold impedances_between, lines_between. rewrite R. cbn [bind]. rewrite E.
  assert (O : forall x, In x os -> In x objs) by exact (along_in objs p os A).
  clear E A A' R. generalize (@nil C). induction os as [|x os IH]; [destruct I|]. intros zs. cbn [map foldM].
  assert (X : In x objs) by (apply O; now left).
  assert (B : x = o -> add_impedance objs zs (z_name x) = Err EValue).
  { intros ->. unfold add_impedance. rewrite by_name_own by assumption. cbn [bind]. rewrite M. destruct m as [|r0 m]; [destruct D; discriminate|].
    assert (S : shape_is (r0 :: m) 1 = false). { destruct (shape_is (r0 :: m) 1) eqn:S; [|reflexivity]. apply shape_is_dims in S. destruct S, D. congruence. }
    rewrite S. rewrite seq_other; [reflexivity | |]; intros [Z _]; destruct D; congruence. }
  destruct (H x X) as [-> | Rd]; [now rewrite B|].
  destruct (add_impedance_spec objs x zs N X Rd) as (zs' & K & _). rewrite K.
  destruct I as [-> | I]; [rewrite B in K by reflexivity; discriminate|]. apply IH; [exact I|]. intros y J. apply O. now right.
Qed.
Print Assumptions C126_neutral_refuted.

Definition zl (n a b : string) (m : option cmat) : zobj := mkZ true (Some a) (Some b) (Some n) m.
Definition zobjs : list zobj :=
  [zl "l1" "a" "b" (Some [[(1%R, 2%R)]]); zl "l2" "c" "b" (Some [[(3%R, 1%R); c0]; [c0; (3%R, 1%R)]]); mkZ false (Some "c") (Some "d") (Some "t") None; zl "l3" "d" "e" None].
Example C126_hypotheses_met : names_differ zobjs /\ (forall o, In o zobjs -> reduced o) /\
  lines_between (fun (_ : unit) _ _ => Ok ["a"; "b"; "c"; "d"; "e"]) zobjs tt "a" "e" = Ok [Some "l1"; Some "l2"; Some "l3"] /\
  exists zs, impedances_between (fun (_ : unit) _ _ => Ok ["a"; "b"; "c"; "d"; "e"]) zobjs tt "a" "e" = Ok zs /\ length zs = 2.
Proof.
  split; [|split; [|split]].
  - unfold names_differ. cbn. repeat (constructor; [cbn; intuition discriminate|]). constructor.
  - intros o I. cbn in I. destruct I as [<- | [<- | [<- | [<- | []]]]]; cbn; auto.
    + right. exists 1. split; [lia|]. split; [reflexivity|]. intros r [<- | []]. reflexivity.
    + right. exists 2. split; [lia|]. split; [reflexivity|]. intros r [<- | [<- | []]]; reflexivity.
  - reflexivity.
  - eexists. split; [reflexivity | reflexivity].
Qed.
