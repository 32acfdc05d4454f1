(** Proofs about the nodes of the OpenDSS reader. *)
From Verif Require Import Base BaseFacts CsvModel TextModel NetworkProofs DssNameModel DssTextSpec DssTextProofs DssNodeModel DssNodeSpec.
From Coq Require Import QArith Lia Sorted.
Local Open Scope string_scope.
Local Open Scope nat_scope.
Local Open Scope list_scope.

Lemma split_pieces c s : split_on c s = pieces (Ascii.eqb c) s.
Proof. induction s as [|a s IH]; [reflexivity|]. cbn. rewrite IH, Ascii.eqb_sym. reflexivity. Qed.

(** ** Sets of integers *)
Lemma zins_in z l x : In x (zins z l) <-> x = z \/ In x l.
Proof.
  induction l as [|h t IH]; cbn; [intuition|]. destruct (Z.ltb z h); [cbn; intuition|]. destruct (Z.eqb_spec z h) as [->|]; cbn; [intuition|]. rewrite IH. intuition.
Qed.
Lemma zins_sorted z l : StronglySorted Z.lt l -> StronglySorted Z.lt (zins z l).
Proof.
  induction 1 as [|h t S IH F]; cbn; [repeat constructor|]. destruct (Z.ltb_spec z h).
  - constructor; [constructor; assumption|]. constructor; [assumption|]. eapply Forall_impl; [|exact F]. intros a Ha. cbn in Ha. lia.
  - destruct (Z.eqb_spec z h) as [->|]; [now constructor|]. constructor; [exact IH|]. apply Forall_forall. intros x Hx. apply zins_in in Hx. destruct Hx as [->|Hx]; [lia|]. rewrite Forall_forall in F. auto.
Qed.
Lemma zunique_in l x : In x (zunique l) <-> In x l.
Proof. induction l as [|h t IH]; cbn; [tauto|]. rewrite zins_in, IH. intuition. Qed.
Lemma zunique_sorted l : StronglySorted Z.lt (zunique l).
Proof. induction l; cbn; [constructor|now apply zins_sorted]. Qed.
Lemma sorted_nodup l : StronglySorted Z.lt l -> NoDup l.
Proof. induction 1 as [|h t S IH F]; constructor; [|exact IH]. intros I. rewrite Forall_forall in F. specialize (F h I). lia. Qed.

(** ** The table *)
Lemma same_name_eq a b : same_name a b = true <-> a = b.
Proof. destruct a, b; cbn; rewrite ?String.eqb_eq; split; congruence. Qed.
Lemma same_name_refl a : same_name a a = true.
Proof. now apply same_name_eq. Qed.
Lemma bget_put bs k b k' : bget (bput bs k b) k' = if same_name k k' then Some b else bget bs k'.
Proof.
  induction bs as [|[k0 b0] bs IH]; cbn; [reflexivity|]. destruct (same_name k0 k) eqn:E; cbn.
  - apply same_name_eq in E. subst k0. now destruct (same_name k k').
  - rewrite IH. destruct (same_name k0 k') eqn:E'; [|reflexivity]. apply same_name_eq in E'. subst k'. destruct (same_name k k0) eqn:E2; [|reflexivity]. apply same_name_eq in E2. subst. now rewrite same_name_refl in E.
Qed.
Lemma bput_keys bs k b : map fst (bput bs k b) = if bget bs k then map fst bs else map fst bs ++ [k].
Proof.
  induction bs as [|[k0 b0] bs IH]; cbn; [reflexivity|]. destruct (same_name k0 k) eqn:E; cbn; [reflexivity|]. rewrite IH. now destruct (bget bs k).
Qed.
Lemma bget_none bs k : bget bs k = None <-> ~ In k (map fst bs).
Proof.
  induction bs as [|[k0 b0] bs IH]; cbn; [tauto|]. destruct (same_name k0 k) eqn:E.
  - apply same_name_eq in E. split; [discriminate|]. intros H. destruct H. auto.
  - rewrite IH. split; [intros H [->|H']; [now rewrite same_name_refl in E|auto]|tauto].
Qed.
Lemma bget_some bs k : In k (map fst bs) <-> exists b, bget bs k = Some b.
Proof.
  induction bs as [|[k0 b0] bs IH]; cbn; [split; [intros []|intros (b & E); discriminate]|]. destruct (same_name k0 k) eqn:E.
  - apply same_name_eq in E. split; [eauto|auto].
  - rewrite <- IH. split; [intros [->|H]; [now rewrite same_name_refl in E|exact H]|auto].
Qed.
Lemma pieces_one p s b : pieces p s = [b] -> s = b.
Proof.
  revert b. induction s as [|c s IH]; intros b E; cbn in E; [now injection E|]. destruct (p c); [injection E as _ E; destruct (pieces_nonempty _ _ E)|].
  destruct (pieces p s) as [|h r] eqn:Ep; [destruct (pieces_nonempty _ _ Ep)|]. injection E as <- ->. now rewrite (IH h eq_refl).
Qed.
Lemma bput_nodup bs k b : NoDup (map fst bs) -> NoDup (map fst (bput bs k b)).
Proof.
  intros N. rewrite bput_keys. destruct (bget bs k) eqn:E; [exact N|]. apply bget_none in E. now apply NoDup_snoc.
Qed.

Section Nodes.
Variable int_ : string -> option Z.
Variable num : string -> option Q.
Variable delim : ascii.
Variable source_name : string.
Hypothesis ints : reads_nodes int_.
Notation row_says := (row_says num delim).
Notation row_step := (row_step num delim).

(** ** Rows *)
Lemma row_read r b x y : row_says r b x y -> String.eqb (strip r) "" = false /\ read_row num delim r = (Some b, (CNum x, CNum y)).
Proof.
  intros (N & n & xs & ys & E & -> & Hx & Hy). split; [now apply String.eqb_neq|]. unfold read_row. rewrite split_pieces, E. cbn [map]. unfold cast. now rewrite Hx, Hy.
Qed.
Lemma row_unique r b x y b' x' y' : row_says r b x y -> row_says r b' x' y' -> b = b' /\ x = x' /\ y = y'.
Proof. intros H H'. apply row_read in H, H'. destruct H as [_ H], H' as [_ H']. rewrite H in H'. now injection H' as <- <- <-. Qed.
Definition rows_inv (rows : list string) (bs : buses) : Prop :=
  NoDup (map fst bs) /\ ~ In None (map fst bs) /\ (forall b, In (Some b) (map fst bs) <-> located num delim rows b) /\
  forall b e, bget bs (Some b) = Some e -> b_phases e = None /\ exists x y, b_pos e = Some (CNum x, CNum y) /\ placed num delim rows b x y.
Lemma rows_ok rows : good_rows num delim rows -> rows_inv rows (fold_left row_step rows []).
Proof.
  induction rows as [|r rows IH] using rev_ind; intros G.
  - cbn. split; [constructor|]. split; [intros []|]. split; [|discriminate]. intros b. split; [intros []|]. intros (r & x & y & [] & _).
  - assert (G' : good_rows num delim rows) by (intros q Hq; apply G; apply in_or_app; auto). destruct (IH G') as (N & Nn & K & P). clear IH.
    rewrite fold_left_app. cbn [fold_left]. set (bs := fold_left row_step rows []) in *.
    assert (Ext : forall b, located num delim (rows ++ [r]) b <-> located num delim rows b \/ exists x y, row_says r b x y).
    { intros b. split.
      - intros (q & x & y & Hq & Hs). apply in_app_or in Hq. destruct Hq as [Hq|[<-|[]]]; [left; exists q; eauto|right; eauto].
      - intros [(q & x & y & Hq & Hs)|(x & y & Hs)]; [exists q, x, y; split; [apply in_or_app; auto|exact Hs]|exists r, x, y; split; [apply in_or_app; cbn; auto|exact Hs]]. }
    assert (Pl : forall b x y, placed num delim rows b x y -> (forall x' y', ~ row_says r b x' y') -> placed num delim (rows ++ [r]) b x y).
    { intros b x y (a & q & z & -> & Hq & Hz) Hr. exists a, q, (z ++ [r]). split; [now rewrite <- app_assoc|]. split; [exact Hq|]. intros r' x' y' Hr'. apply in_app_or in Hr'. destruct Hr' as [Hr'|[<-|[]]]; auto. }
    assert (Ir : In r (rows ++ [r])) by (apply in_or_app; right; now left). destruct (G r Ir) as [B|(b & x & y & S)].
    + unfold DssNodeModel.row_step. unfold blank_row in B. rewrite B. cbn [String.eqb].
      assert (Nr : forall b x y, ~ row_says r b x y) by (intros b x y (H & _); now apply H).
      split; [exact N|]. split; [exact Nn|]. split; [intros b; rewrite Ext, K; split; [auto|intros [H|(x & y & H)]; [exact H|destruct (Nr b x y H)]]|]. intros b e E. destruct (P b e E) as (P1 & x & y & P2 & P3). split; [exact P1|]. exists x, y. split; [exact P2|]. apply Pl; auto.
    + destruct (row_read r b x y S) as [Q R]. unfold DssNodeModel.row_step. rewrite Q, R. split; [now apply bput_nodup|].
      assert (Ks : forall k, In k (map fst (bput bs (Some b) (mkBus (Some (CNum x, CNum y)) match bget bs (Some b) with Some b0 => b_phases b0 | None => None end))) <-> In k (map fst bs) \/ k = Some b).
      { intros k. rewrite bput_keys. destruct (bget bs (Some b)) eqn:E; [|rewrite in_app_iff; cbn; intuition]. split; [auto|]. intros [H| ->]; [exact H|]. apply bget_some. eauto. }
      split; [rewrite Ks; intros [H|H]; [auto|discriminate]|]. split.
      * intros b'. rewrite Ks, Ext, K. split; [intros [H|H]; [auto|injection H as ->; right; eauto]|]. intros [H|(x' & y' & H)]; [auto|]. right. destruct (row_unique _ _ _ _ _ _ _ S H) as (-> & _). reflexivity.
      * intros b' e. rewrite bget_put. destruct (same_name (Some b) (Some b')) eqn:Eb.
        -- intros X. injection X as <-. apply same_name_eq in Eb. injection Eb as <-. cbn [b_phases b_pos]. split; [destruct (bget bs (Some b)) as [e|] eqn:E; [exact (proj1 (P b e E))|reflexivity]|].
           exists x, y. split; [reflexivity|]. exists rows, r, []. auto.
        -- intros E. destruct (P b' e E) as (P1 & x' & y' & P2 & P3). split; [exact P1|]. exists x', y'. split; [exact P2|]. apply Pl; [exact P3|]. intros x2 y2 H. destruct (row_unique _ _ _ _ _ _ _ S H) as (<- & _). now rewrite same_name_refl in Eb.
Qed.

(** ** Terminals *)
Definition letterz (p : string) : Z := if String.eqb p "A" then 1%Z else if String.eqb p "B" then 2%Z else 3%Z.
Definition abc (p : string) : Prop := In p ["A"; "B"; "C"].
Lemma abc_back p : abc p -> r_phase_int (letterz p) = Some p /\ existsb (Z.eqb (letterz p)) [1; 2; 3]%Z = true.
Proof. intros [<-|[<-|[<-|[]]]]; split; reflexivity. Qed.
Lemma stands_abc t n b ps : stands t n b ps -> Forall abc ps.
Proof.
  intros (b0 & ns & _ & _ & [(_ & F)|(_ & _ & ->)]); [|unfold abc; cbn; auto 10]. induction F as [|m p ns ps H F IH]; constructor; [|exact IH]. unfold abc. destruct H; cbn; auto.
Qed.
Lemma bus_of_stands t n b ps : stands t n b ps -> bus_of int_ t n = Ok (Some (b, map letterz ps)).
Proof.
  intros (b0 & ns & T & -> & H). unfold bus_of. rewrite split_pieces. unfold terminal in T. destruct (pieces (Ascii.eqb ".") t) as [|b1 ns'] eqn:E; [destruct (pieces_nonempty _ _ E)|].
  injection T as <- <-. destruct ns' as [|m ns'].
  - destruct H as [(N & _)|(_ & -> & ->)]; [congruence|]. rewrite (pieces_one _ _ _ E). reflexivity.
  - destruct H as [(_ & F)|(X & _)]; [|discriminate]. assert (M : forall ns ps, Forall2 node_letter ns ps -> mapM (fun x => of_opt EValue (int_ x)) ns = Ok (map letterz ps)).
    { clear -ints. destruct ints as (I1 & I2 & I3). induction 1 as [|m p ns ps Hm F IH]; [reflexivity|]. cbn [mapM map]. destruct Hm; rewrite ?I1, ?I2, ?I3; cbn [of_opt bind]; rewrite IH; reflexivity. }
    rewrite (M _ _ F). reflexivity.
Qed.
Definition stop (e : string * string) (s : string * list Z) : Prop := exists ps, stands (fst e) (snd e) (fst s) ps /\ snd s = map letterz ps.
Lemma good_stops l : good_ends l -> exists ss, Forall2 stop l ss.
Proof.
  induction l as [|[t n] l IH]; intros G; [exists []; constructor|]. destruct (G t n (or_introl eq_refl)) as (b & ps & S). destruct IH as [ss F]; [intros t' n' H; apply G; now right|].
  exists ((b, map letterz ps) :: ss). constructor; [|exact F]. exists ps. auto.
Qed.
Definition touch1 (bs : buses) (s : string * list Z) : res buses := touch bs (Some (fst s)) (Some (snd s)).
Lemma line_end_stop t n s : stop (t, n) s -> line_end int_ t n = Ok s.
Proof.
  intros (ps & S & E). unfold line_end. cbn in S. rewrite (bus_of_stands _ _ _ _ S). cbn [bind of_opt snd]. apply stands_abc in S.
  assert (X : forallb (fun z => existsb (Z.eqb z) [1; 2; 3]%Z) (map letterz ps) = true). { clear -S. induction S as [|p ps H S IH]; [reflexivity|]. cbn [map forallb]. now rewrite (proj2 (abc_back p H)), IH. }
  rewrite X, <- E. now destruct s.
Qed.
Lemma line_steps ls : forall ss bs, Forall2 stop (flat_map line_ends ls) ss -> foldM (line_step int_) ls bs = foldM touch1 ss bs.
Proof.
  induction ls as [|l ls IH]; intros ss bs F; cbn [flat_map line_ends app] in F; [inversion F; reflexivity|]. inversion F as [|? s1 ? ss1 H1 F1]; subst. inversion F1 as [|? s2 ? ss2 H2 F2]; subst.
  cbn [foldM]. unfold line_step. rewrite (line_end_stop _ _ _ H1), (line_end_stop _ _ _ H2). cbn [bind]. unfold touch1 at 1. destruct (touch bs (Some (fst s1)) (Some (snd s1))) as [bs1|]; [|reflexivity]. cbn [bind].
  unfold touch1 at 1. destruct (touch bs1 (Some (fst s2)) (Some (snd s2))) as [bs2|]; [|reflexivity]. cbn [bind]. now apply IH.
Qed.
Lemma end_stop n bs t s : stop (t, n) s -> end_step int_ n bs t = touch1 bs s.
Proof. intros (ps & S & E). unfold end_step. cbn in S. rewrite (bus_of_stands _ _ _ _ S). cbn [bind]. unfold touch1. now rewrite E. Qed.
Lemma end_steps n bl : forall ss bs, Forall2 stop (map (fun b => (b, n)) bl) ss -> foldM (end_step int_ n) bl bs = foldM touch1 ss bs.
Proof.
  induction bl as [|b bl IH]; intros ss bs F; cbn [map] in F; inversion F as [|? s1 ? ss1 H1 F1]; subst; [reflexivity|]. cbn [foldM]. rewrite (end_stop _ _ _ _ H1). destruct (touch1 bs s1); [cbn [bind]; auto|reflexivity].
Qed.
Lemma trafo_steps ts : forall ss bs, Forall2 stop (flat_map trafo_ends ts) ss -> foldM (trafo_step int_) ts bs = foldM touch1 ss bs.
Proof.
  induction ts as [|t ts IH]; intros ss bs F; cbn [flat_map] in F; [inversion F; reflexivity|]. apply Forall2_app_inv_l in F. destruct F as (s1 & s2 & F1 & F2 & ->). cbn [foldM]. rewrite foldM_app. unfold trafo_step. rewrite (end_steps _ _ _ _ F1).
  destruct (foldM touch1 s1 bs); [cbn [bind]; auto|reflexivity].
Qed.
Lemma load_steps ls : forall ss bs, Forall2 stop (flat_map load_ends ls) ss -> foldM (load_step int_) ls bs = foldM touch1 ss bs.
Proof.
  induction ls as [|l ls IH]; intros ss bs F; cbn [flat_map load_ends app] in F; inversion F as [|? s1 ? ss1 H1 F1]; subst; [reflexivity|]. cbn [foldM]. unfold load_step. rewrite (end_stop _ _ _ _ H1). destruct (touch1 bs s1); [cbn [bind]; auto|reflexivity].
Qed.
Lemma circuit_steps c bs ss : Forall2 stop (ends c) ss ->
  (do bs <- foldM (line_step int_) (c_lines c) bs; do bs <- foldM (trafo_step int_) (c_trafos c) bs; foldM (load_step int_) (c_loads c) bs) = foldM touch1 ss bs.
Proof.
  intros F. unfold ends in F. apply Forall2_app_inv_l in F. destruct F as (s1 & s' & F1 & F & ->). apply Forall2_app_inv_l in F. destruct F as (s2 & s3 & F2 & F3 & ->).
  rewrite !foldM_app, (line_steps _ _ _ F1). destruct (foldM touch1 s1 bs) as [b1|]; [|reflexivity]. cbn [bind]. rewrite foldM_app, (trafo_steps _ _ _ F2). destruct (foldM touch1 s2 b1) as [b2|]; [|reflexivity]. cbn [bind]. apply (load_steps _ _ _ F3).
Qed.

(** ** The table after the terminals *)
Definition stops_inv (bs0 : buses) (ss : list (string * list Z)) (bs : buses) : Prop :=
  NoDup (map fst bs) /\ (forall k, In k (map fst bs) <-> In k (map fst bs0) \/ exists b zs, k = Some b /\ In (b, zs) ss) /\
  forall k e, bget bs k = Some e ->
    b_pos e = match bget bs0 k with Some e0 => b_pos e0 | None => None end /\
    match b_phases e with
    | None => forall b zs, k = Some b -> ~ In (b, zs) ss
    | Some None => False
    | Some (Some l) => (exists b zs, k = Some b /\ In (b, zs) ss) /\ (forall z, In z l <-> exists b zs, k = Some b /\ In (b, zs) ss /\ In z zs) /\
                       ((forall b zs, In (b, zs) ss -> NoDup zs) -> NoDup l)
    end.
Lemma touch1_ok bs0 ss bs s : stops_inv bs0 ss bs -> exists bs', touch1 bs s = Ok bs' /\ stops_inv bs0 (ss ++ [s]) bs'.
Proof.
  intros (N & K & P). destruct s as [b zs]. unfold touch1, touch. cbn [fst snd].
  assert (Put : forall e, (bget bs (Some b) = None -> ~ In (Some b) (map fst bs)) -> b_pos e = (match bget bs0 (Some b) with Some e0 => b_pos e0 | None => None end) ->
    (exists l, b_phases e = Some (Some l) /\ (forall z, In z l <-> exists zs', In (b, zs') (ss ++ [(b, zs)]) /\ In z zs') /\ ((forall c zs', In (c, zs') (ss ++ [(b, zs)]) -> NoDup zs') -> NoDup l)) ->
    stops_inv bs0 (ss ++ [(b, zs)]) (bput bs (Some b) e)).
  { intros e _ Pe (l & El & Il & Nl). split; [now apply bput_nodup|]. split.
    - intros k. rewrite bput_keys. assert (A : In k (map fst bs) \/ k = Some b <-> In k (map fst bs0) \/ exists b0 zs0, k = Some b0 /\ In (b0, zs0) (ss ++ [(b, zs)])).
      { rewrite K. split.
        - intros [[H|(b' & zs' & -> & H)]| ->]; [auto|right; exists b', zs'; split; [reflexivity|apply in_or_app; auto]|right; exists b, zs; split; [reflexivity|apply in_or_app; cbn; auto]].
        - intros [H|(b' & zs' & -> & H)]; [auto|]. apply in_app_or in H. destruct H as [H|[H|[]]]; [left; right; eauto|right; injection H as -> _; reflexivity]. }
      destruct (bget bs (Some b)) eqn:E; [|rewrite in_app_iff; cbn; rewrite <- A; intuition]. rewrite <- A. split; [auto|]. intros [H| ->]; [exact H|]. apply bget_some. eauto.
    - intros k e'. rewrite bget_put. destruct (same_name (Some b) k) eqn:Ek.
      + intros X. injection X as <-. apply same_name_eq in Ek. subst k. split; [exact Pe|]. rewrite El. split; [exists b, zs; split; [reflexivity|apply in_or_app; cbn; auto]|]. split; [|exact Nl].
        intros z. rewrite Il. split; [intros (zs' & H); exists b, zs'; intuition|intros (b' & zs' & Q & H); injection Q as <-; eauto].
      + intros E. destruct (P k e' E) as [P1 P2]. split; [exact P1|]. assert (Nk : forall b' zs', k = Some b' -> In (b', zs') (ss ++ [(b, zs)]) <-> In (b', zs') ss).
        { intros b' zs' ->. rewrite in_app_iff. cbn. split; [|auto]. intros [H|[H|[]]]; [exact H|]. injection H as -> _. now rewrite same_name_refl in Ek. }
        destruct (b_phases e') as [[l'|]|]; [|exact P2|intros b' zs' Eb; rewrite (Nk b' zs' Eb); auto]. destruct P2 as ((b1 & z1 & Q1 & Q2) & Q3 & Q4).
        split; [exists b1, z1; split; [exact Q1|now apply Nk]|]. split; [|intros D; apply Q4; intros b' zs' H; apply (D b' zs'); apply in_or_app; auto].
        intros z. rewrite Q3. split; intros (b' & zs' & Eb & H1 & H2); exists b', zs'; rewrite (Nk b' zs' Eb) in *; auto. }
  destruct (bget bs (Some b)) as [e|] eqn:E.
  - destruct (P _ _ E) as [P1 P2]. destruct (b_phases e) as [[l|]|] eqn:El; [|destruct P2|].
    + cbn [of_opt bind]. eexists. split; [reflexivity|]. destruct P2 as (_ & P2 & P3). apply Put; [discriminate|exact P1|]. exists (zunique (l ++ zs)). split; [reflexivity|]. split; [|intros _; apply sorted_nodup, zunique_sorted].
      intros z. rewrite zunique_in, in_app_iff, P2. split.
      * intros [(b' & zs' & Q & H1 & H2)|H]; [injection Q as <-; exists zs'; split; [apply in_or_app; auto|exact H2]|exists zs; split; [apply in_or_app; cbn; auto|exact H]].
      * intros (zs' & H1 & H2). apply in_app_or in H1. destruct H1 as [H1|[H1|[]]]; [left; eauto|right; injection H1 as <-; exact H2].
    + eexists. split; [reflexivity|]. apply Put; [discriminate|exact P1|]. exists zs. split; [reflexivity|]. split; [|intros D; apply (D b zs); apply in_or_app; cbn; auto].
      intros z. split; [intros H; exists zs; split; [apply in_or_app; cbn; auto|exact H]|]. intros (zs' & H1 & H2). apply in_app_or in H1. destruct H1 as [H1|[H1|[]]]; [destruct (P2 b zs' eq_refl H1)|injection H1 as <-; exact H2].
  - eexists. split; [reflexivity|]. assert (Nb : ~ In (Some b) (map fst bs)) by now apply bget_none. apply Put; [auto| |].
    + cbn. destruct (bget bs0 (Some b)) as [e0|] eqn:E0; [|reflexivity]. exfalso. apply Nb, K. left. apply bget_some. eauto.
    + exists zs. split; [reflexivity|]. split; [|intros D; apply (D b zs); apply in_or_app; cbn; auto].
      intros z. split; [intros H; exists zs; split; [apply in_or_app; cbn; auto|exact H]|]. intros (zs' & H1 & H2). apply in_app_or in H1. destruct H1 as [H1|[H1|[]]]; [|injection H1 as <-; exact H2].
      exfalso. apply Nb, K. right. eauto.
Qed.
Lemma touches_ok bs0 : NoDup (map fst bs0) -> (forall k e, bget bs0 k = Some e -> b_phases e = None) -> forall ss, exists bs, foldM touch1 ss bs0 = Ok bs /\ stops_inv bs0 ss bs.
Proof.
  intros N0 P0 ss. induction ss as [|s ss IH] using rev_ind.
  - exists bs0. split; [reflexivity|]. split; [exact N0|]. split; [intros k; split; [auto|intros [H|(b & zs & _ & [])]; exact H]|]. intros k e E. rewrite E. split; [reflexivity|]. rewrite (P0 k e E). intros b zs _ [].
  - destruct IH as (bs & E & I). destruct (touch1_ok bs0 ss bs s I) as (bs' & E' & I'). exists bs'. split; [|exact I']. rewrite foldM_app, E. cbn [bind foldM]. now rewrite E'.
Qed.
End Nodes.
