(** Proofs about fix_undersized_transformers. *)
From Coq Require Import Permutation QArith Qcanon Sorted.
From Verif Require Import Base BaseFacts StoreModel NetworkModel NetworkSpec NetworkProofs NetworkBfs
  NetworkQueries NetworkDown NetworkEdit NetworkTop ConsistencyModel ConsistencySpec PathProofs ConsistencyProofs RouteProofs PhasePathProofs.
Local Open Scope string_scope.
Local Open Scope nat_scope.
Local Open Scope list_scope.

(** ** Numbers *)

Lemma qc_ltb_spec a b : qc_ltb a b = true <-> (a < b)%Qc.
Proof. unfold qc_ltb. destruct (Qclt_le_dec a b) as [H|H]; split; intros Q; auto; try discriminate. exfalso. exact (Qcle_not_lt _ _ H Q). Qed.

Lemma sizes_sorted : StronglySorted Qcle transformer_sizes.
Proof.
  unfold transformer_sizes. cbn [map].
  repeat (constructor; [|repeat (constructor; [unfold Qcle, Qle; vm_compute; discriminate|]); constructor]). constructor.
Qed.

Lemma find_sorted q l : StronglySorted Qcle l ->
  match find (fun z => qc_ltb q z) l with
  | Some sz => In sz l /\ (q < sz)%Qc /\ forall z, In z l -> (q < z)%Qc -> (sz <= z)%Qc
  | None => forall z, In z l -> (z <= q)%Qc
  end.
Proof.
  intros S. induction S as [|a l S IH H]; cbn [find]; [intros z []|].
  destruct (qc_ltb q a) eqn:E.
  - apply qc_ltb_spec in E. split; [left; reflexivity|]. split; [exact E|]. rewrite Forall_forall in H.
    intros z [<-|Hz] _; [apply Qcle_refl|auto].
  - assert (Ha : (a <= q)%Qc) by (apply Qcnot_lt_le; intros Q; apply qc_ltb_spec in Q; congruence).
    destruct (find _ l) as [sz|].
    + destruct IH as (I1 & I2 & I3). split; [right; exact I1|]. split; [exact I2|].
      intros z [<-|Hz] Q; [exfalso; exact (Qcle_not_lt _ _ Ha Q)|auto].
    + intros z [<-|Hz]; auto.
Qed.

Lemma find_size q : match find (fun z => qc_ltb q z) transformer_sizes with
  | Some sz => next_size q sz
  | None => (qc 5000 <= q)%Qc
  end.
Proof.
  assert (H := find_sorted q _ sizes_sorted). destruct (find _ transformer_sizes) as [sz|]; [exact H|].
  apply H. unfold transformer_sizes. apply in_map. cbn. tauto.
Qed.

(** ** Loads of a transformer *)

Definition kw (c : cobj) : Qc :=
  match c_loads c with
  | Some (Some ps) => fold_right (fun p b => match p with Some a => a / qc 1000 + b | None => b end)%Qc 0%Qc ps
  | _ => 0%Qc
  end.
Definition has_kw (c : cobj) : Prop := exists ps, c_loads c = Some (Some (map Some ps)).

Lemma kw_kilowatts c : has_kw c -> kilowatts c (kw c).
Proof.
  intros [ps E]. exists ps. split; [exact E|]. unfold kw. rewrite E. clear E. induction ps as [|p ps IH]; [reflexivity|].
  cbn [map fold_right]. rewrite IH. reflexivity.
Qed.
Lemma kilowatts_fun c q : kilowatts c q -> q = kw c.
Proof.
  intros (ps & E & ->). unfold kw. rewrite E. clear E. induction ps as [|p ps IH]; [reflexivity|].
  cbn [map fold_right]. rewrite IH. reflexivity.
Qed.

Lemma phase_sum (ps : list (option Qc)) : forall tot q,
  foldM (fun tot p => do v <- of_opt EType p; Ok (tot + v / qc 1000)%Qc) ps tot = Ok q ->
  (exists l, ps = map Some l) /\
  q = (tot + fold_right (fun p b => match p with Some a => a / qc 1000 + b | None => b end) 0 ps)%Qc.
Proof.
  induction ps as [|[p|] ps IH]; intros tot q H; cbn [foldM of_opt bind] in H.
  - injection H as <-. split; [exists []; reflexivity|]. cbn [fold_right]. ring.
  - apply IH in H as [[l ->] ->]. split; [exists (p :: l); reflexivity|]. cbn [fold_right]. ring.
  - discriminate.
Qed.
Lemma phase_sum_ok (l : list Qc) : forall tot, exists q,
  foldM (fun tot p => do v <- of_opt EType p; Ok (tot + v / qc 1000)%Qc) (map Some l) tot = Ok q.
Proof. induction l as [|p l IH]; intros tot; cbn [map foldM of_opt bind]; [eauto|apply IH]. Qed.

(** ** Objects found by name *)

Lemma lookup_from_spec es : forall k x i, lookup_from k es x = Some i ->
  exists j e, i = k + j /\ nth_error es j = Some e /\ e_name e = Some x.
Proof.
  induction es as [|e es IH]; intros k x i H; cbn [lookup_from] in H; [discriminate|].
  destruct (lookup_from (S k) es x) as [i'|] eqn:E.
  - injection H as ->. destruct (IH _ _ _ E) as (j & e' & -> & H1 & H2). exists (S j), e'. split; [lia|]. auto.
  - destruct (e_name e) as [n|] eqn:En; [|discriminate]. destruct (okey_eqb n x) eqn:Eo; [|discriminate].
    injection H as <-. apply okey_eqb_spec in Eo. subst n. exists 0, e. split; [lia|]. auto.
Qed.
Lemma lookup_from_none es : forall k x, lookup_from k es x = None -> forall e, In e es -> e_name e <> Some x.
Proof.
  induction es as [|e es IH]; intros k x H e' He; [destruct He|]. cbn [lookup_from] in H.
  destruct (lookup_from (S k) es x) as [i|] eqn:E; [discriminate|]. destruct He as [<-|He]; [|exact (IH _ _ E _ He)].
  destruct (e_name e) as [n|]; [|discriminate]. destruct (okey_eqb n x) eqn:Eo; [discriminate|].
  intros Q. injection Q as ->. rewrite okey_refl in Eo. discriminate.
Qed.

Lemma names_unique m i j c c' x : distinct_names m -> nth_error m i = Some c -> nth_error m j = Some c' ->
  e_name (c_e c) = Some x -> e_name (c_e c') = Some x -> i = j.
Proof.
  intros D Hi Hj Ei Ej. destruct (Nat.lt_trichotomy i j) as [L|[E|L]]; [exfalso|exact E|exfalso].
  - destruct (nth_error_split _ _ Hi) as (l1 & l2 & E & L1). rewrite E in Hj. rewrite nth_error_app2 in Hj by lia.
    destruct (j - length l1) as [|d] eqn:Ed; [lia|]. cbn [nth_error] in Hj.
    destruct (nth_error_split _ _ Hj) as (k1 & k2 & E2 & _). rewrite E2 in E. exact (D _ _ _ _ _ _ E Ei Ej).
  - destruct (nth_error_split _ _ Hj) as (l1 & l2 & E & L1). rewrite E in Hi. rewrite nth_error_app2 in Hi by lia.
    destruct (i - length l1) as [|d] eqn:Ed; [lia|]. cbn [nth_error] in Hi.
    destruct (nth_error_split _ _ Hi) as (k1 & k2 & E2 & _). rewrite E2 in E. exact (D _ _ _ _ _ _ E Ej Ei).
Qed.

Lemma find_spec m x k : find_object m x = Ok k -> exists c, nth_error m k = Some c /\ e_name (c_e c) = Some x.
Proof.
  unfold find_object, lookup. destruct (lookup_from 0 (map c_e m) x) as [i|] eqn:E; [|discriminate]. intros H. injection H as <-.
  destruct (lookup_from_spec _ _ _ _ E) as (j & e & -> & H1 & H2). cbn [Nat.add]. rewrite nth_error_map in H1.
  destruct (nth_error m j) as [c|] eqn:Ec; [|discriminate]. injection H1 as <-. eauto.
Qed.
Lemma find_own m k c x : distinct_names m -> nth_error m k = Some c -> e_name (c_e c) = Some x -> find_object m x = Ok k.
Proof.
  intros D Hk Hx. destruct (find_object m x) as [i|] eqn:E.
  - destruct (find_spec _ _ _ E) as (c' & Hi & Ex). f_equal. exact (names_unique m i k c' c x D Hi Hk Ex Hx).
  - exfalso. unfold find_object in E. destruct (lookup (map c_e m) x) eqn:El; [discriminate|].
    apply (lookup_from_none _ _ _ El (c_e c)); [apply in_map; eapply nth_error_In; exact Hk|exact Hx].
Qed.

(** ** Objects that differ in their windings only *)

Definition like (c c' : cobj) : Prop := c_e c = c_e c' /\ c_sub c = c_sub c' /\ c_wires c = c_wires c' /\ c_loads c = c_loads c'.
Lemma like_refl c : like c c.
Proof. repeat split. Qed.
Lemma like_objs m m' : Forall2 like m m' -> map c_e m = map c_e m'.
Proof. intros F. induction F as [|c c' m m' [E _] F IH]; [reflexivity|]. cbn [map]. congruence. Qed.
Lemma like_nth m m' k c : Forall2 like m m' -> nth_error m k = Some c -> exists c', nth_error m' k = Some c' /\ like c c'.
Proof.
  intros F. revert k. induction F as [|a a' m m' Ha F IH]; intros [|k] H; try discriminate; [|apply IH; exact H].
  injection H as <-. exists a'. split; [reflexivity|exact Ha].
Qed.
Lemma like_find m m' x : Forall2 like m m' -> find_object m' x = find_object m x.
Proof. intros F. unfold find_object. rewrite (like_objs _ _ F). reflexivity. Qed.
Lemma like_all m : Forall2 like m m.
Proof. induction m; constructor; [apply like_refl|assumption]. Qed.
Lemma like_trans m1 m2 m3 : Forall2 like m1 m2 -> Forall2 like m2 m3 -> Forall2 like m1 m3.
Proof.
  intros F. revert m3. induction F as [|a b m1 m2 Ha F IH]; intros m3 G; inversion G as [|? c ? m3' Hb G']; subst; constructor; [|auto].
  destruct Ha as (A1 & A2 & A3 & A4), Hb as (B1 & B2 & B3 & B4). repeat split; congruence.
Qed.
Lemma like_length m m' : Forall2 like m m' -> length m = length m'.
Proof. apply Forall2_len. Qed.

Lemma foldM_ext {A B} (f g : A -> B -> res A) l : (forall a x, In x l -> f a x = g a x) -> forall a, foldM f l a = foldM g l a.
Proof.
  induction l as [|x l IH]; intros H a; cbn [foldM]; [reflexivity|]. rewrite <- (H a x (or_introl eq_refl)).
  destruct (f a x); [|reflexivity]. apply IH. intros a' y Hy. apply H. right; exact Hy.
Qed.

Lemma like_kw m m' names : Forall2 like m m' -> load_kw m' names = load_kw m names.
Proof.
  intros F. unfold load_kw. apply foldM_ext. intros tot x _. rewrite (like_find _ _ x F).
  destruct (find_object m x) as [k|]; [|reflexivity]. cbn [bind]. unfold get_object.
  destruct (nth_error m k) as [c|] eqn:Ec.
  - destruct (like_nth _ _ _ _ F Ec) as (c' & Ec' & L). rewrite Ec'. cbn [of_opt bind]. destruct L as (_ & _ & _ & ->). reflexivity.
  - assert (Q : nth_error m' k = None) by (apply nth_error_None; apply nth_error_None in Ec; rewrite <- (like_length _ _ F); exact Ec).
    rewrite Q. reflexivity.
Qed.

Lemma load_kw_spec m ks q : distinct_names m -> (forall l, In l ks -> In l m /\ e_name (c_e l) = Some (c_name l)) ->
  load_kw m (map c_name ks) = Ok q -> (forall l, In l ks -> has_kw l) /\ q = fold_right (fun l b => kw l + b)%Qc 0%Qc ks.
Proof.
  intros D Hk. unfold load_kw.
  assert (G : forall ks tot, (forall l, In l ks -> In l m /\ e_name (c_e l) = Some (c_name l)) ->
    foldM (fun tot x => do k <- find_object m x; do c <- get_object m k; do ps <- use (c_loads c);
        foldM (fun tot p => do v <- of_opt EType p; Ok (tot + v / qc 1000)%Qc) ps tot) (map c_name ks) tot = Ok q ->
    (forall l, In l ks -> has_kw l) /\ q = (tot + fold_right (fun l b => kw l + b) 0 ks)%Qc).
  { clear Hk ks. induction ks as [|l ks IH]; intros tot Hk H; cbn [map foldM] in H.
    - injection H as <-. split; [intros l []|]. cbn [fold_right]. ring.
    - destruct (Hk l (or_introl eq_refl)) as [Hl El]. apply In_nth_error in Hl as [k Hl].
      rewrite (find_own _ _ _ _ D Hl El) in H. cbn [bind] in H. unfold get_object in H. rewrite Hl in H. cbn [of_opt bind] in H.
      destruct (c_loads l) as [[ps|]|] eqn:Ep; cbn [use bind] in H; [|discriminate|discriminate].
      destruct (foldM _ ps tot) as [t1|] eqn:E1; [|discriminate]. apply phase_sum in E1 as [[v Ev] E1].
      apply IH in H as [H1 H2]; [|intros x Hx; apply Hk; right; exact Hx].
      split; [intros x [<-|Hx]; [exists v; congruence|auto]|]. rewrite H2, E1. cbn [fold_right].
      replace (kw l) with (fold_right (fun p b => match p with Some a => a / qc 1000 + b | None => b end) 0 ps)%Qc
        by (unfold kw; rewrite Ep; reflexivity). ring. }
  intros H. destruct (G ks 0%Qc Hk H) as [G1 G2]. split; [exact G1|]. rewrite G2. ring.
Qed.

Lemma load_kw_ok m ks : distinct_names m -> (forall l, In l ks -> In l m /\ e_name (c_e l) = Some (c_name l)) ->
  (forall l, In l ks -> has_kw l) -> exists q, load_kw m (map c_name ks) = Ok q.
Proof.
  intros D. unfold load_kw. generalize 0%Qc. induction ks as [|l ks IH]; intros tot Hk Hw; cbn [map foldM]; [eauto|].
  destruct (Hk l (or_introl eq_refl)) as [Hl El]. apply In_nth_error in Hl as [k Hl].
  rewrite (find_own _ _ _ _ D Hl El). cbn [bind]. unfold get_object. rewrite Hl. cbn [of_opt bind].
  destruct (Hw l (or_introl eq_refl)) as [v Ev]. rewrite Ev. cbn [use bind].
  destruct (phase_sum_ok v tot) as [q Eq]. rewrite Eq. apply IH; [intros x Hx; apply Hk; right; exact Hx|intros x Hx; apply Hw; right; exact Hx].
Qed.

(** ** Upgrading *)

Lemma set_at_nth m k f j : nth_error (set_at m k f) j =
  if Nat.eqb j k then option_map f (nth_error m j) else nth_error m j.
Proof.
  revert k j. induction m as [|c m IH]; intros k j; destruct k as [|k], j as [|j]; cbn [set_at nth_error Nat.eqb option_map]; try reflexivity.
  - destruct (Nat.eqb _ _); reflexivity.
  - rewrite IH. reflexivity.
Qed.
Lemma set_at_like m k f : (forall c, like c (f c)) -> Forall2 like m (set_at m k f).
Proof.
  intros H. revert k. induction m as [|c m IH]; intros [|k]; cbn [set_at]; try constructor; auto; [apply like_all|apply like_refl].
Qed.

(** What happens to the object [c] with load [q] (in kW). *)
Definition treated (c : cobj) (q : Qc) (c' : cobj) : Prop :=
  exists w ws r, c_windings c = Some (Some (w :: ws)) /\ wd_rated w = Some r /\
    ((r / qc 1000 < q /\ exists sz, next_size q sz /\ rerated c (sz * qc 1000) c') \/
     (c' = c /\ (q <= r / qc 1000 \/ qc 5000 <= q)))%Qc.

Lemma upgrade_spec m x names m' : upgrade m (x, names) = Ok m' ->
  exists k c q c', find_object m (Some x) = Ok k /\ nth_error m k = Some c /\ load_kw m names = Ok q /\
    treated c q c' /\ Forall2 like m m' /\ forall j, nth_error m' j = if Nat.eqb j k then Some c' else nth_error m j.
Proof.
  unfold upgrade. cbn [fst snd]. destruct (find_object m (Some x)) as [k|] eqn:Ek; cbn [bind]; [|discriminate].
  unfold get_object. destruct (nth_error m k) as [c|] eqn:Ec; cbn [of_opt bind]; [|discriminate].
  destruct (c_windings c) as [[ws|]|] eqn:Ew; cbn [use bind]; [|discriminate|discriminate].
  unfold nth_winding. destruct ws as [|w ws]; cbn [nth_error of_opt bind]; [discriminate|].
  destruct (wd_rated w) as [r|] eqn:Er; cbn [of_opt bind]; [|discriminate].
  destruct (load_kw m names) as [q|] eqn:Eq; cbn [bind]; [|discriminate].
  assert (Same : forall j, nth_error m j = if Nat.eqb j k then Some c else nth_error m j)
    by (intros j; destruct (Nat.eqb_spec j k) as [->|]; [exact Ec|reflexivity]).
  destruct (qc_ltb (r / qc 1000) q) eqn:El.
  - apply qc_ltb_spec in El. assert (Fs := find_size q). destruct (find _ transformer_sizes) as [sz|]; intros H; injection H as <-.
    + exists k, c, q, (with_windings (set_ratings (w :: ws) (sz * qc 1000)) c).
      split; [reflexivity|]. split; [exact Ec|]. split; [reflexivity|]. split.
      * exists w, ws, r. split; [exact Ew|]. split; [exact Er|]. left. split; [exact El|]. exists sz. split; [exact Fs|].
        exists (w :: ws). split; [exact Ew|]. reflexivity.
      * split; [apply set_at_like; intros c0; repeat split|]. intros j. rewrite set_at_nth.
        destruct (Nat.eqb_spec j k) as [->|]; [rewrite Ec; reflexivity|reflexivity].
    + exists k, c, q, c. split; [reflexivity|]. split; [exact Ec|]. split; [reflexivity|].
      split; [|split; [apply like_all|exact Same]]. exists w, ws, r. split; [exact Ew|]. split; [exact Er|]. right. auto.
  - assert (Hq : (q <= r / qc 1000)%Qc) by (apply Qcnot_lt_le; intros Q; apply qc_ltb_spec in Q; congruence).
    intros H; injection H as <-. exists k, c, q, c. split; [reflexivity|]. split; [exact Ec|]. split; [reflexivity|].
    split; [|split; [apply like_all|exact Same]]. exists w, ws, r. split; [exact Ew|]. split; [exact Er|]. right. auto.
Qed.

Lemma upgrade_all m : distinct_names m -> forall tm m1 m', NoDup (map fst tm) -> Forall2 like m m1 ->
  (forall k c x, nth_error m k = Some c -> e_name (c_e c) = Some (Some x) -> In x (map fst tm) -> nth_error m1 k = Some c) ->
  foldM upgrade tm m1 = Ok m' ->
  Forall2 like m m' /\
  (forall x names, In (x, names) tm -> exists k c q c', nth_error m k = Some c /\ e_name (c_e c) = Some (Some x) /\
     load_kw m names = Ok q /\ treated c q c' /\ nth_error m' k = Some c') /\
  (forall k c, nth_error m k = Some c -> (forall x, e_name (c_e c) = Some (Some x) -> ~ In x (map fst tm)) ->
     nth_error m' k = nth_error m1 k).
Proof.
  intros D. induction tm as [|[x names] tm IH]; intros m1 m' N L U H; cbn [foldM] in H.
  - injection H as <-. split; [exact L|]. split; [intros x names []|reflexivity].
  - destruct (upgrade m1 (x, names)) as [m2|] eqn:Eu; [|discriminate].
    destruct (upgrade_spec _ _ _ _ Eu) as (k & c1 & q & c' & Ek & Hk & Eq & T & L2 & Hn).
    cbn [map fst] in N. inversion N as [|? ? N1 N2]; subst.
    rewrite (like_find _ _ _ L) in Ek. destruct (find_spec _ _ _ Ek) as (c & Hc & Ex).
    assert (c1 = c).
    { rewrite (U k c x Hc Ex (or_introl eq_refl)) in Hk. congruence. } subst c1.
    rewrite (like_kw _ _ _ L) in Eq.
    assert (Oth : forall j d y, nth_error m j = Some d -> e_name (c_e d) = Some (Some y) -> y <> x -> Nat.eqb j k = false).
    { intros j d y Hj Ey Nyx. apply Nat.eqb_neq. intros ->. rewrite Hc in Hj. congruence. }
    destruct (IH m2 m' N2 (like_trans _ _ _ L L2)) as (I1 & I2 & I3).
    + intros j d y Hj Ey Hy. rewrite Hn, (Oth j d y Hj Ey) by (intros ->; contradiction). apply (U j d y Hj Ey). right; exact Hy.
    + exact H.
    + split; [exact I1|]. split.
      * intros y ns [E|Hy].
        -- injection E as <- <-. exists k, c, q, c'. split; [exact Hc|]. split; [exact Ex|]. split; [exact Eq|]. split; [exact T|].
           rewrite (I3 k c Hc); [rewrite Hn, Nat.eqb_refl; reflexivity|]. intros y Ey. rewrite Ex in Ey. injection Ey as <-. exact N1.
        -- apply I2. exact Hy.
      * intros j d Hj Hd. rewrite (I3 j d Hj) by (intros y Ey Q; apply (Hd y Ey); right; exact Q). rewrite Hn.
        replace (Nat.eqb j k) with false; [reflexivity|]. symmetry. apply Nat.eqb_neq. intros ->. rewrite Hc in Hj. injection Hj as <-.
        apply (Hd x Ex). left; reflexivity.
Qed.

(** ** The map from transformers to loads *)

Definition key_of (el : string -> string -> res info) (ps : dict (list string)) (c : cobj) : option string :=
  match e_conn (c_e c) with
  | None => None
  | Some x => match dget ps x with
              | None => None
              | Some p => match scan el p with Ok ([t], _) => Some t | _ => None end
              end
  end.
Definition key_is el ps (x : string) (c : cobj) : bool :=
  match key_of el ps c with Some y => String.eqb y x | None => false end.

Lemma note_map el ps : forall ls tm tm', foldM (note_load el ps) ls tm = Ok tm' -> NoDup (dkeys tm) ->
  NoDup (dkeys tm') /\
  forall x, dget tm' x = match filter (key_is el ps x) ls with
                         | [] => dget tm x
                         | ks => Some (match dget tm x with Some l => l | None => [] end ++ map c_name ks)
                         end.
Proof.
  induction ls as [|c ls IH]; intros tm tm' H N; cbn [foldM] in H.
  - injection H as <-. split; [exact N|]. intros x. reflexivity.
  - destruct (note_load el ps tm c) as [t1|] eqn:E1; [|discriminate].
    assert (Q : match key_of el ps c with
                | Some t => t1 = dset tm t (match dget tm t with Some l => l | None => [] end ++ [c_name c])
                | None => t1 = tm end).
    { unfold note_load in E1. unfold key_of. destruct (e_conn (c_e c)) as [x|]; [|congruence]. destruct (dget ps x) as [p|]; [|congruence].
      destruct (scan el p) as [[ts lw]|]; cbn [bind] in E1; [|discriminate]. destruct ts as [|t [|u ts]]; congruence. }
    assert (N1 : NoDup (dkeys t1)) by (destruct (key_of el ps c); subst t1; [apply dset_NoDup|]; exact N).
    destruct (IH t1 tm' H N1) as [I1 I2]. split; [exact I1|]. intros x. rewrite I2. cbn [filter].
    unfold key_is at 2. destruct (key_of el ps c) as [t|] eqn:Ek; [|subst t1; reflexivity].
    subst t1. destruct (String.eqb_spec t x) as [->|Ntx].
    + rewrite dget_dset_same. destruct (filter (key_is el ps x) ls) as [|k ks]; cbn [map]; [reflexivity|].
      rewrite <- app_assoc. reflexivity.
    + rewrite dget_dset_other by congruence. reflexivity.
Qed.

Lemma filter_perm {A} (f : A -> bool) l l' : Permutation l l' -> Permutation (filter f l) (filter f l').
Proof.
  intros H. induction H as [|x l l' H IH|x y l|l l' l'' H1 IH1 H2 IH2]; cbn [filter].
  - constructor.
  - destruct (f x); [constructor|]; exact IH.
  - destruct (f x), (f y); try constructor; apply Permutation_refl.
  - eapply Permutation_trans; eauto.
Qed.
Lemma sum_perm (f : cobj -> Qc) l l' : Permutation l l' ->
  fold_right (fun c b => f c + b)%Qc 0%Qc l = fold_right (fun c b => f c + b)%Qc 0%Qc l'.
Proof.
  intros H. induction H as [|x l l' H IH|x y l|l l' l'' H1 IH1 H2 IH2]; cbn [fold_right]; [reflexivity|rewrite IH; reflexivity|ring|congruence].
Qed.

Lemma sum_filter (P : cobj -> Prop) f m : (forall c, In c m -> (f c = true <-> P c)) -> (forall c, In c m -> f c = true -> has_kw c) ->
  sum_of P kilowatts m (fold_right (fun c b => kw c + b)%Qc 0%Qc (filter f m)).
Proof.
  induction m as [|c m IH]; intros H Hk; cbn [filter]; [constructor|].
  assert (I : sum_of P kilowatts m (fold_right (fun c b => kw c + b)%Qc 0%Qc (filter f m))).
  { apply IH; intros d Hd; [apply H|apply Hk]; right; exact Hd. }
  destruct (f c) eqn:E.
  - cbn [fold_right]. apply sum_yes; [apply (H c (or_introl eq_refl)); exact E|apply kw_kilowatts, Hk; [left; reflexivity|exact E]|exact I].
  - apply sum_no; [|exact I]. intros Q. apply (H c (or_introl eq_refl)) in Q. congruence.
Qed.

Lemma sum_fun (P : cobj -> Prop) m q q' : sum_of P kilowatts m q -> sum_of P kilowatts m q' -> q = q'.
Proof.
  intros H. revert q'. induction H as [|x l a b Px Ha H IH|x l b Nx H IH]; intros q' H'; inversion H' as [|? ? a' b' Px' Ha' H1|? ? ? Nx' H1]; subst; try contradiction.
  - reflexivity.
  - rewrite (kilowatts_fun _ _ Ha), (kilowatts_fun _ _ Ha'), (IH _ H1). reflexivity.
  - auto.
Qed.

(** ** The function *)

Section Fix.
Variables (m : list cobj) (s : string) (n n' : network) (ps : dict (list string)).
Hypothesis K : closed m s n n'.
Hypothesis Rad : radial m.
Hypothesis One : one_per_link m.
Hypothesis Named : all_named (objs m).
Hypothesis Dist : distinct_names m.
Hypothesis Eps : shortest_paths (net_graph n') s = Ok ps.

Lemma nm_name c : In c m -> (exists x, c_name c = Some x) -> e_name (c_e c) = Some (Some (nm c)).
Proof. intros _ [x Ex]. unfold nm. rewrite Ex. unfold c_name in Ex. destruct (e_name (c_e c)); congruence. Qed.

Lemma nm_inj c c' : In c m -> In c' m -> e_name (c_e c) = Some (Some (nm c)) -> e_name (c_e c') = Some (Some (nm c)) -> c = c'.
Proof.
  intros H H' E E'. apply In_nth_error in H as [i Hi]. apply In_nth_error in H' as [j Hj].
  assert (i = j) by (eapply (names_unique m i j c c'); eauto). subst. congruence.
Qed.

Lemma serves_key t l tm tm' : In t m -> distribution t -> e_name (c_e t) = Some (Some (nm t)) -> In l m -> is_load l ->
  note_load (element m n n') ps tm l = Ok tm' ->
  (serves m s t l <-> key_is (element m n n') ps (nm t) l = true).
Proof.
  intros Ht Hd Et Hl Hl' Hno. unfold key_is, key_of, serves, note_load in *.
  destruct (e_conn (c_e l)) as [x|] eqn:Ex; [|split; [intros (_ & x & p & cs & Q & _); discriminate|discriminate]].
  destruct (dget ps x) as [p|] eqn:Ep.
  - destruct (scan (element m n n') p) as [[ts lw]|] eqn:Esc; [|discriminate].
    destruct (path_is_route m s n n' K ps x p Eps Ep) as (q & Eq & Hp & Sp).
    destruct (along_exists m p) as [cs Hcs]; [rewrite Eq; discriminate|exact Sp|].
    assert (Hel := scan_elements _ _ _ Esc). assert (Hcs' := Hcs). rewrite Eq in Hel, Sp, Hcs'.
    destruct (objects_on m s n n' K Rad One Named _ _ _ (reach_refl _ _) Sp Hcs' Hel) as [F Hx]. rewrite <- Eq in F.
    destruct (scan_spec _ _ _ (Forall2_rev' _ _ _ F) _ _ _ _ Esc) as (D & P & E1 & _). cbn [app] in E1.
    assert (P' : picks distribution cs (rev D)) by (apply picks_rev in P; rewrite rev_involutive in P; exact P).
    assert (Q1 : (is_load l /\ exists x0 p0 cs0, Some x = Some x0 /\ simple_route (closed_link (objs m)) s x0 p0 /\ along m p0 cs0 /\
        picks distribution cs0 [t]) <-> picks distribution cs [t]).
    { split.
      - intros (_ & x0 & p0 & cs0 & Q & Hp0 & Hcs0 & Hk). injection Q as <-.
        assert (p0 = p) by (eapply (closed_unique m s Rad); eauto). subst p0.
        rewrite <- (along_unique m p cs0 cs One Hcs0 Hcs). exact Hk.
      - intros Hk. split; [exact Hl'|]. exists x, p, cs. auto. }
    rewrite Q1. clear Q1. split.
    + intros Hk. assert (E := picks_fun _ _ _ _ P' Hk). assert (D = [t]) by (rewrite <- (rev_involutive D), E; reflexivity).
      subst D. cbn [map] in E1. subst ts. apply String.eqb_refl.
    + destruct D as [|t' [|u D]]; cbn [map] in E1; subst ts; [discriminate| |discriminate].
      intros Q. apply String.eqb_eq in Q. cbn [rev app] in P'.
      assert (It : In t' cs) by (apply picks_one in P' as (a & b & -> & _); apply in_app_iff; right; left; reflexivity).
      assert (t = t').
      { apply nm_inj; [exact Ht|exact (along_In _ _ _ _ Hcs It)|exact Et|]. rewrite <- Q.
        apply nm_name; [exact (along_In _ _ _ _ Hcs It)|apply Hx; exact It]. }
      subst t'. exact P'.
  - split; [|discriminate]. intros (_ & x0 & p0 & cs0 & Q & Hp0 & _). injection Q as <-.
    rewrite (route_is_path m s n n' K Rad ps x p0 Eps Hp0) in Ep. discriminate.
Qed.

Lemma key_transformer l x : In l m -> key_of (element m n n') ps l = Some x ->
  exists t, In t m /\ distribution t /\ nm t = x /\ e_name (c_e t) = Some (Some (nm t)).
Proof.
  intros Hl H. unfold key_of in H. destruct (e_conn (c_e l)) as [y|]; [|discriminate]. destruct (dget ps y) as [p|] eqn:Ep; [|discriminate].
  destruct (scan (element m n n') p) as [[ts lw]|] eqn:Esc; [|discriminate].
  destruct (path_is_route m s n n' K ps y p Eps Ep) as (q & Eq & Hp & Sp).
  destruct (along_exists m p) as [cs Hcs]; [rewrite Eq; discriminate|exact Sp|].
  assert (Hel := scan_elements _ _ _ Esc). assert (Hcs' := Hcs). rewrite Eq in Hel, Sp, Hcs'.
  destruct (objects_on m s n n' K Rad One Named _ _ _ (reach_refl _ _) Sp Hcs' Hel) as [F Hx]. rewrite <- Eq in F.
  destruct (scan_spec _ _ _ (Forall2_rev' _ _ _ F) _ _ _ _ Esc) as (D & P & E1 & _). cbn [app] in E1.
  destruct D as [|t [|u D]]; cbn [map] in E1; subst ts; [discriminate| |discriminate]. injection H as <-.
  apply picks_rev in P. rewrite rev_involutive in P. cbn [rev app] in P. apply picks_one in P as (a & b & Ecs & Hd & _).
  assert (It : In t cs) by (rewrite Ecs; apply in_app_iff; right; left; reflexivity).
  exists t. split; [exact (along_In _ _ _ _ Hcs It)|]. split; [exact Hd|]. split; [reflexivity|].
  apply nm_name; [exact (along_In _ _ _ _ Hcs It)|auto].
Qed.
End Fix.

Lemma sources_one m l1 c l2 s : m = l1 ++ c :: l2 -> source_at c s -> (forall d s', In d (l1 ++ l2) -> ~ source_at d s') -> sources m = [c].
Proof.
  intros -> Hs N. unfold sources. apply filter_one.
  - unfold is_class. destruct Hs as [E1 E2]. rewrite E1, E2. reflexivity.
  - intros d Hd. apply not_true_is_false. intros Q. apply andb_true_iff in Q as [Q1 Q2]. apply String.eqb_eq in Q1.
    destruct (e_conn (c_e d)) as [b|] eqn:Eb; [|discriminate]. apply (N d b); [apply in_app_iff; left; exact Hd|split; assumption].
  - intros d Hd. apply not_true_is_false. intros Q. apply andb_true_iff in Q as [Q1 Q2]. apply String.eqb_eq in Q1.
    destruct (e_conn (c_e d)) as [b|] eqn:Eb; [|discriminate]. apply (N d b); [apply in_app_iff; right; exact Hd|split; assumption].
Qed.

(** Exactly what happens to each object. *)
Theorem undersized_result ord m l1 c l2 s m' : (forall l, Permutation (ord l) l) ->
  m = l1 ++ c :: l2 -> source_at c s -> (forall d s', In d (l1 ++ l2) -> ~ source_at d s') ->
  radial m -> one_per_link m -> all_named (objs m) -> distinct_names m ->
  fix_undersized_transformers ord m = Ok m' ->
  length m' = length m /\
  forall k t, nth_error m k = Some t -> exists t', nth_error m' k = Some t' /\
    (((exists l, In l m /\ serves m s t l) /\ exists q, served_kw m s t q /\ treated t q t') \/
     (t' = t /\ ~ exists l, In l m /\ serves m s t l)).
Proof.
  intros Ord Em Hs N Rad One Named Dist H.
  unfold fix_undersized_transformers in H. rewrite (sources_one m l1 c l2 s Em Hs N) in H. cbn [foldM] in H.
  rewrite (source_at_bus _ _ Hs) in H.
  destruct (closed_network m s) as [[n n']|] eqn:Ec; cbn [bind] in H; [|discriminate].
  assert (K := closed_network_spec _ _ _ _ Ec).
  destruct (shortest_paths (net_graph n') s) as [ps|] eqn:Eps; cbn [bind] in H; [|discriminate].
  destruct (foldM (note_load (element m n n') ps) (ord (loads m)) []) as [tm|] eqn:Et; cbn [bind] in H; [|discriminate].
  destruct (foldM upgrade tm m) as [m2|] eqn:Eu; cbn [bind] in H; [|discriminate]. injection H as <-.
  destruct (note_map _ _ _ _ _ Et) as [Nk Hk]; [constructor|]. cbn [dget] in Hk.
  assert (Hkey : forall x ks, filter (key_is (element m n n') ps x) (ord (loads m)) = ks ->
     dget tm x = match ks with [] => None | _ => Some (map c_name ks) end).
  { intros x ks <-. rewrite Hk. destruct (filter _ _); reflexivity. }
  destruct (upgrade_all m Dist tm m m2 Nk (like_all m)) as (L & U1 & U2); [intros; assumption|exact Eu|].
  assert (HL : forall l, In l (loads m) -> exists t1 t2, note_load (element m n n') ps t1 l = Ok t2).
  { intros l Hl. destruct (foldM_each _ _ _ _ l Et) as (a & r & E); [eapply Permutation_in; [symmetry; apply Ord|exact Hl]|eauto]. }
  split; [symmetry; apply like_length; exact L|].
  intros k t Hkt. assert (It : In t m) by (eapply nth_error_In; exact Hkt).
  assert (Serv : forall l, In l m -> serves m s t l -> distribution t /\ e_name (c_e t) = Some (Some (nm t))).
  { intros l Hl (Hld & x & p & cs & Ex & Hp & Hcs & Hpk).
    assert (Hd : distribution t /\ In t cs).
    { apply picks_one in Hpk as (a & b & -> & Hd & _). split; [exact Hd|]. apply in_app_iff. right; left; reflexivity. }
    destruct Hd as [Hd Itc]. split; [exact Hd|].
    destruct (HL l (proj2 (in_loads m l) (conj Hl Hld))) as (t1 & t2 & E). unfold note_load in E. rewrite Ex in E.
    rewrite (route_is_path m s n n' K Rad ps x p Eps Hp) in E. destruct (scan (element m n n') p) as [st|] eqn:Esc; [|discriminate].
    assert (Hel := scan_elements _ _ _ Esc). destruct Hp as [(q & Eq & _ & Sp) _].
    assert (Hcs' := Hcs). rewrite Eq in Hel, Sp, Hcs'.
    destruct (objects_on m s n n' K Rad One Named _ _ _ (reach_refl _ _) Sp Hcs' Hel) as [F Hx].
    apply (nm_name m); [exact It|auto]. }
  destruct (filter (key_is (element m n n') ps (nm t)) (ord (loads m))) as [|l0 ks] eqn:Ef.
  - (* not in the map, or not by this name *)
    destruct (nth_error m2 k) as [t'|] eqn:Et'.
    + assert (No : ~ exists l, In l m /\ serves m s t l).
      { intros (l & Hl & Hsv). destruct (Serv l Hl Hsv) as [Hd Et1]. assert (Hld := proj1 Hsv).
        assert (Hin : In l (loads m)) by (apply in_loads; auto). destruct (HL l Hin) as (t1 & t2 & E).
        apply (serves_key m s n n' ps K Rad One Named Dist Eps t l t1 t2 It Hd Et1 Hl Hld E) in Hsv.
        assert (Q : In l (filter (key_is (element m n n') ps (nm t)) (ord (loads m)))).
        { apply filter_In. split; [eapply Permutation_in; [symmetry; apply Ord|exact Hin]|exact Hsv]. }
        rewrite Ef in Q. destruct Q. }
      exists t'. split; [reflexivity|]. right. split; [|exact No].
      rewrite (U2 k t Hkt) in Et'; [congruence|].
      intros x Ex Q. assert (x = nm t) by (unfold nm, c_name; rewrite Ex; reflexivity). subst x.
      assert (Z := Hkey _ _ Ef). apply dget_None in Z. apply Z. exact Q.
    + exfalso. apply nth_error_None in Et'. rewrite <- (like_length _ _ L) in Et'. apply nth_error_None in Et'. congruence.
  - assert (Il0 : In l0 (filter (key_is (element m n n') ps (nm t)) (ord (loads m)))) by (rewrite Ef; left; reflexivity).
    apply filter_In in Il0 as [Il0 Kl0].
    assert (Il0' : In l0 (loads m)) by (eapply Permutation_in; [apply Ord|exact Il0]).
    apply in_loads in Il0' as [Hl0 Hld0].
    (* the transformer with that name *)
    unfold key_is in Kl0. destruct (key_of (element m n n') ps l0) as [y|] eqn:Ey; [|discriminate]. apply String.eqb_eq in Kl0. subst y.
    destruct (key_transformer m s n n' ps K Rad One Named Eps l0 _ Hl0 Ey) as (tt & Itt & Hdt & Enm & Ett).
    destruct (e_name (c_e t)) as [[x|]|] eqn:Ext.
    + assert (Ex' : nm t = x) by (unfold nm, c_name; rewrite Ext; reflexivity).
      assert (tt = t).
      { apply (nm_inj m Dist); [exact Itt|exact It|exact Ett|]. rewrite Enm, Ex'. exact Ext. }
      subst tt. assert (Z := Hkey _ _ Ef). apply dget_In in Z.
      destruct (U1 _ _ Z) as (k' & t1 & q & t' & Hk' & Et1 & Eq & T & Hm2).
      assert (k' = k) by (eapply (names_unique m k' k t1 t); eauto; congruence). subst k'.
      assert (t1 = t) by congruence. subst t1.
      exists t'. split; [exact Hm2|]. left.
      assert (HS : forall l, In l m -> is_load l -> (serves m s t l <-> key_is (element m n n') ps (nm t) l = true)).
      { intros l Hl Hld. destruct (HL l (proj2 (in_loads m l) (conj Hl Hld))) as (t1 & t2 & E).
        exact (serves_key m s n n' ps K Rad One Named Dist Eps t l t1 t2 It Hdt Ett Hl Hld E). }
      split.
      * exists l0. split; [exact Hl0|]. apply HS; auto. unfold key_is. rewrite Ey. apply String.eqb_refl.
      * exists q. split; [|exact T].
        assert (Hks : forall l, In l (l0 :: ks) -> In l m /\ e_name (c_e l) = Some (c_name l)).
        { intros l Hl. rewrite <- Ef in Hl. apply filter_In in Hl as [Hl Kl].
          assert (Hl' : In l (loads m)) by (eapply Permutation_in; [apply Ord|exact Hl]). apply in_loads in Hl' as [Hm Hld].
          split; [exact Hm|]. destruct (Named (c_e l)) as [z Ez]; [apply in_map; exact Hm| |].
          - right. unfold key_is, key_of in Kl. destruct (e_conn (c_e l)); congruence.
          - unfold c_name. rewrite Ez. reflexivity. }
        destruct (load_kw_spec m (l0 :: ks) q Dist Hks Eq) as [Hw Q].
        assert (Perm : Permutation (l0 :: ks) (filter (fun l => is_class "Load" l && key_is (element m n n') ps (nm t) l) m)).
        { rewrite <- Ef. eapply Permutation_trans; [apply filter_perm, Ord|].
          assert (FF : forall l, filter (key_is (element m n n') ps (nm t)) (filter (is_class "Load") l) =
             filter (fun l => is_class "Load" l && key_is (element m n n') ps (nm t) l) l).
          { induction l as [|a l IH]; [reflexivity|]. cbn [filter]. destruct (is_class "Load" a); cbn [filter andb]; [|exact IH].
            destruct (key_is _ _ _ a); [f_equal|]; exact IH. }
          unfold loads. rewrite FF. apply Permutation_refl. }
        rewrite Q, (sum_perm kw _ _ Perm). apply sum_filter.
        -- intros l Hl. rewrite andb_true_iff. unfold is_class. rewrite String.eqb_eq. split.
           ++ intros [Q1 Q2]. apply HS; assumption.
           ++ intros Q1. assert (Hld := proj1 Q1). split; [exact Hld|]. apply HS; assumption.
        -- intros l Hl Q1. apply Hw. eapply Permutation_in; [symmetry; exact Perm|]. apply filter_In. auto.
    + (* no name: key "" of another transformer *)
      exists t. rewrite (U2 k t Hkt) by (intros x Ex; congruence). split; [exact Hkt|]. right. split; [reflexivity|].
      intros (l & Hl & Hsv). destruct (Serv l Hl Hsv). congruence.
    + exists t. rewrite (U2 k t Hkt) by (intros x Ex; congruence). split; [exact Hkt|]. right. split; [reflexivity|].
      intros (l & Hl & Hsv). destruct (Serv l Hl Hsv). congruence.
Qed.
