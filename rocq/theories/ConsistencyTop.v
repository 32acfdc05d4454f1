(** Consequences for fix_undersized_transformers, and a concrete model that meets the hypotheses. *)
From Coq Require Import Permutation QArith Qcanon.
From Verif Require Import Base BaseFacts StoreModel NetworkModel NetworkSpec NetworkProofs NetworkBfs
  NetworkQueries NetworkDown NetworkEdit NetworkTop ConsistencyModel ConsistencySpec PathProofs ConsistencyProofs RouteProofs
  PhasePathProofs UndersizedProofs.
Local Open Scope string_scope.
Local Open Scope nat_scope.
Local Open Scope list_scope.

Lemma qc1000_pos : (0 < qc 1000)%Qc.
Proof. reflexivity. Qed.

Lemma div1000 a b : (a / qc 1000 < b)%Qc -> (a < b * qc 1000)%Qc.
Proof.
  intros H. apply (Qcmult_lt_compat_r _ _ (qc 1000) qc1000_pos) in H.
  replace (a / qc 1000 * qc 1000)%Qc with a in H; [exact H|]. unfold Qcdiv. rewrite <- Qcmult_assoc, (Qcmult_comm (/ qc 1000)), Qcmult_inv_r; [ring|].
  intros Q. discriminate Q.
Qed.
Lemma mul1000 a b : (a < b)%Qc -> (a * qc 1000 < b * qc 1000)%Qc.
Proof. apply Qcmult_lt_compat_r. exact qc1000_pos. Qed.
Lemma div1000_le a b : (b <= a / qc 1000)%Qc -> (b * qc 1000 <= a)%Qc.
Proof.
  intros H. apply Qcnot_lt_le. intros Q. apply Qcle_not_lt in H. apply H. clear H.
  destruct (Qclt_le_dec (a / qc 1000) b) as [L|L]; [exact L|]. exfalso.
  apply (Qcmult_le_compat_r _ _ (qc 1000)) in L; [|discriminate].
  replace (a / qc 1000 * qc 1000)%Qc with a in L; [exact (Qcle_not_lt _ _ L Q)|].
  unfold Qcdiv. rewrite <- Qcmult_assoc, (Qcmult_comm (/ qc 1000)), Qcmult_inv_r; [ring|]. intros E. discriminate E.
Qed.

Section Fixed.
Variables (ord : list cobj -> list cobj) (m : list cobj) (l1 : list cobj) (c : cobj) (l2 : list cobj) (s : string) (m' : list cobj).
Hypothesis Ord : forall l, Permutation (ord l) l.
Hypothesis Em : m = l1 ++ c :: l2.
Hypothesis Hs : source_at c s.
Hypothesis Hone : forall d s', In d (l1 ++ l2) -> ~ source_at d s'.
Hypothesis Rad : radial m.
Hypothesis One : one_per_link m.
Hypothesis Named : all_named (objs m).
Hypothesis Dist : distinct_names m.
Hypothesis Ef : fix_undersized_transformers ord m = Ok m'.

(** A transformer that serves less than 5000 kW is rated at least that much afterwards, at least
    as much as before, and is unchanged if it was large enough. *)
Theorem undersized_fixed k t r q : nth_error m k = Some t -> rating t r ->
  (exists l, In l m /\ serves m s t l) -> served_kw m s t q ->
  exists t', nth_error m' k = Some t' /\
    ((q < qc 5000)%Qc -> exists r', rating t' r' /\ (q * qc 1000 <= r')%Qc /\ (r <= r')%Qc) /\
    ((q <= r / qc 1000)%Qc \/ (qc 5000 <= q)%Qc -> t' = t).
Proof.
  intros Hk (w & ws & Ew & Er) Hsv Hq.
  destruct (undersized_result ord m l1 c l2 s m' Ord Em Hs Hone Rad One Named Dist Ef) as [_ U].
  destruct (U k t Hk) as (t' & Hk' & [(_ & q' & Hq' & T)|[_ No]]); [|contradiction].
  assert (q' = q) by (eapply sum_fun; eauto). subst q'.
  exists t'. split; [exact Hk'|]. destruct T as (w' & ws' & r' & Ew' & Er' & T).
  rewrite Ew in Ew'. injection Ew' as <- <-. rewrite Er in Er'. injection Er' as <-.
  destruct T as [(Hlt & sz & (Hin & Hsz & Hmin) & wz & Ewz & Ht')|[Ht' Hc]].
  - rewrite Ew in Ewz. injection Ewz as <-. split.
    + intros _. exists (sz * qc 1000)%Qc. split.
      * rewrite Ht'. eexists; eexists. cbn [map c_windings]. split; reflexivity.
      * split; [apply Qclt_le_weak, mul1000; exact Hsz|]. apply Qclt_le_weak. apply div1000 in Hlt.
        eapply Qclt_trans; [exact Hlt|apply mul1000; exact Hsz].
    + intros [Q|Q].
      * exfalso. exact (Qcle_not_lt _ _ Q Hlt).
      * exfalso. assert (Z : (sz <= qc 5000)%Qc).
        { clear - Hin. apply in_map_iff in Hin as (z & <- & Hz). cbn [In] in Hz.
          repeat (destruct Hz as [<-|Hz]; [unfold Qcle, Qle; vm_compute; discriminate|]). destruct Hz. }
        apply (Qcle_not_lt _ _ (Qcle_trans _ _ _ Z Q)). exact Hsz.
  - subst t'. split; [|reflexivity]. intros Q5. exists r. split; [exists w, ws; auto|]. split; [|apply Qcle_refl].
    destruct Hc as [Hc|Hc]; [apply div1000_le; exact Hc|]. exfalso. exact (Qcle_not_lt _ _ Hc Q5).
Qed.

(** Objects that serve no load, in particular everything but distribution transformers, stay. *)
Theorem others_unchanged k t : nth_error m k = Some t -> ~ (exists l, In l m /\ serves m s t l) -> nth_error m' k = Some t.
Proof.
  intros Hk No. destruct (undersized_result ord m l1 c l2 s m' Ord Em Hs Hone Rad One Named Dist Ef) as [_ U].
  destruct (U k t Hk) as (t' & Hk' & [(Y & _)|[-> _]]); [contradiction|exact Hk'].
Qed.
End Fixed.

(** ** Success *)

Lemma upgrade_all_ok m : distinct_names m -> forall tm m1, NoDup (map fst tm) -> Forall2 like m m1 ->
  (forall k c x, nth_error m k = Some c -> e_name (c_e c) = Some (Some x) -> In x (map fst tm) -> nth_error m1 k = Some c) ->
  (forall x names, In (x, names) tm -> (exists q, load_kw m names = Ok q) /\
     exists k c r, nth_error m k = Some c /\ e_name (c_e c) = Some (Some x) /\ rating c r) ->
  exists m', foldM upgrade tm m1 = Ok m'.
Proof.
  intros D. induction tm as [|[x names] tm IH]; intros m1 N L U H; cbn [foldM]; [eauto|].
  cbn [map fst] in N. inversion N as [|? ? N1 N2]; subst.
  destruct (H x names (or_introl eq_refl)) as ([q Eq] & k & c & r & Hk & Ex & (w & ws & Ew & Er)).
  assert (Hk1 := U k c x Hk Ex (or_introl eq_refl)).
  assert (E : exists m2, upgrade m1 (x, names) = Ok m2).
  { unfold upgrade. cbn [fst snd]. rewrite (like_find _ _ _ L), (find_own _ _ _ _ D Hk Ex). cbn [bind]. unfold get_object. rewrite Hk1.
    cbn [of_opt bind]. rewrite Ew. cbn [use bind]. unfold nth_winding. cbn [nth_error of_opt bind]. rewrite Er. cbn [of_opt bind].
    rewrite (like_kw _ _ _ L), Eq. cbn [bind]. destruct (qc_ltb _ _); [destruct (find _ _)|]; eauto. }
  destruct E as [m2 E]. rewrite E. destruct (upgrade_spec _ _ _ _ E) as (k' & c1 & q' & c' & Ek & Hk' & _ & _ & L2 & Hn).
  apply IH; [exact N2|exact (like_trans _ _ _ L L2)| |intros y ns Hy; apply H; right; exact Hy].
  intros j d y Hj Ey Hy. rewrite Hn. rewrite (like_find _ _ _ L) in Ek. destruct (find_spec _ _ _ Ek) as (c0 & Hc0 & Ex0).
  replace (Nat.eqb j k') with false; [apply (U j d y Hj Ey); right; exact Hy|]. symmetry. apply Nat.eqb_neq. intros ->.
  rewrite Hc0 in Hj. injection Hj as <-. assert (y = x) by congruence. subst. contradiction.
Qed.

Theorem undersized_ok ord m l1 c l2 s : (forall l, Permutation (ord l) l) ->
  m = l1 ++ c :: l2 -> source_at c s -> (forall d s', In d (l1 ++ l2) -> ~ source_at d s') ->
  buildable m -> radial m -> one_per_link m -> distinct_names m ->
  (forall l, In l m -> is_load l -> exists ps, c_loads l = Some (Some (map Some ps))) ->
  (forall t, In t m -> distribution t -> exists r, rating t r) ->
  (forall t, In t m -> is_transformer t -> c_sub t <> None) ->
  (forall l x p cs, In l m -> is_load l -> e_conn (c_e l) = Some x ->
     simple_route (closed_link (objs m)) s x p -> along m p cs -> forall d, In d cs -> e_conn (c_e d) = None) ->
  exists m', fix_undersized_transformers ord m = Ok m'.
Proof.
  intros Ord Em Hs N B Rad One Dist Hkw Hrt Hsub Hread. assert (Named := proj1 B).
  assert (Ic : In c m) by (rewrite Em; apply in_app_iff; right; left; reflexivity).
  unfold fix_undersized_transformers. rewrite (sources_one m l1 c l2 s Em Hs N). cbn [foldM]. rewrite (source_at_bus _ _ Hs).
  destruct (closed_network_ok m c s B Ic Hs) as (n & n' & Ec). rewrite Ec. cbn [bind]. assert (K := closed_network_spec _ _ _ _ Ec).
  destruct (closed_paths _ _ _ _ K) as (ps & Eps & _). rewrite Eps. cbn [bind].
  assert (X : exists tm, foldM (note_load (element m n n') ps) (ord (loads m)) [] = Ok tm).
  { assert (Hl : forall l, In l (ord (loads m)) -> In l m /\ is_load l).
    { intros l H. apply in_loads. eapply Permutation_in; [apply Ord|exact H]. }
    revert Hl. generalize (ord (loads m)). generalize (@nil (string * list (option string))). intros tm ls. revert tm.
    induction ls as [|l ls IH]; intros tm Hl; cbn [foldM]; [eauto|].
    assert (Z : exists t1, note_load (element m n n') ps tm l = Ok t1).
    { unfold note_load. destruct (e_conn (c_e l)) as [x|] eqn:Ex; [|eauto]. destruct (dget ps x) as [p|] eqn:Ep; [|eauto].
      destruct (Hl l (or_introl eq_refl)) as [Hm Hld].
      destruct (path_is_route m s n n' K ps x p Eps Ep) as (q & Eq & Hp & Sp).
      destruct (along_exists m p) as [cs Hcs]; [rewrite Eq; discriminate|exact Sp|].
      assert (Rd := Hread l x p cs Hm Hld Ex Hp Hcs). assert (Hcs' := Hcs). rewrite Eq in Sp, Hcs'.
      assert (Hel := objects_readable m s n n' K Rad One Named _ _ _ (reach_refl _ _) Sp Hcs' Rd).
      destruct (objects_on m s n n' K Rad One Named _ _ _ (reach_refl _ _) Sp Hcs' Hel) as [F _]. rewrite <- Eq in F.
      destruct (scan_ok _ _ _ (Forall2_rev' _ _ _ F)) with (st := (@nil string, @None string)) as [[ts lw] Es].
      - intros d Hd. apply Hsub. apply in_rev in Hd. exact (along_In _ _ _ _ Hcs Hd).
      - unfold scan. rewrite Es. cbn [bind]. destruct ts as [|t [|u ts]]; eauto. }
    destruct Z as [t1 E1]. rewrite E1. apply IH. intros y Hy. apply Hl. right; exact Hy. }
  destruct X as [tm Et]. rewrite Et. cbn [bind]. destruct (note_map _ _ _ _ _ Et) as [Nk Hk]; [constructor|]. cbn [dget] in Hk.
  destruct (upgrade_all_ok m Dist tm m Nk (like_all m)) as [m' Em']; [intros; assumption| |rewrite Em'; cbn [bind]; eauto].
  intros x names Hx. assert (E : dget tm x = Some names) by (apply dget_NoDup; assumption).
  rewrite Hk in E. destruct (filter (key_is (element m n n') ps x) (ord (loads m))) as [|l0 ks] eqn:Ef; [discriminate|].
  injection E as <-. change (c_name l0 :: map c_name ks) with (map c_name (l0 :: ks)).
  assert (Hks : forall l, In l (l0 :: ks) -> In l m /\ is_load l /\ exists y, key_of (element m n n') ps l = Some y /\ y = x).
  { intros l Hl. rewrite <- Ef in Hl. apply filter_In in Hl as [Hl Kl].
    assert (Hl' : In l (loads m)) by (eapply Permutation_in; [apply Ord|exact Hl]). apply in_loads in Hl' as [Hm Hld].
    split; [exact Hm|]. split; [exact Hld|]. unfold key_is in Kl. destruct (key_of (element m n n') ps l) as [y|]; [|discriminate].
    exists y. split; [reflexivity|]. apply String.eqb_eq. exact Kl. }
  split.
  - apply load_kw_ok; [exact Dist| |].
    + intros l Hl. destruct (Hks l Hl) as (Hm & Hld & y & Ky & _). split; [exact Hm|].
      destruct (Named (c_e l)) as [z Ez]; [apply in_map; exact Hm| |unfold c_name; rewrite Ez; reflexivity].
      right. unfold key_of in Ky. destruct (e_conn (c_e l)); congruence.
    + intros l Hl. destruct (Hks l Hl) as (Hm & Hld & _). apply Hkw; assumption.
  - destruct (Hks l0 (or_introl eq_refl)) as (Hm & Hld & y & Ky & ->).
    destruct (key_transformer m s n n' ps K Rad One Named Eps l0 x Hm Ky) as (t & It & Hd & En & Ent).
    apply In_nth_error in It as Hi. destruct Hi as [k Hi]. destruct (Hrt t It Hd) as [r Hr].
    exists k, t, r. split; [exact Hi|]. split; [rewrite Ent, En; reflexivity|exact Hr].
Qed.

(** ** Deciding the hypotheses on concrete models *)

Definition ends (i : elem) : list (string * string) :=
  match e_from i, e_to i with Some f, Some t => [(f, t)] | _, _ => [] end ++
  match e_conn i, e_name i with Some k, Some (Some x) => [(k, x)] | _, _ => [] end.
Definition same_ends (p q : string * string) : bool :=
  (String.eqb (fst p) (fst q) && String.eqb (snd p) (snd q)) || (String.eqb (fst p) (snd q) && String.eqb (snd p) (fst q)).
Definition apart (c c' : cobj) : bool :=
  forallb (fun p => forallb (fun q => negb (same_ends p q)) (ends (c_e c'))) (ends (c_e c)).

Lemma ends_spec i u v : joins i u v -> exists p, In p (ends i) /\ (p = (u, v) \/ p = (v, u)).
Proof.
  unfold joins, spans, hangs, ends. intros [[E1 E2]|[[E1 E2]|[[E1 E2]|[E1 E2]]]].
  - exists (u, v). rewrite E1, E2. split; [left; reflexivity|auto].
  - exists (v, u). rewrite E1, E2. split; [left; reflexivity|auto].
  - exists (u, v). rewrite E1, E2. split; [apply in_app_iff; right; left; reflexivity|auto].
  - exists (v, u). rewrite E1, E2. split; [apply in_app_iff; right; left; reflexivity|auto].
Qed.
Lemma apart_spec c c' u v : apart c c' = true -> joins (c_e c) u v -> ~ joins (c_e c') u v.
Proof.
  intros H J J'. apply ends_spec in J as (p & Hp & Ep). apply ends_spec in J' as (q & Hq & Eq).
  unfold apart in H. rewrite forallb_forall in H. specialize (H p Hp). rewrite forallb_forall in H. specialize (H q Hq).
  apply negb_true_iff in H. unfold same_ends in H.
  destruct Ep as [-> | ->], Eq as [-> | ->]; cbn [fst snd] in H; rewrite !String.eqb_refl in H; cbn in H; rewrite ?orb_true_r in H; discriminate.
Qed.
Fixpoint pairwise {A} (f : A -> A -> bool) (l : list A) : bool :=
  match l with [] => true | x :: t => forallb (f x) t && pairwise f t end.
Lemma pairwise_spec {A} (f : A -> A -> bool) l : pairwise f l = true ->
  forall l1 x l2 y l3, l = l1 ++ x :: l2 ++ y :: l3 -> f x y = true.
Proof.
  induction l as [|a l IH]; intros H l1 x l2 y l3 E; [destruct l1; discriminate|].
  cbn [pairwise] in H. apply andb_true_iff in H as [H1 H2]. destruct l1 as [|b l1]; injection E as -> E.
  - rewrite forallb_forall in H1. apply H1. rewrite E. apply in_app_iff. right; left; reflexivity.
  - exact (IH H2 _ _ _ _ _ E).
Qed.
Lemma one_per_link_by m : pairwise apart m = true -> one_per_link m.
Proof. intros H l1 c l2 c' l3 u v E. apply apart_spec. exact (pairwise_spec _ _ H _ _ _ _ _ E). Qed.

Definition other_names (c c' : cobj) : bool :=
  match e_name (c_e c), e_name (c_e c') with Some x, Some y => negb (okey_eqb x y) | _, _ => true end.
Lemma distinct_names_by m : pairwise other_names m = true -> distinct_names m.
Proof.
  intros H l1 c l2 c' l3 x E Ex Ey. assert (Q := pairwise_spec _ _ H _ _ _ _ _ E). unfold other_names in Q.
  rewrite Ex, Ey, okey_refl in Q. discriminate.
Qed.
Lemma radial_by m g : build_graph (objs m) = Ok g -> all_loops g = [] -> radial m.
Proof.
  intros E H. destruct (build_graph_contents _ _ E) as (C1 & _ & W). unfold radial. apply (all_loops_contract g W) in H.
  intros L. apply H. apply (loop_iff _ _ C1). exact L.
Qed.
Lemma all_named_by es : forallb (fun i => match e_name i with Some (Some _) => true | _ => false end) es = true -> all_named es.
Proof.
  intros H i Hi _. rewrite forallb_forall in H. specialize (H i Hi). destruct (e_name i) as [[x|]|]; try discriminate. eauto.
Qed.

Definition may_open (i : elem) : bool :=
  match e_wires i with
  | Some ws => negb (Nat.eqb (length ws) 0) && forallb (fun w => match w with Some false => false | _ => true end) ws
  | None => false
  end.
Definition listed (i : elem) : bool := match e_wires i, e_switch i with None, Some _ => false | _, _ => true end.
Definition not_both_open (i j : elem) : bool :=
  negb (may_open i && may_open j) || forallb (fun p => forallb (fun q => negb (same_ends p q)) (ends j)) (ends i).

Lemma taken_may_open i u v : taken_as_open i u v -> may_open i = true /\ In (u, v) (ends i).
Proof.
  intros ([E1 E2] & _ & ws & Ew & Nw & Nf). split.
  - unfold may_open. rewrite Ew. destruct ws as [|w ws]; [congruence|]. cbn [length Nat.eqb negb andb].
    apply forallb_forall. intros x Hx. destruct x as [[|]|]; try reflexivity. contradiction.
  - unfold ends. rewrite E1, E2. left. reflexivity.
Qed.
Lemma buildable_by m :
  forallb (fun i => match e_name i with Some (Some _) => true | _ => false end) (objs m) = true ->
  forallb listed (objs m) = true -> pairwise not_both_open (objs m) = true -> buildable m.
Proof.
  intros H1 H2 H3. split; [apply all_named_by; exact H1|]. split.
  - intros i Hi (Q & (sw & br & Es & _) & _). rewrite forallb_forall in H2. specialize (H2 i Hi). unfold listed in H2.
    rewrite Q, Es in H2. discriminate.
  - intros pre i mid j post u v E Ti. assert (Q := pairwise_spec _ _ H3 _ _ _ _ _ E). unfold not_both_open in Q.
    destruct (taken_may_open _ _ _ Ti) as [Mi Ei].
    assert (X : forall p, (p = (u, v) \/ p = (v, u)) -> taken_as_open j (fst p) (snd p) -> False).
    { intros p Hp Tj. destruct (taken_may_open _ _ _ Tj) as [Mj Ej]. rewrite Mi, Mj in Q. cbn [andb negb orb] in Q.
      rewrite forallb_forall in Q. specialize (Q _ Ei). rewrite forallb_forall in Q. specialize (Q _ Ej). apply negb_true_iff in Q.
      unfold same_ends in Q. destruct Hp as [-> | ->]; cbn [fst snd] in Q; rewrite !String.eqb_refl in Q; cbn in Q;
        rewrite ?orb_true_r in Q; discriminate. }
    split; intros T; [apply (X (u, v))|apply (X (v, u))]; auto.
Qed.

(** ** A feeder: a source, a three-phase line, a transformer, a line, and two loads *)

Definition yphases : list (option string) := [Some "A"; Some "B"; Some "C"].
Definition ywire (n f t : string) (ws : list (option string)) : cobj :=
  mkC (mkElem "Line" (Some (Some n)) (Some f) (Some t) None None (Some (None, None)) (Some (map (fun _ => Some false) ws)))
      None (Some (Some ws)) None None.
Definition yswitch (n f t : string) (opened : bool) : cobj :=
  mkC (mkElem "Line" (Some (Some n)) (Some f) (Some t) None None (Some (Some true, None)) (Some [Some opened]))
      None (Some (Some yphases)) None None.
Definition yload (n k : string) (ps : list Z) : cobj :=
  mkC (mkElem "Load" (Some (Some n)) None None (Some k) None None None) None None None (Some (Some (map (fun z => Some (qc z)) ps))).
Definition ysource (n k : string) : cobj :=
  mkC (mkElem "PowerSource" (Some (Some n)) None None (Some k) None None None) None None None None.
Definition ytrafo (n f t : string) (sub : bool) (ws : list (Z * list (option string))) : cobj :=
  mkC (mkElem "PowerTransformer" (Some (Some n)) (Some f) (Some t) None None None None)
      (Some (Some sub)) None (Some (Some (map (fun w => mkWinding (Some (qc (fst w))) (Some (snd w))) ws))) None.

Definition ym : list cobj :=
  [ysource "src" "s"; ywire "l1" "s" "a" (yphases ++ [Some "N"]); ytrafo "t1" "a" "b" false [(10000, yphases); (10000, yphases)]%Z;
   ywire "l2" "b" "c" yphases; yload "ld" "c" [8000; 8000; 8000]%Z; yload "mv" "a" [100]%Z].

Definition yfirst (l : list cobj) : list cobj := l.
Lemma yfirst_perm l : Permutation (yfirst l) l.
Proof. apply Permutation_refl. Qed.

Definition ygraph : graph := match build_graph (objs ym) with Ok g => g | Err _ => empty_graph end.

Lemma ym_radial : radial ym.
Proof. apply (radial_by ym ygraph); vm_compute; reflexivity. Qed.
Lemma ym_one : one_per_link ym.
Proof. apply one_per_link_by. vm_compute. reflexivity. Qed.
Lemma ym_named : all_named (objs ym).
Proof. apply all_named_by. vm_compute. reflexivity. Qed.
Lemma ym_distinct : distinct_names ym.
Proof. apply distinct_names_by. vm_compute. reflexivity. Qed.
Lemma ym_buildable : buildable ym.
Proof. apply buildable_by; vm_compute; reflexivity. Qed.
Definition by_name (m : list cobj) (x : string) : option cobj := find (fun c => okey_eqb (c_name c) (Some x)) m.
Lemma ynames_ok c x : In c ym -> is_transformer c -> e_name (c_e c) = Some (Some x) -> by_name ym x = Some c.
Proof.
  intros H T E. cbn in H. repeat (destruct H as [<-|H]; [cbn in T, E; try discriminate; injection E as <-; vm_compute; reflexivity|]). destruct H.
Qed.

(** The only route from the source to the load "ld", and the objects on it. *)
Lemma ym_route x p : In x ["a"; "c"] -> simple_route (closed_link (objs ym)) "s" x p ->
  p = (if String.eqb x "a" then ["s"; "a"] else ["s"; "a"; "b"; "c"]).
Proof.
  intros Hx [(q & E & L & S) N].
  assert (H : simple_route (linked (objs ym)) "s" x p).
  { split; [|exact N]. exists q. split; [exact E|]. split; [exact L|]. clear - S. induction p as [|a [|b p] IH]; try exact I.
    destruct S as [S1 S2]. split; [apply S1|apply IH; exact S2]. }
  apply (simple_unique (linked (objs ym)) (linked_sym _) ym_radial _ _ _ _ H).
  assert (J : forall i u v, In i (objs ym) -> spans i u v -> linked (objs ym) u v) by (intros i u v Hi Hs; exists i; auto).
  assert (J1 := J (c_e (nth 1 ym (ysource "" ""))) "s" "a" ltac:(cbn; auto) ltac:(split; reflexivity)).
  assert (J2 := J (c_e (nth 2 ym (ysource "" ""))) "a" "b" ltac:(cbn; auto) ltac:(split; reflexivity)).
  assert (J3 := J (c_e (nth 3 ym (ysource "" ""))) "b" "c" ltac:(cbn; auto 6) ltac:(split; reflexivity)).
  destruct Hx as [<-|[<-|[]]]; cbn; (split; [eexists; split; [reflexivity|]; split; [reflexivity|]; cbn; auto|]).
  - repeat constructor; cbn; intuition congruence.
  - repeat constructor; cbn; intuition congruence.
Qed.

Lemma ym_along x p cs : In x ["a"; "c"] -> simple_route (closed_link (objs ym)) "s" x p -> along ym p cs ->
  forall d, In d cs -> In d [nth 1 ym (ysource "" ""); nth 2 ym (ysource "" ""); nth 3 ym (ysource "" "")].
Proof.
  intros Hx Hp Ha. apply (ym_route x p Hx) in Hp.
  assert (K : forall c u v, In c ym -> joins (c_e c) u v -> In (u, v) [("s", "a"); ("a", "b"); ("b", "c")] ->
    In c [nth 1 ym (ysource "" ""); nth 2 ym (ysource "" ""); nth 3 ym (ysource "" "")]).
  { intros c u v Hc Hj Huv. apply ends_spec in Hj as (e & He & Ee). cbn in Hc.
    destruct Hc as [<-|[<-|[<-|[<-|[<-|[<-|[]]]]]]]; cbn [nth ym]; try (cbn; tauto); exfalso; cbn in He; destruct He as [<-|[]];
      cbn in Huv; destruct Huv as [Q|[Q|[Q|[]]]]; injection Q as <- <-; destruct Ee as [Q|Q]; discriminate. }
  assert (K2 : forall b p cs, along ym (b :: p) cs ->
     (forall u v, In (u, v) (combine (b :: p) p) -> In (u, v) [("s", "a"); ("a", "b"); ("b", "c")]) ->
     forall d, In d cs -> In d [nth 1 ym (ysource "" ""); nth 2 ym (ysource "" ""); nth 3 ym (ysource "" "")]).
  { clear - K. intros b p. revert b. induction p as [|a p IH]; intros b cs Ha Hp d Hd; inversion Ha; subst; [destruct Hd|].
    destruct Hd as [<-|Hd].
    - eapply K; [eassumption|eassumption|]. apply Hp. left. reflexivity.
    - eapply IH; [eassumption| |exact Hd]. intros u v H. apply Hp. right. exact H. }
  subst p. destruct Hx as [<-|[<-|[]]]; cbn [String.eqb Ascii.eqb Bool.eqb] in Ha; (eapply K2; [exact Ha|]); cbn; intros u v H; intuition.
Qed.
Lemma ym_load_buses l x : In l ym -> is_load l -> e_conn (c_e l) = Some x -> In x ["a"; "c"].
Proof. intros H L E. cbn in H. destruct H as [<-|[<-|[<-|[<-|[<-|[<-|[]]]]]]]; cbn in L, E; try discriminate; injection E as <-; cbn; auto. Qed.
Lemma ym_source c s : In c ym -> source_at c s -> s = "s".
Proof. intros H [L E]. cbn in H. destruct H as [<-|[<-|[<-|[<-|[<-|[<-|[]]]]]]]; cbn in L, E; try discriminate. congruence. Qed.
Lemma ym_readable c s l x p cs : In c ym -> source_at c s -> In l ym -> is_load l -> e_conn (c_e l) = Some x ->
  simple_route (closed_link (objs ym)) s x p -> along ym p cs -> forall d, In d cs -> readable d.
Proof.
  intros Hc Hs Hl Ll Ex Hp Ha d Hd. rewrite (ym_source c s Hc Hs) in Hp.
  assert (H := ym_along x p cs (ym_load_buses _ _ Hl Ll Ex) Hp Ha d Hd). cbn in H. unfold readable, is_transformer, distribution.
  destruct H as [<-|[<-|[<-|[]]]]; cbn; (split; [reflexivity|]); (split; [intros; discriminate|]);
    (split; [intros [Q _]; try discriminate Q|intros Q; try discriminate Q]); try (eexists; eexists; eexists; split; [reflexivity|split; discriminate]);
    try (eexists; reflexivity).
Qed.

(** ** Corollaries for check_loads_connected *)
Lemma loads_connected_none ord m : (forall c s, In c m -> ~ source_at c s) -> check_loads_connected ord m = Ok false.
Proof.
  intros H. unfold check_loads_connected. destruct (sources m) as [|c l] eqn:E; [reflexivity|]. exfalso.
  destruct (proj1 (in_sources m c)) as [H1 H2]; [rewrite E; left; reflexivity|]. exact (H _ _ H1 H2).
Qed.
Lemma loads_connected_one ord m l1 c l2 s : (forall l, Permutation (ord l) l) -> buildable m ->
  m = l1 ++ c :: l2 -> source_at c s -> (forall d s', In d (l1 ++ l2) -> ~ source_at d s') ->
  (forall k1 d k2 d' k3, m = k1 ++ d :: k2 ++ d' :: k3 -> is_load d -> is_load d' -> c_name d <> c_name d') ->
  exists b, check_loads_connected ord m = Ok b /\ (b = true <-> forall l, In l m -> is_load l -> fed m s l).
Proof.
  intros Ord B E Hs No Nm. destruct (loads_connected_model ord m Ord Nm) as [R1 R2].
  assert (Ic : In c m) by (rewrite E; apply in_app_iff; right; left; reflexivity).
  assert (Src : exists c s, In c m /\ source_at c s) by (exists c, s; auto).
  assert (F : forall l d, In d m -> feeds m d l -> d = c /\ fed m s l).
  { intros l d Hd (s' & Hs' & Hf). rewrite E in Hd. apply in_app_iff in Hd as [Hd|[Hd|Hd]].
    - exfalso. apply (No d s'); [apply in_app_iff; left; exact Hd|exact Hs'].
    - subst d. destruct Hs as [_ A], Hs' as [_ A']. assert (s' = s) by congruence. subst. auto.
    - exfalso. apply (No d s'); [apply in_app_iff; right; exact Hd|exact Hs']. }
  destruct (check_loads_connected ord m) as [b|e] eqn:Ec.
  - exists b. split; [reflexivity|]. destruct (R1 b eq_refl) as [R _]. rewrite R. split.
    + intros [_ H] l Hl Ll. destruct (H l Hl Ll) as (a1 & d & a2 & Em & Hd & _). apply (F l d); [rewrite Em; apply in_app_iff; right; left; reflexivity|exact Hd].
    + intros H. split; [exact Src|]. intros l Hl Ll. exists l1, c, l2. split; [exact E|]. split; [exists s; auto|].
      intros y Hy (s' & Hs' & _). exact (No y s' Hy Hs').
  - exfalso. destruct (R2 B e eq_refl) as [_ (l & Hl & Ll & a1 & d & a2 & d' & a3 & Em & Hd & Hd')].
    assert (D : forall x, In x (a1 ++ a2 ++ a3) \/ x = d \/ x = d' -> In x m).
    { intros x Hx. rewrite Em. rewrite !in_app_iff in *. cbn [In]. rewrite in_app_iff. cbn [In]. intuition. }
    destruct (F l d (D d (or_intror (or_introl eq_refl))) Hd) as [Q1 _].
    destruct (F l d' (D d' (or_intror (or_intror eq_refl))) Hd') as [Q2 _].
    assert (P : length (filter (fun x => String.eqb (e_cls (c_e x)) "PowerSource" && match e_conn (c_e x) with Some _ => true | None => false end) m) = 1).
    { rewrite E. rewrite filter_app. cbn [filter]. destruct Hs as [A1 A2]. rewrite A1, A2. cbn [String.eqb Ascii.eqb Bool.eqb andb].
      assert (Z : forall k, (forall x, In x k -> In x (l1 ++ l2)) ->
        filter (fun x => String.eqb (e_cls (c_e x)) "PowerSource" && match e_conn (c_e x) with Some _ => true | None => false end) k = []).
      { induction k as [|x k IH]; intros Hk; cbn [filter]; [reflexivity|].
        destruct (String.eqb (e_cls (c_e x)) "PowerSource") eqn:X1; [destruct (e_conn (c_e x)) as [y|] eqn:X2|]; cbn [andb];
          try (apply IH; intros z Hz; apply Hk; right; exact Hz).
        exfalso. apply (No x y); [apply Hk; left; reflexivity|]. split; [apply String.eqb_eq; exact X1|exact X2]. }
      rewrite (Z l1), (Z l2); [reflexivity| |]; intros x Hx; apply in_app_iff; auto. }
    rewrite Em in P. subst d d'. rewrite filter_app in P. cbn [filter] in P. rewrite filter_app in P. cbn [filter] in P.
    destruct Hs as [A1 A2]. rewrite A1, A2 in P. cbn [String.eqb Ascii.eqb Bool.eqb andb] in P. rewrite !app_length in P. cbn [length] in P. rewrite app_length in P. cbn [length] in P. lia.
Qed.

(** ** The rest about the example *)
Lemma ym_one_source d s' : In d (tl ym) -> ~ source_at d s'.
Proof. intros H [Q1 Q2]. cbn in H. destruct H as [<-|[<-|[<-|[<-|[<-|[]]]]]]; cbn in Q1, Q2; discriminate. Qed.
Lemma ym_loads_kw l : In l ym -> is_load l -> exists ps, c_loads l = Some (Some (map Some ps)).
Proof.
  intros H Q. cbn in H. destruct H as [<-|[<-|[<-|[<-|[<-|[<-|[]]]]]]]; cbn in Q; try discriminate.
  - exists [qc 8000; qc 8000; qc 8000]. reflexivity.
  - exists [qc 100]. reflexivity.
Qed.
Lemma ym_rated t : In t ym -> distribution t -> exists r, rating t r.
Proof.
  intros H [Q _]. cbn in H. destruct H as [<-|[<-|[<-|[<-|[<-|[<-|[]]]]]]]; cbn in Q; try discriminate.
  exists (qc 10000). eexists; eexists. split; reflexivity.
Qed.
Lemma ym_sub t : In t ym -> is_transformer t -> c_sub t <> None.
Proof. intros H Q. cbn in H. destruct H as [<-|[<-|[<-|[<-|[<-|[<-|[]]]]]]]; cbn in Q; discriminate. Qed.

Lemma ym_closed_link u v : linked (objs ym) u v -> closed_link (objs ym) u v.
Proof.
  intros L. split; [exact L|]. intros (i & Hi & T). assert (Q : may_open i = true) by (destruct T as [T|T]; apply (taken_may_open _ _ _ T)).
  cbn in Hi. destruct Hi as [<-|[<-|[<-|[<-|[<-|[<-|[]]]]]]]; vm_compute in Q; discriminate.
Qed.
Lemma ym_path : along ym ["s"; "a"; "b"; "c"] [nth 1 ym (ysource "" ""); nth 2 ym (ysource "" ""); nth 3 ym (ysource "" "")].
Proof.
  apply along_hop; [cbn; auto 10|left; split; reflexivity|]. apply along_hop; [cbn; auto 10|left; split; reflexivity|].
  apply along_hop; [cbn; auto 10|left; split; reflexivity|]. constructor.
Qed.
Lemma ym_serves : serves ym "s" (nth 2 ym (ysource "" "")) (yload "ld" "c" [8000; 8000; 8000]%Z).
Proof.
  split; [reflexivity|]. exists "c", ["s"; "a"; "b"; "c"]. eexists. split; [reflexivity|]. split; [|split; [exact ym_path|]].
  - split; [|repeat constructor; cbn; intuition congruence]. eexists. split; [reflexivity|]. split; [reflexivity|].
    cbn [steps]. split; [|split; [|split; [|exact I]]]; apply ym_closed_link.
    + exists (c_e (nth 1 ym (ysource "" ""))). split; [cbn; auto 10|left; split; reflexivity].
    + exists (c_e (nth 2 ym (ysource "" ""))). split; [cbn; auto 10|left; split; reflexivity].
    + exists (c_e (nth 3 ym (ysource "" ""))). split; [cbn; auto 10|left; split; reflexivity].
  - apply picks_no; [intros [Q _]; discriminate|]. apply picks_yes; [split; [reflexivity|discriminate]|].
    apply picks_no; [intros [Q _]; discriminate|]. constructor.
Qed.
Lemma ym_not_mv : ~ serves ym "s" (nth 2 ym (ysource "" "")) (yload "mv" "a" [100]%Z).
Proof.
  intros (_ & x & p & cs & Ex & Hp & Ha & P). injection Ex as <-. apply (ym_route "a" p) in Hp; [|left; reflexivity].
  subst p. cbn [String.eqb Ascii.eqb Bool.eqb] in Ha. inversion Ha as [|? ? ? d cs' Hd Hj Hr]; subst. inversion Hr; subst.
  assert (D : d = nth 1 ym (ysource "" "")).
  { apply (link_unique ym d _ "s" "a" ym_one Hd); [cbn; auto|exact Hj|left; split; reflexivity]. }
  subst d. inversion P; subst. match goal with Q : picks distribution [] _ |- _ => inversion Q end.
Qed.
Lemma ym_served : served_kw ym "s" (nth 2 ym (ysource "" "")) (qc 24).
Proof.
  replace (qc 24) with (qc 24 + 0)%Qc by (apply Qc_is_canon; vm_compute; reflexivity). unfold served_kw.
  do 4 (apply sum_no; [intros [Q _]; discriminate|]). apply sum_yes; [exact ym_serves| |].
  - exists [qc 8000; qc 8000; qc 8000]. split; [reflexivity|]. apply Qc_is_canon. vm_compute. reflexivity.
  - apply sum_no; [exact ym_not_mv|]. constructor.
Qed.
