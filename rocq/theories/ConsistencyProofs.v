(** Proofs about check_loads_connected, check_unique_path, check_loops, check_matched_phases. *)
From Coq Require Import Permutation.
From Verif Require Import Base BaseFacts StoreModel NetworkModel NetworkSpec NetworkProofs NetworkBfs
  NetworkQueries NetworkDown NetworkEdit NetworkTop ConsistencyModel ConsistencySpec PathProofs.
Local Open Scope string_scope.
Local Open Scope nat_scope.
Local Open Scope list_scope.

Lemma okey_eqb_spec a b : okey_eqb a b = true <-> a = b.
Proof.
  destruct a as [x|], b as [y|]; cbn; try rewrite String.eqb_eq; intuition congruence.
Qed.
Lemma okey_refl a : okey_eqb a a = true.
Proof. apply okey_eqb_spec. reflexivity. Qed.
Lemma okey_neq a b : a <> b -> okey_eqb a b = false.
Proof. intros N. apply not_true_is_false. intros Q. apply okey_eqb_spec in Q. auto. Qed.

Lemma kset_same {V} (d : list (option string * V)) k v : kget (kset d k v) k = Some v.
Proof.
  induction d as [|[k' v'] d IH]; cbn [kset kget]; [rewrite okey_refl; reflexivity|].
  destruct (okey_eqb k' k) eqn:E; cbn [kget]; rewrite E; [reflexivity|exact IH].
Qed.
Lemma kset_other {V} (d : list (option string * V)) k k' v : k <> k' -> kget (kset d k v) k' = kget d k'.
Proof.
  intros N. induction d as [|[k0 v0] d IH]; cbn [kset kget]; [rewrite okey_neq by exact N; reflexivity|].
  destruct (okey_eqb k0 k) eqn:E; cbn [kget].
  - apply okey_eqb_spec in E. subst k0. rewrite okey_neq by exact N. reflexivity.
  - rewrite IH. reflexivity.
Qed.
Lemma kset_keys {V} (d : list (option string * V)) k v : In k (map fst d) -> map fst (kset d k v) = map fst d.
Proof.
  induction d as [|[k' v'] d IH]; cbn [kset map fst]; [intros []|]. intros [->|H].
  - rewrite okey_refl. reflexivity.
  - destruct (okey_eqb k' k); cbn [map fst]; [reflexivity|]. rewrite IH by exact H. reflexivity.
Qed.
Lemma kset_new {V} (d : list (option string * V)) k v : ~ In k (map fst d) -> kset d k v = d ++ [(k, v)].
Proof.
  induction d as [|[k' v'] d IH]; cbn [kset map fst app]; [reflexivity|]. intros N.
  rewrite okey_neq by (intros ->; apply N; left; reflexivity). rewrite IH; [reflexivity|]. intros Q. apply N. right; exact Q.
Qed.
Lemma kget_key {V} (d : list (option string * V)) k : In k (map fst d) <-> exists v, kget d k = Some v.
Proof.
  induction d as [|[k' v'] d IH]; cbn [map fst kget]; [split; [intros []|intros [v Q]; discriminate]|].
  destruct (okey_eqb k' k) eqn:E.
  - apply okey_eqb_spec in E. split; [exists v'; reflexivity|left; exact E].
  - rewrite <- IH. split; [intros [->|H]; [rewrite okey_refl in E; discriminate|exact H]|intros H; right; exact H].
Qed.
Lemma kget_In {V} (d : list (option string * V)) k v : NoDup (map fst d) -> In (k, v) d -> kget d k = Some v.
Proof.
  induction d as [|[k' v'] d IH]; cbn [map fst kget]; intros N H; [destruct H|]. inversion N as [|? ? N1 N2]; subst.
  destruct H as [E|H]; [injection E as -> ->; rewrite okey_refl; reflexivity|].
  rewrite okey_neq; [auto|]. intros ->. apply N1. apply in_map_iff. exists (k, v). auto.
Qed.

(** ** check_loads_connected *)

Lemma initial_map : forall l d, NoDup (map fst d ++ map c_name l) ->
  fold_left (fun d c => kset d (c_name c) []) l d = d ++ map (fun c => (c_name c, [] : list string)) l.
Proof.
  induction l as [|c l IH]; intros d N; cbn [fold_left map]; [rewrite app_nil_r; reflexivity|].
  rewrite kset_new.
  - rewrite IH; [rewrite <- app_assoc; reflexivity|]. rewrite map_app. cbn [map fst]. rewrite <- app_assoc. exact N.
  - intros Q. exact (NoDup_app_disj _ _ _ N Q (or_introl eq_refl)).
Qed.

Definition add_source (ps : dict (list string)) (b : string) (d : list (option string * list string)) (c : cobj) :=
  if supplied ps c then
    match kget d (c_name c) with Some l => kset d (c_name c) (l ++ [b]) | None => d end
  else d.

Lemma add_source_keys ps b l d : map fst (fold_left (add_source ps b) l d) = map fst d.
Proof.
  revert d. induction l as [|c l IH]; intros d; cbn [fold_left]; [reflexivity|]. rewrite IH. unfold add_source.
  destruct (supplied ps c); [|reflexivity]. destruct (kget d (c_name c)) eqn:E; [|reflexivity].
  apply kset_keys. apply kget_key. eauto.
Qed.

Lemma add_source_other ps b l k : forall d, ~ In k (map c_name l) -> kget (fold_left (add_source ps b) l d) k = kget d k.
Proof.
  induction l as [|c l IH]; intros d N; cbn [fold_left]; [reflexivity|]. rewrite IH by (intros Q; apply N; right; exact Q).
  unfold add_source. destruct (supplied ps c); [|reflexivity]. destruct (kget d (c_name c)); [|reflexivity].
  apply kset_other. intros E. apply N. left. exact E.
Qed.

Lemma add_source_get ps b l : NoDup (map c_name l) -> forall d c v, In c l -> kget d (c_name c) = Some v ->
  kget (fold_left (add_source ps b) l d) (c_name c) = Some (if supplied ps c then v ++ [b] else v).
Proof.
  induction l as [|c0 l IH]; intros N d c v H E; [destruct H|]. cbn [map] in N. inversion N as [|? ? N1 N2]; subst.
  cbn [fold_left]. destruct H as [<-|H].
  - rewrite add_source_other by exact N1. unfold add_source. destruct (supplied ps c0); [|exact E]. rewrite E. apply kset_same.
  - apply IH; [exact N2|exact H|]. unfold add_source. destruct (supplied ps c0); [|exact E].
    destruct (kget d (c_name c0)); [|exact E]. rewrite kset_other; [exact E|].
    intros Q. apply N1. rewrite Q. apply in_map. exact H.
Qed.

(** The final loop. *)
Lemma verdict (d : list (option string * list string)) r :
  (forall b, foldM (fun r (e : option string * list string) =>
      match snd e with [] => Ok false | [_] => Ok r | _ :: _ :: _ => Err EAttr end) d r = Ok b ->
    (forall e, In e d -> length (snd e) <= 1) /\ (b = true <-> r = true /\ forall e, In e d -> length (snd e) = 1)) /\
  (forall x, foldM (fun r (e : option string * list string) =>
      match snd e with [] => Ok false | [_] => Ok r | _ :: _ :: _ => Err EAttr end) d r = Err x ->
    x = EAttr /\ exists e, In e d /\ 2 <= length (snd e)).
Proof.
  revert r. induction d as [|[k l] d IH]; intros r; cbn [foldM snd].
  - split; [|discriminate]. intros b E. injection E as <-. split; [intros e []|]. split; [intros ->; split; [reflexivity|intros e []]|tauto].
  - destruct l as [|x [|y l]].
    + destruct (IH false) as [I1 I2]. split.
      * intros b E. destruct (I1 b E) as [Q1 Q2]. split; [intros e [<-|He]; [cbn; lia|auto]|].
        split; [intros ->; destruct (proj1 Q2 eq_refl); discriminate|]. intros [_ H]. specialize (H _ (or_introl eq_refl)). discriminate.
      * intros e E. destruct (I2 e E) as [-> (e' & He & L)]. split; [reflexivity|]. exists e'. simpl; auto.
    + destruct (IH r) as [I1 I2]. split.
      * intros b E. destruct (I1 b E) as [Q1 Q2]. split; [intros e [<-|He]; [cbn; lia|auto]|].
        rewrite Q2. split; intros [H1 H2]; (split; [exact H1|]); [intros e [<-|He]; auto|intros e He; apply H2; right; exact He].
      * intros e E. destruct (I2 e E) as [-> (e' & He & L)]. split; [reflexivity|]. exists e'. simpl; auto.
    + split; [discriminate|]. intros e E. injection E as <-. split; [reflexivity|]. eexists. split; [left; reflexivity|]. cbn. lia.
Qed.

Section Loads.
Variable (ord : list cobj -> list cobj) (m : list cobj).
Hypothesis Ord : forall l, Permutation (ord l) l.
Hypothesis Names : NoDup (map c_name (loads m)).

(** Buses of the given sources that feed load [c], in order. *)
Inductive feeding (c : cobj) : list cobj -> list string -> Prop :=
| feeding_nil : feeding c [] []
| feeding_yes s t l : fed m (source_bus s) c -> feeding c t l -> feeding c (s :: t) (source_bus s :: l)
| feeding_no s t l : ~ fed m (source_bus s) c -> feeding c t l -> feeding c (s :: t) l.

Lemma sources_loop : forall srcs d lmap,
  map fst d = map c_name (loads m) ->
  foldM (fun (d : list (option string * list string)) src =>
        do '(_, n) <- closed_network m (source_bus src);
        do ps <- shortest_paths (net_graph n) (source_bus src);
        Ok (fold_left (fun d c =>
              if supplied ps c then
                match kget d (c_name c) with
                | Some l => kset d (c_name c) (l ++ [source_bus src])
                | None => d
                end
              else d) (ord (loads m)) d)) srcs d = Ok lmap ->
  map fst lmap = map c_name (loads m) /\
  forall c v, In c (loads m) -> kget d (c_name c) = Some v ->
    exists l, feeding c srcs l /\ kget lmap (c_name c) = Some (v ++ l).
Proof.
  induction srcs as [|s srcs IH]; intros d lmap Kd H; cbn [foldM] in H.
  - injection H as <-. split; [exact Kd|]. intros c v _ E. exists []. split; [constructor|]. rewrite app_nil_r. exact E.
  - destruct (closed_network m (source_bus s)) as [[n n']|] eqn:Ec; cbn [bind] in H; [|discriminate].
    destruct (closed_paths _ _ _ _ (closed_network_spec _ _ _ _ Ec)) as (ps & Eps & _ & _ & Hf).
    rewrite Eps in H. cbn [bind] in H.
    change (fun d0 c => if supplied ps c then match kget d0 (c_name c) with
      | Some l => kset d0 (c_name c) (l ++ [source_bus s]) | None => d0 end else d0) with (add_source ps (source_bus s)) in H.
    apply IH in H as [H1 H2]; [|rewrite add_source_keys; exact Kd].
    split; [exact H1|]. intros c v Hc E.
    assert (P : NoDup (map c_name (ord (loads m)))).
    { eapply Permutation_NoDup; [|exact Names]. apply Permutation_map. symmetry. apply Ord. }
    assert (Hc' : In c (ord (loads m))) by (eapply Permutation_in; [symmetry; apply Ord|exact Hc]).
    destruct (H2 c _ Hc (add_source_get ps (source_bus s) _ P d c v Hc' E)) as (l & F & El).
    destruct (supplied ps c) eqn:Es.
    + exists (source_bus s :: l). split; [constructor; [apply Hf; exact Es|exact F]|]. rewrite El, <- app_assoc. reflexivity.
    + exists l. split; [|exact El]. constructor; [|exact F]. intros Q. apply Hf in Q. congruence.
Qed.

Lemma feeding_count c srcs l : (forall s, In s srcs -> In s (sources m)) -> feeding c srcs l ->
  (length l = 0 <-> forall s, In s srcs -> ~ feeds m s c) /\
  (length l = 1 <-> exactly_one (fun s => feeds m s c) srcs) /\
  (2 <= length l <-> at_least_two (fun s => feeds m s c) srcs).
Proof.
  intros Hs F. induction F as [|s t l Hf F IH|s t l Hf F IH].
  - split; [split; [intros _ s []|reflexivity]|]. split; split; try (intros Q; cbn in Q; lia).
    + intros (l1 & x & l2 & E & _). destruct l1; discriminate.
    + intros (l1 & x & l2 & y & l3 & E & _). destruct l1; discriminate.
  - destruct (IH (fun s' H => Hs s' (or_intror H))) as (I0 & I1 & I2). clear IH.
    assert (Fs : feeds m s c) by (exists (source_bus s); split; [apply (in_sources m), Hs; left; reflexivity|exact Hf]).
    cbn [length]. split; [|split].
    + split; [discriminate|]. intros Q. exfalso. exact (Q s (or_introl eq_refl) Fs).
    + split.
      * intros Q. assert (Z := proj1 I0 ltac:(lia)). exists [], s, t. split; [reflexivity|]. split; [exact Fs|exact Z].
      * intros (l1 & x & l2 & E & Hx & N). destruct l1 as [|y l1]; injection E as <- E.
        -- rewrite (proj2 I0); [reflexivity|]. subst t. exact N.
        -- exfalso. exact (N s (or_introl eq_refl) Fs).
    + split.
      * intros Q. destruct l as [|b l]; [cbn in Q; lia|].
        assert (Z : ~ forall s', In s' t -> ~ feeds m s' c) by (intros Z; apply I0 in Z; discriminate).
        assert (Y : exists l2 y l3, t = l2 ++ y :: l3 /\ feeds m y c).
        { clear - F Hs. assert (Ht : forall s', In s' t -> In s' (sources m)) by (intros s' H; apply Hs; right; exact H).
          clear Hs. remember (b :: l) as l0 eqn:E0. revert E0. induction F as [|s' t l0 Hf F IH|s' t l0 Hf F IH]; intros E0.
          - discriminate.
          - exists [], s', t. split; [reflexivity|]. exists (source_bus s'). split; [apply (in_sources m), Ht; left; reflexivity|exact Hf].
          - destruct IH as (l2 & y & l3 & -> & Hy); [intros q Hq; apply Ht; right; exact Hq|exact E0|].
            exists (s' :: l2), y, l3. auto. }
        destruct Y as (l2 & y & l3 & -> & Hy). exists [], s, l2, y, l3. auto.
      * intros (l1 & x & l2 & y & l3 & E & Hx & Hy). destruct l as [|b l]; [|cbn [length]; lia].
        exfalso. assert (Z := proj1 I0 eq_refl). destruct l1 as [|z l1]; injection E as <- E; subst t.
        -- apply (Z y); [|exact Hy]. apply in_app_iff. right; left; reflexivity.
        -- apply (Z x); [|exact Hx]. apply in_app_iff. right; left; reflexivity.
  - destruct (IH (fun s' H => Hs s' (or_intror H))) as (I0 & I1 & I2). clear IH.
    assert (Fs : ~ feeds m s c) by (intros (b & Hb & Q); apply source_at_bus in Hb as Eb; subst b; auto).
    split; [|split].
    + rewrite I0. split; [intros Q s' [<-|H]; auto|intros Q s' H; apply Q; right; exact H].
    + rewrite I1. split.
      * intros (l1 & x & l2 & E & Hx & N). exists (s :: l1), x, l2. split; [rewrite E; reflexivity|]. split; [exact Hx|].
        intros y [<-|Hy]; auto.
      * intros (l1 & x & l2 & E & Hx & N). destruct l1 as [|y l1]; injection E as <- E; [contradiction|].
        exists l1, x, l2. split; [exact E|]. split; [exact Hx|]. intros y Hy. apply N. right; exact Hy.
    + rewrite I2. split.
      * intros (l1 & x & l2 & y & l3 & E & H). exists (s :: l1), x, l2, y, l3. split; [rewrite E; reflexivity|exact H].
      * intros (l1 & x & l2 & y & l3 & E & Hx & Hy). destruct l1 as [|z l1]; injection E as <- E; [contradiction|].
        exists l1, x, l2, y, l3. auto.
Qed.

Lemma loads_lmap lmap : sources m <> [] ->
  map fst lmap = map c_name (loads m) ->
  (forall c v, In c (loads m) -> kget (map (fun c => (c_name c, [] : list string)) (loads m)) (c_name c) = Some v ->
    exists l, feeding c (sources m) l /\ kget lmap (c_name c) = Some (v ++ l)) ->
  (forall e, In e lmap -> exists c, In c (loads m) /\ feeding c (sources m) (snd e)) /\
  (forall c, In c (loads m) -> exists e, In e lmap /\ feeding c (sources m) (snd e)).
Proof.
  intros _ K H.
  assert (Z : forall c, In c (loads m) -> exists l, feeding c (sources m) l /\ kget lmap (c_name c) = Some l).
  { intros c Hc. apply (H c []); [exact Hc|]. apply kget_In.
    - rewrite map_map. exact Names.
    - apply in_map_iff. exists c. auto. }
  assert (KI : forall d k (v : list string), kget d k = Some v -> In (k, v) d).
  { clear. induction d as [|[k' v'] d IH]; intros k v E; cbn [kget] in E; [discriminate|].
    destruct (okey_eqb k' k) eqn:Ek; [|right; auto]. apply okey_eqb_spec in Ek. injection E as ->. subst. left; reflexivity. }
  split.
  - intros [k l] He. assert (Hk : In k (map c_name (loads m))) by (rewrite <- K; apply in_map_iff; exists (k, l); auto).
    apply in_map_iff in Hk as (c & <- & Hc). exists c. split; [exact Hc|]. destruct (Z c Hc) as (l' & F & E).
    assert (E' : kget lmap (c_name c) = Some l) by (apply kget_In; [rewrite K; exact Names|exact He]).
    cbn [snd]. congruence.
  - intros c Hc. destruct (Z c Hc) as (l & F & E). exists (c_name c, l). split; [apply KI; exact E|exact F].
Qed.

Theorem loads_connected_result :
  (forall b, check_loads_connected ord m = Ok b ->
     (b = true <-> sources m <> [] /\ forall c, In c m -> is_load c -> exactly_one (fun s => feeds m s c) (sources m)) /\
     (sources m <> [] -> forall c, In c m -> is_load c -> ~ at_least_two (fun s => feeds m s c) (sources m))) /\
  (buildable m -> forall e, check_loads_connected ord m = Err e ->
     e = EAttr /\ exists c, In c m /\ is_load c /\ at_least_two (fun s => feeds m s c) (sources m)).
Proof.
  unfold check_loads_connected. destruct (sources m) as [|s0 srcs] eqn:Es.
  { split; [|discriminate]. intros b E. injection E as <-. split; [|congruence]. split; [discriminate|]. intros [Q _]. congruence. }
  rewrite <- Es. assert (Ns : sources m <> []) by congruence.
  rewrite (initial_map (loads m) []) by exact Names. cbn [app].
  assert (K0 : map fst (map (fun c => (c_name c, [] : list string)) (loads m)) = map c_name (loads m))
    by (rewrite map_map; reflexivity).
  destruct (foldM _ (sources m) _) as [lmap|e] eqn:El; cbn [bind].
  - apply sources_loop in El as [K H]; [|exact K0]. destruct (loads_lmap lmap Ns K H) as [L1 L2].
    destruct (verdict lmap true) as [V1 V2].
    assert (In_s : forall s, In s (sources m) -> In s (sources m)) by auto.
    split.
    + intros b E. destruct (V1 b E) as [Q1 Q2]. split.
      * rewrite Q2. split.
        -- intros [_ Q]. split; [exact Ns|]. intros c Hc Hl. assert (Hc' : In c (loads m)) by (apply in_loads; auto).
           destruct (L2 c Hc') as (e & He & F). apply (feeding_count _ _ _ In_s F). auto.
        -- intros [_ Q]. split; [reflexivity|]. intros e He. destruct (L1 e He) as (c & Hc & F).
           apply (feeding_count _ _ _ In_s F). apply in_loads in Hc as [Hc Hl]. auto.
      * intros _ c Hc Hl. assert (Hc' : In c (loads m)) by (apply in_loads; auto). destruct (L2 c Hc') as (e & He & F).
        intros T. apply (feeding_count _ _ _ In_s F) in T. specialize (Q1 e He). lia.
    + intros _ e E. destruct (V2 e E) as [-> (x & Hx & Lx)]. split; [reflexivity|]. destruct (L1 x Hx) as (c & Hc & F).
      apply in_loads in Hc as [Hc Hl]. exists c. split; [exact Hc|]. split; [exact Hl|]. apply (feeding_count _ _ _ In_s F). exact Lx.
  - split; [discriminate|]. intros B e' _. exfalso. clear - El B.
    assert (Hs : forall s, In s (sources m) -> In s m /\ source_at s (source_bus s)) by (intros s; apply in_sources).
    revert El. generalize (map (fun c => (c_name c, [] : list string)) (loads m)).
    induction (sources m) as [|s srcs IH]; intros d El; cbn [foldM] in El; [discriminate|].
    destruct (Hs s (or_introl eq_refl)) as [H1 H2].
    destruct (closed_network_ok m s _ B H1 H2) as (n & n' & Ec). rewrite Ec in El. cbn [bind] in El.
    destruct (closed_paths _ _ _ _ (closed_network_spec _ _ _ _ Ec)) as (ps & Eps & _). rewrite Eps in El. cbn [bind] in El.
    eapply IH; [|exact El]. intros s' H. apply Hs. right; exact H.
Qed.
End Loads.

(** The same over all objects of the model. *)
Lemma exactly_one_filter {A} (P : A -> Prop) f l : (forall x, P x -> f x = true) ->
  (exactly_one P (filter f l) <-> exactly_one P l).
Proof.
  intros H. split.
  - induction l as [|a l IH]; cbn [filter]; [auto|]. destruct (f a) eqn:E.
    + intros (l1 & x & l2 & El & Hx & N). destruct l1 as [|b l1]; injection El as -> El.
      * exists [], x, l. split; [reflexivity|]. split; [exact Hx|]. intros y Hy Py. apply (N y); [|exact Py].
        cbn [app] in *. rewrite <- El. apply filter_In. auto.
      * destruct IH as (k1 & y & k2 & Ek & Hy & Nk).
        { exists l1, x, l2. split; [exact El|]. split; [exact Hx|]. intros y Hy. apply N. right; exact Hy. }
        exists (b :: k1), y, k2. split; [rewrite Ek; reflexivity|]. split; [exact Hy|].
        intros z [<-|Hz]; [apply N; left; reflexivity|auto].
    + intros Q. destruct (IH Q) as (k1 & y & k2 & Ek & Hy & Nk). exists (a :: k1), y, k2.
      split; [rewrite Ek; reflexivity|]. split; [exact Hy|]. intros z [<-|Hz]; [|auto]. intros Pa. rewrite (H a Pa) in E. discriminate.
  - intros (l1 & x & l2 & -> & Hx & N). exists (filter f l1), x, (filter f l2). split.
    + rewrite filter_app. cbn [filter]. rewrite (H x Hx). reflexivity.
    + split; [exact Hx|]. intros y Hy. apply N. rewrite <- filter_app in Hy. apply filter_In in Hy. tauto.
Qed.
Lemma at_least_two_filter {A} (P : A -> Prop) f l : (forall x, P x -> f x = true) ->
  (at_least_two P (filter f l) <-> at_least_two P l).
Proof.
  intros H. split.
  - assert (In1 : forall l y, In y (filter f l) -> exists k1 k2, l = k1 ++ y :: k2).
    { intros l0 y Hy. apply in_split. apply filter_In in Hy. tauto. }
    induction l as [|a l IH]; cbn [filter]; [auto|].
    assert (Z : at_least_two P (filter f l) -> at_least_two P (a :: l)).
    { intros Q. destruct (IH Q) as (l1 & x & l2 & y & l3 & -> & Hx & Hy). exists (a :: l1), x, l2, y, l3. auto. }
    destruct (f a) eqn:E; [|exact Z]. intros (l1 & x & l2 & y & l3 & El & Hx & Hy).
    destruct l1 as [|b l1]; injection El as -> El.
    + destruct (In1 l y) as (k1 & k2 & Ek); [rewrite El; apply in_app_iff; right; left; reflexivity|].
      exists [], x, k1, y, k2. split; [rewrite Ek; reflexivity|auto].
    + apply Z. exists l1, x, l2, y, l3. auto.
  - intros (l1 & x & l2 & y & l3 & -> & Hx & Hy). exists (filter f l1), x, (filter f l2), y, (filter f l3).
    split; [|auto]. rewrite filter_app. cbn [filter]. rewrite (H x Hx), filter_app. cbn [filter]. rewrite (H y Hy). reflexivity.
Qed.

Lemma feeds_source m c s : feeds m s c -> is_class "PowerSource" s && match e_conn (c_e s) with Some _ => true | None => false end = true.
Proof.
  intros (b & [H1 H2] & _). unfold is_class. rewrite H1, H2. reflexivity.
Qed.

Theorem loads_connected_model ord m : (forall l, Permutation (ord l) l) ->
  (forall l1 c l2 c' l3, m = l1 ++ c :: l2 ++ c' :: l3 -> is_load c -> is_load c' -> c_name c <> c_name c') ->
  (forall b, check_loads_connected ord m = Ok b ->
     (b = true <-> (exists c s, In c m /\ source_at c s) /\
        forall l, In l m -> is_load l -> exactly_one (fun c => feeds m c l) m) /\
     ((exists c s, In c m /\ source_at c s) -> forall l, In l m -> is_load l -> ~ at_least_two (fun c => feeds m c l) m)) /\
  (buildable m -> forall e, check_loads_connected ord m = Err e ->
     e = EAttr /\ exists l, In l m /\ is_load l /\ at_least_two (fun c => feeds m c l) m).
Proof.
  intros Ord Nm.
  assert (Names : NoDup (map c_name (loads m))).
  { unfold loads. clear Ord. induction m as [|a l IH]; cbn [filter map]; [constructor|].
    assert (I : NoDup (map c_name (filter (is_class "Load") l))).
    { apply IH. intros l1 c l2 c' l3 E. apply (Nm (a :: l1) c l2 c' l3). rewrite E. reflexivity. }
    destruct (is_class "Load" a) eqn:E; [|exact I]. cbn [map]. constructor; [|exact I].
    intros H. apply in_map_iff in H as (c' & Ec & Hc). apply filter_In in Hc as [Hc E'].
    apply in_split in Hc as (k1 & k2 & ->). unfold is_class in E, E'. apply String.eqb_eq in E, E'.
    exact (Nm [] a k1 c' k2 eq_refl E E' (eq_sym Ec)). }
  assert (S : sources m <> [] <-> exists c s, In c m /\ source_at c s).
  { split.
    - destruct (sources m) as [|c t] eqn:Es; [congruence|]. intros _. exists c, (source_bus c). apply in_sources. rewrite Es. left; reflexivity.
    - intros (c & s & Hc & Hs) Q. assert (H : In c (sources m)) by (apply in_sources; rewrite (source_at_bus _ _ Hs); auto).
      rewrite Q in H. destruct H. }
  destruct (loads_connected_result ord m Ord Names) as [R1 R2]. split.
  - intros b E. destruct (R1 b E) as [Q1 Q2]. split.
    + rewrite Q1, S. split; intros [H1 H2]; (split; [exact H1|]); intros l Hl Hl'.
      * apply (exactly_one_filter _ _ _ (feeds_source m l)). exact (H2 l Hl Hl').
      * apply (exactly_one_filter _ _ _ (feeds_source m l)). exact (H2 l Hl Hl').
    + intros H l Hl Hl' Q. apply S in H. apply (Q2 H l Hl Hl'). apply (at_least_two_filter _ _ _ (feeds_source m l)). exact Q.
  - intros B e E. destruct (R2 B e E) as [-> (l & Hl & Hl' & Q)]. split; [reflexivity|]. exists l. split; [exact Hl|].
    split; [exact Hl'|]. exact (proj1 (at_least_two_filter _ _ _ (feeds_source m l)) Q).
Qed.

(** ** check_unique_path *)

Lemma adj_simple m s n n' x p : closed m s n n' ->
  (simple_route (adj (net_graph n')) s x p <-> simple_route (closed_link (objs m)) s x p).
Proof. intros K. unfold simple_route. rewrite (route_iff _ _ _ _ _ (k_adj _ _ _ _ K)). reflexivity. Qed.

Lemma load_node m s n n' c x k : closed m s n n' -> In c m -> e_conn (c_e c) = Some k -> e_name (c_e c) = Some (Some x) ->
  In x (g_nodes (net_graph n')).
Proof.
  intros K Hc Hk Hx. apply (k_nodes _ _ _ _ K). exists k. exists (c_e c). split; [apply in_map; exact Hc|].
  right; right; right. split; assumption.
Qed.

Lemma paths_of_load m s n n' c : closed m s n n' -> In c m -> proper_load s c ->
  exists l, all_simple_paths (net_graph n') s (c_name c) = Ok l /\
    (l = [] -> ~ unique_route m s c) /\ (forall p q t, l = p :: q :: t -> ~ unique_route m s c) /\
    (forall p, l = [p] -> unique_route m s c).
Proof.
  intros K Hc (k & x & Hk & Hx & N). unfold c_name. rewrite Hx.
  destruct (all_simple_paths_spec (net_graph n') s x (k_wf _ _ _ _ K) (k_source _ _ _ _ K)
    (load_node _ _ _ _ _ _ _ K Hc Hk Hx) (fun Q => N (eq_sym Q))) as (l & E & Nl & Hl).
  exists l. split; [exact E|]. assert (Hl' : forall p, In p l <-> simple_route (closed_link (objs m)) s x p)
    by (intros p; rewrite Hl; apply (adj_simple _ _ _ _ _ _ K)). clear Hl.
  split; [|split].
  - intros -> (y & p & Ey & Hp & _). assert (y = x) by congruence. subst y. apply Hl' in Hp. destruct Hp.
  - intros p q t -> (y & r & Ey & Hr & U). assert (y = x) by congruence. subst y.
    assert (p = r) by (apply U, Hl'; left; reflexivity). assert (q = r) by (apply U, Hl'; right; left; reflexivity).
    subst. inversion Nl as [|? ? N1 _]. apply N1. left; reflexivity.
  - intros p ->. exists x, p. split; [exact Hx|]. split; [apply Hl'; left; reflexivity|].
    intros p' Hp'. apply Hl' in Hp' as [Q|[]]. congruence.
Qed.

Lemma unique_loop_broken g s sa ls r b : unique_loop g s sa ls r true = Ok b -> b = r.
Proof.
  destruct ls as [|c ls]; cbn [unique_loop]; [intros E; congruence|].
  destruct (all_simple_paths g s (c_name c)); cbn [bind]; congruence.
Qed.

Lemma unique_loop_result m s n n' sa : closed m s n n' -> forall ls r,
  (forall c, In c ls -> In c m /\ proper_load s c) ->
  exists b, unique_loop (net_graph n') s sa ls r false = Ok b /\
    (b = true <-> r = true /\ forall c, In c ls -> unique_route m s c).
Proof.
  intros K. induction ls as [|c ls IH]; intros r H; cbn [unique_loop].
  - exists r. split; [reflexivity|]. split; [intros ->; split; [reflexivity|intros c []]|tauto].
  - destruct (H c (or_introl eq_refl)) as [Hc Hp]. destruct (paths_of_load _ _ _ _ _ K Hc Hp) as (l & E & P0 & P2 & P1).
    rewrite E. cbn [bind]. destruct l as [|p [|q t]].
    + exists false. split; [reflexivity|]. split; [discriminate|]. intros [_ Q]. exfalso. apply P0; [reflexivity|apply Q; left; reflexivity].
    + destruct (IH r (fun c H' => H c (or_intror H'))) as (b & Eb & Hb). exists b. split; [exact Eb|].
      rewrite Hb. split; intros [Q1 Q2]; (split; [exact Q1|]); [intros c' [<-|H']; [exact (P1 _ eq_refl)|auto]|intros c' H'; apply Q2; right; exact H'].
    + assert (F : ~ forall c0, In c0 (c :: ls) -> unique_route m s c0) by (intros Q; exact (P2 _ _ _ eq_refl (Q c (or_introl eq_refl)))).
      destruct sa.
      * destruct (IH false (fun c H' => H c (or_intror H'))) as (b & Eb & Hb). exists b. split; [exact Eb|].
        rewrite Hb. split; [intros [Q _]; discriminate|intros [_ Q]; contradiction].
      * destruct ls as [|c' ls]; cbn [unique_loop].
        -- exists false. split; [reflexivity|]. split; [discriminate|]. intros [_ Q]. contradiction.
        -- destruct (H c' (or_intror (or_introl eq_refl))) as [Hc' Hp'].
           destruct (paths_of_load _ _ _ _ _ K Hc' Hp') as (l' & E' & _). rewrite E'. cbn [bind].
           exists false. split; [reflexivity|]. split; [discriminate|]. intros [_ Q]. contradiction.
Qed.

Theorem unique_path_result ord sa m : (forall l, Permutation (ord l) l) -> buildable m ->
  (forall c s s0, In c m -> is_load c -> In s0 m -> source_at s0 s -> proper_load s c) ->
  exists b, check_unique_path ord sa m = Ok b /\
    (b = true <-> (exists c s, In c m /\ source_at c s) /\
       forall c s l, In c m -> source_at c s -> In l m -> is_load l -> unique_route m s l).
Proof.
  intros Ord B HL. unfold check_unique_path. destruct (sources m) as [|s0 srcs] eqn:Es.
  { exists false. split; [reflexivity|]. split; [discriminate|]. intros [(c & s & Hc & Hs) _].
    assert (Q : In c (sources m)) by (apply in_sources; rewrite (source_at_bus _ _ Hs); auto). rewrite Es in Q. destruct Q. }
  rewrite <- Es.
  assert (Hs : forall s, In s (sources m) -> In s m /\ source_at s (source_bus s)) by (intros s; apply in_sources).
  assert (G : forall l r, (forall s, In s l -> In s m /\ source_at s (source_bus s)) ->
    exists b, foldM (fun r src => do '(_, n) <- closed_network m (source_bus src);
        unique_loop (net_graph n) (source_bus src) sa (ord (loads m)) r false) l r = Ok b /\
      (b = true <-> r = true /\ forall s c, In s l -> In c (loads m) -> unique_route m (source_bus s) c)).
  { induction l as [|s l IH]; intros r H; cbn [foldM].
    - exists r. split; [reflexivity|]. split; [intros ->; split; [reflexivity|intros s c []]|tauto].
    - destruct (H s (or_introl eq_refl)) as [H1 H2]. destruct (closed_network_ok m s _ B H1 H2) as (n & n' & Ec).
      rewrite Ec. cbn [bind]. assert (K := closed_network_spec _ _ _ _ Ec).
      destruct (unique_loop_result m _ _ _ sa K (ord (loads m)) r) as (b1 & E1 & Hb1).
      { intros c Hc. assert (Hc' : In c (loads m)) by (eapply Permutation_in; [apply Ord|exact Hc]).
        apply in_loads in Hc' as [Hm Hl]. split; [exact Hm|]. eauto. }
      rewrite E1. destruct (IH b1) as (b & Eb & Hb); [intros s' H'; apply H; right; exact H'|].
      exists b. split; [exact Eb|]. rewrite Hb, Hb1. split.
      + intros [[Q1 Q2] Q3]. split; [exact Q1|]. intros s' c [<-|Hs'] Hc; [|auto].
        apply Q2. eapply Permutation_in; [symmetry; apply Ord|exact Hc].
      + intros [Q1 Q2]. split; [split; [exact Q1|]|intros s' c Hs' Hc; apply Q2; [right; exact Hs'|exact Hc]].
        intros c Hc. apply Q2; [left; reflexivity|]. eapply Permutation_in; [apply Ord|exact Hc]. }
  destruct (G (sources m) true Hs) as (b & Eb & Hb). exists b. split; [exact Eb|]. rewrite Hb. split.
  - intros [_ Q]. split.
    + exists s0, (source_bus s0). apply Hs. rewrite Es. left; reflexivity.
    + intros c s l Hc Hcs Hl Hl'. rewrite <- (source_at_bus _ _ Hcs). apply Q.
      * apply in_sources. rewrite (source_at_bus _ _ Hcs). auto.
      * apply in_loads. auto.
  - intros [_ Q]. split; [reflexivity|]. intros s c H1 H2. apply Hs in H1 as [H1 H3]. apply in_loads in H2 as [H2 H4]. eauto.
Qed.

(** ** check_loops *)

Lemma loop_iff (R R' : string -> string -> Prop) : (forall u v, R u v <-> R' u v) -> (loop R <-> loop R').
Proof.
  intros H. unfold loop. split; (intros [(x & Q)|(x & p & L & N & S & Q)]; [left; exists x; apply H; exact Q|
    right; exists x, p; split; [exact L|]; split; [exact N|]; split; [|apply H; exact Q];
      eapply steps_mono; [|exact S]; intros u v; apply H]).
Qed.

Theorem loops_result cycle_basis m :
  (forall g, wf_graph g -> (cycle_basis g = [] <-> ~ loop (fun u v => has_edge g u v = true))) ->
  (forall b, check_loops cycle_basis m = Ok b -> (b = true <-> ~ loop (closed_link (objs m)))) /\
  ((forall c s, In c m -> ~ source_at c s) -> check_loops cycle_basis m = Err EType) /\
  (buildable m -> (exists c s, In c m /\ source_at c s) -> exists b, check_loops cycle_basis m = Ok b).
Proof.
  intros CB.
  assert (G : forall s n n', closed m s n n' -> (cycle_basis (net_graph n') = [] <-> ~ loop (closed_link (objs m)))).
  { intros s n n' K. rewrite (CB _ (k_wf _ _ _ _ K)). rewrite (loop_iff _ _ (k_adj _ _ _ _ K)). reflexivity. }
  assert (F : forall l b, loops_from cycle_basis m l = Ok b -> l <> [] -> (b = true <-> ~ loop (closed_link (objs m)))).
  { induction l as [|s l IH]; intros b H N; [congruence|]. cbn [loops_from] in H.
    destruct (c_name s); [|discriminate]. destruct (closed_network m (source_bus s)) as [[n n']|] eqn:Ec; cbn [bind] in H; [|discriminate].
    assert (Q := G _ _ _ (closed_network_spec _ _ _ _ Ec)).
    destruct (cycle_basis (net_graph n')) as [|z t].
    - injection H as <-. tauto.
    - destruct l as [|s' l]; [|apply IH; [exact H|discriminate]]. cbn [loops_from] in H. injection H as <-.
      split; [discriminate|]. intros W. apply Q in W. discriminate. }
  split; [|split].
  - intros b H. unfold check_loops in H. destruct (sources m) as [|s l] eqn:Es; [discriminate|].
    apply (F (s :: l)); [exact H|discriminate].
  - intros N. unfold check_loops. destruct (sources m) as [|s l] eqn:Es; [reflexivity|]. exfalso.
    assert (Q : In s (sources m)) by (rewrite Es; left; reflexivity). apply in_sources in Q as [Q1 Q2]. exact (N _ _ Q1 Q2).
  - intros B (c & s & Hc & Hs). unfold check_loops.
    assert (Q : In c (sources m)) by (apply in_sources; rewrite (source_at_bus _ _ Hs); auto).
    assert (HH : forall x, In x (sources m) -> In x m /\ source_at x (source_bus x)) by (intros x; apply in_sources).
    destruct (sources m) as [|s0 l]; [destruct Q|]. clear - HH B. revert HH. generalize (s0 :: l). intros srcs.
    induction srcs as [|x srcs IH]; intros HH; cbn [loops_from]; [eauto|].
    destruct (HH x (or_introl eq_refl)) as [H1 H2]. destruct B as (B1 & B2 & B3).
    destruct (B1 (c_e x)) as [y Hy]; [apply in_map; exact H1|right; destruct H2 as [_ H2]; congruence|].
    unfold c_name. rewrite Hy. destruct (closed_network_ok m x _ (conj B1 (conj B2 B3)) H1 H2) as (n & n' & Ec).
    rewrite Ec. cbn [bind]. destruct (cycle_basis (net_graph n')); [eauto|]. apply IH. intros z Hz. apply HH. right; exact Hz.
Qed.

(** A cycle basis for the non-emptiness of the contract: all loops through all edges. *)
Definition all_loops (g : graph) : list (list string) :=
  flat_map (fun u => flat_map (fun v =>
    if String.eqb u v then [[u]]
    else match all_simple_paths g u (Some v) with
         | Ok l => filter (fun p => 3 <=? length p) l
         | Err _ => []
         end) (neighbors g u)) (g_nodes g).

Lemma all_loops_contract g : wf_graph g -> (all_loops g = [] <-> ~ loop (fun u v => has_edge g u v = true)).
Proof.
  intros W.
  assert (E : all_loops g = [] <-> forall p, ~ In p (all_loops g)).
  { destruct (all_loops g) as [|p t]; [split; [intros _ p []|reflexivity]|]. split; [discriminate|].
    intros H. exfalso. exact (H p (or_introl eq_refl)). }
  rewrite E. clear E.
  assert (Sym : forall u v, has_edge g u v = true -> has_edge g v u = true).
  { intros u v. unfold has_edge. rewrite !existsb_exists. intros (e & H1 & H2). exists e. rewrite same_pair_sym. auto. }
  split.
  - intros H [(x & Hx)|(x & p & L & N & S & C)].
    + apply (H [x]). unfold all_loops. apply in_flat_map. exists x. split; [apply (has_edge_nodes g x x W Hx)|].
      apply in_flat_map. exists x. split; [apply neighbors_spec; exact Hx|]. rewrite String.eqb_refl. left; reflexivity.
    + set (y := last p x). apply (H (x :: p)). unfold all_loops. apply in_flat_map.
      assert (Hn := has_edge_nodes g _ _ W C). fold y in Hn.
      exists x. split; [apply Hn|]. apply in_flat_map. exists y. split; [apply neighbors_spec, Sym; exact C|].
      assert (Nxy : x <> y).
      { intros Q. apply (proj1 (proj1 (NoDup_cons_iff _ _) N)). rewrite Q at 1. unfold y.
        destruct p as [|a p]; [cbn in L; lia|]. rewrite last_cons.
        clear. revert a. induction p as [|b p IH]; intros a; [left; reflexivity|]. rewrite last_cons. right. apply IH. }
      destruct (String.eqb_spec x y) as [Q|_]; [contradiction|].
      destruct (all_simple_paths_spec g x y W (proj2 Hn) (proj1 Hn) Nxy) as (l & El & _ & Hl). rewrite El.
      apply filter_In. split; [|apply Nat.leb_le; cbn [length]; lia]. apply Hl. split; [|exact N].
      exists p. split; [reflexivity|]. split; [rewrite last_cons; reflexivity|exact S].
  - intros H p Hp. apply H. unfold all_loops in Hp. apply in_flat_map in Hp as (u & Hu & Hp).
    apply in_flat_map in Hp as (v & Hv & Hp). apply neighbors_spec in Hv.
    destruct (String.eqb_spec u v) as [<-|N]; [left; eauto|]. right.
    destruct (has_edge_nodes g u v W Hv) as [_ Hv'].
    destruct (all_simple_paths_spec g u v W Hu Hv' N) as (l & El & _ & Hl). rewrite El in Hp.
    apply filter_In in Hp as [Hp L]. apply Nat.leb_le in L. apply Hl in Hp as [(q & -> & Lq & S) Nd].
    rewrite last_cons in Lq. exists u, q. split; [cbn [length] in L; lia|]. split; [exact Nd|]. split; [exact S|].
    rewrite Lq. apply Sym. exact Hv.
Qed.

(** ** check_matched_phases *)

Lemma has_phase_In p l : has_phase p l = true <-> In p l.
Proof.
  unfold has_phase. rewrite existsb_exists. split.
  - intros (x & H & Q). apply okey_eqb_spec in Q. subst. exact H.
  - intros H. exists p. split; [exact H|apply okey_refl].
Qed.
Lemma subset_incl l l' : subset l l' = true <-> incl l l'.
Proof.
  unfold subset. rewrite forallb_forall. split; intros H p Hp; [apply has_phase_In, H, Hp|apply has_phase_In, H, Hp].
Qed.
Lemma same_set_spec l l' : same_set l l' = true <-> forall p, In p l <-> In p l'.
Proof.
  unfold same_set. rewrite andb_true_iff, !subset_incl. unfold incl. split.
  - intros [H1 H2] p. split; auto.
  - intros H. split; intros p Hp; apply H; exact Hp.
Qed.
Lemma same_list_spec l l' : same_list l l' = true <-> l = l'.
Proof.
  revert l'. induction l as [|a l IH]; destruct l' as [|b l']; cbn [same_list]; try (split; congruence).
  rewrite andb_true_iff, okey_eqb_spec, IH. split; [intros [-> ->]; reflexivity|intros E; injection E as -> ->; auto].
Qed.

Lemma matched_spec t b : matched t = Ok b -> (b = true <-> accepted t).
Proof.
  unfold matched, use, winding_phases, accepted. destruct (c_windings t) as [[ws|]|]; cbn [bind]; try discriminate.
  destruct ws as [|h [|l [|l2 [|x ws]]]].
  1, 2, 5: intros E; injection E as <-; split; [discriminate|]; intros [(a & b & c & d & E & _)|(a & b & c & d & e & E & _)]; discriminate.
  - destruct (wd_phases h) as [hp|] eqn:Eh; cbn [of_opt bind]; [|discriminate].
    destruct (wd_phases l) as [lp|] eqn:El; cbn [of_opt bind]; [|discriminate].
    intros E. injection E as <-. rewrite same_set_spec. split.
    + intros H. left. exists h, l, hp, lp. auto.
    + intros [(a & b & c & d & E & E1 & E2 & H)|(a & b & c & d & e & E & _)]; [|discriminate].
      injection E as <- <-. rewrite Eh in E1. rewrite El in E2. injection E1 as <-. injection E2 as <-. exact H.
  - destruct (wd_phases h) as [hp|] eqn:Eh; cbn [of_opt bind]; [|discriminate].
    destruct (wd_phases l) as [lp|] eqn:El; cbn [of_opt bind]; [|discriminate].
    destruct (wd_phases l2) as [lp2|] eqn:El2; cbn [of_opt bind]; [|discriminate].
    intros E. injection E as <-. rewrite !andb_true_iff, same_list_spec, Nat.eqb_eq, Nat.leb_le. split.
    + intros [[-> L] Lh]. right. exists h, l, l2, hp, lp. repeat split; auto.
    + intros [(a & b & c & d & E & _)|(a & b & c & d & e & E & E1 & E2 & E3 & L & Lh)]; [discriminate|].
      injection E as <- <- <-. rewrite Eh in E1. rewrite El in E2. rewrite El2 in E3.
      injection E1 as <-. injection E2 as <-. injection E3 as <-. auto.
Qed.

Theorem matched_phases_result ord verbose m : (forall l, Permutation (ord l) l) ->
  (forall b, check_matched_phases ord verbose m = Ok b ->
     (b = true <-> forall t, In t m -> e_cls (c_e t) = "PowerTransformer" -> accepted t)) /\
  ((forall t, In t m -> e_cls (c_e t) = "PowerTransformer" ->
      (exists x, e_name (c_e t) = Some (Some x)) /\
      exists ws, c_windings t = Some (Some ws) /\ forall w, In w ws -> wd_phases w <> None) ->
   exists b, check_matched_phases ord verbose m = Ok b).
Proof.
  intros Ord. unfold check_matched_phases.
  assert (T : forall t, In t (ord (transformers m)) <-> In t m /\ e_cls (c_e t) = "PowerTransformer").
  { intros t. assert (Q : In t (transformers m) <-> In t m /\ e_cls (c_e t) = "PowerTransformer")
      by (unfold transformers, is_class; rewrite filter_In, String.eqb_eq; tauto).
    rewrite <- Q. split; intros H; (eapply Permutation_in; [|exact H]); [apply Ord|symmetry; apply Ord]. }
  split.
  - intros b H.
    assert (G : forall l r, foldM (fun r t => do ok <- matched t; if ok then Ok r
        else if verbose then match c_name t with None => Err EType | Some _ => Ok false end else Ok false) l r = Ok b ->
      (b = true <-> r = true /\ forall t, In t l -> accepted t)).
    { induction l as [|t l IH]; intros r E; cbn [foldM] in E.
      - injection E as <-. split; [intros ->; split; [reflexivity|intros t []]|tauto].
      - destruct (matched t) as [ok|] eqn:Em; cbn [bind] in E; [|discriminate]. apply matched_spec in Em.
        destruct ok.
        + apply IH in E. rewrite E. split; intros [Q1 Q2]; (split; [exact Q1|]);
            [intros t' [<-|Ht]; [apply Em; reflexivity|auto]|intros t' Ht; apply Q2; right; exact Ht].
        + assert (E' : foldM (fun r t => do ok <- matched t; if ok then Ok r
            else if verbose then match c_name t with None => Err EType | Some _ => Ok false end else Ok false) l false = Ok b)
            by (destruct verbose; [destruct (c_name t); [exact E|discriminate]|exact E]).
          apply IH in E'. rewrite E'. split; [intros [Q _]; discriminate|]. intros [_ Q].
          specialize (Q t (or_introl eq_refl)). apply Em in Q. discriminate. }
    rewrite (G _ _ H). split.
    + intros [_ Q] t H1 H2. apply Q, T. auto.
    + intros Q. split; [reflexivity|]. intros t Ht. apply T in Ht as [H1 H2]. auto.
  - intros H.
    assert (G : forall l r, (forall t, In t l -> In t (ord (transformers m))) ->
      exists b, foldM (fun r t => do ok <- matched t; if ok then Ok r
        else if verbose then match c_name t with None => Err EType | Some _ => Ok false end else Ok false) l r = Ok b).
    { induction l as [|t l IH]; intros r Hl; cbn [foldM]; [eauto|].
      destruct (proj1 (T t) (Hl t (or_introl eq_refl))) as [H1 H2]. destruct (H t H1 H2) as [[x Hx] (ws & Ew & Hw)].
      assert (M : exists ok, matched t = Ok ok).
      { unfold matched, use, winding_phases. rewrite Ew. cbn [bind].
        destruct ws as [|a [|b [|c [|d ws]]]]; eauto.
        - destruct (wd_phases a) eqn:Ea; [|exfalso; apply (Hw a); simpl; auto].
          destruct (wd_phases b) eqn:Eb; [|exfalso; apply (Hw b); simpl; auto]. cbn. eauto.
        - destruct (wd_phases a) eqn:Ea; [|exfalso; apply (Hw a); simpl; auto].
          destruct (wd_phases b) eqn:Eb; [|exfalso; apply (Hw b); simpl; auto].
          destruct (wd_phases c) eqn:Ec; [|exfalso; apply (Hw c); simpl; auto]. cbn. eauto. }
      destruct M as [ok Em]. rewrite Em. cbn [bind].
      assert (Hl' : forall t0, In t0 l -> In t0 (ord (transformers m))) by (intros t0 Ht; apply Hl; right; exact Ht).
      destruct ok; [apply IH; exact Hl'|]. unfold c_name. rewrite Hx. destruct verbose; apply IH; exact Hl'. }
    apply G. auto.
Qed.
