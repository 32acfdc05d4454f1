(** C64: the feeder and substation of every object. *)
From Verif Require Import Base BaseFacts StoreModel NetworkModel NetworkSpec NetworkProofs NetworkTop NetworkQueries CoordSpec TagModel TagSpec TagProofs.
From Coq Require Import Lia.
Local Open Scope string_scope.
Local Open Scope nat_scope.
Local Open Scope list_scope.

(** After a run every object has the feeder of the first node with a feeder above the node it belongs to (or of that
    node), and the substation of that feeder; if the feeder has no substation, an object at a node with a feeder keeps
    its own and the others get that of the node above; objects below no node with a feeder, and objects of other
    classes, stay as they are. *)
Theorem C64_tags : forall es s n mapping subs fuel ts ts',
  build es s = Ok n -> unique_names es -> nodes_exist es (net_di n) mapping -> (forall x, dget mapping x <> Some "") -> length ts = length es ->
  tag_objects es n mapping subs fuel ts = Ok ts' ->
  length ts' = length es /\
  forall i e t, nth_error es i = Some e -> nth_error ts i = Some t -> exists t', nth_error ts' i = Some t' /\
    (~ taggable e -> t' = t) /\
    forall x, sits_at e x ->
      (forall y f, nearest (net_di n) mapping x y -> dget mapping y = Some f ->
         t_feeder t' = Some f /\ (forall b, dget subs f = Some b -> t_sub t' = Some b) /\
         (dget subs f = None -> (y = x -> t_sub t' = t_sub t) /\
            (y <> x -> exists p u, bears es y p /\ nth_error ts p = Some u /\ t_sub t' = t_sub u))) /\
      ((forall y, ~ nearest (net_di n) mapping x y) -> t_feeder t' = t_feeder t /\ t_sub t' = t_sub t).
Proof.
  intros es s n m subs fuel ts ts' Hb UN NE MV LT E. assert (B := build_built _ _ _ Hb).
  destruct (tag_effect es s n B UN m subs NE MV ts LT fuel ts' E) as [Ln Ef]. split; [exact Ln|]. intros i e t He Ht. destruct (Ef i e t He Ht) as (t' & Ht' & Hl). exists t'. split; [exact Ht'|].
  unfold lifted, direct in Hl. split.
  - intros Nt. destruct (kind_of (e_cls e)) eqn:K; [exfalso; apply Nt, kind_taggable; congruence|exact Hl].
  - intros x Sx. apply sits_anchor in Sx. destruct Sx as (k & K & A). rewrite K, A in Hl. cbn [feeder_at] in Hl. destruct (dget m x) as [f0|] eqn:Mx.
    + assert (Nx : nearest (net_di n) m x x) by (apply nearest_here; congruence). split; [|intros H; exfalso; exact (H x Nx)].
      intros y f Ny My. rewrite (nearest_fun es s n B m x y x Ny Nx) in My |- *. assert (f0 = f) by congruence. subst f0.
      assert (F : t_feeder t' = Some f) by (rewrite Hl; destruct k; reflexivity).
      assert (S' : t_sub t' = match dget subs f with Some b => Some b | None => t_sub t end) by (rewrite Hl; destruct k; reflexivity).
      split; [exact F|]. rewrite S'. destruct (dget subs f); [split; [intros b Q; exact Q|discriminate]|split; [discriminate|split; [reflexivity|congruence]]].
    + assert (Sm : forall t0, t0 = match k with KConn => mkTag (t_feeder t) (t_sub t) (map (fun _ => (t_feeder t, t_sub t)) (t_series t)) | _ => t end -> t_feeder t0 = t_feeder t /\ t_sub t0 = t_sub t)
        by (intros t0 ->; destruct k; split; reflexivity).
      destruct Hl as [(y & q & u & Ny & Iy & By & Hu & ->)|[No ->]].
      * split; [|intros H; exfalso; exact (H y Ny)]. intros y' f Ny' My. rewrite (nearest_fun es s n B m x y' y Ny' Ny) in My |- *. cbn [t_feeder t_sub].
        destruct (node_tag es n UN m subs NE ts LT y q f Iy By My) as (tq & Hq & Eq). assert (u = mkTag (Some f) (match dget subs f with Some b => Some b | None => t_sub tq end) (t_series tq)) by congruence. subst u.
        cbn [t_feeder t_sub]. split; [reflexivity|]. destruct (dget subs f); [split; [intros b Q; exact Q|discriminate]|split; [discriminate|]]. intros _. split; [|eauto 6].
        intros ->. congruence.
      * split; [intros y f Ny; exfalso; exact (No _ Ny)|]. intros _. apply Sm. reflexivity.
Qed.
Print Assumptions C64_tags.

(** The time series of an object at a node with a feeder get the tags of the object; those of an object at another
    node get the tags that the object had before; only devices with a connecting element have time series to tag. *)
Theorem C64_series : forall es s n mapping subs fuel ts ts' i e t t',
  build es s = Ok n -> unique_names es -> nodes_exist es (net_di n) mapping -> (forall x, dget mapping x <> Some "") -> length ts = length es ->
  tag_objects es n mapping subs fuel ts = Ok ts' -> nth_error es i = Some e -> nth_error ts i = Some t -> nth_error ts' i = Some t' ->
  length (t_series t') = length (t_series t) /\
  (~ has_series e -> t_series t' = t_series t) /\
  (has_series e -> forall x, sits_at e x ->
     (dget mapping x <> None -> forall r, In r (t_series t') -> r = (t_feeder t', t_sub t')) /\
     (dget mapping x = None -> forall r, In r (t_series t') -> r = (t_feeder t, t_sub t))).
Proof.
  intros es s n m subs fuel ts ts' i e t t' Hb UN NE MV LT E He Ht Ht'. assert (B := build_built _ _ _ Hb).
  destruct (tag_effect es s n B UN m subs NE MV ts LT fuel ts' E) as [Ln Ef]. destruct (Ef i e t He Ht) as (t2 & Ht2 & Hl). assert (t2 = t') by congruence. subst t2. clear Ef Ht2.
  unfold lifted, direct in Hl. unfold has_series. rewrite <- kind_conn. destruct (kind_of (e_cls e)) as [k|] eqn:K; [|subst t'; split; [reflexivity|split; [reflexivity|discriminate]]].
  assert (Sr : t_series t' = match k with KConn => map (fun _ => match feeder_at m (anchor k e) with Some f => (Some f, match dget subs f with Some b => Some b | None => t_sub t end) | None => (t_feeder t, t_sub t) end) (t_series t) | _ => t_series t end).
  { unfold feeder_at in *. destruct (anchor k e) as [a|]; [|subst t'; destruct k; reflexivity]. destruct (dget m a) as [f|]; [subst t'; destruct k; reflexivity|].
    destruct Hl as [(y & q & u & _ & _ & _ & _ & ->)|[_ ->]]; destruct k; reflexivity. }
  rewrite Sr. split; [destruct k; [reflexivity|apply map_length|reflexivity]|]. split; [destruct k; [reflexivity|congruence|reflexivity]|]. intros Q. injection Q as ->.
  intros x Sx. apply sits_anchor in Sx. destruct Sx as (k & K' & A). assert (k = KConn) by congruence. subst k. rewrite A in Hl |- *. cbn [feeder_at] in *.
  destruct (dget m x) as [f|] eqn:Mx; (split; [|]); try congruence; intros _ r Hr; apply in_map_iff in Hr; destruct Hr as (r0 & <- & _); [subst t'; reflexivity|reflexivity].
Qed.
Print Assumptions C64_series.

(** The run succeeds if every object that can be tagged belongs to a node of the network or to one with a feeder. *)
Theorem C64_succeeds : forall es s n mapping subs fuel ts,
  build es s = Ok n -> unique_names es -> nodes_exist es (net_di n) mapping -> (forall x, dget mapping x <> Some "") -> length ts = length es ->
  (forall e, In e es -> taggable e -> exists x, sits_at e x /\ (dget mapping x <> None \/ In x (d_nodes (net_di n)))) -> length (d_nodes (net_di n)) < fuel ->
  exists ts', tag_objects es n mapping subs fuel ts = Ok ts'.
Proof.
  intros es s n m subs fuel ts Hb UN NE MV LT Ok' Fu. apply (tag_total es s n (build_built _ _ _ Hb) UN m subs NE MV ts LT fuel); [|exact Fu].
  intros i e He. apply Ok'. eapply nth_error_In. exact He.
Qed.
Print Assumptions C64_succeeds.

(** A second run changes only time series, and then they have the tags of their object. *)
Theorem C64_again : forall es s n mapping subs fuel ts ts' ts'' i e t' t'',
  build es s = Ok n -> unique_names es -> nodes_exist es (net_di n) mapping -> (forall x, dget mapping x <> Some "") -> length ts = length es ->
  tag_objects es n mapping subs fuel ts = Ok ts' -> tag_objects es n mapping subs fuel ts' = Ok ts'' ->
  nth_error es i = Some e -> nth_error ts' i = Some t' -> nth_error ts'' i = Some t'' ->
  t_feeder t'' = t_feeder t' /\ t_sub t'' = t_sub t' /\
  (has_series e -> forall x, sits_at e x -> forall r, In r (t_series t'') -> r = (t_feeder t'', t_sub t'')).
Proof.
  intros es s n m subs fuel ts ts' ts'' i e t' t'' Hb UN NE MV LT E E' He Ht' Ht''.
  destruct (C64_tags es s n m subs fuel ts ts' Hb UN NE MV LT E) as [Ln A].
  destruct (C64_tags es s n m subs fuel ts' ts'' Hb UN NE MV Ln E') as [_ A']. destruct (A' i e t' He Ht') as (t2 & Ht2 & N2 & S2). assert (t2 = t'') by congruence. subst t2. clear Ht2.
  assert (Tt : exists t, nth_error ts i = Some t). { destruct (nth_error ts i) eqn:Q; [eauto|]. apply nth_error_None in Q. assert (i < length es) by (apply nth_error_Some; congruence). lia. }
  destruct Tt as [t Ht]. destruct (A i e t He Ht) as (t1 & Ht1 & N1 & S1). assert (t1 = t') by congruence. subst t1. clear Ht1.
  assert (G : t_feeder t'' = t_feeder t' /\ t_sub t'' = t_sub t').
  { destruct (kind_of (e_cls e)) as [k|] eqn:K; [|rewrite N2; [auto|intros Q; apply kind_taggable in Q; congruence]].
    destruct (anchor k e) as [x|] eqn:An.
    - assert (Sx : sits_at e x) by (apply sits_anchor; eauto). destruct (S1 x Sx) as [P1 Q1]. destruct (S2 x Sx) as [P2 Q2].
      assert (Dc : (forall y, ~ nearest (net_di n) m x y) \/ exists y, nearest (net_di n) m x y).
      { unfold tag_objects in E. destruct (tag_effect es s n (build_built _ _ _ Hb) UN m subs NE MV ts LT fuel ts' E) as [_ Ef]. destruct (Ef i e t He Ht) as (t1 & _ & Hl). unfold lifted in Hl. rewrite K, An in Hl.
        destruct (dget m x) eqn:Mx; [right; exists x; apply nearest_here; congruence|]. destruct Hl as [(y & _ & _ & Ny & _)|[No _]]; eauto. }
      destruct Dc as [No|[y Ny]]; [apply Q2, No|]. assert (My := nearest_mapped n m x y Ny). destruct (dget m y) as [f|] eqn:Ef; [|congruence].
      destruct (P1 y f Ny Ef) as (F1 & B1 & C1). destruct (P2 y f Ny Ef) as (F2 & B2 & C2). split; [congruence|]. destruct (dget subs f) as [b|] eqn:Sb; [rewrite (B1 b eq_refl), (B2 b eq_refl); reflexivity|].
      destruct (C1 eq_refl) as [Ca Cb]. destruct (C2 eq_refl) as [Da Db]. destruct (string_dec y x) as [Exy|Nxy]; [apply Da, Exy|].
      destruct (Cb Nxy) as (p & u & Bp & Hu & ->). destruct (Db Nxy) as (p' & u' & Bp' & Hu' & ->). assert (p' = p) by (eapply bears_fun; eauto). subst p'.
      (* the node above keeps its substation in the first run *)
      assert (Bp0 := Bp). destruct Bp0 as [(ey & Hey & Hny) _]. destruct (A p ey u Hey Hu) as (v & Hv & Nv & Sv). assert (v = u') by congruence. subst v.
      assert (In1 : exists z, arc (net_di n) y z).
      { clear - Ny Nxy. revert Nxy. induction Ny as [x H|x z y N Ar H IH]; intros Nxy; [congruence|]. destruct (string_dec y z) as [->|Nz]; [eauto|apply IH, Nz]. }
      destruct In1 as [z Az]. destruct (NE y z Az) as (ey' & Iey' & Hny' & Hc). apply In_nth_error in Iey'. destruct Iey' as [py Hpy]. assert (py = p) by (eapply UN; eauto). subst py. assert (ey' = ey) by congruence. subst ey'.
      assert (Sy : sits_at ey y) by (left; split; [apply Hc; congruence|exact Hny]).
      destruct (proj1 (Sv y Sy) y f) as (_ & _ & Cy); [apply nearest_here; congruence|exact Ef|]. rewrite (proj1 (Cy Sb) eq_refl). reflexivity.
    - destruct (tag_effect es s n (build_built _ _ _ Hb) UN m subs NE MV ts' Ln fuel ts'' E') as [_ Ef]. destruct (Ef i e t' He Ht') as (t2 & Ht2 & Hl). assert (t2 = t'') by congruence. subst t2.
      unfold lifted, direct in Hl. rewrite K, An in Hl. cbn [feeder_at] in Hl. subst t''. destruct k; split; reflexivity. }
  split; [apply G|]. split; [apply G|]. intros Hs x Sx r Hr.
  destruct (C64_series es s n m subs fuel ts' ts'' i e t' t'' Hb UN NE MV Ln E' He Ht' Ht'') as (_ & _ & Q). destruct (Q Hs x Sx) as [Q1 Q2].
  destruct (dget m x) eqn:Mx; [apply Q1; [congruence|exact Hr]|]. rewrite (Q2 eq_refl r Hr). destruct G as [-> ->]. reflexivity.
Qed.
Print Assumptions C64_again.

(** A chain a - b - c with a load at each end; b has a feeder. *)
Definition tes : list elem := [xnode "a"; xnode "b"; xnode "c"; xline "l1" "a" "b" 1; xline "l2" "b" "c" 1; xload "la" "a"; xload "lb" "b"; xload "lc" "c"].
Definition tnet : network := net_or_empty (build tes "a").
Definition tm : dict string := [("b", "f")].
Definition ts0 : list tag := map (fun _ => mkTag (Some "") (Some "old") [(Some "x", Some "y")]) tes.
Definition trun := tag_objects tes tnet tm [("f", "sub")] 7.

Lemma tes_unique : unique_names tes.
Proof.
  assert (H : NoDup (map e_name tes)) by (cbn; repeat constructor; cbn; intuition discriminate).
  intros i j e e' x Hi Hj He He'. apply (proj1 (NoDup_nth_error _) H); [rewrite map_length; apply nth_error_Some; congruence|].
  rewrite (map_nth_error e_name _ _ Hi), (map_nth_error e_name _ _ Hj). congruence.
Qed.
Lemma tes_nodes : nodes_exist tes (net_di tnet) tm.
Proof.
  intros x y [a H]. vm_compute in H. repeat (destruct H as [H|H]; [injection H as <- <- <-|]); try destruct H.
  all: first [exists (xnode "a"); split; [unfold tes; cbn; tauto|]; split; [reflexivity|]; intros; reflexivity | exists (xnode "b"); split; [unfold tes; cbn; tauto|]; split; [reflexivity|]; intros; reflexivity
             | exists (xnode "c"); split; [unfold tes; cbn; tauto|]; split; [reflexivity|]; intros; reflexivity].
Qed.

Example C64_hypotheses_met :
  build tes "a" = Ok tnet /\ unique_names tes /\ nodes_exist tes (net_di tnet) tm /\ (forall x, dget tm x <> Some "") /\ length ts0 = length tes /\ length (d_nodes (net_di tnet)) < 7 /\
  (forall e, In e tes -> taggable e -> exists x, sits_at e x /\ (dget tm x <> None \/ In x (d_nodes (net_di tnet)))) /\
  exists ts', trun ts0 = Ok ts' /\ map (fun t => (t_feeder t, t_sub t)) ts' =
    [(Some "", Some "old"); (Some "f", Some "sub"); (Some "f", Some "sub"); (Some "", Some "old"); (Some "f", Some "sub"); (Some "", Some "old"); (Some "f", Some "sub"); (Some "f", Some "sub")].
Proof.
  split; [vm_compute; reflexivity|]. split; [exact tes_unique|]. split; [exact tes_nodes|].
  split; [intros x; change (dget tm x) with (if String.eqb "b" x then Some "f" else None); destruct (String.eqb "b" x); discriminate|]. split; [reflexivity|]. split; [vm_compute; lia|]. split; [|eexists; split; vm_compute; reflexivity].
  assert (Nn : forall x, In x ["a"; "b"; "c"] -> In x (d_nodes (net_di tnet))) by (intros x H; vm_compute in H |- *; tauto).
  intros e He _. unfold tes in He. cbn [In] in He. repeat (destruct He as [<-|He]; [|]); try destruct He.
  all: eexists; (split; [first [left; split; reflexivity | right; left; split; [cbn; tauto|reflexivity] | right; right; split; [cbn; tauto|reflexivity]]|right; apply Nn; cbn; tauto]).
Qed.

(** The full statement fails: the load at c gets its feeder from b, but its time series keep the tags that the load had
    before. *)
Theorem C64_series_refuted : exists ts' t, trun ts0 = Ok ts' /\ nth_error ts' 7 = Some t /\ t_feeder t = Some "f" /\ t_sub t = Some "sub" /\ t_series t = [(Some "", Some "old")].
Proof. do 2 eexists. split; [vm_compute; reflexivity|]. split; [reflexivity|]. repeat split; reflexivity. Qed.
Print Assumptions C64_series_refuted.

(** A node that nothing touches makes the run fail with NetworkXError. *)
Theorem C64_isolated_refuted : exists es n, build es "a" = Ok n /\ es = tes ++ [xnode "z"] /\ unique_names es /\
  forall ts, length ts = length es -> tag_objects es n tm [("f", "sub")] 7 ts = Err ENetworkX.
Proof.
  exists (tes ++ [xnode "z"]), tnet. split; [vm_compute; reflexivity|]. split; [reflexivity|]. split.
  - assert (H : NoDup (map e_name (tes ++ [xnode "z"]))) by (cbn; repeat constructor; cbn; intuition discriminate).
    intros i j e e' x Hi Hj He He'. apply (proj1 (NoDup_nth_error _) H); [rewrite map_length; apply nth_error_Some; congruence|].
    rewrite (map_nth_error e_name _ _ Hi), (map_nth_error e_name _ _ Hj). congruence.
  - intros ts Ln. do 9 (destruct ts as [|? ts]; [discriminate Ln|]). destruct ts; [|discriminate Ln]. destruct t, t0, t1, t2, t3, t4, t5, t6, t7. vm_compute. reflexivity.
Qed.
Print Assumptions C64_isolated_refuted.
