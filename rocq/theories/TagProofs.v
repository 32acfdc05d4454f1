(** Lemmas about the feeder and substation of every object. *)
From Verif Require Import Base BaseFacts StoreModel NetworkModel NetworkSpec NetworkProofs NetworkBfs NetworkQueries NetworkDown CoordModel CoordSpec CenterTapModel CenterTapProofs
  SplitModel SplitProofs TagModel TagSpec.
From Coq Require Import Lia.
Local Open Scope string_scope.
Local Open Scope nat_scope.
Local Open Scope list_scope.

(** ** The classes *)
Lemma kind_taggable c : kind_of c <> None <-> In c ["Node"; "Capacitor"; "Generator"; "Load"; "Photovoltaic"; "Storage"; "Line"; "PowerTransformer"; "Reactor"; "Regulator"].
Proof.
  unfold kind_of. destruct (String.eqb_spec c "Node") as [->|]; [split; [left; reflexivity|discriminate]|].
  destruct (smem c ["Capacitor"; "Generator"; "Load"; "Photovoltaic"; "Storage"]) eqn:M; [apply smem_In in M; split; [intros _; cbn in *; tauto|discriminate]|].
  destruct (smem c ["Line"; "PowerTransformer"; "Reactor"; "Regulator"]) eqn:M'; [apply smem_In in M'; split; [intros _; cbn in *; tauto|discriminate]|].
  split; [congruence|]. intros H. assert (~ In c ["Capacitor"; "Generator"; "Load"; "Photovoltaic"; "Storage"]) by (intros Q; apply smem_In in Q; congruence).
  assert (~ In c ["Line"; "PowerTransformer"; "Reactor"; "Regulator"]) by (intros Q; apply smem_In in Q; congruence). cbn in *. intuition congruence.
Qed.
Lemma kind_conn c : kind_of c = Some KConn <-> In c ["Capacitor"; "Generator"; "Load"; "Photovoltaic"; "Storage"].
Proof.
  unfold kind_of. destruct (String.eqb_spec c "Node") as [->|]; [split; [congruence|cbn; intuition discriminate]|].
  destruct (smem c ["Capacitor"; "Generator"; "Load"; "Photovoltaic"; "Storage"]) eqn:M; [apply smem_In in M; tauto|].
  split; [|intros H; apply smem_In in H; congruence]. destruct (smem c ["Line"; "PowerTransformer"; "Reactor"; "Regulator"]); intros Q; discriminate Q.
Qed.
Lemma kind_from c : kind_of c = Some KFrom <-> In c ["Line"; "PowerTransformer"; "Reactor"; "Regulator"].
Proof.
  unfold kind_of. destruct (String.eqb_spec c "Node") as [->|]; [split; [discriminate|cbn; intuition discriminate]|].
  destruct (smem c ["Capacitor"; "Generator"; "Load"; "Photovoltaic"; "Storage"]) eqn:M.
  - apply smem_In in M. split; [discriminate|]. intros H. exfalso. cbn in M, H. intuition (subst; discriminate).
  - destruct (smem c ["Line"; "PowerTransformer"; "Reactor"; "Regulator"]) eqn:M'; [apply smem_In in M'; tauto|]. split; [discriminate|]. intros H. apply smem_In in H. congruence.
Qed.
Lemma kind_node c : kind_of c = Some KNode <-> c = "Node".
Proof.
  split; [|intros ->; reflexivity]. unfold kind_of. destruct (String.eqb_spec c "Node") as [->|]; [reflexivity|]. destruct (smem c _); [discriminate|]. destruct (smem c _); discriminate.
Qed.

Lemma sits_anchor e x : sits_at e x <-> exists k, kind_of (e_cls e) = Some k /\ anchor k e = Some x.
Proof.
  unfold sits_at. rewrite <- kind_conn, <- kind_from. rewrite <- (kind_node (e_cls e)). split.
  - intros [[K H]|[[K H]|[K H]]]; eexists; (split; [exact K|]); cbn; [rewrite H; reflexivity|exact H|exact H].
  - intros ([| |] & K & H); cbn in H; [left|right; left|right; right]; split; auto. destruct (e_name e) as [o|]; congruence.
Qed.

Section Tagging.
Variables (es : list elem) (s : string) (n : network).
Hypothesis B : built es s n.
Hypothesis UN : unique_names es.
Notation d := (net_di n).
Variables m subs : dict string.
Hypothesis NE : nodes_exist es d m.
Hypothesis MV : forall x, dget m x <> Some "".

(** ** First pass *)
Definition direct (e : elem) (t : tag) : tag :=
  match kind_of (e_cls e) with
  | Some k =>
    let t1 := match feeder_at m (anchor k e) with
              | Some f => mkTag (Some f) (match dget subs f with Some x => Some x | None => t_sub t end) (t_series t)
              | None => t
              end in
    match k with KConn => mkTag (t_feeder t1) (t_sub t1) (map (fun _ => (t_feeder t1, t_sub t1)) (t_series t1)) | _ => t1 end
  | None => t
  end.
Lemma tag_direct_at ts i e j : nth_error (tag_direct m subs ts (i, e)) j = if Nat.eqb i j then option_map (direct e) (nth_error ts j) else nth_error ts j.
Proof.
  unfold tag_direct, direct. destruct (kind_of (e_cls e)) as [k|].
  - destruct (nth_error ts i) as [t|] eqn:E.
    + rewrite nth_put, E. destruct (Nat.eqb_spec i j) as [<-|]; [rewrite E; destruct k; reflexivity|reflexivity].
    + destruct (Nat.eqb_spec i j) as [<-|]; [rewrite E; reflexivity|reflexivity].
  - destruct (Nat.eqb_spec i j) as [<-|]; [destruct (nth_error ts i); reflexivity|reflexivity].
Qed.
Lemma pass_one L : NoDup (map fst L) -> forall ts j,
  nth_error (fold_left (tag_direct m subs) L ts) j = match find (fun ie : nat * elem => Nat.eqb (fst ie) j) L with Some (_, e) => option_map (direct e) (nth_error ts j) | None => nth_error ts j end.
Proof.
  induction L as [|[i e] L IH]; intros Nd ts j; [reflexivity|]. cbn [fold_left find fst map] in *. apply NoDup_cons_iff in Nd. destruct Nd as [N0 Nd]. rewrite (IH Nd), tag_direct_at.
  destruct (Nat.eqb_spec i j) as [<-|]; [|reflexivity]. destruct (find _ L) as [[i' e']|] eqn:F; [|reflexivity].
  exfalso. apply find_some in F. destruct F as [F Q]. cbn in Q. apply Nat.eqb_eq in Q. subst i'. apply N0, in_map_iff. exists (i, e'). auto.
Qed.
Lemma objs_find (l : list elem) : forall k j, find (fun ie : nat * elem => Nat.eqb (fst ie) (k + j)) (combine (seq k (length l)) l) = match nth_error l j with Some e => Some (k + j, e) | None => None end.
Proof.
  induction l as [|y l IH]; intros k j; [destruct j; reflexivity|]. cbn [length seq combine find fst]. destruct j as [|j].
  - rewrite Nat.add_0_r, Nat.eqb_refl. reflexivity.
  - destruct (Nat.eqb_spec k (k + S j)) as [Q|_]; [lia|]. rewrite <- Nat.add_succ_comm. apply IH.
Qed.
Lemma objs_fst (l : list elem) k : map fst (combine (seq k (length l)) l) = seq k (length l).
Proof. revert k. induction l as [|y l IH]; intros k; cbn; [reflexivity|]. f_equal. apply IH. Qed.
Lemma objs_In (l : list elem) : forall k i e, In (i, e) (combine (seq k (length l)) l) -> nth_error l (i - k) = Some e /\ k <= i.
Proof.
  induction l as [|y l IH]; intros k i e H; [destruct H|]. cbn in H. destruct H as [H|H]; [injection H as -> ->; rewrite Nat.sub_diag; auto|].
  destruct (IH _ _ _ H) as [H1 H2]. split; [|lia]. replace (i - k) with (S (i - S k)) by lia. exact H1.
Qed.

Variable T0 : list tag.
Hypothesis LT : length T0 = length es.
Let objs := combine (seq 0 (length es)) es.
Definition T1 := fold_left (tag_direct m subs) objs T0.
Lemma T1_at j e t : nth_error es j = Some e -> nth_error T0 j = Some t -> nth_error T1 j = Some (direct e t).
Proof.
  intros He Ht. unfold T1. rewrite pass_one by (unfold objs; rewrite objs_fst; apply seq_NoDup). unfold objs. change j with (0 + j) at 1. rewrite objs_find, He, Ht. reflexivity.
Qed.

(** ** Climbing *)
Definition inner (x : string) : Prop := exists y, arc d x y.
Definition stable (ts : list tag) : Prop := forall y p, inner y -> bears es y p -> dget m y <> None -> nth_error ts p = nth_error T1 p.

Lemma node_bears x : inner x -> exists p e, bears es x p /\ nth_error es p = Some e /\ (dget m x <> None -> e_cls e = "Node") /\ e_name e = Some (Some x).
Proof.
  intros [y H]. destruct (NE x y H) as (e & He & Hn & Hc). apply In_nth_error in He. destruct He as [p Hp]. exists p, e. split; [|auto]. split; [eauto|].
  intros q i Hq Hi. rewrite (UN _ _ _ _ _ Hq Hp Hi Hn). lia.
Qed.
Lemma bears_fun x p q : bears es x p -> bears es x q -> p = q.
Proof. intros [(i & Hi & Ni) Mi] [(j & Hj & Nj) Mj]. specialize (Mi _ _ Hj Nj). specialize (Mj _ _ Hi Ni). lia. Qed.

Lemma nth_T0 p e : nth_error es p = Some e -> exists t, nth_error T0 p = Some t.
Proof. intros H. destruct (nth_error T0 p) eqn:E; [eauto|]. apply nth_error_None in E. assert (p < length es) by (apply nth_error_Some; congruence). lia. Qed.
Lemma node_tag x p f : inner x -> bears es x p -> dget m x = Some f -> exists t, nth_error T0 p = Some t /\
  nth_error T1 p = Some (mkTag (Some f) (match dget subs f with Some y => Some y | None => t_sub t end) (t_series t)).
Proof.
  intros Hx Hp Hf. destruct (node_bears x Hx) as (q & e & Hq & He & Hc & Hn). rewrite (bears_fun _ _ _ Hp Hq). destruct (nth_T0 _ _ He) as [t Ht]. exists t. split; [exact Ht|].
  rewrite (T1_at _ _ _ He Ht). unfold direct. rewrite Hc by congruence. change (kind_of "Node") with (Some KNode). cbn [anchor]. rewrite Hn. cbn [feeder_at]. rewrite Hf. reflexivity.
Qed.

(** One step of the climb. *)
Lemma look_step ts fuel a p q' at' r : stable ts -> predecessors d a = Ok ((p, q', at') :: r) ->
  arc d p a /\ inner p /\
  (dget m p = None -> look_up es n m ts (S fuel) a = look_up es n m ts fuel p) /\
  (forall f, dget m p = Some f -> exists q, bears es p q /\ look_up es n m ts (S fuel) a = Ok (nth_error T1 q)).
Proof.
  intros St E. destruct (pred_case n _ _ _ _ _ E) as [Ar _].
  assert (Np : inner p) by (exists a; exact Ar). split; [exact Ar|]. split; [exact Np|].
  destruct (node_bears p Np) as (q & e & Hq & He & Hc & Hn). cbn [look_up]. rewrite E, (proj2 (lookup_spec es p q) Hq). cbn [bind of_opt]. rewrite He. unfold dmem.
  split.
  - intros ->. destruct (nth_error ts q) as [t|]; [|reflexivity]. destruct (kind_of (e_cls e)); [|reflexivity]. destruct (t_feeder t) as [f|]; [|reflexivity]. rewrite andb_false_r. reflexivity.
  - intros f Hf. exists q. split; [exact Hq|]. rewrite (St p q Np Hq) by congruence. destruct (node_tag p q f Np Hq Hf) as (t & _ & ->). rewrite Hc by congruence. change (kind_of "Node") with (Some KNode). cbn [t_feeder].
    rewrite Hf. destruct (String.eqb_spec f "") as [->|]; [exfalso; exact (MV p Hf)|reflexivity].
Qed.

Lemma nearest_fun x y y' : nearest d m x y -> nearest d m x y' -> y = y'.
Proof.
  intros H. revert y'. induction H as [x H|x z y N A H IH]; intros y' H'.
  - inversion H' as [x0 K|x0 z0 y0 K]; subst; [reflexivity|contradiction].
  - inversion H' as [x0 K|x0 z0 y0 K A' K']; subst; [contradiction|]. apply IH. rewrite (b_one _ _ _ B _ _ _ A A'). exact K'.
Qed.
Lemma nearest_mapped x y : nearest d m x y -> dget m y <> None.
Proof. intros H. induction H; auto. Qed.
Lemma nearest_node z x y : arc d z x -> nearest d m z y -> inner y.
Proof.
  intros A H. revert x A. induction H as [z H|z w y N A' H IH]; intros x A; [exists x; exact A|]. exact (IH z A').
Qed.

Lemma look_up_ok ts fuel : stable ts -> forall a r, look_up es n m ts fuel a = Ok r ->
  match r with
  | Some u => exists z y q, arc d z a /\ nearest d m z y /\ bears es y q /\ nth_error T1 q = Some u
  | None => forall z y, arc d z a -> ~ nearest d m z y
  end.
Proof.
  intros St. induction fuel as [|fuel IH]; intros a r E; [discriminate|].
  destruct (predecessors d a) as [[|[[p q'] at'] l]|ex] eqn:Ep; [| |cbn [look_up] in E; rewrite Ep in E; discriminate].
  - cbn [look_up] in E. rewrite Ep in E. injection E as <-. intros z y [at' Ha] _. unfold predecessors in Ep. destruct (smem a (d_nodes d)); [|discriminate]. injection Ep as Ep.
    assert (Q : In (z, a, at') (filter (fun e : edge => String.eqb (snd (fst e)) a) (d_edges d))) by (apply filter_In; split; [exact Ha|apply String.eqb_refl]). rewrite Ep in Q. destruct Q.
  - destruct (look_step ts fuel a p q' at' l St Ep) as (Ar & Np & H0 & H1). destruct (dget m p) as [f|] eqn:Mp.
    + destruct (H1 f eq_refl) as (q & Hq & E1). rewrite E1 in E. injection E as <-. destruct (node_tag p q f Np Hq Mp) as (t & _ & Et). rewrite Et.
      exists p, p, q. split; [exact Ar|]. split; [apply nearest_here; congruence|]. auto.
    + rewrite (H0 eq_refl) in E. apply IH in E. destruct r as [u|].
      * destruct E as (z & y & q & E1 & E2 & E3 & E4). exists p, y, q. split; [exact Ar|]. split; [apply (nearest_up _ _ _ z); auto|]. auto.
      * intros z y A H. rewrite <- (b_one _ _ _ B _ _ _ Ar A) in H. inversion H as [x0 K|x0 z0 y0 K A' K']; subst; [congruence|]. exact (E _ _ A' K').
Qed.

Lemma look_up_total k : forall a ts fuel, stable ts -> In a (d_nodes d) -> dist (linked es) s a k -> k < fuel -> exists r, look_up es n m ts fuel a = Ok r.
Proof.
  induction k as [k IH] using lt_wf_ind. intros a ts fuel St Ha D L. destruct fuel as [|fuel]; [lia|].
  destruct (built_predecessors _ _ _ _ B Ha) as [[-> E]|(u & at' & l & E & Hin & Hu)]; [cbn [look_up]; rewrite E; eauto|].
  destruct (look_step ts fuel a u a at' l St E) as (Ar & Np & H0 & H1). destruct (dget m u) as [f|] eqn:Mp; [destruct (H1 f eq_refl) as (q & _ & ->); eauto|]. rewrite (H0 eq_refl).
  destruct (b_arc _ _ _ B _ _ Ar) as (_ & k' & D1 & D2). assert (Q := dist_fun _ _ _ _ _ D D2). apply (IH k'); auto; lia.
Qed.

(** ** Second pass *)
Definition lifted (e : elem) (t t' : tag) : Prop :=
  match kind_of (e_cls e) with
  | None => t' = t
  | Some k => match anchor k e with
              | None => t' = t
              | Some a => match dget m a with
                          | Some _ => t' = t
                          | None => (exists y q u, nearest d m a y /\ inner y /\ bears es y q /\ nth_error T1 q = Some u /\ t' = mkTag (t_feeder u) (t_sub u) (t_series t)) \/
                                    ((forall y, ~ nearest d m a y) /\ t' = t)
                          end
              end
  end.

Lemma upstream_step fuel ts i e ts' : stable ts -> nth_error es i = Some e -> tag_upstream es n m fuel ts (i, e) = Ok ts' ->
  stable ts' /\ (forall t, nth_error ts i = Some t -> exists t', nth_error ts' i = Some t' /\ lifted e t t') /\ (forall j, j <> i -> nth_error ts' j = nth_error ts j) /\ length ts' = length ts.
Proof.
  intros St He. unfold tag_upstream, lifted. destruct (kind_of (e_cls e)) as [k|] eqn:K; [|intros E; injection E as <-; eauto 6].
  destruct (nth_error ts i) as [t|] eqn:Et; [|intros E; injection E as <-; split; [exact St|split; [discriminate|auto]]].
  unfold feeder_at. destruct (anchor k e) as [a|] eqn:A; [|discriminate]. destruct (dget m a) as [f|] eqn:Ma; [intros E; injection E as <-; split; [exact St|]; split; [intros t0 Q; injection Q as <-; eauto|auto]|].
  destruct (look_up es n m ts fuel a) as [r|] eqn:Lo; [|discriminate]. cbn [bind]. apply (look_up_ok ts fuel St) in Lo. destruct r as [u|]; intros E; injection E as <-.
  - destruct Lo as (z & y & q & L1 & L2 & L3 & L4). split; [|split; [|split; [|apply put_length]]].
    + intros y' p Hy Hp My. rewrite nth_put. destruct (Nat.eqb_spec i p) as [<-|]; [|apply (St y'); auto]. exfalso.
      destruct (node_bears y' Hy) as (q' & e' & Hq & He' & Hc & Hn). rewrite <- (bears_fun _ _ _ Hp Hq) in He'. assert (e' = e) by congruence. subst e'.
      rewrite (Hc My) in K. injection K as <-. cbn in A. rewrite Hn in A. congruence.
    + intros t0 Q. injection Q as <-. eexists. rewrite nth_put, Nat.eqb_refl, Et. split; [reflexivity|]. left. exists y, q, u.
      split; [apply (nearest_up _ _ _ z); auto|]. split; [apply (nearest_node z a); auto|]. auto.
    + intros j Hj. rewrite nth_put. destruct (Nat.eqb_spec i j); [congruence|reflexivity].
  - split; [exact St|]. split; [|auto]. intros t0 Q. injection Q as <-. exists t. split; [exact Et|]. right. split; [|reflexivity].
    intros y H. inversion H as [x0 K'|x0 z0 y0 K' A' K'']; subst; [congruence|]. exact (Lo _ _ A' K'').
Qed.

Lemma pass_two fuel L : NoDup (map fst L) -> (forall i e, In (i, e) L -> nth_error es i = Some e) -> forall ts ts', stable ts -> foldM (tag_upstream es n m fuel) L ts = Ok ts' ->
  length ts' = length ts /\
  (forall i e t, In (i, e) L -> nth_error ts i = Some t -> exists t', nth_error ts' i = Some t' /\ lifted e t t') /\
  (forall j, ~ In j (map fst L) -> nth_error ts' j = nth_error ts j).
Proof.
  induction L as [|[i e] L IH]; intros Nd HL ts ts' St E.
  - injection E as <-. split; [reflexivity|]. split; [intros i e t []|reflexivity].
  - cbn [foldM] in E. destruct (tag_upstream es n m fuel ts (i, e)) as [ts1|] eqn:E1; [|discriminate]. cbn [map fst] in Nd. apply NoDup_cons_iff in Nd. destruct Nd as [N0 Nd].
    destruct (upstream_step fuel ts i e ts1 St (HL _ _ (or_introl eq_refl)) E1) as (S1 & A1 & O1 & Ln1).
    destruct (IH Nd (fun i' e' H => HL i' e' (or_intror H)) ts1 ts' S1 E) as (Ln2 & A2 & O2). split; [congruence|]. split.
    + intros i' e' t [Q|Q] Ht.
      * injection Q as <- <-. destruct (A1 t Ht) as (t' & Ht' & Hl). exists t'. split; [rewrite O2 by exact N0; exact Ht'|exact Hl].
      * apply A2; [exact Q|]. rewrite O1; [exact Ht|]. intros ->. apply N0, in_map_iff. exists (i, e'). auto.
    + intros j Hj. cbn in Hj. rewrite O2 by tauto. apply O1. intros ->. tauto.
Qed.

Lemma stable_T1 : stable T1.
Proof. intros y p _ _ _. reflexivity. Qed.

Lemma objs_L i e : In (i, e) objs -> nth_error es i = Some e.
Proof. intros H. apply objs_In in H. rewrite Nat.sub_0_r in H. apply H. Qed.
Lemma in_objs i e : nth_error es i = Some e -> In (i, e) objs.
Proof.
  intros H. assert (F := objs_find es 0 i). rewrite H in F. apply find_some in F. apply F.
Qed.

Theorem tag_effect fuel ts' : tag_objects es n m subs fuel T0 = Ok ts' ->
  length ts' = length es /\ forall i e t, nth_error es i = Some e -> nth_error T0 i = Some t -> exists t', nth_error ts' i = Some t' /\ lifted e (direct e t) t'.
Proof.
  intros E. unfold tag_objects in E. fold objs in E. fold T1 in E.
  destruct (pass_two fuel objs) with (ts := T1) (ts' := ts') as (Ln & A & O); [unfold objs; rewrite objs_fst; apply seq_NoDup|exact objs_L|exact stable_T1|exact E|].
  split.
  - rewrite Ln, <- LT. unfold T1. clear. generalize T0 as ts. induction objs as [|[i e] L IH]; intros ts; [reflexivity|]. cbn [fold_left]. rewrite IH. unfold tag_direct.
    destruct (kind_of (e_cls e)); [|reflexivity]. destruct (nth_error ts i); [apply put_length|reflexivity].
  - intros i e t He Ht. apply A; [apply in_objs, He|apply T1_at; auto].
Qed.

(** ** Success *)
Theorem tag_total fuel : (forall i e, nth_error es i = Some e -> taggable e -> exists x, sits_at e x /\ (dget m x <> None \/ In x (d_nodes d))) -> length (d_nodes d) < fuel ->
  exists ts', tag_objects es n m subs fuel T0 = Ok ts'.
Proof.
  intros Ok' Fu. unfold tag_objects. fold objs. fold T1.
  assert (G : forall L, (forall i e, In (i, e) L -> nth_error es i = Some e) -> forall ts, stable ts -> exists ts', foldM (tag_upstream es n m fuel) L ts = Ok ts').
  { induction L as [|[i e] L IH]; intros HL ts St; [eexists; reflexivity|]. cbn [foldM].
    assert (S1 : exists ts1, tag_upstream es n m fuel ts (i, e) = Ok ts1).
    { unfold tag_upstream. destruct (kind_of (e_cls e)) as [k|] eqn:K; [|eauto]. destruct (nth_error ts i) as [t|] eqn:Et; [|eauto].
      destruct (Ok' i e (HL _ _ (or_introl eq_refl))) as (x & Sx & Hx); [apply kind_taggable; congruence|]. apply sits_anchor in Sx. destruct Sx as (k' & K' & A). assert (k' = k) by congruence. subst k'.
      rewrite A. cbn [feeder_at]. destruct (dget m x) as [f|] eqn:Mx; [eauto|]. destruct Hx as [Hx|Hx]; [congruence|].
      assert (R := proj1 (proj1 (built_node _ _ _ _ B) Hx)). destruct (built_dist _ _ _ _ B R) as [k0 D0].
      destruct (look_up_total k0 x ts fuel St Hx D0) as [r ->]; [assert (Q := d_node_dist_bound _ _ _ _ _ B D0); lia|]. cbn [bind]. destruct r; eauto. }
    destruct S1 as [ts1 E1]. rewrite E1. apply IH; [intros i' e' H; apply HL; right; exact H|]. apply (upstream_step fuel ts i e ts1 St (HL _ _ (or_introl eq_refl)) E1). }
  apply G; [exact objs_L|exact stable_T1].
Qed.
End Tagging.
