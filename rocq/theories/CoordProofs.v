(** Lemmas about missing coordinates. *)
From Verif Require Import Base BaseFacts StoreModel NetworkModel NetworkSpec NetworkProofs NetworkBfs NetworkQueries NetworkDown NetworkTop ReaderProofs CoordModel CoordSpec.
From Coq Require Import QArith Lqa.
Local Open Scope string_scope.
Local Open Scope nat_scope.
Local Open Scope list_scope.

Lemma nth_place ps i : place_at ps i = match nth_error ps i with Some p => p | None => None end.
Proof. unfold place_at. revert i. induction ps as [|x ps IH]; intros [|i]; cbn; auto. Qed.
Lemma is_zero_false c : is_zero c = false <-> nonzero c.
Proof.
  unfold is_zero, nonzero. destruct c as [q|]; [|split; [discriminate|reflexivity]]. split.
  - intros H r E. injection E as <-. intros Q. apply Qeq_bool_iff in Q. congruence.
  - intros H. destruct (Qeq_bool q 0) eqn:E; [|reflexivity]. apply Qeq_bool_iff in E. exfalso. exact (H q eq_refl E).
Qed.
Lemma coords_of_spec ps i la lo : coords_of (place_at ps i) = Some (la, lo) <-> located ps i la lo.
Proof.
  rewrite nth_place. unfold located. destruct (nth_error ps i) as [[[[|[a b] l]|]|]|]; cbn [coords_of]; try (split; [discriminate|intros (r & E & _); discriminate]).
  destruct (is_zero a || is_zero b) eqn:Z.
  - split; [discriminate|]. intros (r & E & Na & Nb). injection E as -> -> ->. apply is_zero_false in Na, Nb. rewrite Na, Nb in Z. discriminate.
  - apply orb_false_iff in Z. destruct Z as [Ea Eb]. apply is_zero_false in Ea, Eb. split.
    + intros E. injection E as <- <-. exists l. auto.
    + intros (r & E & _). injection E as -> -> ->. reflexivity.
Qed.
Lemma coords_of_none ps i : coords_of (place_at ps i) = None <-> forall la lo, ~ located ps i la lo.
Proof.
  split; [intros E la lo H; apply coords_of_spec in H; congruence|]. intros H. destruct (coords_of (place_at ps i)) as [[la lo]|] eqn:E; [|reflexivity].
  exfalso. apply (H la lo). apply coords_of_spec. exact E.
Qed.
Lemma misses_spec ps i : misses (place_at ps i) = true <-> missing ps i.
Proof.
  unfold missing, placeable. rewrite <- coords_of_none. rewrite nth_place. unfold misses. destruct (nth_error ps i) as [[l|]|].
  - destruct (coords_of (Some l)); split; try discriminate; [intros [_ Q]; discriminate|intros _; split; eauto|reflexivity].
  - split; [discriminate|]. intros [[l E] _]. discriminate.
  - split; [discriminate|]. intros [[l E] _]. discriminate.
Qed.

Lemma nth_set ps i p j : nth_error (set_place ps i p) j = if Nat.eqb i j then match nth_error ps i with Some _ => Some p | None => None end else nth_error ps j.
Proof.
  revert i j. induction ps as [|x ps IH]; intros [|i] [|j]; cbn; try reflexivity; [|apply IH].
  destruct (Nat.eqb i j); reflexivity.
Qed.
Lemma set_length ps i p : length (set_place ps i p) = length ps.
Proof. revert i. induction ps as [|x ps IH]; intros [|i]; cbn; auto. Qed.

Lemma nth_combine {A B} (l : list A) (k : list B) : forall x y, In (x, y) (combine l k) <-> exists i, nth_error l i = Some x /\ nth_error k i = Some y.
Proof.
  revert k. induction l as [|a l IH]; intros [|b k] x y; cbn.
  - split; [intros []|]. intros ([|i] & H & _); discriminate.
  - split; [intros []|]. intros ([|i] & H & _); discriminate.
  - split; [intros []|]. intros ([|i] & _ & H); discriminate.
  - rewrite IH. split.
    + intros [E|(i & H1 & H2)]; [injection E as <- <-; exists 0; auto|exists (S i); auto].
    + intros ([|i] & H1 & H2); cbn in *; [left; congruence|right; eauto].
Qed.

Lemma recur_nodes_spec g es ps x : In x (recur_nodes g es ps) <->
  In x (g_nodes g) /\ exists i e, nth_error es i = Some e /\ e_name e = Some (Some x) /\ missing ps i.
Proof.
  unfold recur_nodes. rewrite in_flat_map. split.
  - intros ([e p] & H & Hx). apply nth_combine in H. destruct H as (i & He & Hp). destruct (misses p) eqn:M; [|destruct Hx].
    destruct (e_name e) as [[y|]|] eqn:N; try destruct Hx. destruct (smem y (g_nodes g)) eqn:S; [|destruct Hx]. destruct Hx as [->|[]]. apply smem_In in S.
    split; [exact S|]. exists i, e. split; [exact He|]. split; [exact N|]. apply misses_spec. rewrite nth_place, Hp. exact M.
  - intros (S & i & e & He & N & M). apply smem_In in S. assert (Mi := M). destruct M as [[l Hl] _]. exists (e, Some l). split; [apply nth_combine; eauto|].
    apply misses_spec in Mi. rewrite nth_place, Hl in Mi. rewrite Mi, N, S. left. reflexivity.
Qed.

(** ** Averages *)
Lemma average_spec l q : average l = Ok q -> forall a b, (forall r, In (Some r) l -> (a <= r <= b)%Q) -> l <> [] -> (a <= q <= b)%Q.
Proof.
  unfold average. intros E a b H N. destruct (mapM (of_opt EType) l) as [qs|] eqn:M; cbn [bind] in E; [|discriminate]. injection E as <-.
  assert (L : length qs = length l) by (eapply mapM_length; eauto).
  assert (Hq : forall r, In r qs -> (a <= r <= b)%Q).
  { clear N L. revert qs M. induction l as [|[y|] l IH]; intros qs M; cbn [mapM of_opt] in M; [injection M as <-; intros r []| |discriminate].
    destruct (mapM (of_opt EType) l) as [qs'|] eqn:M'; [|discriminate]. injection M as <-. intros r [<-|Hr]; [apply H; left; reflexivity|].
    apply (IH (fun r Hr => H r (or_intror Hr)) qs' eq_refl). exact Hr. }
  assert (P : 0 < length qs) by (destruct l; [congruence|cbn in L; lia]).
  assert (Sm : forall acc k, (inject_Z (Z.of_nat k) * a <= acc <= inject_Z (Z.of_nat k) * b ->
              inject_Z (Z.of_nat (k + length qs)) * a <= fold_left Qplus qs acc <= inject_Z (Z.of_nat (k + length qs)) * b)%Q).
  { clear P L M N. induction qs as [|r qs IH]; intros acc k Ha; cbn [fold_left length]; [rewrite Nat.add_0_r; exact Ha|].
    rewrite Nat.add_succ_r. rewrite <- Nat.add_succ_l. apply IH; [intros r' Hr'; apply Hq; right; exact Hr'|].
    assert (Hr := Hq r (or_introl eq_refl)). rewrite Nat2Z.inj_succ. unfold Z.succ. rewrite inject_Z_plus. change (inject_Z 1) with 1%Q. lra. }
  specialize (Sm 0%Q 0). cbn [Nat.add] in Sm. specialize (Sm ltac:(change (inject_Z (Z.of_nat 0)) with 0%Q; lra)).
  assert (Np : (0 < inject_Z (Z.of_nat (length qs)))%Q) by (unfold Qlt, inject_Z; cbn; lia).
  split; [apply Qle_shift_div_l|apply Qle_shift_div_r]; try exact Np; lra.
Qed.
Lemma average_total l : (forall c, In c l -> c <> None) -> exists q, average l = Ok q.
Proof.
  intros H. unfold average. assert (M : exists qs, mapM (of_opt EType) l = Ok qs).
  { induction l as [|[y|] l IH]; cbn [mapM of_opt]; [eauto| |exfalso; exact (H None (or_introl eq_refl) eq_refl)].
    destruct IH as [qs ->]; [intros c Hc; apply H; right; exact Hc|]. eauto. }
  destruct M as [qs ->]. cbn [bind]. eauto.
Qed.
Lemma average_no_fuel l : average l <> Err EFuel.
Proof.
  unfold average. assert (M : forall e, mapM (of_opt EType) l = Err e -> e = EType).
  { induction l as [|[y|] l IH]; cbn [mapM of_opt]; intros e E; try congruence. destruct (mapM (of_opt EType) l) as [|e'] eqn:M; [discriminate|]. injection E as <-. apply IH. reflexivity. }
  destruct (mapM (of_opt EType) l) as [qs|e] eqn:E; cbn [bind]; [discriminate|]. rewrite (M e eq_refl). discriminate.
Qed.

Definition in_box (la lo a b c d : Q) : Prop := (a <= la <= b /\ c <= lo <= d)%Q.

Section Fill.
Variable es : list elem.
Variable g : graph.
Hypothesis Edge : forall u v, has_edge g u v = true <-> linked es u v.

Lemma nb x y : In y (neighbors g x) <-> linked es x y.
Proof. rewrite neighbors_spec. apply Edge. Qed.

Definition stuck (ps : places) (x : string) : Prop := forall y, linked es x y -> exists j, bears es y j /\ forall la lo, ~ located ps j la lo.
Definition written (ps : places) (x : string) (ps' : places) : Prop :=
  exists i la lo, bears es x i /\ ps' = set_place ps i (Some (Some [(Some la, Some lo)])) /\ forall a b c d, bounded ps a b c d -> in_box la lo a b c d.

Lemma found_spec ps l found : mapM (fun y => do j <- of_opt EKey (lookup es (Some y)); Ok (coords_of (place_at ps j))) l = Ok found ->
  (forall c, In (Some c) found -> exists j, located ps j (fst c) (snd c)) /\
  ((forall c, ~ In (Some c) found) -> forall y, In y l -> exists j, bears es y j /\ forall la lo, ~ located ps j la lo).
Proof.
  revert found. induction l as [|y l IH]; intros found E; cbn [mapM] in E; [injection E as <-; split; [intros c []|intros _ y []]|].
  destruct (lookup es (Some y)) as [j|] eqn:L; cbn [of_opt bind] in E; [|discriminate].
  destruct (mapM _ l) as [fs|] eqn:M; [|discriminate]. injection E as <-. destruct (IH fs eq_refl) as [I1 I2]. split.
  - intros [la lo] [H|H]; [|apply I1; exact H]. exists j. apply coords_of_spec. exact H.
  - intros H z [<-|Hz].
    + exists j. split; [apply lookup_spec; exact L|]. apply coords_of_none. destruct (coords_of (place_at ps j)) as [c|] eqn:C; [|reflexivity]. exfalso. apply (H c). left. reflexivity.
    + apply I2; [|exact Hz]. intros c Hc. apply (H c). right. exact Hc.
Qed.

Lemma adj_In (found : list (option pos)) c : In c (flat_map (fun c => match c with Some v => [v] | None => [] end) found) <-> In (Some c) found.
Proof.
  rewrite in_flat_map. split.
  - intros ([v|] & H & Hc); [destruct Hc as [<-|[]]; exact H|destruct Hc].
  - intros H. exists (Some c). split; [exact H|left; reflexivity].
Qed.

Lemma visit_spec ps x ps' st : visit g es ps x = Ok (ps', st) ->
  (st = true /\ ps' = ps /\ stuck ps x) \/ (st = false /\ written ps x ps').
Proof.
  unfold visit. intros E. destruct (mapM _ (neighbors g x)) as [found|] eqn:M; cbn [bind] in E; [|discriminate].
  destruct (found_spec _ _ _ M) as [F1 F2]. set (adj := flat_map _ found) in E.
  assert (A : forall c, In c adj <-> In (Some c) found) by (intros c; apply adj_In). clearbody adj.
  destruct adj as [|c0 adj].
  - injection E as <- <-. left. split; [reflexivity|]. split; [reflexivity|]. intros y Hy. apply F2; [intros c Hc; apply A in Hc; destruct Hc|]. apply nb. exact Hy.
  - set (l := c0 :: adj) in *. destruct (average (map fst l)) as [la|] eqn:Ela; cbn [bind] in E; [|discriminate].
    destruct (average (map snd l)) as [lo|] eqn:Elo; cbn [bind] in E; [|discriminate].
    destruct (lookup es (Some x)) as [i|] eqn:L; cbn [of_opt bind] in E; [|discriminate]. injection E as <- <-. right. split; [reflexivity|].
    exists i, la, lo. split; [apply lookup_spec; exact L|]. split; [reflexivity|]. intros a b c d Bd. split.
    + eapply average_spec; [exact Ela| |discriminate]. intros r Hr. apply in_map_iff in Hr. destruct Hr as (p & Ep & Hp). apply A, F1 in Hp. destruct Hp as [j Hj].
      destruct (Bd _ _ _ Hj) as [H _]. apply H. exact Ep.
    + eapply average_spec; [exact Elo| |discriminate]. intros r Hr. apply in_map_iff in Hr. destruct Hr as (p & Ep & Hp). apply A, F1 in Hp. destruct Hp as [j Hj].
      destruct (Bd _ _ _ Hj) as [_ H]. apply H. exact Ep.
Qed.

(** The places a run goes through: names of [S] are given coordinates inside every box. *)
Inductive moves (S : string -> Prop) : places -> places -> Prop :=
| mv_refl ps : moves S ps ps
| mv_step ps ps1 ps2 x : moves S ps ps1 -> S x -> written ps1 x ps2 -> moves S ps ps2.
Lemma moves_trans S a b c : moves S a b -> moves S b c -> moves S a c.
Proof. intros H K. induction K as [|p1 p2 p3 x K IH Sx W]; [exact H|]. apply mv_step with (ps1 := p2) (x := x); auto. Qed.
Lemma moves_mono (S T : string -> Prop) a b : (forall x, S x -> T x) -> moves S a b -> moves T a b.
Proof. intros I H. induction H as [|p1 p2 p3 x K IH Sx W]; [constructor|]. apply mv_step with (ps1 := p2) (x := x); auto. Qed.

Lemma located_set ps i p j la lo : located (set_place ps i p) j la lo -> (j = i /\ exists rest, p = Some (Some ((la, lo) :: rest))) \/ located ps j la lo.
Proof.
  intros (rest & E & N1 & N2). rewrite nth_set in E. destruct (Nat.eqb_spec i j) as [<-|].
  - left. split; [reflexivity|]. destruct (nth_error ps i); [|discriminate]. injection E as ->. eauto.
  - right. exists rest. auto.
Qed.
Lemma moves_bounded S ps ps' a b c d : moves S ps ps' -> bounded ps a b c d -> bounded ps' a b c d.
Proof.
  intros H. induction H as [|ps ps1 ps2 x H IH Sx (i & la & lo & Bx & -> & Hb)]; [auto|]. intros Bd. specialize (IH Bd). destruct (Hb _ _ _ _ IH) as [H1 H2].
  intros j la' lo' L. apply located_set in L. destruct L as [(-> & rest & E)|L]; [|exact (IH j la' lo' L)]. injection E as <- <- <-.
  split; intros q E; injection E as <-; assumption.
Qed.
Lemma moves_length S ps ps' : moves S ps ps' -> length ps' = length ps.
Proof. intros H. induction H as [|ps ps1 ps2 x H IH Sx (i & la & lo & Bx & -> & Hb)]; [reflexivity|]. rewrite set_length. exact IH. Qed.
Lemma moves_change S ps ps' : moves S ps ps' -> forall i, nth_error ps' i = nth_error ps i \/
  exists x la lo, S x /\ bears es x i /\ nth_error ps' i = Some (Some (Some [(Some la, Some lo)])) /\ forall a b c d, bounded ps a b c d -> in_box la lo a b c d.
Proof.
  intros H. induction H as [|ps ps1 ps2 x H IH Sx (i & la & lo & Bx & -> & Hb)]; [auto|]. intros j. rewrite nth_set. destruct (Nat.eqb_spec i j) as [<-|]; [|apply IH].
  destruct (nth_error ps1 i) eqn:E.
  - right. exists x, la, lo. split; [exact Sx|]. split; [exact Bx|]. split; [reflexivity|]. intros a b c d Bd. apply Hb. eapply moves_bounded; eauto.
  - destruct (IH i) as [Q|(x' & la' & lo' & _ & _ & Q & _)]; [left; congruence|congruence].
Qed.

Lemma sweep_spec l : forall ps acc ps' out,
  foldM (fun '(ps, next) x => do '(ps', stays) <- visit g es ps x; Ok (ps', if stays : bool then next ++ [x] else next)) l (ps, acc) = Ok (ps', out) ->
  exists next, out = acc ++ next /\ length next <= length l /\ (forall x, In x next -> In x l) /\ moves (fun x => In x l) ps ps' /\
    (forall x, In x l -> In x next \/ exists ps1 ps2, written ps1 x ps2 /\ moves (fun x => In x l) ps ps1 /\ moves (fun x => In x l) ps2 ps') /\
    (length next = length l -> ps' = ps /\ next = l /\ forall x, In x l -> stuck ps x).
Proof.
  induction l as [|x l IH]; intros ps acc ps' out E; cbn [foldM] in E.
  - injection E as <- <-. exists []. rewrite app_nil_r. split; [reflexivity|]. split; [auto|]. split; [auto|]. split; [constructor|]. split; [intros x []|].
    intros _. split; [reflexivity|]. split; [reflexivity|]. intros x [].
  - destruct (visit g es ps x) as [[ps1 st]|] eqn:V; cbn [bind] in E; [|discriminate]. apply visit_spec in V.
    assert (Mono : forall a b, moves (fun z => In z l) a b -> moves (fun z => In z (x :: l)) a b) by (intros a b; apply moves_mono; intros z Hz; right; exact Hz).
    destruct V as [(-> & -> & St)|(-> & W)].
    + apply IH in E. destruct E as (nx & -> & L1 & Sub & Mv & Cov & Same). exists (x :: nx). rewrite <- app_assoc. split; [reflexivity|]. split; [cbn; lia|].
      split; [intros z [<-|Hz]; [left; reflexivity|right; apply Sub; exact Hz]|]. split; [apply Mono; exact Mv|]. split.
      * intros z [<-|Hz]; [left; left; reflexivity|]. destruct (Cov z Hz) as [H|(p1 & p2 & W & M1 & M2)]; [left; right; exact H|right; exists p1, p2; auto].
      * intros L. cbn in L. destruct Same as (-> & -> & Hs); [lia|]. split; [reflexivity|]. split; [reflexivity|]. intros z [<-|Hz]; auto.
    + apply IH in E. destruct E as (nx & -> & L1 & Sub & Mv & Cov & Same).
      assert (M0 : moves (fun z => In z (x :: l)) ps ps1) by (eapply mv_step; [constructor|left; reflexivity|exact W]).
      exists nx. split; [reflexivity|]. split; [cbn; lia|]. split; [intros z Hz; right; apply Sub; exact Hz|]. split; [eapply moves_trans; [exact M0|apply Mono; exact Mv]|]. split.
      * intros z [<-|Hz]; [right; exists ps, ps1; split; [exact W|]; split; [constructor|apply Mono; exact Mv]|].
        destruct (Cov z Hz) as [H|(p1 & p2 & W2 & M1 & M2)]; [left; exact H|right; exists p1, p2; split; [exact W2|]; split; [eapply moves_trans; [exact M0|auto]|auto]].
      * intros L. cbn in L. lia.
Qed.

Lemma visit_no_fuel ps x : visit g es ps x <> Err EFuel.
Proof.
  unfold visit. assert (M : forall l e, mapM (fun y => do j <- of_opt EKey (lookup es (Some y)); Ok (coords_of (place_at ps j))) l = Err e -> e = EKey).
  { induction l as [|y l IH]; cbn [mapM]; [discriminate|]. intros e. destruct (lookup es (Some y)) as [j|]; cbn [of_opt bind]; [|congruence].
    destruct (mapM _ l) as [|e'] eqn:Q; [discriminate|]. intros E. injection E as <-. apply IH. reflexivity. }
  destruct (mapM _ (neighbors g x)) as [found|e] eqn:E; cbn [bind]; [|rewrite (M _ _ E); discriminate].
  destruct (flat_map _ found) as [|c0 adj]; [discriminate|]. set (l := c0 :: adj).
  destruct (average (map fst l)) as [la|e] eqn:A1; cbn [bind]; [|intros Q; injection Q as ->; exact (average_no_fuel _ A1)].
  destruct (average (map snd l)) as [lo|e] eqn:A2; cbn [bind]; [|intros Q; injection Q as ->; exact (average_no_fuel _ A2)].
  destruct (lookup es (Some x)); cbn; discriminate.
Qed.
Lemma sweep_no_fuel l : forall st, foldM (fun '(ps, next) x => do '(ps', stays) <- visit g es ps x; Ok (ps', if stays : bool then next ++ [x] else next)) l st <> Err EFuel.
Proof.
  induction l as [|x l IH]; intros [ps acc]; cbn [foldM]; [discriminate|]. destruct (visit g es ps x) as [[ps1 st]|e] eqn:V; cbn [bind]; [apply IH|].
  intros Q. injection Q as ->. exact (visit_no_fuel _ _ V).
Qed.

Lemma loop_no_fuel fuel : forall ps l, length l <= fuel -> fill_loop fuel g es ps l <> Err EFuel.
Proof.
  induction fuel as [|fuel IH]; intros ps [|x l] L; cbn [fill_loop]; try discriminate; [cbn in L; lia|].
  destruct (sweep g es ps (x :: l)) as [[ps' next]|e] eqn:S; cbn [bind].
  - unfold sweep in S. apply sweep_spec in S. destruct S as (nx & E & L1 & _). cbn [app] in E. subst nx. destruct (Nat.eqb_spec (length next) (length (x :: l))); [discriminate|].
    apply IH. cbn [length] in *. lia.
  - intros Q. injection Q as ->. exact (sweep_no_fuel _ _ S).
Qed.

Lemma loop_spec fuel : forall ps l ps', fill_loop fuel g es ps l = Ok ps' ->
  moves (fun x => In x l) ps ps' /\
  forall x, In x l -> stuck ps' x \/ exists ps1 ps2, written ps1 x ps2 /\ moves (fun x => In x l) ps ps1 /\ moves (fun x => In x l) ps2 ps'.
Proof.
  induction fuel as [|fuel IH]; intros ps [|x l] ps' E; cbn [fill_loop] in E; try discriminate; try (injection E as <-; split; [constructor|intros x []]).
  destruct (sweep g es ps (x :: l)) as [[ps1 next]|e] eqn:S; cbn [bind] in E; [|discriminate].
  unfold sweep in S. apply sweep_spec in S. destruct S as (nx & En & L1 & Sub & Mv & Cov & Same). cbn [app] in En. subst nx.
  destruct (Nat.eqb_spec (length next) (length (x :: l))) as [Q|Q].
  - injection E as <-. destruct (Same Q) as (-> & -> & St). split; [exact Mv|]. intros z Hz. left. apply St. exact Hz.
  - apply IH in E. destruct E as [Mv2 H2]. assert (Mono : forall a b, moves (fun z => In z next) a b -> moves (fun z => In z (x :: l)) a b) by (intros a b; apply moves_mono; exact Sub).
    split; [eapply moves_trans; [exact Mv|apply Mono; exact Mv2]|]. intros z Hz. destruct (Cov z Hz) as [Hn|(p1 & p2 & W & M1 & M2)].
    + destruct (H2 z Hn) as [St|(p1 & p2 & W & M1 & M2)]; [left; exact St|]. right. exists p1, p2. split; [exact W|]. split; [eapply moves_trans; [exact Mv|auto]|auto].
    + right. exists p1, p2. split; [exact W|]. split; [exact M1|]. eapply moves_trans; [exact M2|auto].
Qed.

(** Coordinates away from 0 stay so. *)
Definition off_zero (a b : Q) : Prop := (0 < a \/ b < 0)%Q.
Lemma off_nonzero a b q : off_zero a b -> (a <= q <= b)%Q -> nonzero (Some q).
Proof. intros O H r E. injection E as <-. destruct O; lra. Qed.

Lemma located_moves S ps ps' a b c d i : off_zero a b -> off_zero c d -> bounded ps a b c d -> moves S ps ps' ->
  (exists la lo, located ps i la lo) -> exists la lo, located ps' i la lo.
Proof.
  intros O1 O2 Bd M (la & lo & L). destruct (moves_change _ _ _ M i) as [E|(x & la' & lo' & Sx & Bx & E & Hb)].
  - exists la, lo. destruct L as (r & E' & N). exists r. split; [congruence|exact N].
  - destruct (Hb _ _ _ _ Bd) as [H1 H2]. exists (Some la'), (Some lo'). exists []. split; [exact E|]. split; [apply (off_nonzero a b)|apply (off_nonzero c d)]; assumption.
Qed.
Lemma located_written ps x ps' a b c d : off_zero a b -> off_zero c d -> bounded ps a b c d -> length ps = length es -> written ps x ps' ->
  exists i, bears es x i /\ exists la lo, located ps' i la lo.
Proof.
  intros O1 O2 Bd Ln (i & la & lo & Bx & -> & Hb). exists i. split; [exact Bx|]. destruct (Hb _ _ _ _ Bd) as [H1 H2]. exists (Some la), (Some lo). exists [].
  split; [|split; [apply (off_nonzero a b)|apply (off_nonzero c d)]; assumption]. rewrite nth_set, Nat.eqb_refl. destruct (nth_error ps i) eqn:E; [reflexivity|]. exfalso.
  apply nth_error_None in E. destruct Bx as [(e & He & _) _]. assert (nth_error es i <> None) by congruence. apply nth_error_Some in H. lia.
Qed.

Lemma bears_unique x i j : bears es x i -> bears es x j -> i = j.
Proof. intros [(e & He & Ne) Hi] [(e' & He' & Ne') Hj]. assert (i <= j) by (eapply Hj; eauto). assert (j <= i) by (eapply Hi; eauto). lia. Qed.
End Fill.

Lemma bears_total es x i e : nth_error es i = Some e -> e_name e = Some (Some x) -> exists p, bears es x p.
Proof.
  intros He Ne. destruct (lookup es (Some x)) as [p|] eqn:L; [exists p; apply lookup_spec; exact L|]. exfalso.
  assert (No : forall p, ~ bears es x p) by (intros p Hp; apply lookup_spec in Hp; congruence). clear L.
  assert (G : forall k, (exists q e', i <= q /\ nth_error es q = Some e' /\ e_name e' = Some (Some x) /\ length es - q <= k) -> False).
  { induction k as [|k IH]; intros (q & e' & Hq & He' & Ne' & Lk).
    - assert (nth_error es q <> None) by congruence. apply nth_error_Some in H. lia.
    - apply (No q). split; [eauto|]. intros r e2 He2 Ne2. destruct (Nat.le_gt_cases r q) as [|G]; [assumption|]. exfalso. apply IH. exists r, e2.
      assert (nth_error es r <> None) by congruence. apply nth_error_Some in H. repeat split; auto; lia. }
  apply (G (length es)). exists i, e. repeat split; auto. lia.
Qed.

Section Top.
Variable es : list elem.
Variable s : string.
Variable n : network.
Hypothesis Bn : build es s = Ok n.
Notation g := (net_graph n).

Lemma edge_linked u v : has_edge g u v = true <-> linked es u v.
Proof. apply (b_edge _ _ _ (build_built _ _ _ Bn)). Qed.
Lemma node_linked x : In x (g_nodes g) <-> exists y, linked es x y.
Proof. apply (build_contents _ _ _ Bn). Qed.

Lemma coords_terminate ps : set_missing_coords_recur (length (recur_nodes g es ps)) g es ps <> Err EFuel.
Proof. apply loop_no_fuel; [exact edge_linked|auto]. Qed.

Lemma coords_spec fuel ps ps' : set_missing_coords_recur fuel g es ps = Ok ps' ->
  length ps' = length ps /\
  forall i, nth_error ps' i = nth_error ps i \/
    exists x la lo, bears es x i /\ (exists y, linked es x y) /\ (exists j e, nth_error es j = Some e /\ e_name e = Some (Some x) /\ missing ps j) /\
      nth_error ps' i = Some (Some (Some [(Some la, Some lo)])) /\
      forall a b c d, bounded ps a b c d -> (a <= la <= b /\ c <= lo <= d)%Q.
Proof.
  intros E. apply (loop_spec es g edge_linked) in E. destruct E as [M _]. split; [eapply moves_length; eauto|]. intros i.
  destruct (moves_change _ _ _ _ M i) as [H|(x & la & lo & Sx & Bx & E & Hb)]; [left; exact H|right]. exists x, la, lo. apply recur_nodes_spec in Sx. destruct Sx as [G H].
  split; [exact Bx|]. split; [apply node_linked; exact G|]. auto.
Qed.

Lemma coords_unchanged fuel ps ps' : unique_names es -> set_missing_coords_recur fuel g es ps = Ok ps' ->
  forall i, (~ missing ps i \/ forall x, bears es x i -> forall y, ~ linked es x y) -> nth_error ps' i = nth_error ps i.
Proof.
  intros U E i H. destruct (coords_spec _ _ _ E) as [_ C]. destruct (C i) as [|(x & la & lo & Bx & (y & Hy) & (j & e & He & Ne & Mj) & _)]; [assumption|]. exfalso.
  destruct H as [H|H]; [|exact (H x Bx y Hy)]. apply H. destruct Bx as [(e' & He' & Ne') _]. rewrite (U i j e' e x); assumption.
Qed.

Lemma coords_complete fuel ps ps' a b c d : set_missing_coords_recur fuel g es ps = Ok ps' -> length ps = length es ->
  bounded ps a b c d -> (0 < a \/ b < 0)%Q -> (0 < c \/ d < 0)%Q ->
  forall u v p q, bears es u p -> (exists la lo, located ps p la lo) -> chain es ps u v -> bears es v q -> exists la lo, located ps' q la lo.
Proof.
  intros E Ln Bd O1 O2 u v p q Bu Lu Ch. apply (loop_spec es g edge_linked) in E. destruct E as [M H].
  assert (Keep : forall i, (exists la lo, located ps i la lo) -> exists la lo, located ps' i la lo) by (intros i Hi; exact (located_moves es _ ps ps' a b c d i O1 O2 Bd M Hi)).
  revert q. induction Ch as [|v w r Ch IH Lk Bw Pw]; intros q Bq.
  - rewrite (bears_unique _ _ _ _ Bq Bu). apply Keep. exact Lu.
  - rewrite (bears_unique _ _ _ _ Bq Bw).
    destruct (misses (place_at ps r)) eqn:Mi.
    + apply misses_spec in Mi. assert (Lr : In w (recur_nodes g es ps)).
      { apply recur_nodes_spec. split; [apply node_linked; exists v; destruct Lk as (i & Hi & Hl); exists i; split; [exact Hi|tauto]|].
        destruct Bw as [(e & He & Ne) _]. eauto. }
      destruct (H w Lr) as [St|(p1 & p2 & W & M1 & M2)].
      * exfalso. destruct (St v) as (j & Bj & Nj); [destruct Lk as (i & Hi & Hl); exists i; split; [exact Hi|tauto]|].
        destruct (IH j Bj) as (la & lo & L). exact (Nj la lo L).
      * assert (B1 : bounded p1 a b c d) by (eapply moves_bounded; eauto). assert (L1 : length p1 = length es) by (rewrite (moves_length _ _ _ _ M1); exact Ln).
        destruct (located_written _ _ _ _ _ _ _ _ O1 O2 B1 L1 W) as (k & Bk & Lk'). rewrite (bears_unique _ _ _ _ Bw Bk).
        assert (B2 : bounded p2 a b c d).
        { apply (moves_bounded es (fun _ => True) p1 p2); [|exact B1]. apply mv_step with (ps1 := p1) (x := w); [constructor|exact I|exact W]. }
        eapply located_moves; [exact O1|exact O2|exact B2|exact M2|exact Lk'].
    + apply Keep. destruct (coords_of (place_at ps r)) as [[la lo]|] eqn:C; [exists la, lo; apply coords_of_spec; exact C|]. exfalso.
      destruct Pw as [l Hl]. rewrite nth_place, Hl in Mi, C. unfold misses in Mi. rewrite C in Mi. discriminate.
Qed.

Definition known (ps : places) : Prop := forall i la lo, located ps i la lo -> la <> None /\ lo <> None.
Lemma known_written ps x ps' : known ps -> written es ps x ps' -> known ps'.
Proof.
  intros K (i & la & lo & _ & -> & _) j la' lo' L. apply located_set in L. destruct L as [(-> & r & E)|L]; [|exact (K j la' lo' L)]. injection E as <- <- <-. split; discriminate.
Qed.
Lemma visit_total ps x : known ps -> (exists p, bears es x p) -> (forall y, linked es x y -> exists p, bears es y p) ->
  exists ps' st, visit g es ps x = Ok (ps', st).
Proof.
  intros K [p Bx] Hy. unfold visit.
  assert (M : exists found, mapM (fun y => do j <- of_opt EKey (lookup es (Some y)); Ok (coords_of (place_at ps j))) (neighbors g x) = Ok found).
  { assert (N : forall y, In y (neighbors g x) -> exists q, bears es y q) by (intros y H; apply Hy; apply (nb es g edge_linked); exact H).
    induction (neighbors g x) as [|y l IH]; cbn [mapM]; [eauto|]. destruct (N y (or_introl eq_refl)) as [q Hq]. apply lookup_spec in Hq. rewrite Hq. cbn [of_opt bind].
    destruct IH as [fs ->]; [intros z Hz; apply N; right; exact Hz|]. eauto. }
  destruct M as [found M]. rewrite M. cbn [bind]. destruct (found_spec _ _ _ _ M) as [F1 _].
  assert (A : forall c, In c (flat_map (fun c => match c with Some v => [v] | None => [] end) found) -> fst c <> None /\ snd c <> None).
  { intros c Hc. apply adj_In in Hc. destruct (F1 c Hc) as [j Hj]. exact (K _ _ _ Hj). }
  destruct (flat_map _ found) as [|c0 adj]; [eauto|]. set (l := c0 :: adj) in *.
  destruct (average_total (map fst l)) as [la ->]; [intros c Hc; apply in_map_iff in Hc; destruct Hc as (v & <- & Hv); apply A; exact Hv|].
  destruct (average_total (map snd l)) as [lo ->]; [intros c Hc; apply in_map_iff in Hc; destruct Hc as (v & <- & Hv); apply A; exact Hv|].
  apply lookup_spec in Bx. cbn [bind]. rewrite Bx. cbn [of_opt bind]. eauto.
Qed.
Lemma sweep_total l : (forall x, In x l -> (exists p, bears es x p) /\ forall y, linked es x y -> exists p, bears es y p) ->
  forall ps acc, known ps -> exists ps' out,
  foldM (fun '(ps, next) x => do '(ps', stays) <- visit g es ps x; Ok (ps', if stays : bool then next ++ [x] else next)) l (ps, acc) = Ok (ps', out) /\ known ps'.
Proof.
  induction l as [|x l IH]; intros H ps acc K; cbn [foldM]; [eauto|]. destruct (H x (or_introl eq_refl)) as [H1 H2]. destruct (visit_total ps x K H1 H2) as (ps1 & st & V).
  rewrite V. cbn [bind]. apply IH; [intros z Hz; apply H; right; exact Hz|]. apply (visit_spec es g edge_linked) in V. destruct V as [(_ & -> & _)|(_ & W)]; [exact K|eapply known_written; eauto].
Qed.
Lemma coords_total ps : (forall i la lo, located ps i la lo -> la <> None /\ lo <> None) ->
  (forall x y j e, nth_error es j = Some e -> e_name e = Some (Some x) -> missing ps j -> linked es x y -> exists p, bears es y p) ->
  exists ps', set_missing_coords_recur (length (recur_nodes g es ps)) g es ps = Ok ps'.
Proof.
  intros K O. unfold set_missing_coords_recur.
  assert (H : forall x, In x (recur_nodes g es ps) -> (exists p, bears es x p) /\ forall y, linked es x y -> exists p, bears es y p).
  { intros x Hx. apply recur_nodes_spec in Hx. destruct Hx as (_ & i & e & He & Ne & Mi). split; [eapply bears_total; eauto|]. intros y Hy. eapply O; eauto. }
  fold (known ps) in K. generalize dependent (recur_nodes g es ps). intros l. remember (length l) as fuel eqn:Ef. assert (Lf : length l <= fuel) by lia. clear Ef O. revert l ps K Lf.
  induction fuel as [|fuel IH]; intros [|x l] ps K Lf H; cbn [fill_loop]; eauto; [cbn in Lf; lia|].
  destruct (sweep_total (x :: l) H ps [] K) as (ps' & next & E & K'). change (sweep g es ps (x :: l) = Ok (ps', next)) in E. rewrite E. cbn [bind].
  destruct (Nat.eqb_spec (length next) (length (x :: l))) as [|Q]; [eauto|]. unfold sweep in E. apply (sweep_spec es g edge_linked) in E. destruct E as (nx & -> & L1 & Sub & _).
  cbn [app] in *. apply IH; [exact K'|cbn [length] in *; lia|]. intros z Hz. apply H, Sub, Hz.
Qed.
End Top.
