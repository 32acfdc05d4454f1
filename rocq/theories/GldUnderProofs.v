(** Positions of the conductors of underground lines. *)
From Coq Require Import Reals Lra Lia.
From Verif Require Import Base BaseFacts SpacingModel SpacingSpec SpacingProofs SpacingProps GldModel MatrixModel ImpedModel GldLineModel.
Local Open Scope string_scope.
Local Open Scope list_scope.
Local Open Scope R_scope.

(** turned by a quarter, six units below the ground *)
Definition turn (p : R * R) : R * R := (- snd p, -6 + fst p).
Lemma turn_dist p q : dist2 (turn p) (turn q) = dist2 p q.
Proof. unfold dist2, turn. cbn [fst snd]. ring. Qed.

Lemma heron a b M f t q area : a = pdist q f -> b = pdist q t -> M = pdist f t -> b <= M -> 0 < M ->
  area = ((a + b + M) / 2) * ((a + b + M) / 2 - a) * ((a + b + M) / 2 - b) * ((a + b + M) / 2 - M) ->
  exists r, psqrt area = Ok r /\ pdiv (r * 2) M = Ok (Rabs (cross (vec f q) (vec f t)) / M) /\
    psqrt (a ^ 2 - (Rabs (cross (vec f q) (vec f t)) / M) ^ 2) = Ok (dot (vec f q) (vec f t) / M).
Proof.
  intros Ha Hb HM Hle H0 ->.
  assert (MM : M * M = dist2 f t) by (rewrite HM; apply pdist_sq).
  assert (AA : a * a = dist2 q f) by (rewrite Ha; apply pdist_sq). assert (BB : b * b = dist2 q t) by (rewrite Hb; apply pdist_sq).
  assert (A0 : 0 <= a) by (rewrite Ha; apply pdist_nonneg). assert (B0 : 0 <= b) by (rewrite Hb; apply pdist_nonneg).
  set (c := cross (vec f q) (vec f t)). set (d := dot (vec f q) (vec f t)).
  assert (D2 : a * a + M * M - b * b = 2 * d) by (rewrite AA, BB, MM; unfold d, dist2, dot, vec; cbn [fst snd]; ring).
  assert (LAG : c * c + d * d = (a * a) * (M * M)) by (rewrite AA, MM; unfold c, d, dist2, cross, dot, vec; cbn [fst snd]; ring).
  assert (D0 : 0 <= d) by nra.
  set (p := (a + b + M) / 2).
  assert (HER : p * (p - a) * (p - b) * (p - M) = (c / 2) * (c / 2)).
  { replace (p * (p - a) * (p - b) * (p - M)) with ((4 * (a * a) * (M * M) - (a * a + M * M - b * b) * (a * a + M * M - b * b)) / 16) by (unfold p; field).
    rewrite D2. replace (4 * (a * a) * (M * M)) with (4 * (c * c + d * d)) by (rewrite LAG; ring). field. }
  exists (Rabs (c / 2)). split; [exact (psqrt_sq _ _ HER)|]. unfold pdiv. destruct (Req_EM_T M 0) as [Z|_]; [lra|].
  split; [f_equal; rewrite (rabs_div c 2) by lra; field; lra|].
  assert (Y : a ^ 2 - (Rabs c / M) ^ 2 = (d / M) * (d / M)).
  { assert (CC : Rabs c * Rabs c = c * c) by (rewrite <- Rabs_mult; apply Rabs_right; nra).
    replace ((Rabs c / M) ^ 2) with (Rabs c * Rabs c / (M * M)) by (field; lra). rewrite CC.
    apply Rmult_eq_reg_r with (M * M); [|nra]. replace ((a ^ 2 - c * c / (M * M)) * (M * M)) with (a * a * (M * M) - c * c) by (field; lra).
    rewrite <- LAG. field. lra. }
  rewrite (psqrt_sq _ _ Y), (rabs_div d M) by assumption. now rewrite (Rabs_right d) by lra.
Qed.
Lemma turn_iso f t q : 0 < pdist f t -> (dot (vec f q) (vec f t) / pdist f t, -6 + Rabs (cross (vec f q) (vec f t)) / pdist f t) = turn (iso (sg (cross (vec f q) (vec f t))) f t q).
Proof. intros H. unfold turn, iso. cbn [fst snd]. rewrite sg_abs. f_equal. field. lra. Qed.

Section Under.
Variable present : nat -> bool.
Variable P : nat -> R * R.
Hypothesis N2 : (2 <= how_many present)%nat.
Hypothesis SPR : exists i j, (i < 4)%nat /\ (j < 4)%nat /\ present i = true /\ present j = true /\ P i <> P j.
Let D := distances (spacing_of present false P).

Lemma D_scan : D = s_dist (scan_all (spacing_of present false P)).
Proof.
  rewrite scan_dist. unfold D, distances, pairs, pairs4. cbn [fold_left]. 
  assert (S4 : forall i m, stepD present false P m (i, 4%nat) = m) by (intros i m; unfold stepD, spacing_of; cbn [Nat.ltb Nat.leb Nat.eqb andb]; now rewrite andb_false_r).
  rewrite !S4. reflexivity.
Qed.
Lemma D_at i j : (i < 4)%nat -> (j < 4)%nat -> D i j = if (present i && present j)%bool then pdist (P i) (P j) else -1.
Proof.
  intros Hi Hj. rewrite D_scan. rewrite entries; [|rewrite Nat.add_0_r; exact N2|lia|lia]. unfold pr, val.
  destruct (Nat.eqb_spec i 4) as [?|_]; [lia|]. destruct (Nat.eqb_spec j 4) as [?|_]; [lia|].
  destruct (present i && present j)%bool; [|reflexivity]. destruct (Nat.eqb_spec i j) as [->|]; [now rewrite pdist_self|].
  destruct (i <? j)%nat; [reflexivity|apply pdist_sym].
Qed.
Lemma D_here i j : here present i -> here present j -> D i j = pdist (P i) (P j).
Proof. intros [I Hi] [J Hj]. rewrite D_at, Hi, Hj by assumption. reflexivity. Qed.
Lemma D_known i j : (i < 4)%nat -> (j < 4)%nat -> known D (i, j) = (present i && present j)%bool.
Proof.
  intros Hi Hj. unfold known. cbn [fst snd]. rewrite D_at by assumption. destruct (present i && present j)%bool.
  - pose proof (pdist_nonneg (P i) (P j)). destruct (Req_EM_T _ _); [lra|reflexivity].
  - destruct (Req_EM_T _ _); [reflexivity|congruence].
Qed.
Lemma in_indices4 i j : In (i, j) indices4 <-> (i < 4)%nat /\ (j < 4)%nat.
Proof.
  unfold indices4. rewrite in_prod_iff. cbn [In]. split.
  - intros [A B]. split; [destruct A as [<-|[<-|[<-|[<-|[]]]]]; lia|destruct B as [<-|[<-|[<-|[<-|[]]]]]; lia].
  - intros [A B]. split; [destruct i as [|[|[|[|]]]]; auto; lia|destruct j as [|[|[|[|]]]]; auto; lia].
Qed.
Lemma filter_ext_in' {A} (f g : A -> bool) l : (forall x, In x l -> f x = g x) -> filter f l = filter g l.
Proof. induction l as [|x l IH]; intros H; [reflexivity|]. cbn. rewrite (H x (or_introl eq_refl)), IH; [reflexivity|]. intros y I. apply H. now right. Qed.
Lemma count_known : n_known D = how_many present.
Proof.
  assert (N : forall i, (i < 4)%nat -> present i = nth i [present 0%nat; present 1%nat; present 2%nat; present 3%nat] false) by (intros [|[|[|[|]]]] ?; try reflexivity; lia).
  unfold n_known, how_many. rewrite (filter_ext_in' _ (fun p : nat * nat => nth (fst p) [present 0%nat; present 1%nat; present 2%nat; present 3%nat] false && nth (snd p) [present 0%nat; present 1%nat; present 2%nat; present 3%nat] false)%bool indices4).
  - rewrite (filter_ext_in' present (fun i => nth i [present 0%nat; present 1%nat; present 2%nat; present 3%nat] false)).
    + generalize (present 0%nat) (present 1%nat) (present 2%nat) (present 3%nat). intros [] [] [] []; reflexivity.
    + intros i I. apply N. cbn in I. lia.
  - intros [i j] I. apply in_indices4 in I as [A B]. cbn [fst snd]. rewrite <- !N by assumption. now apply D_known.
Qed.

(** *** Two *)
Definition found (p : nat * nat) : Prop := In p indices4 /\ known D p = true /\ D (fst p) (snd p) <> 0.
Lemma last_known_some : exists i j, here present i /\ here present j /\ D (fst (last_known D)) (snd (last_known D)) = pdist (P i) (P j) /\ pdist (P i) (P j) <> 0.
Proof.
  destruct SPR as (a & b & A & B & Pa & Pb & N).
  assert (F : found (a, b)).
  { split; [now apply in_indices4|]. split; [rewrite D_known, Pa, Pb by assumption; reflexivity|]. cbn [fst snd].
    rewrite D_here by (split; assumption). intros Q. apply N. apply dist2_zero. rewrite <- pdist_sq, Q. ring. }
  assert (G : forall l r, (forall x, In x l -> In x indices4) -> In (a, b) l \/ found r -> 
     found (fold_left (fun r (p : nat * nat) => if known D p then if Req_EM_T (D (fst p) (snd p)) 0 then r else p else r) l r)).
  { induction l as [|x l IH]; intros r S H; cbn [fold_left].
    - destruct H as [[]|H]. exact H.
    - apply IH; [intros y I; apply S; now right|]. destruct H as [[->|H]|H]; [right|left; exact H|right].
      + destruct F as (F1 & F2 & F3). rewrite F2. destruct (Req_EM_T _ 0); [contradiction|]. repeat split; assumption.
      + destruct (known D x) eqn:K; [|exact H]. destruct (Req_EM_T (D (fst x) (snd x)) 0) as [|M]; [exact H|]. split; [apply S; now left|]. auto. }
  assert (L : found (last_known D)) by (apply G; [auto|left; now apply in_indices4]). destruct (last_known D) as [i j]. destruct L as (L1 & L2 & L3). cbn [fst snd] in *.
  apply in_indices4 in L1 as [I4 J4]. rewrite D_known in L2 by assumption. apply andb_prop in L2 as [Pi Pj].
  exists i, j. rewrite <- D_here by (split; assumption). repeat split; assumption.
Qed.

Lemma place_two_under is_ cs : how_many present = 2%nat -> Forall (here present) is_ -> NoDup is_ -> length is_ = length cs ->
  exists g, under2 D cs = map g is_ /\ forall i j, In i is_ -> In j is_ -> dist2 (g i) (g j) = dist2 (P i) (P j).
Proof.
  intros H2 HI ND L. destruct last_known_some as (a & b & Ha & Hb & E & NZ). unfold under2. rewrite E. destruct (Req_EM_T _ 0) as [|_]; [contradiction|].
  assert (AB : a <> b) by (intros ->; rewrite pdist_self in NZ; congruence).
  assert (W : forall i, here present i -> i = a \/ i = b).
  { intros i Hi. destruct (Nat.lt_ge_cases a b).
    - apply (not_two present false N2 a b); try apply Ha; try apply Hb; assumption.
    - destruct (not_two present false N2 b a) with (i := i); try apply Ha; try apply Hb; auto; lia. }
  assert (DD : dist2 (0, -6) (pdist (P a) (P b), -6) = dist2 (P a) (P b)).
  { rewrite <- (pdist_sq (P a)). unfold dist2 at 1. cbn [fst snd]. ring. }
  destruct cs as [|c cs], is_ as [|i is_]; try discriminate L.
  { exists (fun _ => (0, 0)). split; [reflexivity|intros ? ? []]. }
  exists (fun k => if Nat.eqb k i then (0, -6) else (pdist (P a) (P b), -6)). injection L as L. inversion ND as [|? ? NI ND']; subst. split.
  - cbn [map]. rewrite Nat.eqb_refl. f_equal. clear - L NI. revert cs L. induction is_ as [|j is_ IH]; intros [|c cs] L; try discriminate L; [reflexivity|]. cbn [map].
    destruct (Nat.eqb_spec j i) as [->|_]; [exfalso; apply NI; now left|]. f_equal. apply IH; [intros I; apply NI; now right|now injection L].
  - rewrite Forall_forall in HI. intros j k J K. pose proof (W _ (HI _ J)) as Wj. pose proof (W _ (HI _ K)) as Wk. pose proof (W _ (HI _ (or_introl eq_refl))) as Wi.
    assert (Z : forall p, dist2 p p = 0) by (intros [x y]; unfold dist2; cbn; ring).
    destruct (Nat.eqb_spec j i) as [Q1|Q1], (Nat.eqb_spec k i) as [Q2|Q2].
    + subst. now rewrite !Z.
    + subst j. rewrite DD. destruct Wi as [-> | ->], Wk as [-> | ->]; try congruence. apply dist2_sym.
    + subst k. rewrite dist2_sym, DD. destruct Wi as [-> | ->], Wj as [-> | ->]; try congruence. apply dist2_sym.
    + assert (j = k) as -> by (destruct Wi as [-> | ->], Wj as [-> | ->], Wk as [-> | ->]; congruence). now rewrite !Z.
Qed.

(** *** Three: A, B and C *)
Lemma three_here : how_many present = 3%nat -> present 3%nat = false -> present 0%nat = true /\ present 1%nat = true /\ present 2%nat = true.
Proof. unfold how_many. cbn [filter]. destruct (present 0%nat), (present 1%nat), (present 2%nat), (present 3%nat); cbn; intros; try discriminate; auto. Qed.

Lemma three_positions f t k cs is_ tot mx :
  (f < 3)%nat -> (t < 3)%nat -> (k < 3)%nat -> f <> t -> k <> f -> k <> t -> (forall i, (i < 3)%nat -> present i = true) ->
  (forall i, (i < 3)%nat -> i = f \/ i = t \/ i = k) ->
  mx = pdist (P f) (P t) -> pdist (P k) (P t) <= mx -> 0 < mx -> tot = pdist (P k) (P f) + pdist (P k) (P t) + mx ->
  forall area, area = (tot / 2) * (tot / 2 - pdist (P k) (P f)) * (tot / 2 - pdist (P k) (P t)) * (tot / 2 - mx) ->
  mapM (fun c => of_opt EKey (rev_lookup c)) cs = Ok is_ -> Forall (fun i => (i < 3)%nat) is_ ->
  (do r <- psqrt area; do h <- pdiv (r * 2) mx;
   mapM (fun c => if String.eqb c (letter f) then Ok (0, -6) else if String.eqb c (letter t) then Ok (mx, -6)
     else do x <- psqrt (D k f ^ 2 - h ^ 2); Ok (x, -6 + h)) cs) =
  Ok (map (fun i => turn (iso (sg (cross (vec (P f) (P k)) (vec (P f) (P t)))) (P f) (P t) (P i))) is_).
Proof.
  intros F3 T3 K3 NFT NKF NKT PR ALL -> LE POS -> area EA HM HI.
  destruct (heron (pdist (P k) (P f)) (pdist (P k) (P t)) (pdist (P f) (P t)) (P f) (P t) (P k) area eq_refl eq_refl eq_refl LE POS EA) as (r & E1 & E2 & E3).
  rewrite E1. cbn [bind]. rewrite E2. cbn [bind]. rewrite (D_here k f) by (split; [lia|apply PR; lia]).
  revert is_ HM HI. induction cs as [|c cs IH]; intros is_ HM HI; cbn [mapM] in HM |- *.
  - injection HM as <-. reflexivity.
  - destruct (rev_lookup c) as [i|] eqn:Ec; cbn [of_opt bind] in HM; [|discriminate].
    destruct (mapM _ cs) as [js|] eqn:Ej in HM; cbn [bind] in HM; [|discriminate]. injection HM as <-. apply Forall_cons_iff in HI as [Hi HI].
    specialize (IH js Ej HI).
    assert (LT : forall j, (j < 3)%nat -> String.eqb c (letter j) = Nat.eqb i j).
    { intros j Hj. clear - Ec Hj Hi. revert Ec. unfold rev_lookup.
      destruct (String.eqb_spec c "A") as [->|]; [intros Q; injection Q as <-; destruct j as [|[|[|]]]; try lia; reflexivity|].
      destruct (String.eqb_spec c "B") as [->|]; [intros Q; injection Q as <-; destruct j as [|[|[|]]]; try lia; reflexivity|].
      destruct (String.eqb_spec c "C") as [->|]; [intros Q; injection Q as <-; destruct j as [|[|[|]]]; try lia; reflexivity|].
      destruct (String.eqb c "N"); [intros Q; injection Q as <-; lia|]. destruct (String.eqb c "E"); [intros Q; injection Q as <-; lia|discriminate]. }
    rewrite !LT by assumption. destruct (Nat.eqb_spec i f) as [->|N1].
    + cbn [bind]. rewrite IH. cbn [bind map]. rewrite iso_from. do 2 f_equal. unfold turn. cbn [fst snd]. f_equal; ring.
    + destruct (Nat.eqb_spec i t) as [->|N2'].
      * cbn [bind]. rewrite IH. cbn [bind map]. rewrite iso_to by lra. do 2 f_equal. unfold turn. cbn [fst snd]. f_equal; ring.
      * rewrite E3. cbn [bind]. rewrite E3 in IH. cbn [bind] in IH. rewrite IH. cbn [bind map]. destruct (ALL i Hi) as [Q|[Q|Q]]; [congruence|congruence|subst i]. now rewrite turn_iso.
Qed.

Ltac three P f t k P0 P1 P2 H0 FP FIN :=
    rewrite ?D_known by lia; rewrite ?P0, ?P1, ?P2, ?H0; cbn [andb at4];
    let S1 := fresh "S" in let S2 := fresh "S" in let S3 := fresh "S" in let POS := fresh "POS" in let g := fresh "g" in let G := fresh "G" in
    pose proof (pdist_sym (P 1%nat) (P 0%nat)) as S1; pose proof (pdist_sym (P 2%nat) (P 0%nat)) as S2; pose proof (pdist_sym (P 2%nat) (P 1%nat)) as S3;
    assert (POS : 0 < pdist (P f) (P t)) by
      (apply FP; [lia|lia|]; intros [|[|[|?]]] [|[|[|?]]] ? ?; try lia; rewrite ?pdist_self, ?S1, ?S2, ?S3; lra);
    destruct (FIN f t k POS) as (g & <- & G); [intros [|[|[|?]]] ?; lia|];
    eexists; split; [|exact G];
    eapply (three_positions f t k); try eassumption; try lia; try reflexivity; rewrite ?S1, ?S2, ?S3; try lra; try ring; try (intros [|[|[|?]]] ?; lia).
Lemma place_three_under is_ cs : how_many present = 3%nat -> present 3%nat = false -> Forall (here present) is_ ->
  mapM (fun c => of_opt EKey (rev_lookup c)) cs = Ok is_ ->
  exists g, under3 D cs = Ok (map g is_) /\ forall i j, In i is_ -> In j is_ -> dist2 (g i) (g j) = dist2 (P i) (P j).
Proof.
  intros H3 H0 HI HM. destruct (three_here H3 H0) as (P0 & P1 & P2).
  assert (HI3 : Forall (fun i => (i < 3)%nat) is_).
  { eapply Forall_impl; [|exact HI]. intros i [I4 Pi]. destruct (Nat.eq_dec i 3) as [->|]; [congruence|lia]. }
  assert (PR : forall i, (i < 3)%nat -> present i = true) by (intros [|[|[|]]] ?; auto; lia).
  pose proof (pdist_nonneg (P 0%nat) (P 1%nat)) as Z1. pose proof (pdist_nonneg (P 0%nat) (P 2%nat)) as Z2. pose proof (pdist_nonneg (P 1%nat) (P 2%nat)) as Z3.
  assert (FP : forall f t, (f < 3)%nat -> (t < 3)%nat -> (forall i j, (i < 3)%nat -> (j < 3)%nat -> pdist (P i) (P j) <= pdist (P f) (P t)) -> 0 < pdist (P f) (P t)).
  { intros f t F3 T3 FA. apply (spread present P f t SPR). intros i j I4 J4 Pi Pj. apply FA.
    - destruct (Nat.eq_dec i 3) as [->|]; [congruence|lia].
    - destruct (Nat.eq_dec j 3) as [->|]; [congruence|lia]. }
  assert (FIN : forall f t k, 0 < pdist (P f) (P t) -> (forall i, (i < 3)%nat -> i = f \/ i = t \/ i = k) -> exists g, (fun i => turn (iso (sg (cross (vec (P f) (P k)) (vec (P f) (P t)))) (P f) (P t) (P i))) = g /\ forall i j, In i is_ -> In j is_ -> dist2 (g i) (g j) = dist2 (P i) (P j)).
  { intros f t k POS ALL. eexists. split; [reflexivity|]. intros i j I J. cbv beta. rewrite turn_dist. apply iso_dist; [apply sg_sq|lra]. }
  unfold under3, longest1, pairs4, middle. cbn [fold_left fst snd at4 is_at].
  rewrite !D_known by lia. rewrite P0, P1, P2, H0. cbn [andb].
  rewrite !D_here by (split; [lia|assumption]).
  destruct (Rlt_dec (-1) (pdist (P 0%nat) (P 1%nat))) as [_|]; [|lra].
  destruct (Rlt_dec (pdist (P 0%nat) (P 1%nat)) (pdist (P 0%nat) (P 2%nat))) as [A|A].
  - destruct (Rlt_dec (pdist (P 0%nat) (P 2%nat)) (pdist (P 1%nat) (P 2%nat))) as [B|B]; cbn [at4 is_at Nat.eqb negb andb].
    + three P 1%nat 2%nat 0%nat P0 P1 P2 H0 FP FIN.
    + three P 0%nat 2%nat 1%nat P0 P1 P2 H0 FP FIN.
  - destruct (Rlt_dec (pdist (P 0%nat) (P 1%nat)) (pdist (P 1%nat) (P 2%nat))) as [B|B]; cbn [at4 is_at Nat.eqb negb andb].
    + three P 1%nat 2%nat 0%nat P0 P1 P2 H0 FP FIN.
    + three P 0%nat 1%nat 2%nat P0 P1 P2 H0 FP FIN.
Qed.

(** *** Four *)
Definition far4 (done : list (nat * nat)) (st : R * option nat * option nat) : Prop :=
  let '(mx, f, t) := st in
  (forall i j, In (i, j) done -> D i j <= mx) /\
  ((mx = -100 /\ f = None /\ t = None) \/ (exists a b, f = Some a /\ t = Some b /\ (a <= b)%nat /\ (b < 4)%nat /\ mx = D a b)).
Lemma D_sym i j : (i < 4)%nat -> (j < 4)%nat -> D i j = D j i.
Proof. intros Hi Hj. rewrite !D_at, (andb_comm (present j)), pdist_sym by assumption. reflexivity. Qed.
Lemma far4_step done st i j : (i < 4)%nat -> (j < 4)%nat -> (i <= j)%nat \/ In (j, i) done -> far4 done st -> far4 (done ++ [(i, j)]) (longest4 D st (i, j)).
Proof.
  intros Hi Hj O F. destruct st as [[mx f] t]. destruct F as [F1 F2]. unfold longest4. cbn [fst snd]. destruct (Rlt_dec mx (D i j)) as [L|L]; split.
  - intros a b I. apply in_app_iff in I as [I|[I|[]]]; [specialize (F1 a b I); lra|]. injection I as <- <-. lra.
  - right. exists i, j. repeat split; auto. destruct O as [O|O]; [exact O|]. specialize (F1 j i O). rewrite D_sym in F1 by assumption. lra.
  - intros a b I. apply in_app_iff in I as [I|[I|[]]]; [auto|]. injection I as <- <-. lra.
  - exact F2.
Qed.
Lemma far4_all : far4 indices4 (fold_left (longest4 D) indices4 (-100, None, None)).
Proof.
  unfold indices4. cbn [list_prod map app]. cbn [fold_left].
  set (l := [(0, 0); (0, 1); (0, 2); (0, 3); (1, 0); (1, 1); (1, 2); (1, 3); (2, 0); (2, 1); (2, 2); (2, 3); (3, 0); (3, 1); (3, 2); (3, 3)]%nat).
  assert (E : l = [] ++ l) by reflexivity. 
  assert (G : forall done rest st, (forall p, In p rest -> (fst p < 4)%nat /\ (snd p < 4)%nat) ->
     (forall p pre post, rest = pre ++ p :: post -> (fst p <= snd p)%nat \/ In (snd p, fst p) (done ++ pre)) ->
     far4 done st -> far4 (done ++ rest) (fold_left (longest4 D) rest st)).
  { clear E l. intros done rest. revert done. induction rest as [|[i j] rest IH]; intros done st B O F; cbn [fold_left]; [now rewrite app_nil_r|].
    replace (done ++ (i, j) :: rest) with ((done ++ [(i, j)]) ++ rest) by (rewrite <- app_assoc; reflexivity). apply IH.
    - intros p I. apply B. now right.
    - intros p pre post Q. rewrite <- app_assoc. apply (O p ((i, j) :: pre) post). now rewrite Q.
    - destruct (B (i, j) (or_introl eq_refl)) as [B1 B2]. apply far4_step; auto. destruct (O (i, j) [] rest eq_refl) as [Q|Q]; [now left|]. rewrite app_nil_r in Q. now right. }
  change (far4 ([] ++ l) (fold_left (longest4 D) l (-100, None, None))). apply G.
  - intros [i j] I. apply in_indices4. exact I.
  - intros p pre post Q. unfold l in Q.
    do 16 (destruct pre as [|? pre]; [injection Q as <- _; cbn [fst snd app]; solve [left; lia|right; cbn [In]; tauto]|injection Q as <- Q]). destruct pre; discriminate Q.
  - split; [intros ? ? []|]. now left.
Qed.

Section Four.
Hypothesis H4 : how_many present = 4%nat.
Lemma all_present i : (i < 4)%nat -> here present i.
Proof.
  intros Hi. split; [exact Hi|]. revert H4. unfold how_many. cbn [filter].
  destruct (present 0%nat) eqn:E0, (present 1%nat) eqn:E1, (present 2%nat) eqn:E2, (present 3%nat) eqn:E3; cbn; intros Q; try discriminate Q.
  destruct i as [|[|[|[|]]]]; auto; lia.
Qed.
Variables (f t : nat).
Hypothesis FT : (f < t)%nat.
Hypothesis T4 : (t < 4)%nat.
Hypothesis FAR : forall i j, (i < 4)%nat -> (j < 4)%nat -> pdist (P i) (P j) <= pdist (P f) (P t).
Hypothesis POS : 0 < pdist (P f) (P t).
Let mx := pdist (P f) (P t).
Let w (e : nat -> R) (i : nat) : R * R := turn (iso (e i) (P f) (P t) (P i)).

Lemma corner4 i : (i < 4)%nat -> exists q h, 
  psqrt ((mx + D i t + D i f) / 2 * ((mx + D i t + D i f) / 2 - mx) * ((mx + D i t + D i f) / 2 - D i t) * ((mx + D i t + D i f) / 2 - D i f)) = Ok q /\
  pdiv (q * 2) mx = Ok h /\ exists x, psqrt (D i f ^ 2 - h ^ 2) = Ok x /\ (x, -6 + h) = turn (iso (sg (crs P f t i)) (P f) (P t) (P i)) /\ (x, -6 - h) = turn (iso (- sg (crs P f t i)) (P f) (P t) (P i)).
Proof.
  intros Hi. rewrite !D_here by (apply all_present; lia).
  destruct (heron (pdist (P i) (P f)) (pdist (P i) (P t)) mx (P f) (P t) (P i) 
    ((mx + pdist (P i) (P t) + pdist (P i) (P f)) / 2 * ((mx + pdist (P i) (P t) + pdist (P i) (P f)) / 2 - mx) * ((mx + pdist (P i) (P t) + pdist (P i) (P f)) / 2 - pdist (P i) (P t)) * ((mx + pdist (P i) (P t) + pdist (P i) (P f)) / 2 - pdist (P i) (P f)))
    eq_refl eq_refl eq_refl) as (r & E1 & E2 & E3).
  - apply FAR; lia.
  - exact POS.
  - field.
  - exists r, (Rabs (cross (vec (P f) (P i)) (vec (P f) (P t))) / mx). split; [exact E1|]. split; [exact E2|]. eexists. split; [exact E3|]. unfold mx. split; [now apply turn_iso|].
    unfold turn, iso, crs. cbn [fst snd]. rewrite Ropp_mult_distr_l_reverse, sg_abs. f_equal; field; lra.
Qed.
Lemma at_f e : w e f = (0, -6). Proof. unfold w, turn. rewrite iso_from. cbn [fst snd]. f_equal; ring. Qed.
Lemma at_t e : w e t = (mx, -6). Proof. unfold w, turn. rewrite iso_to by lra. cbn [fst snd]. unfold mx. f_equal; ring. Qed.

Lemma under4_seen k : (k < 4)%nat -> forall cs is_, mapM (fun c => of_opt EKey (rev_lookup c)) cs = Ok is_ -> Forall (here present) is_ ->
  under4_wires D mx (Some f) (Some t) (Some (fst (turn (iso (sg (crs P f t k)) (P f) (P t) (P k))), snd (turn (iso (sg (crs P f t k)) (P f) (P t) (P k))), k)) cs =
  Ok (map (w (e4 P f t k)) is_).
Proof.
  intros Hk. induction cs as [|c cs IH]; intros is_ HM HI; cbn [mapM] in HM.
  - injection HM as <-. reflexivity.
  - destruct (rev_lookup c) as [i|] eqn:Ec; cbn [of_opt bind] in HM; [|discriminate].
    destruct (mapM _ cs) as [js|] eqn:Ej in HM; cbn [bind] in HM; [|discriminate]. injection HM as <-. apply Forall_cons_iff in HI as [Hi HI].
    specialize (IH js Ej HI). cbn [under4_wires]. rewrite Ec. cbn [of_opt bind is_at at4]. rewrite IH. cbn [bind].
    destruct (Nat.eqb_spec i t) as [->|NT]; cbn [negb andb].
    { destruct (Nat.eqb_spec t f); [lia|]. cbn [map]. now rewrite at_t. }
    destruct (Nat.eqb_spec i f) as [->|NF]; cbn [negb andb].
    { cbn [map]. now rewrite at_f. }
    destruct (corner4 i (proj1 Hi)) as (q & h & E1 & E2 & x & E3 & T1 & T2). rewrite E1. cbn [bind]. rewrite E2. cbn [bind]. rewrite E3. cbn [bind map]. do 2 f_equal.
    rewrite (D_here i k) by (auto; now apply all_present). unfold w, e4, match4.
    set (a := iso (sg (crs P f t i)) (P f) (P t) (P i)) in *. set (b := iso (sg (crs P f t k)) (P f) (P t) (P k)) in *.
    replace (pdist (P i) (P k) ^ 2) with (dist2 (P i) (P k)) by (rewrite <- pdist_sq; ring).
    replace ((x - fst (turn b)) ^ 2 + (-6 + h - snd (turn b)) ^ 2) with (dist2 a b).
    + destruct (Req_EM_T (dist2 a b) (dist2 (P i) (P k))); [exact T1|exact T2].
    + rewrite <- turn_dist, <- T1. unfold dist2. cbn [fst snd]. ring.
Qed.
Lemma under4_none : forall cs is_, mapM (fun c => of_opt EKey (rev_lookup c)) cs = Ok is_ -> Forall (here present) is_ ->
  exists e, good present P f t e /\ under4_wires D mx (Some f) (Some t) None cs = Ok (map (w e) is_).
Proof.
  induction cs as [|c cs IH]; intros is_ HM HI; cbn [mapM] in HM.
  - injection HM as <-. exists (fun _ => 1). split; [|reflexivity]. split; [intros; ring|]. intros i j _ _. apply iso_dist; [ring|lra].
  - destruct (rev_lookup c) as [i|] eqn:Ec; cbn [of_opt bind] in HM; [|discriminate].
    destruct (mapM _ cs) as [js|] eqn:Ej in HM; cbn [bind] in HM; [|discriminate]. injection HM as <-. apply Forall_cons_iff in HI as [Hi HI].
    cbn [under4_wires]. rewrite Ec. cbn [of_opt bind is_at at4].
    destruct (Nat.eqb_spec i t) as [->|NT]; cbn [negb andb].
    { destruct (Nat.eqb_spec t f); [lia|]. destruct (IH js Ej HI) as (e & G & E). exists e. split; [exact G|]. rewrite E. cbn [bind map]. now rewrite at_t. }
    destruct (Nat.eqb_spec i f) as [->|NF]; cbn [negb andb].
    { destruct (IH js Ej HI) as (e & G & E). exists e. split; [exact G|]. rewrite E. cbn [bind map]. now rewrite at_f. }
    exists (e4 P f t i). split; [apply (e4_good present false P N2 f t FT T4 POS i Hi NF NT)|].
    destruct (corner4 i (proj1 Hi)) as (q & h & E1 & E2 & x & E3 & T1 & T2). rewrite E1. cbn [bind]. rewrite E2. cbn [bind]. rewrite E3. cbn [bind map].
    replace (Some (x, -6 + h, i)) with (Some (fst (turn (iso (sg (crs P f t i)) (P f) (P t) (P i))), snd (turn (iso (sg (crs P f t i)) (P f) (P t) (P i))), i)) by (rewrite <- T1; reflexivity).
    rewrite (under4_seen i (proj1 Hi) cs js Ej HI). cbn [bind]. do 2 f_equal.
    rewrite T1. unfold w, e4, match4. destruct (Req_EM_T _ _) as [_|N]; [reflexivity|]. exfalso. apply N. apply iso_dist; [apply sg_sq|lra].
Qed.
End Four.

Lemma place_four_under is_ cs : how_many present = 4%nat -> Forall (here present) is_ -> mapM (fun c => of_opt EKey (rev_lookup c)) cs = Ok is_ ->
  exists g, under4 D cs = Ok (map g is_) /\ forall i j, In i is_ -> In j is_ -> dist2 (g i) (g j) = dist2 (P i) (P j).
Proof.
  intros H4 HI HM. unfold under4. pose proof far4_all as F. destruct (fold_left (longest4 D) indices4 (-100, None, None)) as [[mx f] t]. destruct F as [F1 F2].
  pose proof (all_present H4) as AP.
  destruct F2 as [(-> & _ & _)|(a & b & -> & -> & AB & B4 & EM)].
  { specialize (F1 0%nat 0%nat ltac:(apply in_indices4; lia)). rewrite D_here in F1 by (apply AP; lia). rewrite pdist_self in F1. lra. }
  assert (FAR : forall i j, (i < 4)%nat -> (j < 4)%nat -> pdist (P i) (P j) <= pdist (P a) (P b)).
  { intros i j Hi Hj. specialize (F1 i j ltac:(apply in_indices4; lia)). rewrite EM, !D_here in F1 by (apply AP; lia). exact F1. }
  assert (POS : 0 < pdist (P a) (P b)) by (apply (spread present P a b SPR); auto).
  assert (AB' : (a < b)%nat) by (destruct (Nat.eq_dec a b) as [->|]; [rewrite pdist_self in POS; lra|lia]).
  rewrite EM, (D_here a b) by (apply AP; lia). destruct (under4_none H4 a b AB' B4 FAR POS cs is_ HM HI) as (e & [G1 G2] & E). rewrite E.
  eexists. split; [reflexivity|]. cbv beta. intros i j I J. rewrite turn_dist. rewrite Forall_forall in HI. apply G2; auto.
Qed.

(** *** All cases *)
Lemma placed_under is_ cs : (how_many present = 3%nat -> present 3%nat = false) -> Forall (here present) is_ -> NoDup is_ ->
  mapM (fun c => of_opt EKey (rev_lookup c)) cs = Ok is_ ->
  exists g, under_positions D cs = Some (map g is_) /\ forall i j, In i is_ -> In j is_ -> dist2 (g i) (g j) = dist2 (P i) (P j).
Proof.
  intros H3 HI ND HM. unfold under_positions. rewrite count_known. pose proof (how_many_le present) as L4.
  assert (how_many present = 2 \/ how_many present = 3 \/ how_many present = 4)%nat as [H|[H|H]] by lia; rewrite H.
  - destruct (place_two_under is_ cs H HI ND) as (g & E & G).
    + clear - HM. revert is_ HM. induction cs as [|c cs IH]; intros is_ HM; cbn [mapM] in HM; [now injection HM as <-|].
      destruct (of_opt EKey (rev_lookup c)) as [i|]; cbn [bind] in HM; [|discriminate]. destruct (mapM _ cs) as [js|] in HM, IH; cbn [bind] in HM; [|discriminate].
      injection HM as <-. cbn. f_equal. now apply IH.
    + exists g. rewrite E. auto.
  - destruct (place_three_under is_ cs H (H3 H) HI HM) as (g & E & G). exists g. rewrite E. auto.
  - destruct (place_four_under is_ cs H HI HM) as (g & E & G). exists g. rewrite E. auto.
Qed.
End Under.
