(** C69: where the GridLAB-D reader puts the conductors of a line. *)
From Verif Require Import Base BaseFacts SpacingModel SpacingSpec SpacingProofs.
From Coq Require Import Reals Lra Lia.
Local Open Scope R_scope.

Lemma spelled i c : nth_error ["A"; "B"; "C"; "N"]%string i = Some c -> rev_lookup c = Some i /\ (i < 4)%nat.
Proof. do 4 (destruct i as [|i]; [intros Q; injection Q as <-; split; [reflexivity|lia]|]). destruct i; discriminate. Qed.
Lemma drawn_indices present P cs ps : Forall2 (drawn present P) cs ps ->
  exists is_, mapM (fun c => of_opt EKey (rev_lookup c)) cs = Ok is_ /\ Forall (here present) is_ /\ ps = map P is_ /\
    (forall n c, nth_error cs n = Some c -> exists i, nth_error is_ n = Some i /\ rev_lookup c = Some i).
Proof.
  induction 1 as [|c p cs ps (i & SP & Pi & ->) F (is_ & HM & HI & -> & HN)]; [|apply spelled in SP as [E I4]].
  { exists []. split; [reflexivity|]. split; [constructor|]. split; [reflexivity|]. intros [|n] c; discriminate. }
  exists (i :: is_). split; [cbn; rewrite E; cbn; now rewrite HM|]. split; [constructor; [split|]; assumption|]. split; [reflexivity|].
  intros [|n] d; cbn; [|apply HN]. intros Q. injection Q as <-. eauto.
Qed.
Lemma how_many_le present : (how_many present <= 4)%nat.
Proof. unfold how_many. cbn [filter]. destruct (present 0%nat), (present 1%nat), (present 2%nat), (present 3%nat); cbn; lia. Qed.
Lemma spread present P f t :
  (exists i j, (i < 4)%nat /\ (j < 4)%nat /\ present i = true /\ present j = true /\ P i <> P j) ->
  (forall i j, (i < 4)%nat -> (j < 4)%nat -> present i = true -> present j = true -> pdist (P i) (P j) <= pdist (P f) (P t)) -> 0 < pdist (P f) (P t).
Proof.
  intros (i & j & I4 & J4 & Pi & Pj & N) H. pose proof (H i j I4 J4 Pi Pj) as L. pose proof (pdist_nonneg (P i) (P j)) as Z.
  destruct (Rle_lt_or_eq_dec 0 (pdist (P i) (P j)) Z) as [Q|Q]; [lra|]. exfalso. apply N. apply dist2_zero. rewrite <- pdist_sq, <- Q. ring.
Qed.

(** The distances of a drawing with two to four conductors are the distances of the positions that the reader assigns (in
    metres), also when the line has only some of the conductors and whether or not heights are given. *)
Theorem C69_distances : forall present earth P cs ps height,
  (2 <= how_many present)%nat -> (forall i, (i < 4)%nat -> present i = true -> 0 <= snd (P i)) ->
  (exists i j, (i < 4)%nat /\ (j < 4)%nat /\ present i = true /\ present j = true /\ P i <> P j) ->
  Forall2 (drawn present P) cs ps ->
  exists out, compute_spacing (spacing_of present earth P) cs height = Ok (Some out) /\ length out = length cs /\
    forall m n p q p' q', nth_error ps m = Some p -> nth_error ps n = Some q -> nth_error out m = Some p' -> nth_error out n = Some q' ->
      pdist p' q' = pdist p q * foot.
Proof.
  intros present earth P cs ps height N2 AB SPR F. destruct (drawn_indices _ _ _ _ F) as (is_ & HM & HI & -> & HN).
  destruct (furthest present earth P ltac:(cbn in *; lia) N2) as (f & t & A1 & A2 & A3 & A4 & A5 & A6 & A7 & A8).
  pose proof (spread present P f t SPR A8) as POS.
  destruct (placed present earth P height N2 AB f t A1 A2 A3 A4 A5 A6 A7 A8 POS is_ cs (how_many_le present) HI HM) as (g & E & DIST & _).
  exists (map (fun i => to_m (g i)) is_). split; [exact E|].
  split; [rewrite map_length, <- (map_length P is_); symmetry; clear - F; induction F; cbn; congruence|].
  intros m n p q p' q' Hp Hq Hp' Hq'. rewrite nth_error_map in Hp, Hq, Hp', Hq'.
  destruct (nth_error is_ m) as [i|] eqn:Im; [|discriminate]. destruct (nth_error is_ n) as [j|] eqn:Jn; [|discriminate].
  cbn in Hp, Hq, Hp', Hq'. injection Hp as <-. injection Hq as <-. injection Hp' as <-. injection Hq' as <-.
  rewrite Forall_forall in HI. rewrite to_m_dist. f_equal. unfold pdist. f_equal. apply DIST; apply HI; eapply nth_error_In; eassumption.
Qed.
Print Assumptions C69_distances.

(** With heights in the spacing and at most three conductors every conductor gets its height. *)
Theorem C69_heights : forall present P cs ps height,
  (2 <= how_many present <= 3)%nat -> (forall i, (i < 4)%nat -> present i = true -> 0 <= snd (P i)) ->
  (exists i j, (i < 4)%nat /\ (j < 4)%nat /\ present i = true /\ present j = true /\ P i <> P j) ->
  Forall2 (drawn present P) cs ps ->
  exists out, compute_spacing (spacing_of present true P) cs height = Ok (Some out) /\
    map snd out = map (fun p => snd p * foot) ps.
Proof.
  intros present P cs ps height [N2 N3] AB SPR F. destruct (drawn_indices _ _ _ _ F) as (is_ & HM & HI & -> & HN).
  destruct (furthest present true P ltac:(cbn in *; lia) N2) as (f & t & A1 & A2 & A3 & A4 & A5 & A6 & A7 & A8).
  pose proof (spread present P f t SPR A8) as POS.
  destruct (placed present true P height N2 AB f t A1 A2 A3 A4 A5 A6 A7 A8 POS is_ cs (how_many_le present) HI HM) as (g & E & _ & H & _).
  exists (map (fun i => to_m (g i)) is_). split; [exact E|]. rewrite !map_map. apply map_ext_in. intros i I.
  rewrite Forall_forall in HI. cbn [snd to_m]. rewrite (H eq_refl N3 i (HI i I)). reflexivity.
Qed.
Print Assumptions C69_heights.

(** Two of the conductors are furthest apart. With heights both get theirs, also on a line with four conductors; without
    heights the first is put at the default height, and the other below it (two conductors) or beside it. *)
Theorem C69_furthest : forall present earth P cs ps height,
  (2 <= how_many present)%nat -> (forall i, (i < 4)%nat -> present i = true -> 0 <= snd (P i)) ->
  (exists i j, (i < 4)%nat /\ (j < 4)%nat /\ present i = true /\ present j = true /\ P i <> P j) ->
  Forall2 (drawn present P) cs ps ->
  exists out f t, compute_spacing (spacing_of present earth P) cs height = Ok (Some out) /\
    (f < t < 4)%nat /\ present f = true /\ present t = true /\
    (forall i j, (i < 4)%nat -> (j < 4)%nat -> present i = true -> present j = true -> pdist (P i) (P j) <= pdist (P f) (P t)) /\
    forall n c p, nth_error cs n = Some c -> nth_error out n = Some p ->
      (nth_error ["A"; "B"; "C"; "N"]%string f = Some c -> if earth then snd p = snd (P f) * foot else p = (0, height * foot)) /\
      (nth_error ["A"; "B"; "C"; "N"]%string t = Some c -> if earth then snd p = snd (P t) * foot
        else if Nat.eqb (how_many present) 2 then p = (0, (height - pdist (P f) (P t)) * foot) else p = (pdist (P f) (P t) * foot, height * foot)).
Proof.
  intros present earth P cs ps height N2 AB SPR F. destruct (drawn_indices _ _ _ _ F) as (is_ & HM & HI & -> & HN).
  destruct (furthest present earth P ltac:(cbn in *; lia) N2) as (f & t & A1 & A2 & A3 & A4 & A5 & A6 & A7 & A8).
  pose proof (spread present P f t SPR A8) as POS.
  destruct (placed present earth P height N2 AB f t A1 A2 A3 A4 A5 A6 A7 A8 POS is_ cs (how_many_le present) HI HM) as (g & E & _ & _ & GE & GN).
  exists (map (fun i => to_m (g i)) is_), f, t. split; [exact E|]. split; [lia|]. do 2 (split; [assumption|]). split; [assumption|].
  intros n c p Hc Hp. destruct (HN n c Hc) as (i & Ii & Li). rewrite nth_error_map, Ii in Hp. cbn in Hp. injection Hp as <-.
  assert (Z : forall x y, to_m (x, y) = (x * foot, y * foot)) by reflexivity.
  split; intros Q; apply spelled in Q as [Q _]; rewrite Li in Q; injection Q as ->.
  - destruct earth; [destruct (GE eq_refl) as [G _]; cbn [to_m snd]; rewrite G; reflexivity|].
    destruct (GN eq_refl) as [G _]. rewrite G, Z. f_equal. ring.
  - destruct earth; [destruct (GE eq_refl) as [_ G]; cbn [to_m snd]; rewrite G; reflexivity|].
    destruct (GN eq_refl) as [_ G]. rewrite G. destruct (Nat.eqb (how_many present) 2); rewrite Z; f_equal; ring.
Qed.
Print Assumptions C69_furthest.

(** Conductors that the spacing puts at one point cannot be drawn; three or four of them get default places. *)
Lemma mapM_fails {A B} (f : A -> res B) l x e : In x l -> f x = Err e -> exists e', mapM f l = Err e'.
Proof.
  induction l as [|y l IH]; intros I E; [destruct I|]. cbn. destruct I as [->|I]; [rewrite E; cbn; eauto|].
  destruct (f y); cbn; [|eauto]. destruct (IH I E) as [e' ->]. cbn. eauto.
Qed.
Lemma defaults_place height cs : (forall c, In c cs -> In c ["A"; "B"; "C"; "N"]%string) -> forall k n c, nth_error cs n = Some c ->
  nth_error (defaults height k cs) n = Some (let p := default_place height cs n c in if String.eqb c "N" then p else (INR k * 2 + fst p, snd p)).
Proof.
  induction cs as [|d cs IH]; intros AL k [|n] c E; cbn [nth_error] in E; try discriminate.
  - injection E as ->. unfold default_place. cbn [firstn filter length INR]. specialize (AL c (or_introl eq_refl)). cbn [In] in AL.
    destruct AL as [<-|[<-|[<-|[<-|[]]]]]; [| | |reflexivity].
    all: match goal with |- ?l = _ => change l with (Some (INR k * 2, height)) end; cbn [String.eqb Ascii.eqb Bool.eqb fst snd]; f_equal; f_equal; ring.
  - specialize (IH (fun x I => AL x (or_intror I))). unfold default_place in *. cbn [firstn filter].
    pose proof (AL d (or_introl eq_refl)) as Hd. cbn [In] in Hd.
    assert (PH : forall x, String.eqb (lower x) "n" = false -> String.eqb x "N" = false ->
      nth_error (defaults height k (x :: cs)) (S n) = Some (let p := (if String.eqb c "N" then (0, height + 2) else
        (2 * INR (length (if negb (String.eqb x "N") then x :: filter (fun d => negb (String.eqb d "N")) (firstn n cs) else filter (fun d => negb (String.eqb d "N")) (firstn n cs))), height)) in
        if String.eqb c "N" then p else (INR k * 2 + fst p, snd p))).
    { intros x E1 E2. cbn [defaults]. rewrite E1, E2. cbn [nth_error negb]. rewrite (IH (S k) n c E). cbv zeta. destruct (String.eqb c "N"); [reflexivity|].
      cbn [fst snd length]. f_equal. f_equal. rewrite !S_INR. ring. }
    destruct Hd as [<-|[<-|[<-|[<-|[]]]]]; [apply PH; reflexivity|apply PH; reflexivity|apply PH; reflexivity|].
    change (defaults height k ("N"%string :: cs)) with ((0, height + 2) :: defaults height k cs). cbn [nth_error]. exact (IH k n c E).
Qed.
Theorem C69_defaults : forall present earth P cs ps height,
  (3 <= how_many present)%nat -> (forall i, (i < 4)%nat -> present i = true -> 0 <= snd (P i)) ->
  (forall i j, present i = true -> present j = true -> P i = P j) ->
  Forall2 (drawn present P) cs ps -> NoDup cs -> (3 <= length cs)%nat ->
  exists out, compute_spacing (spacing_of present earth P) cs height = Ok (Some out) /\ length out = length cs /\
    forall n c, nth_error cs n = Some c -> nth_error out n = Some (default_place height cs n c).
Proof.
  intros present earth P cs ps height N3 AB SAME F ND L3. destruct (drawn_indices _ _ _ _ F) as (is_ & HM & HI & -> & HN).
  destruct (furthest present earth P ltac:(cbn in *; lia) ltac:(lia)) as (f & t & A1 & A2 & A3 & A4 & A5 & A6 & A7 & A8).
  assert (Z : forall i j, here present i -> here present j -> pdist (P i) (P j) = 0) by (intros i j [_ Hi] [_ Hj]; rewrite (SAME i j Hi Hj); apply pdist_self).
  assert (HF : here present f) by (split; [lia|assumption]). assert (HT : here present t) by (split; [lia|assumption]). rewrite (Z f t HF HT) in A7.
  assert (LEN : length is_ = length cs) by (clear - F; rewrite <- (map_length P); induction F; cbn in *; congruence).
  assert (NDI : NoDup is_).
  { clear - ND HM. revert is_ HM. induction ND as [|c cs NI ND IH]; intros is_ HM; cbn in HM; [injection HM as <-; constructor|].
    destruct (rev_lookup c) as [i|] eqn:Ec; cbn in HM; [|discriminate]. destruct (mapM _ cs) as [js|] eqn:Ej in HM; cbn in HM; [|discriminate]. injection HM as <-.
    constructor; [|apply IH, Ej]. intros I. apply NI.
    assert (K : exists d, In d cs /\ rev_lookup d = Some i).
    { clear - Ej I. revert js Ej I. induction cs as [|d cs IH]; intros js Ej I; cbn in Ej; [injection Ej as <-; destruct I|].
      destruct (rev_lookup d) as [k|] eqn:Ed; cbn in Ej; [|discriminate]. destruct (mapM _ cs) as [ks|] eqn:Ek in Ej; cbn in Ej; [|discriminate]. injection Ej as <-.
      destruct I as [->|I]; [exists d; cbn; auto|]. destruct (IH ks Ek I) as (x & X1 & X2). exists x. cbn. auto. }
    destruct K as (d & Id & Ed). replace c with d; [exact Id|]. clear - Ec Ed. unfold rev_lookup in *.
    repeat match goal with H : context [String.eqb ?a ?b] |- _ => destruct (String.eqb_spec a b); subst end; congruence. }
  assert (TH : exists k, In k is_ /\ k <> f /\ k <> t).
  { destruct is_ as [|a [|b [|c is_]]]; cbn in LEN; try lia. apply NoDup_cons_iff in NDI as [N1 NDI]. apply NoDup_cons_iff in NDI as [N2 _].
    cbn [In] in N1, N2. destruct (Nat.eq_dec a f), (Nat.eq_dec a t), (Nat.eq_dec b f), (Nat.eq_dec b t), (Nat.eq_dec c f), (Nat.eq_dec c t);
      first [exists a; cbn; split; [auto|split; lia] | exists b; cbn; split; [auto|split; lia] | exists c; cbn; split; [auto|split; lia] | exfalso; subst; cbn in *; intuition lia]. }
  destruct TH as (k & Ik & Kf & Kt). rewrite Forall_forall in HI. set (st := scan_all (spacing_of present earth P)) in *.
  assert (EN : forall i j, here present i -> here present j -> s_dist st i j = 0).
  { intros i j Hi Hj. unfold st. rewrite (entry present earth P ltac:(lia) f t); auto. }
  assert (CO : forall i, here present i -> corner st i = Err EZeroDiv).
  { intros i Hi. unfold corner. rewrite A1, A2, A7. cbn [at_]. rewrite !EN by assumption.
    assert (S0 : psqrt ((0 + 0 + 0) / 2 * ((0 + 0 + 0) / 2 - 0) * ((0 + 0 + 0) / 2 - 0) * ((0 + 0 + 0) / 2 - 0)) = Ok (Rabs 0)) by (apply psqrt_sq; field).
    rewrite S0. cbn [bind]. unfold pdiv. destruct (Req_EM_T 0 0); [reflexivity|congruence]. }
  assert (CNT : n_entries (s_dist st) = how_many present) by (unfold st; apply count_seen; [lia|assumption]).
  exists (defaults height 0 cs). split; [|split].
  - unfold compute_spacing. fold st. rewrite CNT. pose proof (how_many_le present).
    assert (how_many present = 3 \/ how_many present = 4)%nat as [->| ->] by lia.
    + unfold try3. rewrite HM. cbn [bind].
      match goal with |- context [mapM ?h is_] => destruct (mapM_fails h is_ k EZeroDiv Ik) as [e' ->] end; [|reflexivity].
      rewrite A1, A2. cbn [is_at]. destruct (Nat.eqb_spec k f); [contradiction|]. destruct (Nat.eqb_spec k t); [contradiction|]. rewrite CO by auto. reflexivity.
    + unfold try4. rewrite HM. cbn [bind].
      assert (G : forall l seen, In k l -> (forall i, In i l -> here present i) -> exists e', corners4 st seen l = Err e').
      { induction l as [|i l IH]; intros seen I HL; [destruct I|]. cbn [corners4]. rewrite A1, A2. cbn [is_at].
        destruct (Nat.eqb_spec i f) as [->|Nf].
        { destruct I as [I|I]; [congruence|]. destruct (IH seen I (fun x X => HL x (or_intror X))) as [e' ->]. cbn. eauto. }
        destruct (Nat.eqb_spec i t) as [->|Nt].
        { destruct I as [I|I]; [congruence|]. destruct (IH seen I (fun x X => HL x (or_intror X))) as [e' ->]. cbn. eauto. }
        rewrite CO by (apply HL; now left). cbn. eauto. }
      destruct (G is_ None Ik HI) as [e' ->]. reflexivity.
  - generalize 0%nat at 1. clear. induction cs as [|c cs IH]; intros n; [reflexivity|]. cbn. destruct (String.eqb (lower c) "n"); cbn; now rewrite IH.
  - intros n c Hc. rewrite (defaults_place height cs) with (c := c); [|clear - F; intros d I|exact Hc].
    + f_equal. unfold default_place. destruct (String.eqb c "N"); [reflexivity|]. cbn [fst snd INR]. f_equal. ring.
    + induction F as [|x y l l' (i & X & _) F IH]; [destruct I|]. destruct I as [->|I]; [eapply nth_error_In, X|auto].
Qed.
Print Assumptions C69_defaults.

(** A lone conductor gets the height of the spacing. A spacing of a lone conductor has only its height. *)
Theorem C69_lone : forall present P cs ps height,
  how_many present = 1%nat -> (forall i, (i < 4)%nat -> present i = true -> 0 <= snd (P i)) -> Forall2 (drawn present P) cs ps ->
  compute_spacing (spacing_of present true P) cs height = Ok (Some (map (fun p => (0, snd p * foot)) ps)).
Proof.
  intros present P cs ps height H1 AB F. destruct (drawn_indices _ _ _ _ F) as (is_ & HM & HI & -> & HN).
  assert (N2 : (2 <= how_many present + if true then 1 else 0)%nat) by lia.
  unfold compute_spacing. rewrite (count_seen present true P N2 AB), H1. unfold place1. rewrite (earth_seen present true P N2).
  rewrite map_map. assert (E : forall i, here present i -> s_dist (scan_all (spacing_of present true P)) i 4%nat = snd (P i)).
  { intros i [I4 Pi]. rewrite (entries present true P N2) by lia. unfold pr, val. destruct (Nat.eqb_spec i 4); [lia|]. rewrite Pi. reflexivity. }
  enough (G : mapM (fun c => do i <- of_opt EKey (rev_lookup c); Ok (0, s_dist (scan_all (spacing_of present true P)) i 4%nat / 3.28084)) cs = Ok (map (fun x => (0, snd (P x) * foot)) is_)).
  { rewrite G. reflexivity. }
  set (D := s_dist (scan_all (spacing_of present true P))) in *. clearbody D.
  clear F HN N2. revert is_ HM HI. induction cs as [|c cs IH]; intros is_ HM HI; cbn in *.
  { injection HM as <-. reflexivity. }
  destruct (rev_lookup c) as [i|]; cbn in *; [|discriminate].
  destruct (mapM (fun c0 => of_opt EKey (rev_lookup c0)) cs) as [r|] eqn:R; cbn in HM; [|discriminate]. injection HM as <-.
  apply Forall_cons_iff in HI. destruct HI as [Hi HI]. rewrite (IH r eq_refl HI). cbn. rewrite (E i Hi). reflexivity.
Qed.
Print Assumptions C69_lone.

(** ** Concrete cases *)
Definition all_of (l : list nat) (i : nat) : bool := existsb (Nat.eqb i) l.
Definition ex_P (i : nat) : R * R := match i with 0%nat => (0, 10) | 1%nat => (8, 10) | 2%nat => (4, 7) | _ => (4, 13) end.
Lemma ex_above : forall present i, (i < 4)%nat -> present i = true -> 0 <= snd (ex_P i).
Proof. intros present i _ _. unfold ex_P. destruct i as [|[|[|i]]]; cbn; lra. Qed.
Lemma ex_spread present : present 0%nat = true -> present 1%nat = true ->
  exists i j, (i < 4)%nat /\ (j < 4)%nat /\ present i = true /\ present j = true /\ ex_P i <> ex_P j.
Proof. intros A B. exists 0%nat, 1%nat. repeat split; auto. cbn. intros Q. injection Q as Q. lra. Qed.
Example C69_hypotheses_met :
  (2 <= how_many (all_of [0; 1; 2]) <= 3)%nat /\ (forall i, (i < 4)%nat -> all_of [0; 1; 2]%nat i = true -> 0 <= snd (ex_P i)) /\
  (exists i j, (i < 4)%nat /\ (j < 4)%nat /\ all_of [0; 1; 2]%nat i = true /\ all_of [0; 1; 2]%nat j = true /\ ex_P i <> ex_P j) /\
  Forall2 (drawn (all_of [0; 1; 2]%nat) ex_P) ["B"; "A"; "C"]%string [(8, 10); (0, 10); (4, 7)].
Proof.
  split; [cbn; lia|]. split; [apply ex_above|]. split; [now apply ex_spread|].
  repeat apply Forall2_cons; [exists 1%nat|exists 0%nat|exists 2%nat|apply Forall2_nil]; repeat split; auto.
Qed.

Example C69_defaults_met :
  (3 <= how_many (all_of [0; 1; 3]))%nat /\ (forall i j, all_of [0; 1; 3]%nat i = true -> all_of [0; 1; 3]%nat j = true -> (fun _ : nat => (0, 10)) i = (fun _ => (0, 10)) j) /\
  Forall2 (drawn (all_of [0; 1; 3]%nat) (fun _ => (0, 10))) ["A"; "N"; "B"]%string [(0, 10); (0, 10); (0, 10)] /\ NoDup ["A"; "N"; "B"]%string.
Proof.
  split; [cbn; lia|]. split; [reflexivity|]. split; [repeat apply Forall2_cons; [exists 0%nat|exists 3%nat|exists 1%nat|apply Forall2_nil]; repeat split; auto|].
  repeat (constructor; [cbn; intuition discriminate|]). constructor.
Qed.

Lemma ex_furthest : exists th, let st := scan_all (spacing_of (all_of [0; 1; 2; 3]%nat) true ex_P) in
  s_from st = Some 0%nat /\ s_to st = Some 1%nat /\ s_max st = 8 /\ pdist (ex_P 0) (ex_P 1) = 8 /\ cos th = 0 /\ sin th = 1 /\
  (forall k, (k < 4)%nat -> corner st k = Ok (iso (sg (crs ex_P 0 1 k)) (ex_P 0) (ex_P 1) (ex_P k))) /\
  (forall i p, (i < 4)%nat -> exists b, finish st 30 i p = Ok (move th 10 p, b)) /\ n_entries (s_dist st) = 4%nat.
Proof.
  assert (ALL : forall i, (i < 4)%nat -> all_of [0; 1; 2; 3]%nat i = true) by (intros i Hi; do 4 (destruct i as [|i]; [reflexivity|]); lia).
  assert (N2 : (2 <= how_many (all_of [0; 1; 2; 3]%nat))%nat) by (cbn; lia).
  assert (E8 : pdist (ex_P 0) (ex_P 1) = 8).
  { unfold pdist, dist2. cbn. replace ((0 - 8) * (0 - 8) + (10 - 10) * (10 - 10)) with (8 * 8) by ring. apply sqrt_square. lra. }
  destruct (furthest (all_of [0; 1; 2; 3]%nat) true ex_P ltac:(cbn in *; lia) N2) as (f & t & A1 & A2 & A3 & A4 & A5 & A6 & A7 & A8).
  assert (FT : f = 0%nat /\ t = 1%nat).
  { pose proof (A8 0%nat 1%nat ltac:(lia) ltac:(lia) eq_refl eq_refl) as L. rewrite E8 in L. pose proof (pdist_sq (ex_P f) (ex_P t)) as Q.
    assert (B : 64 <= dist2 (ex_P f) (ex_P t)) by (rewrite <- Q; nra).
    do 4 (destruct t as [|t]; [do 4 (destruct f as [|f]; [first [lia|split; reflexivity|exfalso; clear - B; unfold dist2, ex_P in B; cbn in B; lra]|]); lia|]). lia. }
  destruct FT as [-> ->]. rewrite E8 in A7. assert (POS : 0 < pdist (ex_P 0) (ex_P 1)) by lra.
  assert (A7' : s_max (scan_all (spacing_of (all_of [0; 1; 2; 3]%nat) true ex_P)) = pdist (ex_P 0) (ex_P 1)) by lra.
  pose proof (ex_above (all_of [0; 1; 2; 3]%nat)) as AB.
  destruct (finish_move (all_of [0; 1; 2; 3]%nat) true ex_P 30 N2 0%nat 1%nat A1 A2 A3 A4 A5 A6 A7' POS) as (th & up & FE & _ & FIN).
  destruct (FE eq_refl) as (-> & Hc & Hs). exists th. cbv zeta. rewrite E8 in Hc, Hs. cbn [ex_P fst snd] in Hc, Hs.
  do 4 (split; [assumption|]).
  split; [lra|]. split; [rewrite Hs, Rabs_right by lra; lra|]. split; [|split].
  - intros k Hk. apply (corner_here (all_of [0; 1; 2; 3]%nat) true ex_P N2 0%nat 1%nat A1 A2 A3 A4 A5 A6 A7' A8 POS). split; auto.
  - intros i p Hi. eexists. apply FIN. split; auto.
  - rewrite (count_seen (all_of [0; 1; 2; 3]%nat) true ex_P); [reflexivity|cbn; lia|assumption].
Qed.

(** With four conductors the heights of the spacing are not kept: of A (0, 10), B (8, 10), C (4, 7) and N (4, 13) the
    conductor C ends up 13 feet high instead of 7. *)
Theorem C69_four_heights_refuted :
  exists out, compute_spacing (spacing_of (all_of [0; 1; 2; 3]%nat) true ex_P) ["A"; "B"; "C"; "N"]%string 30 = Ok (Some out) /\
    nth_error (map snd out) 2 = Some (13 * foot) /\ snd (ex_P 2) = 7.
Proof.
  destruct ex_furthest as (th & A1 & A2 & A3 & E8 & Hc & Hs & COR & FIN & CNT).
  set (st := scan_all (spacing_of (all_of [0; 1; 2; 3]%nat) true ex_P)) in *. unfold compute_spacing. fold st. rewrite CNT.
  unfold try4. cbn [mapM bind of_opt rev_lookup String.eqb Ascii.eqb Bool.eqb].
  cbn [corners4]. rewrite A1, A2. cbn [is_at Nat.eqb]. rewrite (COR 2%nat ltac:(lia)), (COR 3%nat ltac:(lia)). cbn [bind].
  set (x3 := if Req_EM_T _ _ then _ else _). cbn [mapM fst snd finish_all].
  destruct (FIN 0%nat (0, 0) ltac:(lia)) as [b0 F0]. rewrite F0. cbn [bind fst snd]. rewrite same.
  destruct (FIN 1%nat (0, 0 - s_max st) ltac:(lia)) as [b1 F1]. rewrite F1. cbn [bind fst snd]. rewrite same.
  destruct (FIN 2%nat (iso (sg (crs ex_P 0 1 2)) (ex_P 0) (ex_P 1) (ex_P 2)) ltac:(lia)) as [b2 F2]. rewrite F2. cbn [bind fst snd]. rewrite same.
  match goal with |- context [finish st 30 3 ?p] => destruct (FIN 3%nat p ltac:(lia)) as [b3 F3]; rewrite F3 end. cbn [bind fst snd]. rewrite same.
  cbn [bind or_defaults]. eexists. split; [reflexivity|]. split; [|reflexivity]. cbn [map nth_error]. f_equal.
  unfold to_m, move, rotate, iso. rewrite sg_abs. cbn [fst snd]. rewrite E8, Hc, Hs.
  unfold crs, cross, dot, vec, ex_P, foot. cbn [fst snd]. rewrite Rabs_right by lra. lra.
Qed.
Print Assumptions C69_four_heights_refuted.

(** Default positions are in feet and not in metres: two conductors at distance 0 are put 30 and 32 metres high. *)
Theorem C69_units_refuted :
  compute_spacing (spacing_of (all_of [0; 1]%nat) false (fun _ => (0, 10))) ["A"; "B"]%string 30 = Ok (Some [(0, 30); (0, 32)]).
Proof.
  assert (N2 : (2 <= how_many (all_of [0; 1]%nat))%nat) by (cbn; lia).
  destruct (furthest (all_of [0; 1]%nat) false (fun _ => (0, 10)) ltac:(cbn in *; lia) N2) as (f & t & A1 & A2 & A3 & A4 & A5 & A6 & A7 & A8).
  rewrite pdist_self in A7. unfold compute_spacing. rewrite count_seen; [|cbn; lia|intros; cbn; lra]. cbn [how_many filter all_of existsb Nat.eqb orb length].
  unfold place2. rewrite A7. destruct (Req_EM_T 0 0); [|contradiction]. cbn [length seq map bind]. do 3 f_equal.
  - f_equal. cbn [INR]. ring.
  - f_equal. f_equal. cbn [INR]. ring.
Qed.
Print Assumptions C69_units_refuted.
