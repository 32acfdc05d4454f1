(** Proofs about the lines of the GridLAB-D reader. *)
From Coq Require Import Reals Lra Lia Ring.
From Verif Require Import Base BaseFacts TextModel GlmModel GldModel MatrixModel MatrixSpec MatrixProofs KronProofs KronTop
  ImpedModel ImpedSpec ImpedProofs ImpedTop SpacingModel SpacingSpec SpacingProofs SpacingProps GldLineModel GldLineSpec GldUnderProofs.
Local Open Scope string_scope.
Local Open Scope list_scope.
Local Open Scope R_scope.

(** ** The heap *)
Lemma update_app p ws i f : update (p ++ ws) (length p + i) f = p ++ update ws i f.
Proof. induction p as [|w p IH]; cbn; [reflexivity|]. now rewrite IH. Qed.
Lemma update_length h i f : length (update h i f) = length h.
Proof. revert i. induction h as [|w h IH]; intros [|i]; cbn; congruence. Qed.
Lemma update_all_app ws f : forall p, update_all (p ++ ws) (seq (length p) (length ws)) f = p ++ map f ws.
Proof.
  induction ws as [|w ws IH]; intros p; [reflexivity|]. unfold update_all. cbn [length seq fold_left].
  replace (update (p ++ w :: ws) (length p) f) with (p ++ f w :: ws) by (rewrite <- (Nat.add_0_r (length p)); rewrite update_app; reflexivity).
  replace (p ++ f w :: ws) with ((p ++ [f w]) ++ ws) by (rewrite <- app_assoc; reflexivity).
  replace (S (length p)) with (length (p ++ [f w])) by (rewrite app_length; cbn; lia).
  fold (update_all ((p ++ [f w]) ++ ws) (seq (length (p ++ [f w])) (length ws)) f). rewrite IH, <- app_assoc. reflexivity.
Qed.
Lemma load_app ws : forall p, map (load_w (p ++ ws)) (seq (length p) (length ws)) = ws.
Proof.
  induction ws as [|w ws IH]; intros p; [reflexivity|]. cbn [length seq map]. f_equal.
  - unfold load_w. rewrite app_nth2 by lia. now rewrite Nat.sub_diag.
  - replace (p ++ w :: ws) with ((p ++ [w]) ++ ws) by (rewrite <- app_assoc; reflexivity).
    replace (S (length p)) with (length (p ++ [w])) by (rewrite app_length; cbn; lia). apply IH.
Qed.
Lemma load_more h more is_ : Forall (fun i => (i < length h)%nat) is_ -> map (load_w (h ++ more)) is_ = map (load_w h) is_.
Proof.
  intros F. apply map_ext_in. intros i I. rewrite Forall_forall in F. unfold load_w. apply app_nth1. now apply F.
Qed.

(** ** Numbers *)
Section Num.
Variable num : string -> res R.
Hypothesis FL : floats num.

Lemma fnum_told o k v u : fnum num o k = Ok v -> told num o k u (scale u v).
Proof.
  unfold fnum, getitem, told, attr. destruct (dget (o_props o) k) as [s|]; cbn [of_opt bind].
  - specialize (FL s). destruct (num s) as [x|e] eqn:E; cbn [attempt].
    + intros Q. injection Q as <-. right. exists s, x. auto.
    + destruct e; cbn; try discriminate. congruence.
  - cbn. intros Q. injection Q as <-. left. auto.
Qed.
Lemma scale_one v : scale 1 v = v.
Proof. destruct v; cbn; [f_equal; ring|reflexivity]. Qed.
Lemma scale_scale a b v : scale a (scale b v) = scale (b * a) v.
Proof. destruct v; cbn; [f_equal; ring|reflexivity]. Qed.

Variable objs : dict obj.

Lemma conductors_spec cfg : conductors cfg = map (fun p => (p, match attr cfg ("conductor_" ++ p) with Some n => n | None => "" end)) (phases_of cfg).
Proof.
  unfold conductors, phases_of, has. generalize ["A"; "B"; "C"; "N"] as l. induction l as [|p l IH]; [reflexivity|].
  cbn [flat_map filter]. destruct (attr cfg ("conductor_" ++ p)) as [n|] eqn:E; cbn [app map]; [|exact IH]. rewrite E. f_equal. exact IH.
Qed.
Lemma phases_have cfg p : In p (phases_of cfg) -> exists n, attr cfg ("conductor_" ++ p) = Some n.
Proof. unfold phases_of, has. rewrite filter_In. intros [_ H]. destruct (attr cfg ("conductor_" ++ p)) as [n|]; [eauto|discriminate]. Qed.
Lemma phases_nodup cfg : NoDup (phases_of cfg).
Proof.
  apply NoDup_filter. repeat (apply NoDup_cons; [cbn; intros H; repeat destruct H as [H|H]; try discriminate H; exact H|]). apply NoDup_nil.
Qed.

(** the wires of a configuration, given what they read *)
Lemma made f (data : obj -> wire -> Prop) cfg ws :
  (forall ph c w, f ph c = Ok w -> w_phase w = ph /\ data c w) ->
  make_wires objs f (conductors cfg) = Ok ws -> own_conductors objs data cfg ws.
Proof.
  intros Hf. rewrite conductors_spec. unfold make_wires, own_conductors. intros E.
  assert (G : forall l ws, (forall p, In p l -> exists n, attr cfg ("conductor_" ++ p) = Some n) ->
    mapM (fun pn : string * string => do c <- get objs (snd pn); f (fst pn) c) (map (fun p => (p, match attr cfg ("conductor_" ++ p) with Some n => n | None => "" end)) l) = Ok ws ->
    map w_phase ws = l /\ Forall (fun w => exists c, refers objs cfg ("conductor_" ++ w_phase w) c /\ data c w) ws).
  { clear ws E. induction l as [|p l IH]; intros ws HA E; cbn [map mapM fst snd] in E.
    - injection E as <-. split; [reflexivity|apply Forall_nil].
    - destruct (HA p (or_introl eq_refl)) as [n Hn]. rewrite Hn in E. unfold get at 1 in E.
      destruct (dget objs n) as [c|] eqn:Ec; cbn [of_opt bind] in E; [|discriminate].
      destruct (f p c) as [w|] eqn:Ew; cbn [bind] in E; [|discriminate]. destruct (Hf _ _ _ Ew) as [Hp Hd].
      destruct (mapM _ _) as [r|] eqn:Er in E; cbn [bind] in E; [|discriminate]. injection E as <-.
      destruct (IH r (fun q Q => HA q (or_intror Q)) Er) as [A B]. cbn [map]. split; [now rewrite Hp, A|].
      apply Forall_cons; [|exact B]. exists c. split; [|exact Hd]. rewrite Hp. exists n. auto. }
  apply G; [|exact E]. apply phases_have.
Qed.

Lemma own_map (data data' : obj -> wire -> Prop) cfg g ws : (forall w, w_phase (g w) = w_phase w) -> (forall c w, data c w -> data' c (g w)) ->
  own_conductors objs data cfg ws -> own_conductors objs data' cfg (map g ws).
Proof.
  intros HP HD [A B]. split.
  - rewrite map_map, <- A. apply map_ext. exact HP.
  - apply Forall_forall. intros w I. apply in_map_iff in I as (v & <- & I). rewrite Forall_forall in B.
    destruct (B v I) as (c & H1 & H2). exists c. rewrite HP. auto.
Qed.

Definition raw_bare (c : obj) (w : wire) : Prop := bare num c (metric_oh w).
Definition raw_concentric (c : obj) (w : wire) : Prop := concentric num c (metric_ug w).
Lemma overhead_wire_raw ph c w : overhead_wire num ph c = Ok w -> w_phase w = ph /\ raw_bare c w.
Proof.
  unfold overhead_wire. intros H.
  repeat match type of H with bind ?r _ = Ok _ => let E := fresh "E" in destruct r eqn:E; cbn [bind] in H; [|discriminate] end.
  injection H as <-. split; [reflexivity|]. unfold raw_bare, bare, metric_oh. cbn [w_diam w_gmr w_res w_amp w_emerg].
  repeat split; try (apply fnum_told; assumption); rewrite <- (scale_one _) at 1; apply fnum_told; assumption.
Qed.
Lemma underground_wire_raw ph c w : underground_wire num ph c = Ok w -> w_phase w = ph /\ raw_concentric c w.
Proof.
  unfold underground_wire. intros H.
  repeat match type of H with bind ?r _ = Ok _ => let E := fresh "E" in destruct r eqn:E; cbn [bind] in H; [|discriminate] end.
  injection H as <-. split; [reflexivity|]. unfold raw_concentric, concentric, metric_ug. cbn [w_diam w_gmr w_res w_cgmr w_cres].
  repeat split; apply fnum_told; assumption.
Qed.

(** placing changes the positions only, if there is one for each wire *)
Lemma place_own (data : obj -> wire -> Prop) cfg ws pos : (forall c w p, data c w -> data c (set_xy w p)) ->
  (forall l, pos = Some l -> length l = length ws) -> own_conductors objs data cfg ws -> own_conductors objs data cfg (place ws pos).
Proof.
  intros HD L [A B]. destruct pos as [l|]; [|now split]. specialize (L l eq_refl). cbn [place].
  revert l L B. assert (G : forall l, length l = length ws -> map w_phase (map (fun wp : wire * (R * R) => set_xy (fst wp) (snd wp)) (combine ws l)) = map w_phase ws).
  { clear. induction ws as [|w ws IH]; intros [|p l] L; cbn in L; try discriminate; [reflexivity|]. cbn. f_equal. apply IH. congruence. }
  intros l L B. split; [rewrite G by exact L; exact A|]. apply Forall_forall. intros w I. apply in_map_iff in I as ([v p] & <- & I).
  apply in_combine_l in I. rewrite Forall_forall in B. destruct (B v I) as (c & H1 & H2). exists c. split; [exact H1|apply HD; exact H2].
Qed.

Lemma mapM_length {A B} (h : A -> res B) l r : mapM h l = Ok r -> length r = length l.
Proof.
  revert r. induction l as [|a l IH]; intros r E; cbn in E; [now injection E as <-|].
  destruct (h a); cbn in E; [|discriminate]. destruct (mapM h l) eqn:E2; cbn in E; [|discriminate]. injection E as <-. cbn. f_equal. now apply IH.
Qed.
Lemma defaults_length ht cs : forall n, length (defaults ht n cs) = length cs.
Proof. induction cs as [|c cs IH]; intros n; [reflexivity|]. cbn. destruct (String.eqb (lower c) "n"); cbn; now rewrite IH. Qed.
Lemma or_defaults_length ht cs r l : (forall x, r = Ok x -> length x = length cs) -> or_defaults ht cs r = Ok l -> length l = length cs.
Proof.
  intros H E. destruct r as [x|e]; cbn in E; injection E as <-; [now apply H|]. apply defaults_length.
Qed.
Lemma corners4_length st is_ : forall seen r, corners4 st seen is_ = Ok r -> length r = length is_.
Proof.
  induction is_ as [|i is_ IH]; intros seen r E; cbn [corners4] in E; [now injection E as <-|].
  assert (G : forall s c x, (do t <- corners4 st s is_; Ok (c :: t)) = Ok x -> length x = S (length is_)).
  { intros s c x Q. destruct (corners4 st s is_) eqn:E2; cbn in Q; [|discriminate]. injection Q as <-. cbn. f_equal. eapply IH; eassumption. }
  destruct (is_at (s_from st) i); [exact (G _ _ _ E)|]. destruct (is_at (s_to st) i); [exact (G _ _ _ E)|].
  destruct (corner st i) as [p|]; cbn [bind] in E; [|discriminate]. destruct seen as [[[fx fy] fi]|]; exact (G _ _ _ E).
Qed.
Lemma spacing_length sp cs ht l : compute_spacing sp cs ht = Ok (Some l) -> length l = length cs.
Proof.
  unfold compute_spacing. set (st := scan_all sp). clearbody st.
  destruct (n_entries (s_dist st)) as [|[|[|[|[|n]]]]]; intros E; try discriminate.
  - destruct (place1 st ht cs) as [x|] eqn:P; cbn in E; [|discriminate]. injection E as <-. unfold place1 in P.
    destruct (has_earth (s_dist st)); [now apply mapM_length in P|]. injection P as <-. apply map_length.
  - destruct (place2 st ht cs) as [x|] eqn:P; cbn in E; [|discriminate]. injection E as <-. unfold place2 in P.
    destruct (Req_EM_T (s_max st) 0); [injection P as <-; now rewrite map_length, seq_length|].
    destruct (mapM _ cs) as [is_|] eqn:M; cbn [bind] in P; [|discriminate]. apply mapM_length in M, P. congruence.
  - destruct (or_defaults ht cs (try3 st ht cs)) as [x|] eqn:P; cbn in E; [|discriminate]. injection E as <-.
    apply (or_defaults_length _ _ _ _) in P; [exact P|]. intros y T. unfold try3 in T.
    destruct (mapM _ cs) as [is_|] eqn:M; cbn [bind] in T; [|discriminate]. destruct (mapM _ is_) as [c|] eqn:M2 in T; cbn [bind] in T; [|discriminate].
    apply mapM_length in M, M2, T. congruence.
  - destruct (or_defaults ht cs (try4 st ht cs)) as [x|] eqn:P; cbn in E; [|discriminate]. injection E as <-.
    apply (or_defaults_length _ _ _ _) in P; [exact P|]. intros y T. unfold try4 in T.
    destruct (mapM _ cs) as [is_|] eqn:M; cbn [bind] in T; [|discriminate]. destruct (corners4 _ _ is_) as [c|] eqn:M2 in T; cbn [bind] in T; [|discriminate].
    apply mapM_length in M, T. apply corners4_length in M2. congruence.
Qed.
Lemma row_length cs : length (in_a_row cs) = length cs.
Proof. unfold in_a_row. now rewrite map_length, seq_length. Qed.
Lemma under4_length D mx f t cs : forall seen r, under4_wires D mx f t seen cs = Ok r -> length r = length cs.
Proof.
  induction cs as [|c cs IH]; intros seen r E; cbn [under4_wires] in E; [now injection E as <-|].
  assert (G : forall s p x, (do l <- under4_wires D mx f t s cs; Ok (p :: l)) = Ok x -> length x = S (length cs)).
  { intros s p x Q. destruct (under4_wires D mx f t s cs) eqn:E2; cbn in Q; [|discriminate]. injection Q as <-. cbn. f_equal. eapply IH; eassumption. }
  destruct (rev_lookup c) as [i|]; cbn [of_opt bind] in E; [|discriminate].
  destruct (negb (is_at t i) && negb (is_at f i))%bool; [|exact (G _ _ _ E)].
  destruct (psqrt _) as [q|] in E; cbn [bind] in E; [|discriminate]. destruct (pdiv _ _) as [h|] in E; cbn [bind] in E; [|discriminate].
  destruct (psqrt _) as [x|] in E; cbn [bind] in E; [|discriminate]. destruct seen as [[[fx fy] fi]|]; exact (G _ _ _ E).
Qed.
Lemma under_length D cs l : under_positions D cs = Some l -> length l = length cs.
Proof.
  unfold under_positions. destruct (n_known D) as [|[|[|[|[|n]]]]]; intros E; try discriminate; injection E as <-.
  - unfold under2. destruct (Req_EM_T _ 0); [apply row_length|]. destruct cs; cbn; [reflexivity|now rewrite map_length].
  - unfold or_row. destruct (under3 D cs) as [x|] eqn:U; [|apply row_length]. unfold under3 in U.
    destruct (fold_left _ _ _) as [[[tot mx] f] t]. destruct (psqrt _) as [r|] in U; cbn [bind] in U; [|discriminate].
    destruct (pdiv _ _) as [h|] in U; cbn [bind] in U; [|discriminate]. now apply mapM_length in U.
  - unfold or_row. destruct (under4 D cs) as [x|] eqn:U; [|apply row_length]. unfold under4 in U.
    destruct (fold_left _ _ _) as [[mx f] t]. now apply under4_length in U.
Qed.

(** ** Positions *)
Lemma told_same o k u v v' : told num o k u v -> told num o k u v' -> v = v'.
Proof.
  intros [[A ->]|(s & x & A & B & ->)] [[A' ->]|(s' & x' & A' & B' & ->)]; try congruence.
Qed.
Lemma read_at prs so sp : read_spacing num prs so = Ok sp -> NoDup prs -> forall i j, In (i, j) prs -> told num so (dist_name i j) 1 (sp i j).
Proof.
  unfold read_spacing. destruct (mapM _ prs) as [l|] eqn:E; cbn [bind]; [|discriminate]. intros Q. injection Q as <-.
  revert l E. induction prs as [|[a b] prs IH]; intros l E ND i j I; [destruct I|]. cbn [mapM fst snd] in E.
  destruct (fnum num so (dist_name a b)) as [d|] eqn:F; cbn [bind] in E; [|discriminate]. destruct (mapM _ prs) as [r|] eqn:Er in E, IH; cbn [bind] in E; [|discriminate].
  injection E as <-. cbn [find fst snd]. inversion ND as [|? ? NI ND']; subst. destruct (Nat.eqb_spec a i) as [->|N1]; cbn [andb].
  - destruct (Nat.eqb_spec b j) as [->|N2]; cbn [andb].
    + cbn [snd]. rewrite <- (scale_one d). now apply fnum_told.
    + destruct I as [I|I]; [congruence|]. now apply IH.
  - destruct I as [I|I]; [congruence|]. now apply IH.
Qed.
Lemma letters5 i : (i < 5)%nat -> nth_error ["A"; "B"; "C"; "N"; "E"] i = Some (nth i names5 "").
Proof. intros H. do 5 (destruct i as [|i]; [reflexivity|]). lia. Qed.
Lemma read_described cols prs so sp present earth P : read_spacing num prs so = Ok sp -> NoDup prs -> (forall i j, In (i, j) prs -> (i < j < cols)%nat) -> (cols <= 5)%nat ->
  describes num cols so present earth P -> forall i j, In (i, j) prs -> sp i j = spacing_of present earth P i j.
Proof.
  intros E ND B C5 DS i j I. pose proof (B i j I) as [B1 B2]. eapply told_same; [eapply read_at; eassumption|].
  unfold dist_name. apply DS; [lia|apply letters5; lia|apply letters5; lia].
Qed.
Lemma nodup_pairs : NoDup pairs /\ NoDup pairs4.
Proof.
  split; unfold pairs, pairs4; repeat (apply NoDup_cons; [cbn [In]; intros H; repeat (destruct H as [H|H]; [discriminate H|]); exact H|]); apply NoDup_nil.
Qed.
Lemma scan_ext sp sp' : (forall i j, In (i, j) pairs -> sp i j = sp' i j) -> scan_all sp = scan_all sp'.
Proof.
  unfold scan_all. generalize scan0. induction pairs as [|[i j] l IH]; intros s0 H; [reflexivity|]. cbn [fold_left].
  unfold scan1 at 2 4. rewrite (H i j (or_introl eq_refl)). apply IH. intros a b I. apply H. now right.
Qed.
Lemma spacing_ext sp sp' cs ht : (forall i j, In (i, j) pairs -> sp i j = sp' i j) -> compute_spacing sp cs ht = compute_spacing sp' cs ht.
Proof. intros H. unfold compute_spacing. now rewrite (scan_ext sp sp' H). Qed.
Lemma distances_ext sp sp' : (forall i j, In (i, j) pairs4 -> sp i j = sp' i j) -> distances sp = distances sp'.
Proof.
  unfold distances. generalize (fun _ _ : nat => -1). induction pairs4 as [|[i j] l IH]; intros s0 H; [reflexivity|]. cbn [fold_left].
  unfold distances1 at 2 4. rewrite (H i j (or_introl eq_refl)). apply IH. intros a b I. apply H. now right.
Qed.

Lemma drawn_same present P c p p' : drawn present P c p -> drawn present P c p' -> p = p'.
Proof. intros (i & A & _ & ->) (j & B & _ & ->). apply spelled in A as [A _]. apply spelled in B as [B _]. congruence. Qed.
Lemma drawn_all present P cs : (forall c, In c cs -> exists p, drawn present P c p) -> exists ps, Forall2 (drawn present P) cs ps.
Proof.
  induction cs as [|c cs IH]; intros H; [exists []; constructor|]. destruct (H c (or_introl eq_refl)) as [p Hp].
  destruct (IH (fun d I => H d (or_intror I))) as [ps F]. exists (p :: ps). now constructor.
Qed.
Lemma place_nth ws : forall out n w, nth_error (place ws (Some out)) n = Some w ->
  exists w0 q, nth_error ws n = Some w0 /\ nth_error out n = Some q /\ w = set_xy w0 q.
Proof.
  cbn [place]. induction ws as [|w0 ws IH]; intros [|q out] [|n] w E; cbn in E; try discriminate.
  - injection E as <-. exists w0, q. auto.
  - exact (IH out n w E).
Qed.
Lemma place_phases ws : forall out, length out = length ws -> map w_phase (place ws (Some out)) = map w_phase ws.
Proof. cbn [place]. induction ws as [|w ws IH]; intros [|q out] L; cbn in L; try discriminate; [reflexivity|]. cbn. f_equal. apply IH. congruence. Qed.
Lemma laid_placed cols unit (kind : (nat -> bool) -> Prop) cfg ws out s so :
  attr cfg "spacing" = Some s -> dget objs s = Some so -> length out = length ws ->
  (forall present earth P ps, describes num cols so present earth P -> drawing present P -> kind present -> Forall2 (drawn present P) (map w_phase ws) ps ->
    forall m n p q p' q', nth_error ps m = Some p -> nth_error ps n = Some q -> nth_error out m = Some p' -> nth_error out n = Some q' -> pdist p' q' = pdist p q * unit) ->
  laid_out num objs cols unit kind cfg (place ws (Some out)).
Proof.
  intros Hs Hso L H. split; [congruence|]. intros so' present earth P (n & Hn & Hn') DS DR K AL w w' p p' I I' D D'.
  assert (so' = so) by congruence. subst so'.
  destruct (drawn_all present P (map w_phase ws)) as [ps F].
  { intros c Ic. rewrite <- (place_phases ws out L) in Ic. apply in_map_iff in Ic as (x & <- & Ix). now apply AL. }
  apply In_nth_error in I as [k I]. apply In_nth_error in I' as [k' I'].
  apply place_nth in I as (w0 & q & A1 & A2 & ->). apply place_nth in I' as (w0' & q' & A1' & A2' & ->).
  exists q, q'. split; [split; reflexivity|]. split; [split; reflexivity|].
  assert (G : forall k w0 p, nth_error ws k = Some w0 -> drawn present P (w_phase w0) p -> nth_error ps k = Some p).
  { clear - F. intros k. remember (map w_phase ws) as cs eqn:E. revert ws E k. induction F as [|c p0 cs ps D F IH]; intros ws E k w0 p A Dp.
    - destruct ws; [|discriminate]. destruct k; discriminate.
    - destruct ws as [|x ws]; [discriminate|]. injection E as -> ->. destruct k as [|k]; cbn in A |- *.
      + injection A as ->. f_equal. eapply drawn_same; eassumption.
      + eapply IH; [reflexivity|eassumption|exact Dp]. }
  eapply (H present earth P ps DS DR K F k k'); [eapply G; eassumption|eapply G; eassumption|exact A2|exact A2'].
Qed.
Lemma laid_none cols unit (kind : (nat -> bool) -> Prop) cfg ws : attr cfg "spacing" = None -> Forall (fun w => w_x w = None /\ w_y w = None) ws ->
  laid_out num objs cols unit kind cfg ws.
Proof. intros Hs F. split; [auto|]. intros so present earth P (n & Hn & _). congruence. Qed.
Lemma laid_map cols unit (kind : (nat -> bool) -> Prop) cfg g ws :
  (forall w, w_phase (g w) = w_phase w /\ w_x (g w) = w_x w /\ w_y (g w) = w_y w) ->
  laid_out num objs cols unit kind cfg ws -> laid_out num objs cols unit kind cfg (map g ws).
Proof.
  intros G [H1 H2]. split.
  - intros Hs. specialize (H1 Hs). apply Forall_forall. intros w I. apply in_map_iff in I as (v & <- & I). rewrite Forall_forall in H1.
    destruct (G v) as (_ & -> & ->). now apply H1.
  - intros so present earth P R DS DR K AL w w' p p' I I' D D'. apply in_map_iff in I as (v & <- & I). apply in_map_iff in I' as (v' & <- & I').
    unfold position. destruct (G v) as (E1 & -> & ->). destruct (G v') as (E1' & -> & ->). rewrite E1 in D. rewrite E1' in D'.
    apply (H2 so present earth P R DS DR K); try assumption. intros x X. destruct (AL (g x)) as [y Y]; [now apply in_map|]. exists y. destruct (G x) as (E & _). now rewrite E in Y.
Qed.
Lemma no_positions f l ws : (forall ph c w, f ph c = Ok w -> w_x w = None /\ w_y w = None) -> make_wires objs f l = Ok ws -> Forall (fun w => w_x w = None /\ w_y w = None) ws.
Proof.
  intros H. unfold make_wires. revert ws. induction l as [|[p n] l IH]; intros ws E; cbn [mapM fst snd] in E; [injection E as <-; constructor|].
  destruct (get objs n) as [c|]; cbn [bind] in E; [|discriminate]. destruct (f p c) as [w|] eqn:Ew; cbn [bind] in E; [|discriminate].
  destruct (mapM _ l) as [r|] eqn:Er in E, IH; cbn [bind] in E; [|discriminate]. injection E as <-. constructor; [eapply H, Ew|now apply IH].
Qed.
Lemma overhead_blank ph c w : overhead_wire num ph c = Ok w -> w_x w = None /\ w_y w = None.
Proof.
  unfold overhead_wire. intros H. repeat match type of H with bind ?r _ = Ok _ => destruct r; cbn [bind] in H; [|discriminate] end. injection H as <-. auto.
Qed.
Lemma underground_blank ph c w : underground_wire num ph c = Ok w -> w_x w = None /\ w_y w = None.
Proof.
  unfold underground_wire. intros H. repeat match type of H with bind ?r _ = Ok _ => destruct r; cbn [bind] in H; [|discriminate] end. injection H as <-. auto.
Qed.
Lemma overhead_laid cfg ws s so sp pos : attr cfg "spacing" = Some s -> dget objs s = Some so -> read_spacing num pairs so = Ok sp ->
  Forall (fun w => w_x w = None /\ w_y w = None) ws -> compute_spacing sp (map w_phase ws) 30 = Ok pos ->
  laid_out num objs 5 foot (fun _ => True) cfg (place ws pos).
Proof.
  intros Hs Hso Er FB E.
  assert (EX : forall present earth P, describes num 5 so present earth P -> compute_spacing (spacing_of present earth P) (map w_phase ws) 30 = Ok pos).
  { intros present earth P DS. rewrite <- E. apply spacing_ext. intros i j I. symmetry. eapply read_described; try eassumption; [apply nodup_pairs| |lia].
    clear. intros i j I. unfold pairs in I. repeat (destruct I as [I|I]; [injection I as <- <-; lia|]). destruct I. }
  destruct pos as [out|].
  - eapply laid_placed; [exact Hs|exact Hso|apply spacing_length in E; now rewrite map_length in E|].
    intros present earth P ps DS (D1 & D2 & D3) _ F. destruct (C69_distances present earth P (map w_phase ws) ps 30 D1 D2 D3 F) as (out' & E' & _ & H).
    rewrite (EX present earth P DS) in E'. injection E' as <-. exact H.
  - cbn [place]. split; [congruence|]. intros so' present earth P (n & Hn & Hn') DS (D1 & D2 & D3) _ AL.
    assert (so' = so) by congruence. subst so'. destruct (drawn_all present P (map w_phase ws)) as [ps F].
    { intros c Ic. apply in_map_iff in Ic as (x & <- & Ix). now apply AL. }
    destruct (C69_distances present earth P (map w_phase ws) ps 30 D1 D2 D3 F) as (out' & E' & _). rewrite (EX present earth P DS) in E'. discriminate.
Qed.
Lemma indices_nodup cs is_ : NoDup cs -> mapM (fun c => of_opt EKey (rev_lookup c)) cs = Ok is_ -> NoDup is_.
Proof.
  intros ND. revert is_. induction ND as [|c cs NI ND IH]; intros is_ HM; cbn in HM; [injection HM as <-; constructor|].
  destruct (rev_lookup c) as [i|] eqn:Ec; cbn in HM; [|discriminate]. destruct (mapM _ cs) as [js|] eqn:Ej in HM, IH; cbn in HM; [|discriminate]. injection HM as <-.
  constructor; [|now apply IH]. intros I. apply NI.
  assert (K : exists d, In d cs /\ rev_lookup d = Some i).
  { clear - Ej I. revert js Ej I. induction cs as [|d cs IH]; intros js Ej I; cbn in Ej; [injection Ej as <-; destruct I|].
    destruct (rev_lookup d) as [k|] eqn:Ed; cbn in Ej; [|discriminate]. destruct (mapM _ cs) as [ks|] eqn:Ek in Ej; cbn in Ej; [|discriminate]. injection Ej as <-.
    destruct I as [->|I]; [exists d; cbn; auto|]. destruct (IH ks Ek I) as (x & X1 & X2). exists x. cbn. auto. }
  destruct K as (d & Id & Ed). replace c with d; [exact Id|]. clear - Ec Ed. unfold rev_lookup in *.
  repeat match goal with H : context [String.eqb ?a ?b] |- _ => destruct (String.eqb_spec a b); subst end; congruence.
Qed.
Lemma underground_drawn present earth P cs ps : drawing present P -> no_third_neutral present -> NoDup cs -> Forall2 (drawn present P) cs ps ->
  exists out, under_positions (distances (spacing_of present earth P)) cs = Some out /\
    forall m n p q p' q', nth_error ps m = Some p -> nth_error ps n = Some q -> nth_error out m = Some p' -> nth_error out n = Some q' -> pdist p' q' = pdist p q * 1.
Proof.
  intros (D1 & _ & D3) K ND F. destruct (drawn_indices _ _ _ _ F) as (is_ & HM & HI & -> & _).
  replace (distances (spacing_of present earth P)) with (distances (spacing_of present false P)).
  - destruct (placed_under present P D1 D3 is_ cs K HI (indices_nodup _ _ ND HM) HM) as (g & E & G).
    exists (map g is_). split; [exact E|]. intros m n p q p' q' Hp Hq Hp' Hq'. rewrite nth_error_map in Hp, Hq, Hp', Hq'.
    destruct (nth_error is_ m) as [i|] eqn:Im; [|discriminate]. destruct (nth_error is_ n) as [j|] eqn:Jn; [|discriminate].
    cbn in Hp, Hq, Hp', Hq'. injection Hp as <-. injection Hq as <-. injection Hp' as <-. injection Hq' as <-.
    rewrite Rmult_1_r. unfold pdist. f_equal. apply G; eapply nth_error_In; eassumption.
  - apply distances_ext. intros i j I. unfold spacing_of. assert (j < 4)%nat by (clear - I; unfold pairs4 in I; repeat (destruct I as [I|I]; [injection I as <- <-; lia|]); destruct I).
    destruct (Nat.eqb_spec j 4); [lia|]. reflexivity.
Qed.
Lemma underground_laid cfg ws s so sp : attr cfg "spacing" = Some s -> dget objs s = Some so -> read_spacing num pairs4 so = Ok sp -> NoDup (map w_phase ws) ->
  Forall (fun w => w_x w = None /\ w_y w = None) ws ->
  laid_out num objs 4 1 no_third_neutral cfg (place ws (under_positions (distances sp) (map w_phase ws))).
Proof.
  intros Hs Hso Er ND FB.
  assert (EX : forall present earth P, describes num 4 so present earth P -> distances sp = distances (spacing_of present earth P)).
  { intros present earth P DS. apply distances_ext. intros i j I. eapply read_described; try eassumption; [apply nodup_pairs| |lia].
    clear. intros i j I. unfold pairs4 in I. repeat (destruct I as [I|I]; [injection I as <- <-; lia|]). destruct I. }
  destruct (under_positions (distances sp) (map w_phase ws)) as [out|] eqn:E.
  - eapply laid_placed; [exact Hs|exact Hso|apply under_length in E; now rewrite map_length in E|].
    intros present earth P ps DS DR K F. destruct (underground_drawn present earth P _ _ DR K ND F) as (out' & E' & H).
    rewrite <- (EX present earth P DS), E in E'. injection E' as <-. exact H.
  - cbn [place]. split; [congruence|]. intros so' present earth P (n & Hn & Hn') DS DR K AL.
    assert (so' = so) by congruence. subst so'. destruct (drawn_all present P (map w_phase ws)) as [ps F].
    { intros c Ic. apply in_map_iff in Ic as (x & <- & Ix). now apply AL. }
    destruct (underground_drawn present earth P _ _ DR K ND F) as (out' & E' & H). rewrite <- (EX present earth P DS), E in E'. discriminate.
Qed.

(** ** Lines with own conductors *)
Definition lines_state (st : state) (cfg : obj) (ws : list wire) (a : option nat) (c2 : option string) : state :=
  mkState (heap st ++ ws) (Some (cfg, seq (length (heap st)) (length ws))) c2 a.

Lemma units_result ty metric o len st cfg ws st' l :
  matrix_and_units ty metric o len (add_wires st cfg ws) = Ok (st', l) ->
  exists m a, direct keys3 cfg = false /\ compute_matrix (map plain ws) 60 100 true = Ok m /\
    st' = lines_state st cfg (map metric ws) a (conn2 st) /\
    l = finish_line (Some ty) o len (map (map (cscale mile)) m) (seq (length (heap st)) (length ws)).
Proof.
  unfold matrix_and_units, add_wires. cbn [cur of_opt bind heap conn2 api_wire]. destruct (direct keys3 cfg); [discriminate|].
  rewrite load_app. unfold matrix3. destruct (compute_matrix (map plain ws) 60 100 true) as [m|] eqn:Em; cbn [bind]; [|discriminate].
  intros E. injection E as <- <-. eexists m, _. split; [reflexivity|]. split; [reflexivity|]. unfold lines_state. rewrite update_all_app, map_length. split; reflexivity.
Qed.

Lemma named_plain ws : named_phases (map plain ws) = map w_phase ws.
Proof. induction ws as [|w ws IH]; [reflexivity|]. cbn. now rewrite IH. Qed.
Lemma carson_of ws m : NoDup (map w_phase ws) -> compute_matrix (map plain ws) 60 100 true = Ok m -> carson (map plain ws) m.
Proof.
  intros ND E. rewrite <- named_plain in ND. destruct (compute_result _ _ _ _ _ ND E) as (A & _ & B & _).
  split; [exact A|]. intros N zf Z. exact (proj2 (B N eq_refl zf Z)).
Qed.
Lemma carson_metric metric ws m :
  (forall w, per_mile (metric w) (plain w)) -> NoDup (map w_phase ws) -> compute_matrix (map plain ws) 60 100 true = Ok m ->
  carson_per_metre (map metric ws) (map (map (cscale mile)) m).
Proof.
  intros HM ND E. exists (map plain ws), m. split; [|split; [now apply carson_of|reflexivity]].
  clear E ND. induction ws as [|w ws IH]; cbn; constructor; auto.
Qed.
Lemma header_finish ty o len z is_ : length_m num o = Ok len -> header_of num ty o (finish_line ty o len z is_).
Proof.
  unfold length_m. destruct (fnum num o "length") as [v|] eqn:E; cbn [bind]; [|discriminate]. intros Q. injection Q as <-.
  unfold header_of, finish_line. cbn. repeat split. now apply fnum_told.
Qed.

Definition extends (st st' : state) : Prop := exists ws, heap st' = heap st ++ ws.
Definition fresh_wires (st st' : state) (l : line) : Prop :=
  l_wires l = seq (length (heap st)) (length (heap st') - length (heap st)) /\ (length (heap st) <= length (heap st'))%nat.

Lemma overhead_result st o c st' l : attr o "configuration" = Some c -> conv_overhead num objs st o = Ok (st', l) ->
  extends st st' /\ fresh_wires st st' l /\ overhead_of num objs (heap st') o l.
Proof.
  intros Hc. unfold conv_overhead. destruct (length_m num o) as [len|] eqn:El; cbn [bind]; [|discriminate].
  unfold overhead_conf. rewrite Hc. unfold get at 1. destruct (dget objs c) as [cfg|] eqn:Ecfg; cbn [of_opt bind]; [|discriminate].
  destruct (make_wires objs (overhead_wire num) (conductors cfg)) as [ws0|] eqn:Ew; cbn [bind]; [|discriminate].
  pose proof (no_positions _ _ _ overhead_blank Ew) as NP. apply (made _ raw_bare) in Ew; [|exact overhead_wire_raw].
  assert (G : forall ws, own_conductors objs raw_bare cfg ws -> laid_out num objs 5 foot (fun _ => True) cfg ws -> forall r, matrix_and_units "overhead" metric_oh o len (add_wires st cfg ws) = Ok r ->
    extends st (fst r) /\ fresh_wires st (fst r) (snd r) /\ overhead_of num objs (heap (fst r)) o (snd r)).
  { intros ws OW LO [s2 l2] E. apply units_result in E as (m & a & _ & Em & -> & ->). unfold fresh_wires. cbn [fst snd heap lines_state l_wires finish_line].
    split; [now exists (map metric_oh ws)|]. rewrite app_length, map_length. split; [split; [f_equal; lia|lia]|].
    exists cfg. split; [exists c; auto|]. split; [now apply header_finish|]. unfold wires_of. cbn [l_wires l_z finish_line].
    rewrite <- (map_length metric_oh ws), load_app. split.
    - eapply own_map; [| |exact OW]; [reflexivity|intros; assumption].
    - split; [apply laid_map; [intros w; repeat split|exact LO]|]. apply carson_metric; [|rewrite (proj1 OW); apply phases_nodup|exact Em]. intros w. unfold per_mile, metric_oh, plain, scale, feet, mile. cbn. auto. }
  destruct (attr cfg "spacing") as [s|] eqn:Hs.
  - unfold get. destruct (dget objs s) as [so|] eqn:Hso; cbn [of_opt bind]; [|discriminate].
    destruct (read_spacing num pairs so) as [sp|] eqn:Er; cbn [bind]; [|discriminate].
    destruct (compute_spacing sp (map w_phase ws0) 30) as [pos|] eqn:Ep; cbn [bind]; [|discriminate]. intros E.
    apply (G (place ws0 pos)) in E; [exact E| |eapply overhead_laid; eassumption]. apply place_own; [intros; assumption| |exact Ew].
    intros q ->. apply spacing_length in Ep. now rewrite map_length in Ep.
  - cbn [bind]. intros E. apply (G ws0 Ew) in E; [exact E|now apply laid_none].
Qed.

Lemma underground_result st o c st' l : attr o "configuration" = Some c -> conv_underground num objs st o = Ok (st', l) ->
  extends st st' /\ fresh_wires st st' l /\ underground_of num objs (heap st') o l.
Proof.
  intros Hc. unfold conv_underground. destruct (length_m num o) as [len|] eqn:El; cbn [bind]; [|discriminate].
  unfold underground_conf. rewrite Hc. unfold get at 1. destruct (dget objs c) as [cfg|] eqn:Ecfg; cbn [of_opt bind]; [|discriminate].
  destruct (make_wires objs (underground_wire num) (conductors cfg)) as [ws0|] eqn:Ew; cbn [bind]; [|discriminate].
  pose proof (no_positions _ _ _ underground_blank Ew) as NP. apply (made _ raw_concentric) in Ew; [|exact underground_wire_raw].
  assert (G : forall ws, own_conductors objs raw_concentric cfg ws -> laid_out num objs 4 1 no_third_neutral cfg ws -> forall r, matrix_and_units "underground" metric_ug o len (add_wires st cfg ws) = Ok r ->
    extends st (fst r) /\ fresh_wires st (fst r) (snd r) /\ underground_of num objs (heap (fst r)) o (snd r)).
  { intros ws OW LO [s2 l2] E. apply units_result in E as (m & a & _ & Em & -> & ->). unfold fresh_wires. cbn [fst snd heap lines_state l_wires finish_line].
    split; [now exists (map metric_ug ws)|]. rewrite app_length, map_length. split; [split; [f_equal; lia|lia]|].
    exists cfg. split; [exists c; auto|]. split; [now apply header_finish|]. unfold wires_of. cbn [l_wires l_z finish_line].
    rewrite <- (map_length metric_ug ws), load_app. split.
    - eapply own_map; [| |exact OW]; [reflexivity|intros; assumption].
    - split; [apply laid_map; [intros w; repeat split|exact LO]|]. apply carson_metric; [|rewrite (proj1 OW); apply phases_nodup|exact Em]. intros w. unfold per_mile, metric_ug, plain, scale, feet, mile. cbn. auto. }
  destruct (attr cfg "spacing") as [s|] eqn:Hs.
  - unfold get. destruct (dget objs s) as [so|] eqn:Hso; cbn [of_opt bind]; [|discriminate].
    destruct (read_spacing num pairs4 so) as [sp|] eqn:Er; cbn [bind]; [|discriminate]. intros E.
    eapply G in E; [exact E| |eapply underground_laid; try eassumption; rewrite (proj1 Ew); apply phases_nodup]. apply place_own; [intros; assumption| |exact Ew].
    intros q Ep. apply under_length in Ep. now rewrite map_length in Ep.
  - cbn [bind]. intros E. apply (G ws0 Ew) in E; [exact E|now apply laid_none].
Qed.
End Num.
