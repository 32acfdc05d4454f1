(** Lemmas about the loads of the OpenDSS reader. *)
From Verif Require Import Base BaseFacts CsvModel TextModel DssNameModel DssTextModel DssTextSpec DssTextProofs DssLoadSpec DssNodeSpec DssNodeProofs DssRdLoadModel DssRdLoadSpec.
From Coq Require Import Reals QArith Qreals Lra Lia.
Local Open Scope string_scope.
Local Open Scope nat_scope.
Local Open Scope list_scope.

Lemma cut_at_none w s : w <> "" -> ~ has w s -> cut_at w s = None.
Proof.
  intros W. induction s as [|c s IH]; intros H; cbn [cut_at].
  - destruct w; [congruence|reflexivity].
  - cbn [has] in H. destruct (String.prefix w (String c s)); [destruct H; now left|]. rewrite IH; [reflexivity|]. intros X. apply H. now right.
Qed.
Lemma substring_all n s : n = String.length s -> substring 0 n s = s.
Proof. intros ->. induction s as [|c s IH]; [reflexivity|]. cbn. now rewrite IH. Qed.
Lemma name_piece n : ~ has "oad." n -> second_piece "oad." ("Load." ++ n) = Some n.
Proof.
  intros H. unfold second_piece. assert (X : cut_at "oad." ("Load." ++ n) = Some ("L", substring 0 (String.length n - 0) n)).
  { cbn. assert (String.prefix "" n = true) as -> by now destruct n. reflexivity. }
  rewrite X.
  rewrite substring_all by lia. rewrite cut_at_none by (discriminate || exact H). reflexivity.
Qed.
Lemma F2_length {A B} (P : A -> B -> Prop) l r : Forall2 P l r -> length l = length r.
Proof. induction 1; cbn; auto. Qed.

Section Loads.
Variable int_ : string -> option Z.
Variable num : string -> option R.
Variable source : string.
Hypothesis ints : reads_nodes int_.

Lemma float_number d k r : number num d k r -> float_of num d k = Some r.
Proof. intros (s & D & N). unfold float_of, text_of. now rewrite D. Qed.
Lemma int_whole d k z : whole int_ d k z -> int_of int_ d k = Some z.
Proof. intros (s & D & N). unfold int_of, text_of. now rewrite D. Qed.
Lemma states_float d k : states num d k (float_of num d k).
Proof.
  unfold states. destruct (float_of num d k) as [r|] eqn:E; unfold float_of, text_of in E; destruct (d k) as [[s|l]|] eqn:D; try discriminate E.
  - exists s. auto.
  - intros r (s' & D' & N). rewrite D in D'. injection D' as <-. congruence.
  - intros r (s' & D' & N). congruence.
  - intros r (s' & D' & N). congruence.
Qed.
Lemma reactive_kvar kw kvar f k : power_factor kw kvar f -> k <> 0%R -> exists q, reactive (kw / k) f = Num q /\ (q * k = kvar * 1000)%R.
Proof.
  intros (K & E & S) N. set (s := (kw * kw + kvar * kvar)%R) in *.
  assert (KK : (0 < kw * kw)%R) by (destruct (Rlt_dec kw 0); nra). assert (VV : (0 <= kvar * kvar)%R) by nra. assert (Sp : (0 < s)%R) by (unfold s; lra).
  assert (F0 : f <> 0%R) by (intros ->; rewrite !Rmult_0_l in E; lra). assert (FF : (0 < f * f)%R) by (destruct (Rlt_dec f 0); nra).
  assert (F1 : (f * f <= 1)%R). { apply Rnot_lt_le. intros L. assert ((1 * s < f * f * s)%R) by (apply Rmult_lt_compat_r; lra). unfold s in *. lra. }
  unfold reactive. destruct (Rlt_dec (1 - f * f) 0); [lra|]. destruct (Req_EM_T f 0); [contradiction|]. eexists. split; [reflexivity|].
  assert (X : (kw * sqrt (1 - f * f) = kvar * f)%R).
  { assert (Y : (sqrt (1 - f * f) = kvar * f / kw)%R).
    { apply sqrt_lem_1; [lra| |].
      - replace (kvar * f / kw)%R with (f * (kw * kvar) / (kw * kw))%R by (field; exact K). apply Rmult_le_pos; [exact S|]. left. now apply Rinv_0_lt_compat.
      - replace (kvar * f / kw * (kvar * f / kw))%R with (f * f * (kvar * kvar) / (kw * kw))%R by (field; exact K).
        apply (Rmult_eq_reg_r (kw * kw)); [|lra]. replace (f * f * (kvar * kvar) / (kw * kw) * (kw * kw))%R with (f * f * (kvar * kvar))%R by (field; exact K). unfold s in E. lra. }
    rewrite Y. field. exact K. }
  replace (kw / k * 1000 * sqrt (1 - f * f) / f * k)%R with (kw * sqrt (1 - f * f) * 1000 / f)%R by (field; auto). rewrite X. field. exact F0.
Qed.

Lemma letters_read ns qs : Forall2 node_letter ns qs -> exists zs, mapM (fun x => of_opt EValue (int_ x)) ns = Ok zs /\ map r_phase_int zs = map Some qs.
Proof.
  destruct ints as (I1 & I2 & I3). intros F. induction F as [|m p ns qs H F (zs & E & M)]; [exists []; auto|].
  cbn [mapM]. destruct H; rewrite ?I1, ?I2, ?I3; cbn [of_opt bind]; rewrite E; cbn [bind]; eexists; (split; [reflexivity|]); cbn [map]; now rewrite M.
Qed.
Lemma phases_read d t b conn c k ns ps : d "bus1" = Some (PText t) -> terminal t = (b, ns) -> on_phases conn k ns ps -> (conn = "delta" -> c = Some "D") ->
  exists qs, at_of int_ d = Some (b, qs) /\ phases_of (Z.of_nat k) c qs = map Some ps.
Proof.
  intros D T H C. unfold at_of, text_of. rewrite D, split_pieces. unfold terminal in T. destruct (pieces (Ascii.eqb ".") t) as [|b1 ns'] eqn:Ep; [destruct (pieces_nonempty _ _ Ep)|]. injection T as <- ->.
  destruct H as [(K0 & Kl & Kc & qs & F & ->)|(-> & -> & ->)].
  - destruct ns as [|m ns]; [cbn in Kl; lia|]. destruct (letters_read _ _ F) as (zs & E & M). rewrite E, M. eexists. split; [reflexivity|]. unfold phases_of. rewrite map_length.
    assert (L : length qs = length (m :: ns)) by (symmetry; exact (F2_length _ _ _ F)).
    destruct (Z.eqb_spec (Z.of_nat k) (Z.of_nat (length qs))) as [Q|Q].
    + apply Nat2Z.inj in Q. rewrite Q, firstn_all. reflexivity.
    + destruct Kc as [Kc| ->]; [|congruence]. rewrite (C Kc). cbn [String.eqb Ascii.eqb Bool.eqb]. unfold py_take. destruct (Z.ltb_spec (Z.of_nat k) 0); [lia|]. rewrite Nat2Z.id. apply firstn_map.
  - rewrite (pieces_one _ _ _ Ep). eexists. split; reflexivity.
Qed.
Lemma on_phases_length conn k ns ps : on_phases conn k ns ps -> length ps = k /\ k <> 0.
Proof.
  intros [(K0 & Kl & _ & qs & F & ->)|(_ & -> & ->)]; [|split; [reflexivity|lia]]. split; [|exact K0]. rewrite firstn_length. apply F2_length in F. lia.
Qed.
Lemma shares_read d z o : shares num d z o -> (if Z.eqb z 8 then shares_of num d else Ok None) = Ok o.
Proof.
  intros [(Z0 & ->)|(-> & s & rest & z' & i & p & zq & iq & pq & cut & D & F & ->)]; [apply Z.eqb_neq in Z0; now rewrite Z0|]. rewrite Z.eqb_refl. unfold shares_of. rewrite D.
  assert (M : forall l r, Forall2 (fun w r => num w = Some r) l r -> mapM (fun x => of_opt EValue (num x)) l = Ok r). { clear. intros l r F. induction F as [|w x l r H F IH]; [reflexivity|]. cbn [mapM]. rewrite H. cbn [of_opt bind]. now rewrite IH. }
  rewrite (M _ _ F). reflexivity.
Qed.
Lemma mapM_const {A B} (f : A -> res B) (g : A -> B) l : (forall x, f x = Ok (g x)) -> mapM f l = Ok (map g l).
Proof. intros H. induction l as [|x l IH]; [reflexivity|]. cbn [mapM map]. now rewrite H, IH. Qed.

(** what is read of a load at bus [b] with phases [qs] *)
Lemma load_shape full d b qs phs kw kva f z o : enabled d = true -> at_of int_ d = Some (b, qs) ->
  phases_of (match int_of int_ d "phases" with Some z => z | None => 1%Z end) (conn_of d) qs = phs -> phs <> [] ->
  number num d "kW" kw -> number num d "kVA" kva -> number num d "pf" f -> whole int_ d "model" z -> shares num d z o ->
  parse_load int_ num source full d = Ok (Some (mkRload (match second_piece "oad." full with Some x => "load_" ++ lower x | None => "" end)%string source (Some b)
    (option_map (fun v => v * 1000)%R (float_of num d "kV")) (float_of num d "NumCust") (conn_of d) (float_of num d "Vminpu") (float_of num d "Vmaxpu")
    (map (fun p => mkRphase p (kw / INR (length phs) * 1000)%R (reactive (kw / INR (length phs)) f) z (match o with Some _ => true | None => false end) o) phs))).
Proof.
  intros En At Ph Ne Rw Ra Rf Wz Sh. unfold parse_load. unfold enabled in En. destruct (d "enabled") as [[e|]|]; [|discriminate En|discriminate En]. cbn [of_opt bind]. rewrite En.
  rewrite At, Ph. rewrite (float_number _ _ _ Rw). cbn [of_opt bind]. destruct (Nat.eqb_spec (length phs) 0) as [X|_]; [destruct phs; [congruence|discriminate X]|].
  rewrite (float_number _ _ _ Ra). cbn [of_opt bind]. rewrite (float_number _ _ _ Rf).
  rewrite (mapM_const _ (fun p => mkRphase p (kw / INR (length phs) * 1000)%R (reactive (kw / INR (length phs)) f) z (match o with Some _ => true | None => false end) o)); [reflexivity|].
  intros p. unfold phase_of. cbn [of_opt bind]. rewrite (int_whole _ _ _ Wz), (shares_read _ _ _ Sh). reflexivity.
Qed.
Lemma load_read full d n b conn ps kw kvar : enabled d = true -> reports int_ num full d n b conn ps kw kvar ->
  exists l, parse_load int_ num source full d = Ok (Some l) /\ reads_load int_ num source d n b conn ps kw kvar l.
Proof.
  intros En [Rn Rp (cs & Dc & Lc & Hc) (t & ns & k & Db & T & Wk & On) Rw Rv (kva & Ra) (f & Rf & Pf) (z & o & Wz & Sh)].
  assert (Ec : conn_of d = Some (if String.eqb conn "delta" then "D" else "Y")). { unfold conn_of, text_of. rewrite Dc, Lc. destruct Hc as [-> | ->]; reflexivity. }
  destruct (phases_read d t b conn (conn_of d) k ns ps Db T On) as (qs & At & Ph); [intros ->; exact Ec|]. destruct (on_phases_length _ _ _ _ On) as (Lp & K0).
  eexists. split. { apply (load_shape full d b qs (map Some ps) kw kva f z o); try assumption. - now rewrite (int_whole _ _ _ Wk). - destruct ps; [cbn in Lp; congruence|discriminate]. }
  assert (Kr : INR k <> 0%R) by (apply not_0_INR; exact K0). rewrite map_length, Lp. constructor; cbn [rl_name rl_feeder rl_bus rl_kv rl_users rl_conn rl_vmin rl_vmax rl_phases]; try reflexivity; try apply states_float.
  - subst full. rewrite (name_piece n Rp). reflexivity.
  - exact Ec.
  - eexists. split; [apply states_float|reflexivity].
  - rewrite !map_map. reflexivity.
  - intros x Hx. apply in_map_iff in Hx. destruct Hx as (p & <- & _). cbn [rp_p rp_q]. rewrite Lp. split; [field; exact Kr|]. destruct (reactive_kvar kw kvar f (INR k) Pf Kr) as (q & E & Q). exists q. auto.
  - intros x Hx. apply in_map_iff in Hx. destruct Hx as (p & <- & _). cbn [rp_model rp_shares rp_zip]. split; [exact Wz|]. split; [exact Sh|]. destruct o; split; congruence.
Qed.
Lemma share_total {A} (f : A -> R) l c : l <> [] -> (forall x, In x l -> (f x * INR (length l) = c)%R) -> total (map f l) = c.
Proof.
  intros N H. assert (K : INR (length l) <> 0%R) by (apply not_0_INR; destruct l; [congruence|discriminate]). set (k := INR (length l)) in *.
  assert (X : forall m, (forall x, In x m -> (f x * k = c)%R) -> (total (map f m) * k = INR (length m) * c)%R).
  { induction m as [|x m IH]; intros Hm; [cbn; lra|]. cbn [map total fold_right length]. rewrite S_INR. fold (total (map f m)). rewrite Rmult_plus_distr_r, (Hm x (or_introl eq_refl)), IH by (intros y Hy; apply Hm; now right). lra. }
  specialize (X l H). fold k in X. apply (Rmult_eq_reg_r k); [|exact K]. lra.
Qed.
End Loads.
