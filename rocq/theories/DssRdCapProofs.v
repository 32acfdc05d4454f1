(** Lemmas about the capacitors of the OpenDSS reader. *)
From Verif Require Import Base BaseFacts CsvModel TextModel DssNameModel DssTextModel DssTextSpec DssTextProofs DssLoadSpec DssNodeSpec DssNodeProofs DssRdLoadModel DssRdLoadSpec DssRdLoadProofs DssRdCapModel DssRdCapSpec.
From Coq Require Import Reals QArith Qreals Lra Lia.
Local Open Scope string_scope.
Local Open Scope nat_scope.
Local Open Scope list_scope.

Lemma cap_piece n : ~ has "apacitor." n -> second_piece "apacitor." ("Capacitor." ++ n) = Some n.
Proof.
  intros H. unfold second_piece. assert (X : cut_at "apacitor." ("Capacitor." ++ n) = Some ("C", substring 0 (String.length n - 0) n)).
  { cbn. assert (String.prefix "" n = true) as -> by now destruct n. reflexivity. }
  rewrite X. rewrite substring_all by lia. rewrite cut_at_none by (discriminate || exact H). reflexivity.
Qed.
Lemma found n cl : told cl -> exists c, find_control (lower n) cl = Ok c /\ control_of n cl c.
Proof.
  induction cl as [|[k c] cl IH]; intros T; [exists None; split; [reflexivity|constructor; intros x []]|]. destruct (T _ (or_introl eq_refl)) as (s & S). cbn [snd] in S. cbn [find_control]. rewrite S. cbn [of_opt bind].
  destruct (String.eqb_spec (lower s) (lower n)) as [E|E].
  - exists (Some c). split; [reflexivity|]. apply (co_some n [] (k, c) cl); [intros y []|]. exists s. auto.
  - destruct IH as (o & F & C); [intros x Hx; apply T; now right|]. exists o. split; [exact F|].
    assert (N : ~ controls c n) by (intros (s' & S' & E'); rewrite S in S'; injection S' as <-; auto).
    destruct C as [l H|a x z H X]; [constructor; intros x [<-|Hx]; auto|]. apply (co_some n ((k, c) :: a)); [|exact X]. intros y [<-|Hy]; auto.
Qed.

Section Caps.
Variable int_ : string -> option Z.
Variable num : string -> option R.
Variable source : string.

Lemma phase_caps_ok d pt count n v phases : d "kvar" = Some v -> forall p, exists l, phase_caps num d pt count n p phases = Ok l /\ map fst l = map r_phase_str phases /\ map snd l = map (fun i => var_of num v count n i) (seq p (length phases)).
Proof.
  intros D. induction phases as [|ph t IH]; intros p; [exists []; repeat split|]. cbn [phase_caps]. rewrite D. cbn [of_opt bind]. destruct (IH (S p)) as (l & E & F & S). rewrite E. cbn [bind]. eexists. split; [reflexivity|]. cbn [map fst snd length seq]. rewrite F, S. split; [|reflexivity]. f_equal.
  destruct pt as [a|]; [|reflexivity]. destruct (r_phase_str ph) as [b|]; [|reflexivity]. destruct (String.eqb_spec a b) as [->|]; reflexivity.
Qed.
Lemma steps_vars l steps k : Forall2 (fun s r => num s = Some r) l steps -> k <> 0 -> length steps = 1 \/ length steps = k ->
  exists vs, map (fun i => var_of num (PList l) k (Z.of_nat k) i) (seq 0 k) = map Some vs /\ length vs = k /\ total vs = (total steps * 1000)%R /\ (length steps = 1 -> forall v, In v vs -> (v * INR k = total steps * 1000)%R).
Proof.
  intros F K0 L. pose proof (F2_length _ _ _ F) as Ll. unfold var_of. destruct (Nat.eqb_spec (length l) k) as [E|E].
  - exists (map (fun r => r * 1000)%R steps). split; [|split; [rewrite map_length; lia|split]].
    + subst k. clear K0 L Ll. assert (G : forall pre, map (fun i => match nth_error (pre ++ l) i with Some s => option_map (fun r => r * 1000)%R (num s) | None => None end) (seq (length pre) (length l)) = map Some (map (fun r => r * 1000)%R steps)).
      { induction F as [|s r l steps H F IH]; intros pre; [reflexivity|]. cbn [length seq map]. rewrite nth_error_app2, Nat.sub_diag by lia. cbn [nth_error]. rewrite H. cbn [option_map]. f_equal.
        specialize (IH (pre ++ [s])). rewrite <- app_assoc in IH. cbn [app] in IH. rewrite app_length in IH. cbn [length] in IH. rewrite Nat.add_1_r in IH. exact IH. }
      exact (G []).
    + clear. induction steps as [|r steps IH]; cbn; [lra|]. fold (total (map (fun r => r * 1000)%R steps)) (total steps). rewrite IH. lra.
    + intros L1 v Hv. destruct steps as [|r [|r' steps]]; try discriminate L1. cbn in Hv. destruct Hv as [<-|[]]. assert (K1 : k = 1) by (rewrite <- E; exact Ll). rewrite K1. cbn. lra.
  - destruct L as [L|L]; [|lia]. destruct steps as [|r [|r' steps]]; try discriminate L. inversion F as [|s ? l' ? H F']; subst. inversion F'; subst. rewrite H. cbn [over].
    assert (Kr : INR k <> 0%R) by (apply not_0_INR; exact K0). destruct (Z.eqb_spec (Z.of_nat k) 0); [lia|]. rewrite <- INR_IZR_INZ. set (w := (r / INR k * 1000)%R). exists (repeat w k).
    assert (W : (w * INR k = (r + 0) * 1000)%R) by (unfold w; field; exact Kr). clearbody w. split; [|split; [apply repeat_length|split]].
    + clear. generalize 0. induction k as [|k IH]; intros p; [reflexivity|]. cbn [seq map repeat]. now rewrite IH.
    + cbn [total fold_right]. rewrite <- W. clear. induction k as [|k IH]; [cbn; lra|]. cbn [repeat total fold_right]. fold (total (repeat w k)). rewrite IH, S_INR. lra.
    + intros _ v Hv. apply repeat_spec in Hv. subst v. exact W.
Qed.
Lemma letters_str ns ps : Forall2 node_letter ns ps -> map r_phase_str ns = map Some ps.
Proof. intros F. induction F as [|m p ns ps H F IH]; [reflexivity|]. cbn [map]. rewrite IH. now destruct H. Qed.
Lemma cap_at_on d t b ns k ps : d "bus1" = Some (PText t) -> terminal t = (b, ns) -> cap_on k ns ps -> exists ms, cap_at d = Some (b, ms) /\ map r_phase_str ms = map Some ps /\ length ms = k /\ k <> 0 /\ length ps = k.
Proof.
  intros D T H. unfold cap_at, text_of. rewrite D, split_pieces. unfold terminal in T. destruct (pieces (Ascii.eqb ".") t) as [|b1 ns'] eqn:Ep; [destruct (pieces_nonempty _ _ Ep)|]. injection T as <- ->. destruct H as [(K0 & -> & F)|(-> & -> & ->)].
  - destruct ns as [|m ns]; [now cbn in K0|]. exists (m :: ns). split; [reflexivity|]. split; [now apply letters_str|]. split; [reflexivity|]. split; [exact K0|]. symmetry. exact (F2_length _ _ _ F).
  - exists ["1"; "2"; "3"]. split; [now rewrite (pieces_one _ _ _ Ep)|]. repeat split. discriminate.
Qed.
(** a text that is read *)
Lemma mode_means t m : means t m -> mode_of t = m.
Proof. intros H. now destruct H. Qed.
Hypothesis ints : reads_nodes int_.
Lemma letter_int m p z : node_letter m p -> int_ m = Some z -> r_phase_int z = Some p.
Proof. destruct ints as (I1 & I2 & I3). intros H E. destruct H; rewrite ?I1, ?I2, ?I3 in E; injection E as <-; reflexivity. Qed.

Lemma cap_read cl full d n b conn ps steps : told cl -> enabled d = true -> reports_cap int_ num full d n b conn ps steps ->
  exists r, parse_cap int_ num source cl full d = Ok (Some r) /\ reads_cap int_ num source cl d n b conn ps steps r.
Proof.
  intros T En [Rn Rp (cs & Dc & Lc & Hc) (t & ns & k & Db & Tt & Wk & On) (kl & Dk & Fk) St]. unfold parse_cap. unfold enabled in En. destruct (d "enabled") as [[e|]|]; [|discriminate En|discriminate En]. cbn [of_opt bind]. rewrite En.
  subst full. rewrite (cap_piece n Rp). destruct (found n cl T) as (c & Fc & Cc). rewrite Fc. cbn [bind].
  destruct (cap_at_on d t b ns k ps Db Tt On) as (ms & At & Mm & Lm & K0 & Lp). rewrite At, (int_whole _ _ _ _ Wk).
  set (pt := match c with Some c => match int_of int_ c "PTPhase" with Some z => r_phase_int z | None => None end | None => None end).
  destruct (phase_caps_ok d pt (length ms) (Z.of_nat k) (PList kl) ms Dk 0) as (l & El & F1 & F2). rewrite El. cbn [bind]. eexists. split; [reflexivity|].
  constructor; cbn [rc_name rc_feeder rc_bus rc_conn rc_kv rc_delay rc_low rc_high rc_pt rc_ct rc_element rc_mode rc_ptphase rc_phases]; try reflexivity.
  - unfold conn_of, text_of. rewrite Dc, Lc. destruct Hc as [-> | ->]; reflexivity.
  - eexists. split; [apply states_float|reflexivity].
  - exists c. split; [exact Cc|]. destruct c as [c|]; cbn [of_control]; [|repeat split]. split; [apply states_float|]. split; [apply states_float|]. split; [apply states_float|]. split; [apply states_float|]. split; [apply states_float|].
    split; [intros x X; unfold text_of; now rewrite X|]. split; [intros x m X M; unfold text_of; rewrite X; now apply mode_means|]. intros m p z H Z W. unfold pt. rewrite (int_whole _ _ _ _ W). now apply (letter_int m).
  - rewrite Lp in *. rewrite Lm in F2. destruct (steps_vars kl steps k Fk K0 St) as (vs & V & Lv & Tv & Sv). exists l, vs. split; [reflexivity|]. split; [now rewrite F1|]. split; [now rewrite F2|]. split; [exact Tv|exact Sv].
Qed.
End Caps.
