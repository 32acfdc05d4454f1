From Verif Require Import Base BaseFacts StoreModel NetworkModel NetworkSpec NetworkProofs NetworkBfs NetworkQueries NetworkDown NetworkTop VoltModel VoltSpec VoltProofs RecloserModel RecloserSpec.
From Coq Require Import QArith Lia.
Local Open Scope string_scope.
Local Open Scope nat_scope.
Local Open Scope list_scope.

(** No switch has wires that are None. *)
Definition wired (st : list robj) : Prop := forall p o, nth_error st p = Some o -> r_switch o = Some (Some true) -> r_wires o <> Some None.

Lemma closed_iff st p o : wired st -> nth_error st p = Some o -> exists b, closed_switch o = Ok b /\ (b = true <-> closed st p).
Proof.
  intros W E. pose proof (W p o E) as N. unfold closed_switch.
  destruct (r_switch o) as [[[|]|]|] eqn:ES.
  2,3,4: exists false; split; [reflexivity|]; split; [discriminate|]; intros (o' & w & ws & E' & S' & _); congruence.
  destruct (r_wires o) as [[[|w ws]|]|] eqn:EW.
  - exists false. split; [reflexivity|]. split; [discriminate|]. intros (o' & w & ws & E' & _ & W' & _). congruence.
  - eexists. split; [reflexivity|]. split.
    + intros H. exists o, w, ws. repeat split; try assumption. destruct w as [[|]|]; congruence.
    + intros (o' & w' & ws' & E' & _ & W' & NW). assert (w' = w) by congruence. subst w'. destruct w as [[|]|]; congruence.
  - destruct (N eq_refl). reflexivity.
  - exists false. split; [reflexivity|]. split; [discriminate|]. intros (o' & w & ws & E' & _ & W' & _). congruence.
Qed.
Lemma rset_length st p o : length (rset st p o) = length st.
Proof. revert p. induction st; intros [|p]; cbn; auto. Qed.
Lemma rset_nth st p o q : nth_error (rset st p o) q = if q =? p then match nth_error st p with Some _ => Some o | None => None end else nth_error st q.
Proof.
  revert p q. induction st as [|x st IH]; intros p q.
  - destruct p, q; cbn; try reflexivity. destruct (q =? p); reflexivity.
  - destruct p, q; cbn; try reflexivity. apply IH.
Qed.
Lemma becomes st p o : nth_error st p = Some o -> becomes_recloser st p (rset st p (recloser o)).
Proof.
  intros E. split; [apply rset_length|]. split.
  - intros q N. rewrite rset_nth. apply Nat.eqb_neq in N. now rewrite N.
  - exists o. split; [exact E|]. rewrite rset_nth, Nat.eqb_refl, E. reflexivity.
Qed.
Lemma nth_closed_pos st k l p : nth_closed st k l p -> 1 <= k.
Proof. induction 1; lia. Qed.

Section Walk.
Variable es : list elem.
Variable s : string.
Variable n : network.
Hypothesis B : built es s n.
Hypothesis AN : all_named es.
Notation d := (net_di n).

Definition known (last : option (option string)) (lp : option nat) : Prop :=
  match last with None => lp = None | Some nm => exists m p, nm = Some m /\ lookup es (Some m) = Some p /\ lp = Some p end.

Lemma named_bears i m : In i es -> e_name i = Some (Some m) -> exists p, bears es m p.
Proof.
  intros I E. destruct (lookup es (Some m)) as [p|] eqn:L; [exists p; now apply lookup_spec|].
  exfalso. clear - I E L. unfold lookup in L. revert L. generalize 0. induction es as [|x l IH]; intros k L; [destruct I|].
  cbn [lookup_from] in L. destruct I as [->|I].
  - destruct (lookup_from (S k) l (Some m)); [discriminate|]. unfold okey_eqb in L. rewrite E in L. cbn in L. rewrite String.eqb_refl in L. discriminate.
  - destruct (lookup_from (S k) l (Some m)) eqn:EL; [discriminate|]. exact (IH I (S k) EL).
Qed.
Lemma succ_case h : (succ d h = Ok (successors d h) \/ exists e, succ d h = Err e) /\ (successors d h <> [] -> succ d h = Ok (successors d h)) .
Proof.
  unfold succ. destruct (smem h (d_nodes d)) eqn:M; [split; [now left|reflexivity]|]. split; [right; eauto|].
  intros N. exfalso. apply smem_not_In in M. apply M. destruct (successors d h) as [|c cs] eqn:E; [congruence|].
  apply (b_nodes _ _ _ B). exists c. left. assert (I : In c (successors d h)) by (rewrite E; now left).
  unfold successors in I. apply in_map_iff in I. destruct I as ([[a b] t] & <- & H). apply filter_In in H. destruct H as [H Q]. cbn in *. apply String.eqb_eq in Q. subst a. exists t. exact H.
Qed.
Lemma succ_arc h c : In c (successors d h) <-> arc d h c.
Proof.
  unfold successors. rewrite in_map_iff. split.
  - intros ([[a b] t] & <- & H). apply filter_In in H. destruct H as [H Q]. cbn in *. apply String.eqb_eq in Q. subst a. exists t. exact H.
  - intros [t H]. exists (h, c, t). split; [reflexivity|]. apply filter_In. split; [exact H|]. cbn. apply String.eqb_refl.
Qed.

Lemma walk_ok fuel : forall st last lp h cnt target k, wired st -> length st = length es -> known last lp -> dist (linked es) s h k -> length (d_nodes d) < k + fuel -> cnt < target ->
  exists l st' last' lp', meets es d lp h l /\ walk_down es n fuel st last h cnt target = Ok (st', last') /\ known last' lp' /\
    ((exists p, nth_closed st (target - cnt) l p /\ becomes_recloser st p st' /\ lp' = Some p) \/
     ((forall p, ~ nth_closed st (target - cnt) l p) /\ st' = st /\ lp' = fold_left (fun _ p => Some p) l lp)).
Proof.
  induction fuel as [|fuel IH]; intros st last lp h cnt target k W LEN K D LF CT.
  - exfalso. assert (Q := d_node_dist_bound _ _ _ _ _ B D). lia.
  - cbn [walk_down]. destruct (successors d h) as [|c cs] eqn:ES.
    + exists [], st, last, lp. split; [apply meets_end; intros c H; apply succ_arc in H; rewrite ES in H; destruct H|]. split.
      * destruct (succ_case h) as [[->|[e ->]] _]; [rewrite ES|]; reflexivity.
      * split; [exact K|]. right. split; [intros p H; inversion H|]. now split.
    + rewrite (proj2 (succ_case h)) by congruence. rewrite ES. cbv zeta.
      assert (A : arc d h c) by (apply succ_arc; rewrite ES; now left).
      destruct (b_arc _ _ _ B h c A) as (_ & k' & D1 & D2). assert (k' = k) by (eapply dist_fun; eassumption). subst k'.
      assert (STEP : forall last1 p, known last1 (Some p) -> p < length es -> (forall l, meets es d (Some p) c l -> meets es d lp h (p :: l)) ->
        exists l st' last' lp', meets es d lp h l /\
          match last1 with
          | None => Ok (st, last1)
          | Some nm => match lookup es nm with
            | None => Ok (st, last1)
            | Some p => match nth_error st p with
              | None => Ok (st, last1)
              | Some o => do b <- closed_switch o;
                if b then if S cnt =? target then Ok (rset st p (recloser o), last1) else walk_down es n fuel st last1 c (S cnt) target
                else walk_down es n fuel st last1 c cnt target
              end
            end
          end = Ok (st', last') /\ known last' lp' /\
          ((exists p, nth_closed st (target - cnt) l p /\ becomes_recloser st p st' /\ lp' = Some p) \/
           ((forall p, ~ nth_closed st (target - cnt) l p) /\ st' = st /\ lp' = fold_left (fun _ p => Some p) l lp))).
      { intros last1 p K1 PL M. destruct last1 as [nm|]; [|discriminate K1]. pose proof K1 as (m & p' & -> & L & E). injection E as <-. rewrite L.
        destruct (nth_error st p) as [o|] eqn:EO; [|apply nth_error_None in EO; lia].
        destruct (closed_iff st p o W EO) as (b & -> & CB). cbn [bind]. destruct b.
        - assert (C : closed st p) by now apply CB. destruct (Nat.eqb_spec (S cnt) target) as [ET|NT].
          + destruct (IH st (Some (Some m)) (Some p) c cnt target (S k) W LEN K1 D2 ltac:(lia) CT) as (l & _ & _ & _ & ML & _).
            exists (p :: l), (rset st p (recloser o)), (Some (Some m)), (Some p). split; [now apply M|]. split; [reflexivity|]. split; [exact K1|]. left. exists p.
            split; [replace (target - cnt) with 1 by lia; now apply closed_here|]. split; [now apply becomes|reflexivity].
          + destruct (IH st (Some (Some m)) (Some p) c (S cnt) target (S k) W LEN K1 D2 ltac:(lia) ltac:(lia)) as (l & st' & last' & lp' & ML & E & K' & R).
            exists (p :: l), st', last', lp'. split; [now apply M|]. split; [exact E|]. split; [exact K'|]. replace (target - cnt) with (S (target - S cnt)) by lia. destruct R as [(q & H & BR & EL)|(H & -> & EL)].
            * left. exists q. split; [now apply closed_later|]. now split.
            * right. split; [|split; [reflexivity|exact EL]]. intros q Q. inversion Q; subst; [|eapply H; eassumption|tauto]. assert (target - S cnt >= 1) by lia. lia.
        - assert (C : ~ closed st p) by (intros C; apply CB in C; discriminate).
          destruct (IH st (Some (Some m)) (Some p) c cnt target (S k) W LEN K1 D2 ltac:(lia) CT) as (l & st' & last' & lp' & ML & E & K' & R).
          exists (p :: l), st', last', lp'. split; [now apply M|]. split; [exact E|]. split; [exact K'|]. destruct R as [(q & H & BR & EL)|(H & -> & EL)].
          + left. exists q. split; [now apply closed_skip|]. now split.
          + right. split; [|split; [reflexivity|exact EL]]. intros q Q. inversion Q; subst; try tauto. eapply H; eassumption. }
      destruct (edge_case _ _ _ B AN h c) as [(i & m & Li & Hm & ->)|[No ->]].
      * cbn [ea_name]. destruct (named_bears i m) as [p Hp]; [destruct Li as (a & z & -> & _); apply in_or_app; right; now left|exact Hm|].
        apply (STEP (Some (Some m)) p); [exists m, p; split; [reflexivity|]; split; [now apply lookup_spec|reflexivity]| |].
        -- destruct Hp as [(j & Hj & _) _]. apply nth_error_Some. congruence.
        -- intros l ML. eapply meets_object; eassumption.
      * destruct last as [nm|].
        -- pose proof K as (m & p & -> & L & ->). apply (STEP (Some (Some m)) p); [exact K| |].
           ++ apply lookup_spec in L. destruct L as [(j & Hj & _) _]. apply nth_error_Some. congruence.
           ++ intros l ML. eapply meets_again; eassumption.
        -- cbn in K. subst lp. exists [], st, None, None. split; [eapply meets_nothing; eassumption|]. split; [reflexivity|]. split; [reflexivity|]. right. split; [intros p H; inversion H|]. now split.
Qed.

Lemma walk_top st last lp h target : wired st -> length st = length es -> known last lp -> 1 <= target ->
  exists st' last' lp', walk_down es n (S (length (d_nodes d))) st last h 0 target = Ok (st', last') /\ known last' lp' /\ feeder_done es d st lp h target st' lp'.
Proof.
  intros W LEN K T. destruct (successors d h) as [|c cs] eqn:ES.
  - exists st, last, lp. split; [|split; [exact K|]].
    + cbn [walk_down]. destruct (succ_case h) as [[->|[e ->]] _]; [rewrite ES|]; reflexivity.
    + exists []. split; [apply meets_end; intros c H; apply succ_arc in H; rewrite ES in H; destruct H|]. right. split; [intros p H; inversion H|]. now split.
  - assert (A : arc d h c) by (apply succ_arc; rewrite ES; now left). destruct (b_arc _ _ _ B h c A) as (_ & k & D1 & _).
    destruct (walk_ok (S (length (d_nodes d))) st last lp h 0 target k W LEN K D1 ltac:(lia) T) as (l & st' & last' & lp' & M & E & K' & R).
    exists st', last', lp'. split; [exact E|]. split; [exact K'|]. exists l. split; [exact M|]. rewrite Nat.sub_0_r in R. exact R.
Qed.

(** What the feeders leave in place. *)
Definition same_heads (st st' : list robj) : Prop := length st' = length st /\ forall i o, nth_error st' i = Some o -> exists o', nth_error st i = Some o' /\ r_head o' = r_head o /\ r_volt o' = r_volt o.
Lemma becomes_keeps st p st' : becomes_recloser st p st' -> wired st -> wired st' /\ same_heads st st'.
Proof.
  intros (L & O & o & E & E') W. split.
  - intros q x X S. destruct (Nat.eq_dec q p) as [->|N]; [rewrite E' in X; injection X as <-; discriminate S|]. rewrite O in X by exact N. eapply W; eassumption.
  - split; [exact L|]. intros q x X. destruct (Nat.eq_dec q p) as [->|N]; [|rewrite O in X by exact N; exists x; now repeat split]. rewrite E' in X. injection X as <-. exists o. now repeat split.
Qed.
Lemma feeder_keeps st lp h k st' lp' : feeder_done es d st lp h k st' lp' -> wired st -> wired st' /\ same_heads st st'.
Proof.
  intros (l & _ & [(p & _ & BR & _)|(_ & -> & _)]) W; [now apply (becomes_keeps st p)|]. split; [exact W|]. split; [reflexivity|]. intros i o E. exists o. now repeat split.
Qed.

(** The heads can be worked on. *)
Definition heads_ok (st : list robj) : Prop :=
  forall i e o, nth_error es i = Some e -> nth_error st i = Some o -> r_head o = Some (Some true) -> r_volt o <> Some None /\ exists h, e_name e = Some (Some h).

Lemma replace_ok draws : (forall i, 1 <= draws i) -> forall l i k st last lp, skipn i es = l -> wired st -> length st = length es -> known last lp -> heads_ok st ->
  exists st', replace_from es n (S (length (d_nodes d))) draws l i k st last = Ok st' /\ feeders_done es d draws i k st lp st'.
Proof.
  intros DR. induction l as [|e r IH]; intros i k st last lp SK W LEN K HO.
  - exists st. split; [reflexivity|]. apply feeders_end. apply nth_error_None. assert (X := skipn_length i es). rewrite SK in X. cbn in X. lia.
  - assert (EI : nth_error es i = Some e). { rewrite <- (firstn_skipn i es), SK. rewrite nth_error_app2; rewrite firstn_length; [|lia]. replace (i - _) with 0; [reflexivity|]. assert (X := skipn_length i es). rewrite SK in X. cbn in X. lia. }
    assert (SK' : skipn (S i) es = r). { clear - SK. revert i SK. induction es as [|x l IH]; intros [|i] SK; cbn in *; try congruence. now apply IH. }
    cbn [replace_from]. destruct (nth_error st i) as [o|] eqn:EO; [|apply nth_error_None in EO; assert (i < length es) by (apply nth_error_Some; congruence); lia].
    assert (NC : r_head o <> Some (Some true) -> exists st', replace_from es n (S (length (d_nodes d))) draws r (S i) k st last = Ok st' /\ feeders_done es d draws i k st lp st').
    { intros N. destruct (IH (S i) k st last lp SK' W LEN K HO) as (st' & E & F). exists st'. split; [exact E|]. eapply feeders_other; [exact EI| |exact F]. intros (o' & E' & H). congruence. }
    destruct (r_head o) as [[[|]|]|] eqn:EH; try (apply NC; congruence). clear NC.
    assert (CN : connection st i) by (exists o; now split). destruct (HO i e o EI EO EH) as [NV (h & EN)].
    destruct (r_volt o) as [[v|]|] eqn:EV; [|now destruct NV|].
    + destruct (Qle_bool 69000 v) eqn:QL.
      * destruct (IH (S i) (S k) st last lp SK' W LEN K HO) as (st' & E & F). exists st'. split; [exact E|]. eapply feeders_high; [exact EI|exact CN| |exact F].
        intros v' (o' & E' & V'). assert (v' = v) by congruence. subst v'. now apply Qle_bool_iff.
      * rewrite EN. destruct (walk_top st last lp h (draws k) W LEN K (DR k)) as (st1 & last1 & lp1 & -> & K1 & FD). cbn [bind].
        destruct (feeder_keeps _ _ _ _ _ _ FD W) as [W1 [L1 SH]].
        destruct (IH (S i) (S k) st1 last1 lp1 SK' W1 ltac:(congruence) K1) as (st' & E & F).
        { intros j e' o' EJ OJ HJ. destruct (SH j o' OJ) as (o2 & E2 & H2 & V2). destruct (HO j e' o2 EJ E2 ltac:(congruence)) as [A1 A2]. split; [congruence|exact A2]. }
        exists st'. split; [exact E|]. eapply feeders_head; [exact EI|exact CN|exists o; split; eassumption| |exact EN|exact FD|exact F].
        apply Qnot_le_lt. intros H. apply Qle_bool_iff in H. congruence.
    + destruct (IH (S i) (S k) st last lp SK' W LEN K HO) as (st' & E & F). exists st'. split; [exact E|]. eapply feeders_high; [exact EI|exact CN| |exact F].
      intros v' (o' & E' & V'). congruence.
Qed.
End Walk.
