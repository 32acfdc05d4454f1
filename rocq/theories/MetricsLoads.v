(** The demand of loads in the metrics. *)
From Verif Require Import Base BaseFacts StoreModel NetworkModel NetworkSpec CenterTapModel CenterTapSpec CenterTapProofs MetricsModel MetricsSpec MetricsProofs MetricsLines.
From Coq Require Import QArith Qabs Lqa Lia.
Local Open Scope string_scope.
Local Open Scope nat_scope.
Local Open Scope list_scope.

Definition val (x : option Q) : Q := match x with Some q => q | None => 0%Q end.
Lemma fold_plus l : forall a, (fold_left Qplus l a == a + total (fun q => q) l)%Q.
Proof. induction l as [|x l IH]; intros a; cbn [fold_left total]; [ring|]. rewrite IH. ring. Qed.
Lemma np_sum_total {A} (f : A -> option Q) l : (np_sum (some_only (map f l)) == total (fun x => val (f x)) l)%Q.
Proof.
  unfold np_sum. rewrite fold_plus. transitivity (total (fun q => q) (some_only (map f l))); [ring|].
  induction l as [|x l IH]; cbn [map some_only flat_map total]; [reflexivity|]. rewrite total_app. fold (some_only (map f l)). rewrite IH. destruct (f x); cbn [total val]; ring.
Qed.
Lemma total_filter {A} (b : A -> bool) (f : A -> Q) l : (total f (filter b l) == total (fun x => if b x then f x else 0) l)%Q.
Proof. induction l as [|x l IH]; cbn [filter total]; [reflexivity|]. destruct (b x); cbn [total]; rewrite IH; ring. Qed.
Lemma takes_total (f : pload -> option Q) (P : pload -> Prop) (b : pload -> bool) pls : (forall x, b x = true <-> P x) ->
  sums (takes f P) pls (total (fun x => if b x then val (f x) else 0%Q) (live pls)).
Proof.
  intros H. eapply sums_ext; [|unfold live; symmetry; apply total_filter]. apply sums_total. intros x _. destruct (pl_drop x) eqn:D; cbn [negb].
  - right. split; [intros q (C & _); congruence|reflexivity].
  - destruct (b x) eqn:Bx.
    + destruct (f x) as [q|] eqn:F; [left; exists q; split; [split; [exact D|split; [apply H; exact Bx|exact F]]|reflexivity]|].
      right. split; [intros q (_ & _ & C); congruence|reflexivity].
    + right. split; [intros q (_ & C & _); apply H in C; congruence|reflexivity].
Qed.
Lemma number_total {A} (P : A -> Prop) (b : A -> bool) l : (forall x, b x = true <-> P x) -> number P l (total (fun x => if b x then 1%Q else 0%Q) l).
Proof.
  intros H. apply sums_total. intros x _. destruct (b x) eqn:E; [left; exists 1%Q; split; [split; [apply H; exact E|reflexivity]|reflexivity]|].
  right. split; [intros q [C _]; apply H in C; congruence|reflexivity].
Qed.
Definition phase_is (X : string) (x : pload) : bool := okey_eqb (pl_phase x) (Some X).
Lemma phase_is_spec X x : phase_is X x = true <-> of_phase X x.
Proof. apply okey_spec. Qed.

Definition letters := [("A", "a"); ("B", "b"); ("C", "c")].
Definition frames := [("sum_lv_ph", "_load_kw"); ("sum_load_ph", "_kw")].
Lemma phase_amount pre post f pls X c : In (pre, post) frames -> In (X, c) letters ->
  (amount (pre ++ c ++ post) (phase_incs pre post f pls) == total (fun x => if phase_is X x then match pl_p x with Some p => f p | None => 0 end else 0) pls)%Q.
Proof.
  intros F L. unfold phase_incs. induction pls as [|x pls IH]; cbn [flat_map total]; [reflexivity|]. rewrite amount_app, IH. apply Qplus_comp; [|reflexivity]. clear IH.
  unfold phase_key, phase_is. destruct (pl_phase x) as [y|]; [|reflexivity]. cbn [okey_eqb].
  assert (Hx : (if String.eqb y "A" then Some (pre ++ "a" ++ post) else if String.eqb y "B" then Some (pre ++ "b" ++ post) else if String.eqb y "C" then Some (pre ++ "c" ++ post) else None)%string =
     (if String.eqb y X then Some (pre ++ c ++ post) else if String.eqb y "A" then Some (pre ++ "a" ++ post) else if String.eqb y "B" then Some (pre ++ "b" ++ post) else if String.eqb y "C" then Some (pre ++ "c" ++ post) else None)%string).
  { destruct (String.eqb_spec y X) as [E|N]; [|reflexivity]. subst y. destruct L as [L|[L|[L|[]]]]; injection L as <- <-; reflexivity. }
  rewrite Hx. clear Hx. destruct (String.eqb_spec y X) as [E|N].
  - destruct (pl_p x) as [p|]; cbn [amount]; [|reflexivity]. rewrite String.eqb_refl. ring.
  - destruct (pl_p x) as [p|]; [|destruct (String.eqb y "A"), (String.eqb y "B"), (String.eqb y "C"); reflexivity].
    destruct F as [F|[F|[]]]; injection F as <- <-; destruct L as [L|[L|[L|[]]]]; injection L as <- <-;
      destruct (String.eqb_spec y "A"); try congruence; try (cbn; ring); destruct (String.eqb_spec y "B"); try congruence; try (cbn; ring); destruct (String.eqb_spec y "C"); try congruence; cbn; ring.
Qed.

Lemma all_zero_spec l : all_zero l = true <-> forall x, In x l -> exists q, x = Some q /\ (q == 0)%Q.
Proof.
  unfold all_zero. rewrite forallb_forall. split; intros H x Hx; specialize (H x Hx).
  - destruct x as [q|]; [|discriminate]. exists q. split; [reflexivity|]. apply Qeq_bool_iff. exact H.
  - destruct H as (q & -> & E). apply Qeq_bool_iff. exact E.
Qed.
Lemma idle_spec pls : all_zero (map pl_p (live pls)) && all_zero (map pl_q (live pls)) = true <-> idle pls.
Proof.
  rewrite andb_true_iff, !all_zero_spec. unfold idle, live. split.
  - intros [H1 H2] x Hx D. assert (Hl : In x (filter (fun x => negb (pl_drop x)) pls)) by (apply filter_In; rewrite D; auto).
    destruct (H1 (pl_p x)) as (p & Ep & Zp); [apply in_map; exact Hl|]. destruct (H2 (pl_q x)) as (q & Eq & Zq); [apply in_map; exact Hl|]. exists p, q. auto.
  - intros H. split; intros y Hy; apply in_map_iff in Hy; destruct Hy as (x & <- & Hx); apply filter_In in Hx; destruct Hx as [Hx D]; apply negb_true_iff in D;
      destruct (H x Hx D) as (p & q & Ep & Eq & Zp & Zq); eauto.
Qed.

Section Loads.
Variables (LV MV : Q) (by_transformers : bool) (feeder_name : string -> option (option string)) (power_behind : option string -> option Q).
Notation object_incs := (object_incs LV MV by_transformers feeder_name power_behind).

Lemma other_amount k o l : (forall x, mb_body o <> Load x) -> smem k load_keys = true -> k <> "sum_distribution_transformer_mva" -> object_incs o = Ok l -> (amount k l == 0)%Q.
Proof.
  intros N Sk Nk. unfold MetricsModel.object_incs.
  assert (K : smem k (len_keys "lv") = false /\ smem k (len_keys "mv") = false /\ smem k head_keys = false /\ smem k trans_keys = false /\ k <> "num_regulators" /\ k <> "num_capacitors").
  { apply smem_In in Sk. cbn in Sk. decompose [or] Sk; try contradiction; subst k; try congruence; repeat split; reflexivity || discriminate. }
  destruct K as (K1 & K2 & K3 & K4 & K5 & K6). destruct (mb_body o) as [ln|x| | |t|] eqn:B; intros E.
  - destruct (line_cases _ _ _ _ _ E) as (ws & len & W & -> & C). rewrite amount_app, (amount_none k (head_form feeder_name ln) head_keys); [|apply head_form_keys|exact K3].
    destruct C as [[-> _]|(v & q & _ & _ & -> & [[-> _]|[-> _]])]; [reflexivity|rewrite (amount_none k _ (len_keys "lv")); [ring|apply len_form_keys|assumption]|rewrite (amount_none k _ (len_keys "mv")); [ring|apply len_form_keys|assumption]].
  - exfalso. eapply N. reflexivity.
  - injection E as <-. cbn [amount]. destruct (String.eqb_spec "num_regulators" k); [congruence|ring].
  - injection E as <-. cbn [amount]. destruct (String.eqb_spec "num_capacitors" k); [congruence|ring].
  - destruct (overload_incs _ _ t) as [a|] eqn:Ea; cbn [bind] in E; [|discriminate]. destruct (kind_incs _ t) as [b|] eqn:Eb; cbn [bind] in E; [|discriminate]. injection E as <-.
    eapply amount_none; [intros i; eapply trans_incs_keys; [exact Ea|exact Eb]|exact K4].
  - injection E as <-. reflexivity.
Qed.

(** The increments of a load, split by keys. *)
Definition demand_key (k : string) := smem k ["sum_load_kw"; "sum_load_pha_kw"; "sum_load_phb_kw"; "sum_load_phc_kw"; "sum_load_kvar"].
Definition level_key (k : string) := smem k ["num_lv_1ph_loads"; "num_lv_3ph_loads"; "num_mv_3ph_loads"; "sum_lv_pha_load_kw"; "sum_lv_phb_load_kw"; "sum_lv_phc_load_kw"].
Lemma load_split x l : load_incs LV MV by_transformers x = Ok l -> exists d, demand_incs x = Ok d /\
  (forall k, demand_key k = true -> (amount k l == amount k d)%Q) /\ (forall k, level_key k = true -> (amount k l == amount k (level_incs LV MV x))%Q).
Proof.
  unfold load_incs. destruct (demand_incs x) as [d|] eqn:D; cbn [bind]; [|discriminate]. intros E. injection E as <-. exists d. split; [reflexivity|].
  assert (U : forall k, smem k ["num_customers"] = false -> (amount k match mo_users x with Some u => [("num_customers", u)] | None => [] end == 0)%Q).
  { intros k S. eapply amount_none; [|exact S]. intros i. destruct (mo_users x); [intros [<-|[]]; left; reflexivity|intros []]. }
  assert (T : forall k, smem k ["sum_distribution_transformer_mva"] = false -> (amount k (when (negb by_transformers) match mo_kva x with Some k => [("sum_distribution_transformer_mva", (k * micro)%Q)] | None => [] end) == 0)%Q).
  { intros k S. eapply amount_none; [|exact S]. intros i H. apply when_In in H. destruct (mo_kva x); [destruct H as [<-|[]]; left; reflexivity|contradiction]. }
  split; intros k Hk.
  - rewrite !amount_app, U, T; [rewrite (amount_none k (level_incs LV MV x) _ (fun i => level_keys LV MV x i))| |]; [ring|..];
      unfold demand_key in Hk; apply smem_In in Hk; cbn in Hk; decompose [or] Hk; try contradiction; subst k; reflexivity.
  - rewrite !amount_app, U, T; [rewrite (amount_none k d _ (fun i => demand_keys x d i D))| |]; [ring|..];
      unfold level_key in Hk; apply smem_In in Hk; cbn in Hk; decompose [or] Hk; try contradiction; subst k; reflexivity.
Qed.

Lemma low_amount X c o l : In (X, c) letters -> object_incs o = Ok l -> yes (takes_low LV X) o (amount ("sum_lv_ph" ++ c ++ "_load_kw") l).
Proof.
  intros L E. assert (S : smem ("sum_lv_ph" ++ c ++ "_load_kw")%string load_keys = true /\ level_key ("sum_lv_ph" ++ c ++ "_load_kw")%string = true /\ ("sum_lv_ph" ++ c ++ "_load_kw")%string <> "sum_distribution_transformer_mva").
  { destruct L as [L|[L|[L|[]]]]; injection L as <- <-; (split; [reflexivity|split; [reflexivity|discriminate]]). }
  destruct S as (S1 & S2 & S3).
  assert (Case : (exists x, mb_body o = Load x) \/ forall x, mb_body o <> Load x) by (destruct (mb_body o); eauto; right; discriminate).
  destruct Case as [[x B]|N].
  2: { right. split; [intros q [(y & C & _) _]; exact (N _ C)|]. eapply other_amount; eauto. }
  unfold MetricsModel.object_incs in E. rewrite B in E. destruct (load_split _ _ E) as (d & _ & _ & A). eapply yes_ext; [|apply A; exact S2].
  assert (No : ~ (low LV (mo_volt x) /\ exists pls, mo_phases x = Some pls) -> yes (takes_low LV X) o 0%Q).
  { intros H. right. split; [|reflexivity]. intros q [(y & C & Hl) (y' & pls & C' & Hp & _)]. assert (y = x) by congruence. assert (y' = x) by congruence. subst. apply H. eauto. }
  unfold level_incs. destruct (mo_volt x) as [v|] eqn:V; [|apply No; intros [(y & C & _) _]; congruence].
  destruct (mo_phases x) as [pls|] eqn:Ph; [|apply No; intros [_ [y C]]; congruence].
  destruct (Qle_bool (v * sqrt3) LV) eqn:EL.
  - apply Qle_spec in EL. left. eexists. split.
    + split; [exists x; split; [exact B|]; exists v; auto|]. exists x, pls. split; [exact B|]. split; [exact Ph|]. apply takes_total. apply phase_is_spec.
    + rewrite amount_app, (phase_amount "sum_lv_ph" "_load_kw" _ _ X c); [|left; reflexivity|exact L].
      assert (Z : (amount ("sum_lv_ph" ++ c ++ "_load_kw")
          match length (live pls) with 1%nat => [("num_lv_1ph_loads", 1)] | 3%nat => [("num_lv_3ph_loads", 1)] | _ => [] end == 0)%Q).
      { destruct L as [L|[L|[L|[]]]]; injection L as <- <-; destruct (length (live pls)) as [|[|[|[|n]]]]; reflexivity. }
      rewrite Z, Qplus_0_l. apply total_ext. intros y _. destruct (phase_is X y); [|reflexivity]. destruct (pl_p y); reflexivity.
  - assert (NL : ~ (v * sqrt3 <= LV)%Q) by (intros C; apply Qle_spec in C; congruence).
    eapply yes_ext; [apply No; intros [(y & C & Hl) _]; injection C as <-; contradiction|].
    destruct (_ && _); [|reflexivity]. destruct L as [L|[L|[L|[]]]]; injection L as <- <-; rewrite amount_when, andb_false_r; reflexivity.
Qed.

Lemma total_const {A} (b : A -> bool) (c : Q) l : (total (fun x => if b x then c else 0) l == c * total (fun x => if b x then 1 else 0) l)%Q.
Proof. induction l as [|x l IH]; cbn [total]; [ring|]. rewrite IH. destruct (b x); ring. Qed.
Lemma total_one {A} (l : list A) : (total (fun _ => 1) l == inject_Z (Z.of_nat (length l)))%Q.
Proof. induction l as [|x l IH]; cbn [total length]; [reflexivity|]. rewrite IH, Nat2Z.inj_succ. unfold Z.succ. rewrite inject_Z_plus. ring. Qed.

Lemma demand_amounts o x l : mb_body o = Load x -> load_incs LV MV by_transformers x = Ok l ->
  yes demands o (amount "sum_load_kw" l) /\
  (forall X c, In (X, c) letters -> yes (demands_in X) o (amount ("sum_load_ph" ++ c ++ "_kw") l)) /\
  yes (takes_all pl_q any) o (amount "sum_load_kvar" l).
Proof.
  intros B E. destruct (load_split _ _ E) as (d & D & A & _). clear E.
  assert (No : mo_phases x = None -> yes demands o 0%Q /\ (forall X, yes (demands_in X) o 0%Q) /\ yes (takes_all pl_q any) o 0%Q).
  { intros H. split; [|split]; [|intros X|]; right; (split; [|reflexivity]); intros q (y & pls & C & Hp & _); assert (y = x) by congruence; subst; congruence. }
  assert (KL : forall X c, In (X, c) letters -> demand_key ("sum_load_ph" ++ c ++ "_kw") = true) by (intros X c L; destruct L as [L|[L|[L|[]]]]; injection L as <- <-; reflexivity).
  unfold demand_incs in D. destruct (mo_phases x) as [pls|] eqn:Ph.
  2: { destruct (No eq_refl) as (N1 & N2 & N3). injection D as <-. split; [|split]; [eapply yes_ext; [exact N1|apply (A "sum_load_kw" eq_refl)]| |eapply yes_ext; [exact N3|apply (A "sum_load_kvar" eq_refl)]].
       intros X c L. eapply yes_ext; [apply N2|]. apply A. eapply KL; eauto. }
  clear No. assert (Dd : d = (if all_zero (map pl_p (live pls)) && all_zero (map pl_q (live pls)) then
        match mo_kva x with
        | Some k => when (negb (Qeq_bool k 0)) (("sum_load_kw", k) :: phase_incs "sum_load_ph" "_kw" (fun _ => k / inject_Z (Z.of_nat (length (live pls))))%Q (live pls))
        | None => []
        end
      else ("sum_load_kw", np_sum (some_only (map pl_p (live pls)))) :: phase_incs "sum_load_ph" "_kw" (fun p => p) (live pls)) ++ [("sum_load_kvar", np_sum (some_only (map pl_q (live pls))))]).
  { destruct pls as [|y r]; [discriminate|]. destruct (pl_p y); [destruct (pl_q y)|]; try discriminate. injection D as <-. reflexivity. }
  clear D. subst d. set (kw := if _ && _ then _ else _) in A.
  assert (PK : forall k f ys, smem k ["sum_load_pha_kw"; "sum_load_phb_kw"; "sum_load_phc_kw"] = false -> (amount k (phase_incs "sum_load_ph" "_kw" f ys) == 0)%Q).
  { intros k f ys S. eapply amount_none; [intros i; apply phase_incs_keys|exact S]. }
  assert (Kw : forall X c, In (X, c) letters -> String.eqb "sum_load_kw" ("sum_load_ph" ++ c ++ "_kw") = false /\ String.eqb "sum_load_kvar" ("sum_load_ph" ++ c ++ "_kw") = false)
    by (intros X c L; destruct L as [L|[L|[L|[]]]]; injection L as <- <-; split; reflexivity).
  split; [|split].
  - eapply yes_ext; [|apply (A "sum_load_kw" eq_refl)]. eapply yes_ext; [|rewrite amount_app; cbn [amount String.eqb Ascii.eqb Bool.eqb]; rewrite Qplus_0_r, Qplus_0_r; reflexivity].
    subst kw. destruct (all_zero (map pl_p (live pls)) && all_zero (map pl_q (live pls))) eqn:Z.
    + apply idle_spec in Z. destruct (mo_kva x) as [k|] eqn:Kv.
      * left. exists k. split; [exists x, pls; split; [exact B|]; split; [exact Ph|]; right; auto|]. destruct (Qeq_bool k 0) eqn:K0; cbn [negb when amount].
        -- apply Qeq_bool_iff in K0. rewrite K0. reflexivity.
        -- rewrite PK by reflexivity. cbn. ring.
      * right. split; [|reflexivity]. intros q (y & pls' & C & Hp & H). assert (y = x) by congruence. subst. assert (pls' = pls) by congruence. subst. destruct H as [[H _]|[_ H]]; [contradiction|congruence].
    + assert (NI : ~ idle pls) by (intros C; apply idle_spec in C; congruence). left. exists (total (fun x => if true then val (pl_p x) else 0%Q) (live pls)). split.
      * exists x, pls. split; [exact B|]. split; [exact Ph|]. left. split; [exact NI|]. apply (takes_total pl_p any (fun _ => true)). intros y. split; [intros _; exact I|reflexivity].
      * cbn [amount]. rewrite PK by reflexivity. cbn [String.eqb Ascii.eqb Bool.eqb]. rewrite np_sum_total. ring.
  - intros X c L. destruct (Kw X c L) as [Kw1 Kw2]. eapply yes_ext; [|apply A; eapply KL; eauto]. eapply yes_ext; [|rewrite amount_app; cbn [amount]; rewrite Kw2, Qplus_0_r, Qplus_0_r; reflexivity].
    subst kw. destruct (all_zero (map pl_p (live pls)) && all_zero (map pl_q (live pls))) eqn:Z.
    + apply idle_spec in Z. destruct (mo_kva x) as [k|] eqn:Kv.
      * left. exists (k * total (fun y => if phase_is X y then 1 else 0) (live pls) / inject_Z (Z.of_nat (length (live pls))))%Q. split.
        -- exists x, pls. split; [exact B|]. split; [exact Ph|]. right. split; [exact Z|]. exists k, (total (fun y => if phase_is X y then 1 else 0) (live pls))%Q, (inject_Z (Z.of_nat (length (live pls)))).
           split; [exact Kv|]. split; [|split; [|reflexivity]].
           ++ eapply sums_ext; [apply (number_total (fun y => pl_drop y = false /\ of_phase X y) (fun y => negb (pl_drop y) && phase_is X y))|].
              ** intros y. rewrite andb_true_iff, negb_true_iff, phase_is_spec. reflexivity.
              ** unfold live. rewrite total_filter. apply total_ext. intros y _. destruct (pl_drop y); reflexivity.
           ++ apply number_filter. intros y. apply negb_true_iff.
        -- destruct (Qeq_bool k 0) eqn:K0; cbn [negb when amount].
           ++ apply Qeq_bool_iff in K0. rewrite K0. unfold Qdiv. ring.
           ++ rewrite Kw1, Qplus_0_l, (phase_amount "sum_load_ph" "_kw" _ _ X c); [|right; left; reflexivity|exact L].
              transitivity (total (fun y => if phase_is X y then (k / inject_Z (Z.of_nat (length (live pls))))%Q else 0%Q) (live pls)).
              ** apply total_ext. intros y Hy. destruct (phase_is X y); [|reflexivity]. apply filter_In in Hy. destruct Hy as [Hy Dy]. apply negb_true_iff in Dy. destruct (Z y Hy Dy) as (p & q & -> & _). reflexivity.
              ** rewrite total_const. unfold Qdiv. ring.
      * right. split; [|reflexivity]. intros q (y & pls' & C & Hp & H). assert (y = x) by congruence. subst. assert (pls' = pls) by congruence. subst. destruct H as [[H _]|[_ (k & n & m & H & _)]]; [contradiction|congruence].
    + assert (NI : ~ idle pls) by (intros C; apply idle_spec in C; congruence). left. exists (total (fun y => if phase_is X y then val (pl_p y) else 0%Q) (live pls)). split.
      * exists x, pls. split; [exact B|]. split; [exact Ph|]. left. split; [exact NI|]. apply takes_total. apply phase_is_spec.
      * cbn [amount]. rewrite Kw1, Qplus_0_l, (phase_amount "sum_load_ph" "_kw" _ _ X c); [|right; left; reflexivity|exact L]. apply total_ext. intros y _. destruct (phase_is X y); [|reflexivity]. destruct (pl_p y); reflexivity.
  - eapply yes_ext; [|apply (A "sum_load_kvar" eq_refl)]. left. exists (total (fun x => if true then val (pl_q x) else 0%Q) (live pls)). split.
    + exists x, pls. split; [exact B|]. split; [exact Ph|]. apply (takes_total pl_q any (fun _ => true)). intros y. split; [intros _; exact I|reflexivity].
    + rewrite amount_app. cbn [amount String.eqb Ascii.eqb Bool.eqb].
      assert (Z : (amount "sum_load_kvar" kw == 0)%Q).
      { subst kw. destruct (_ && _).
        - destruct (mo_kva x); [|reflexivity]. destruct (Qeq_bool q 0); cbn [negb when amount]; [reflexivity|]. rewrite PK by reflexivity. cbn. ring.
        - cbn [amount]. rewrite PK by reflexivity. cbn. ring. }
      rewrite Z, np_sum_total. ring.
Qed.
Lemma not_load_yes o l : (forall x, mb_body o <> Load x) -> object_incs o = Ok l ->
  yes demands o (amount "sum_load_kw" l) /\
  (forall X c, In (X, c) letters -> yes (demands_in X) o (amount ("sum_load_ph" ++ c ++ "_kw") l)) /\
  yes (takes_all pl_q any) o (amount "sum_load_kvar" l).
Proof.
  intros N E. split; [|split].
  - right. split; [intros q (y & pls & C & _); exact (N _ C)|]. eapply other_amount; eauto; first [reflexivity|discriminate].
  - intros X c L. right. split; [intros q (y & pls & C & _); exact (N _ C)|]. eapply other_amount; eauto; destruct L as [L|[L|[L|[]]]]; injection L as <- <-; reflexivity || discriminate.
  - right. split; [intros q (y & pls & C & _); exact (N _ C)|]. eapply other_amount; eauto; first [reflexivity|discriminate].
Qed.
Lemma load_yes o l : object_incs o = Ok l ->
  yes demands o (amount "sum_load_kw" l) /\
  (forall X c, In (X, c) letters -> yes (demands_in X) o (amount ("sum_load_ph" ++ c ++ "_kw") l)) /\
  yes (takes_all pl_q any) o (amount "sum_load_kvar" l).
Proof.
  intros E. assert (Case : (exists x, mb_body o = Load x) \/ forall x, mb_body o <> Load x) by (destruct (mb_body o); eauto; right; discriminate).
  destruct Case as [[x B]|N]; [|apply not_load_yes; auto]. apply (demand_amounts o x l B). unfold MetricsModel.object_incs in E. rewrite B in E. exact E.
Qed.
End Loads.
