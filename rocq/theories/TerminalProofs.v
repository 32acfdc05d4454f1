From Verif Require Import Base BaseFacts StoreModel NetworkModel NetworkSpec NetworkProofs NetworkBfs NetworkQueries NetworkDown NetworkTop CoordSpec
  VoltProofs CenterTapModel CenterTapSpec CenterTapProofs TerminalModel TerminalSpec.
From Coq Require Import Sorted Lia.
Local Open Scope string_scope.
Local Open Scope nat_scope.
Local Open Scope list_scope.

Section Climb.
Variables (es : list elem) (s : string) (n : network).
Hypothesis B : built es s n.
Hypothesis AN : all_named es.
Notation d := (net_di n).

Lemma up_spec fuel : forall x r, find_up n fuel x = Ok r ->
  (exists t m, feeds es d x t /\ e_name t = Some (Some m) /\ r = Some (Some m)) \/ (r = None /\ forall t, ~ feeds es d x t).
Proof.
  induction fuel as [|fuel IH]; intros x r; cbn [find_up]; [discriminate|].
  destruct (predecessors d x) as [[|[[p q] a] rest]|] eqn:P.
  - intros E. injection E as <-. right. split; [reflexivity|]. intros t F. destruct (feeds_inv es n _ _ F) as (y & Ar & _).
    unfold predecessors in P. destruct (smem x (d_nodes d)); [|discriminate]. injection P as P. destruct Ar as [a Ha].
    assert (C : In (y, x, a) (filter (fun e : edge => String.eqb (snd (fst e)) x) (d_edges d))) by (apply filter_In; split; [exact Ha|cbn; apply String.eqb_refl]).
    rewrite P in C. destruct C.
  - destruct (pred_case n _ _ _ _ _ P) as [Ar Hx]. assert (One : forall y, arc d y x -> y = p) by (intros y Hy; eapply (b_one _ _ _ B); eauto).
    assert (Up : (forall i, last_span es p x i -> e_cls i <> "PowerTransformer") -> find_up n fuel p = Ok r ->
        (exists t m, feeds es d x t /\ e_name t = Some (Some m) /\ r = Some (Some m)) \/ (r = None /\ forall t, ~ feeds es d x t)).
    { intros Nt E. destruct (IH _ _ E) as [(t & m & F & Hm & Hr)|[Hr N]].
      - left. exists t, m. split; [|auto]. destruct F as (z & y & A & R). exists z, y. split; [econstructor; eauto|exact R].
      - right. split; [exact Hr|]. intros t F. destruct (feeds_inv es n _ _ F) as (y & Ay & [[L C]|[_ F']]); pose proof (One _ Ay); subst y; [exact (Nt _ L C)|exact (N _ F')]. }
    destruct (edge_case es s n B AN p x) as [(i & m & Hi & Hm & Ea)|[No Ea]]; rewrite Ea.
    + cbn [ea_cls ea_name]. destruct (String.eqb_spec (e_cls i) "PowerTransformer") as [Hc|Hc].
      * intros E. injection E as <-. left. exists i, m. split; [exists x, p; split; [constructor|auto]|auto].
      * apply Up. intros j Hj. rewrite (last_span_fun _ _ _ _ _ Hj Hi). exact Hc.
    + apply Up. intros j Hj. exfalso. exact (No j Hj).
  - intros E. injection E as <-. right. split; [reflexivity|]. intros t F. destruct (feeds_inv es n _ _ F) as (y & Ar & _).
    assert (Hx : In x (d_nodes d)) by (apply (b_nodes _ _ _ B); exists y; right; exact Ar).
    unfold predecessors in P. apply smem_In in Hx. rewrite Hx in P. discriminate.
Qed.
Lemma up_total_node k : forall x fuel, In x (d_nodes d) -> dist (linked es) s x k -> k < fuel -> exists r, find_up n fuel x = Ok r.
Proof.
  induction k as [|k IH]; intros x fuel Hx D L; (destruct fuel as [|fuel]; [lia|]); cbn [find_up].
  - apply dist_zero in D as <-. destruct (built_predecessors _ _ _ _ B Hx) as [[_ E]|(u & a & r & E & Hin & Hu)]; [rewrite E; eauto|].
    exfalso. apply (built_no_pred_source _ _ _ u B). exists a. exact Hin.
  - destruct (built_predecessors _ _ _ _ B Hx) as [[-> E]|(u & a & r & E & Hin & Hu)]; rewrite E; [eauto|].
    assert (Ar : arc d u x) by (exists a; exact Hin). assert (Hu' : In u (d_nodes d)) by (apply (b_nodes _ _ _ B); exists x; left; exact Ar).
    assert (Du : dist (linked es) s u k) by (destruct (b_arc _ _ _ B u x Ar) as (_ & k' & D1 & D2); assert (Q := dist_fun _ _ _ _ _ D D2); injection Q as ->; exact D1).
    assert (Up : exists r0, find_up n fuel u = Ok r0) by (apply (IH u fuel Hu' Du); lia).
    destruct (edge_attr (net_graph n) u x) as [at_|]; [|exact Up]. destruct (String.eqb (ea_cls at_) "PowerTransformer"); [eauto|exact Up].
Qed.
End Climb.

(** ** Matching *)

Lemma nth_overwrite o : forall l j, nth_error (overwrite o l) j =
  match nth_error o j with None => None | Some y => match nth_error l j with Some x => Some x | None => Some y end end.
Proof.
  induction o as [|y o IH]; intros [|x l] [|j]; cbn [overwrite nth_error]; try reflexivity; [destruct (nth_error o j); reflexivity|apply IH].
Qed.
Lemma overwrite_length o : forall l, length (overwrite o l) = length o.
Proof. induction o as [|y o IH]; intros [|x l]; cbn [overwrite length]; congruence. Qed.

Lemma matched_nil g old : matched g [] old old.
Proof.
  split; [cbn; lia|]. intros j x H. right. split; [symmetry; apply nth_error_nth; exact H|]. intros [|k0 a] l0 b0 E; discriminate.
Qed.
Lemma snoc_split {A} (l : list A) z a y b : l ++ [z] = a ++ y :: b -> (b = [] /\ y = z /\ a = l) \/ exists b', b = b' ++ [z] /\ l = a ++ y :: b'.
Proof.
  intros E. destruct b as [|w b] using rev_ind.
  - left. apply app_inj_tail in E. destruct E. auto.
  - right. exists b. change (y :: b ++ [w]) with ((y :: b) ++ [w]) in E. rewrite app_assoc in E. apply app_inj_tail in E. destruct E as [E ->]. auto.
Qed.
Lemma matched_step g phs l old new : matched g phs old new -> matched g (phs ++ [l]) old (overwrite (new ++ repeat None g) l).
Proof.
  intros [Ln H]. split.
  - rewrite overwrite_length, !app_length, repeat_length, Ln. cbn [length]. lia.
  - intros j x. rewrite nth_overwrite. destruct (nth_error (new ++ repeat None g) j) as [y|] eqn:Ey; [|discriminate].
    assert (Lj : j < length old + g * S (length phs)).
    { assert (Q : nth_error (new ++ repeat None g) j <> None) by congruence. apply nth_error_Some in Q. rewrite app_length, repeat_length, Ln in Q. lia. }
    destruct (nth_error l j) as [z|] eqn:Ez; intros E; injection E as <-.
    + left. exists phs, l, []. auto.
    + apply nth_error_None in Ez. destruct (Nat.lt_ge_cases j (length new)) as [Lt|Ge].
      * rewrite nth_error_app1 in Ey by exact Lt. destruct (H _ _ Ey) as [(a & k & b & E & L & K & F)|[Q K]].
        -- left. exists a, k, (b ++ [l]). split; [rewrite E, <- app_assoc; reflexivity|]. split; [exact L|]. split; [exact K|]. apply Forall_app. auto.
        -- right. split; [exact Q|]. intros a k b E. apply snoc_split in E. destruct E as [(_ & -> & _)|(b' & _ & E)]; [left; exact Ez|eauto].
      * rewrite nth_error_app2 in Ey by exact Ge. apply nth_error_In, repeat_spec in Ey. subst y. right. split; [symmetry; apply nth_overflow; lia|].
        intros a k b E. apply snoc_split in E. destruct E as [(_ & -> & _)|(b' & _ & E)]; [left; exact Ez|]. right. subst phs. rewrite app_length in Ln. cbn [length] in Ln.
        assert (g * S (length a) <= g * (length a + S (length b'))) by (apply Nat.mul_le_mono_l; lia). lia.
Qed.

Lemma secondary_step phs l q ws ws' w0 w : nth_error ws q = Some (Some (Some w)) -> recoiled phs w0 w -> set_secondary l q ws = Ok ws' ->
  exists w', recoiled (phs ++ [l]) w0 w' /\ nth_error ws' q = Some (Some (Some w')) /\ forall p, p <> q -> nth_error ws' p = nth_error ws p.
Proof.
  intros Hq R. unfold set_secondary. rewrite Hq. cbn [bind of_opt].
  assert (P : forall x p, nth_error (put ws q x) p = if Nat.eqb q p then Some x else nth_error ws p) by (intros x p; rewrite nth_put, Hq; reflexivity).
  destruct R as [(a & b & b' & -> & -> & M)|[(a & b & b' & c & -> & -> & M)|(N2 & N3 & ->)]].
  - cbn [of_opt bind]. intros E. injection E as <-. eexists. split; [left; do 3 eexists; split; [reflexivity|split; [reflexivity|exact (matched_step 0 _ l _ _ M)]]|].
    cbn [repeat]. rewrite app_nil_r. split; [rewrite P, Nat.eqb_refl; reflexivity|]. intros p Np. rewrite P. destruct (Nat.eqb_spec q p); [congruence|reflexivity].
  - cbn [of_opt bind]. intros E. injection E as <-. eexists. split; [right; left; do 4 eexists; split; [reflexivity|split; [reflexivity|exact (matched_step 1 _ l _ _ M)]]|].
    cbn [repeat]. split; [rewrite P, Nat.eqb_refl; reflexivity|]. intros p Np. rewrite P. destruct (Nat.eqb_spec q p); [congruence|reflexivity].
  - intros E. assert (ws' = ws) by (destruct w0 as [|? [|? [|? [|? ?]]]]; cbn in N2, N3; try lia; congruence). subst ws'.
    exists w0. split; [right; right; auto|]. auto.
Qed.
Lemma secondary_first l q ws ws' : set_secondary l q ws = Ok ws' -> exists w, nth_error ws q = Some (Some (Some w)) /\ recoiled [] w w.
Proof.
  unfold set_secondary. destruct (nth_error ws q) as [[[w|]|]|] eqn:Hq; cbn [bind of_opt]; try discriminate. intros E. exists w. split; [reflexivity|].
  destruct w as [|a [|b [|c [|]]]]; try (right; right; cbn; split; [lia|split; [lia|reflexivity]]).
  - destruct b as [b|]; [|discriminate]. left. exists a, b, b. auto using matched_nil.
  - destruct b as [b|]; [|discriminate]. right. left. exists a, b, b, c. auto using matched_nil.
Qed.
Lemma sorted_snoc l k : StronglySorted lt l -> (forall i, In i l -> i < k) -> StronglySorted lt (l ++ [k]).
Proof.
  induction l as [|x l IH]; intros S H; cbn [app]; [repeat constructor|]. apply StronglySorted_inv in S. destruct S as [S F]. constructor.
  - apply IH; [exact S|]. intros i Hi. apply H. right. exact Hi.
  - apply Forall_app. split; [exact F|]. constructor; [apply H; left; reflexivity|constructor].
Qed.

Section Run.
Variables (es : list elem) (s : string) (n : network) (lp : load_phases) (fuel : nat).
Hypothesis B : built es s n.
Hypothesis AN : all_named es.
Hypothesis UN : unique_names es.
Notation d := (net_di n).

Lemma name_pos i e m : nth_error es i = Some e -> e_name e = Some (Some m) -> lookup es (Some m) = Some i.
Proof. intros Hi Hm. apply lookup_spec. split; [eauto|]. intros q j Hq Hj. assert (q = i) by (eapply UN; eauto). lia. Qed.
Lemma feeds_pos x t : feeds es d x t -> exists q, nth_error es q = Some t.
Proof. intros (z & y & _ & _ & L & _). destruct L as (a & b & E & _). apply In_nth_error. rewrite E. apply in_app_iff. right. left. reflexivity. Qed.

(** What the first [k] objects did. *)
Definition done (k : nat) (ups : list (option string)) (ws : coiling) (ups' : list (option string)) (ws' : coiling) : Prop :=
  (forall i t, i < k -> supplied_by es d t i -> exists m, e_name t = Some (Some m) /\ nth_error ups' i = match nth_error ups i with Some _ => Some (Some m) | None => None end) /\
  (forall i, (i < k -> forall t, ~ supplied_by es d t i) -> nth_error ups' i = nth_error ups i) /\
  (forall i e, i < k -> nth_error es i = Some e -> e_cls e = "Load" -> exists p l, lookup es (key e) = Some p /\ nth_error lp p = Some (Some l)) /\
  (forall q t, nth_error es q = Some t -> exists idx phs, StronglySorted lt idx /\ (forall i, In i idx <-> i < k /\ supplied_by es d t i) /\
     Forall2 (fun i l => nth_error lp i = Some (Some l)) idx phs /\
     ((idx = [] /\ nth_error ws' q = nth_error ws q) \/
      exists w w', nth_error ws q = Some (Some (Some w)) /\ nth_error ws' q = Some (Some (Some w')) /\ recoiled phs w w')) /\
  (forall q, nth_error es q = None -> nth_error ws' q = nth_error ws q).

Lemma done_zero ups ws : done 0 ups ws ups ws.
Proof.
  split; [intros; lia|]. split; [reflexivity|]. split; [intros; lia|]. split; [|reflexivity]. intros q t _. exists [], []. split; [constructor|]. split; [|split; [constructor|left; auto]].
  intros i. split; [intros []|]. intros [L _]. lia.
Qed.

(** An object that is no load behind a transformer. *)
Lemma done_skip k e ups ws ups1 ws1 : nth_error es k = Some e -> (forall t, ~ supplied_by es d t k) ->
  (e_cls e = "Load" -> exists p l, lookup es (key e) = Some p /\ nth_error lp p = Some (Some l)) -> done k ups ws ups1 ws1 -> done (S k) ups ws ups1 ws1.
Proof.
  intros Hk No Ld (U1 & U2 & U4 & W & W0). split; [|split; [|split; [|split; [|exact W0]]]].
  - intros i t L S. apply U1; [|exact S]. destruct (Nat.eq_dec i k) as [->|]; [destruct (No _ S)|lia].
  - intros i H. apply U2. intros L. apply H. lia.
  - intros i e' L Hi Hc. destruct (Nat.eq_dec i k) as [->|]; [|apply (U4 i e'); auto; lia]. assert (e' = e) by congruence. subst e'. auto.
  - intros q t Hq. destruct (W q t Hq) as (idx & phs & S & I & F & R). exists idx, phs. split; [exact S|]. split; [|auto].
    intros i. rewrite I. split; intros [L Hs]; split; try exact Hs; try lia. destruct (Nat.eq_dec i k) as [->|]; [destruct (No _ Hs)|lia].
Qed.

Lemma feeds_same x t t' : feeds es d x t -> feeds es d x t' -> t = t'.
Proof. exact (feeds_fun es s n B x t t'). Qed.

Lemma done_step k e ups ws ups1 ws1 ups2 ws2 : nth_error es k = Some e -> done k ups ws ups1 ws1 ->
  terminal_step es n lp fuel (ups1, ws1) e = Ok (ups2, ws2) -> done (S k) ups ws ups2 ws2.
Proof.
  intros Hk D. unfold terminal_step. destruct (String.eqb_spec (e_cls e) "Load") as [Hl|Hl].
  2:{ intros E. injection E as <- <-. apply (done_skip k e); auto; [|contradiction]. intros t (e' & c & He & Hc & _). congruence. }
  destruct (lookup es (key e)) as [p|] eqn:Lk; cbn [of_opt bind]; [|discriminate].
  destruct (nth_error lp p) as [[l|]|] eqn:Lp; cbn [bind]; try discriminate.
  assert (Ld : e_cls e = "Load" -> exists p l, lookup es (key e) = Some p /\ nth_error lp p = Some (Some l)) by eauto.
  destruct (e_conn e) as [c|] eqn:Ec.
  2:{ cbn [bind]. intros E. injection E as <- <-. apply (done_skip k e); auto. intros t (e' & c & He & _ & Hc & _). congruence. }
  destruct (find_up n fuel c) as [r|] eqn:Eu; cbn [bind]; [|discriminate].
  destruct (up_spec es s n B AN _ _ _ Eu) as [(t & m & F & Hm & ->)|[-> No]].
  2:{ intros E. injection E as <- <-. apply (done_skip k e); auto. intros t (e' & c' & He & _ & Hc & F). assert (c' = c) by congruence. subst c'. exact (No _ F). }
  rewrite (lookup_self es AN UN k e c Hk Ec) in Lk. injection Lk as <-. destruct (feeds_pos _ _ F) as [q Hq]. rewrite (name_pos _ _ _ Hq Hm). cbn [of_opt bind].
  destruct (set_secondary l q ws1) as [ws3|] eqn:Es; cbn [bind]; [|discriminate]. intros E. injection E as <- <-.
  assert (Sk : supplied_by es d t k) by (exists e, c; auto).
  assert (Only : forall t', supplied_by es d t' k -> t' = t).
  { intros t' (e' & c' & He & _ & Hc & F'). assert (e' = e) by congruence. subst e'. assert (c' = c) by congruence. subst c'. exact (feeds_same _ _ _ F' F). }
  destruct D as (U1 & U2 & U4 & W & W0).
  assert (Uo : forall i, i <> k -> nth_error (put ups1 k (Some m)) i = nth_error ups1 i) by (intros i Ni; rewrite nth_put; destruct (Nat.eqb_spec k i); [congruence|reflexivity]).
  assert (Uk : nth_error ups1 k = nth_error ups k) by (apply U2; intros; lia).
  assert (Ws : exists idx phs w w', StronglySorted lt idx /\ (forall i, In i idx <-> i < k /\ supplied_by es d t i) /\
     Forall2 (fun i l => nth_error lp i = Some (Some l)) idx phs /\ nth_error ws q = Some (Some (Some w)) /\ nth_error ws1 q = Some (Some (Some w')) /\ recoiled phs w w').
  { destruct (W q t Hq) as (idx & phs & S & I & F2 & [[Ei Eq]|(w & w' & R1 & R2 & R3)]).
    - destruct (secondary_first _ _ _ _ Es) as (w & Hw & R). exists idx, phs, w, w. split; [exact S|]. split; [exact I|]. split; [exact F2|]. subst idx. inversion F2. subst. rewrite <- Eq. auto.
    - exists idx, phs, w, w'. repeat (split; [assumption|]). assumption. }
  destruct Ws as (idx & phs & w & w' & S & I & F2 & Hw & Hw' & R).
  destruct (secondary_step _ _ _ _ _ _ _ Hw' R Es) as (w2 & R' & Hw2 & Oth).
  split; [|split; [|split; [|split]]].
  - intros i t' L Hs. destruct (Nat.eq_dec i k) as [->|Ni].
    + rewrite (Only _ Hs). exists m. split; [exact Hm|]. rewrite nth_put, Nat.eqb_refl, Uk. reflexivity.
    + rewrite Uo by exact Ni. apply U1; [lia|exact Hs].
  - intros i H. destruct (Nat.eq_dec i k) as [->|Ni]; [exfalso; apply (H (Nat.lt_succ_diag_r k) t Sk)|]. rewrite Uo by exact Ni. apply U2. intros L. apply H. lia.
  - intros i e' L Hi Hc. destruct (Nat.eq_dec i k) as [->|]; [|apply (U4 i e'); auto; lia]. assert (e' = e) by congruence. subst e'. exists k, l.
    split; [exact (lookup_self es AN UN k e c Hk Ec)|exact Lp].
  - intros q' t' Hq'. destruct (Nat.eq_dec q' q) as [->|Nq].
    + assert (t' = t) by congruence. subst t'. exists (idx ++ [k]), (phs ++ [l]). split; [apply sorted_snoc; [exact S|]; intros i Hi; apply I in Hi; tauto|]. split.
      { intros i. rewrite in_app_iff, I. cbn [In]. split; [intros [[L Hs]|[<-|[]]]; (split; [lia|assumption])|]. intros [L Hs]. destruct (Nat.eq_dec i k) as [->|]; [auto|]. left. split; [lia|exact Hs]. }
      split; [apply Forall2_app; [exact F2|repeat constructor; exact Lp]|]. right. exists w, w2. auto.
    + rewrite (Oth q' Nq). destruct (W q' t' Hq') as (idx' & phs' & S' & I' & F' & R2). exists idx', phs'. split; [exact S'|]. split; [|auto].
      intros i. rewrite I'. split; intros [L Hs]; split; try exact Hs; try lia. destruct (Nat.eq_dec i k) as [->|]; [|lia].
      exfalso. apply Nq. assert (t' = t) by (apply Only; exact Hs). subst t'. apply (UN q' q t t m); auto.
  - intros q' Hn. rewrite (Oth q'); [apply W0; exact Hn|]. intros ->. congruence.
Qed.

Lemma done_all rest : forall pre ups ws ups1 ws1 ups2 ws2, es = pre ++ rest -> done (length pre) ups ws ups1 ws1 ->
  foldM (terminal_step es n lp fuel) rest (ups1, ws1) = Ok (ups2, ws2) -> done (length es) ups ws ups2 ws2.
Proof.
  induction rest as [|e rest IH]; intros pre ups ws ups1 ws1 ups2 ws2 E D.
  - cbn [foldM]. intros Q. injection Q as <- <-. rewrite E, app_nil_r. exact D.
  - cbn [foldM]. destruct (terminal_step es n lp fuel (ups1, ws1) e) as [[ups3 ws3]|] eqn:Et; cbn [bind]; [|discriminate].
    apply (IH (pre ++ [e])); [rewrite <- app_assoc; exact E|]. rewrite app_length, Nat.add_1_r. apply (done_step _ e _ _ ups1 ws1); auto.
    rewrite E, nth_error_app2, Nat.sub_diag by lia. reflexivity.
Qed.
Lemma terminals_done ups ws ups' ws' : terminals_to_phases es n lp fuel ups ws = Ok (ups', ws') -> done (length es) ups ws ups' ws'.
Proof. intros E. apply (done_all es [] ups ws ups ws); auto. apply done_zero. Qed.
End Run.

(** ** Consequences *)

Lemma nth_error_eq {A} (l : list A) : forall k, length l = length k -> (forall j x, nth_error l j = Some x -> nth_error k j = Some x) -> l = k.
Proof.
  induction l as [|y l IH]; intros [|z k] L H; cbn in L; try discriminate; [reflexivity|]. injection L as L.
  assert (Q := H 0 y eq_refl). cbn in Q. injection Q as ->. f_equal. apply IH; [exact L|]. intros j x Hj. exact (H (S j) x Hj).
Qed.
Lemma matched_agree g phs old new l : matched g phs old new -> phs <> [] -> (forall k, In k phs -> k = l) -> length new = length l -> new = l.
Proof.
  intros [Ln H] Ne All Q. apply nth_error_eq; [exact Q|]. intros j x Hj. destruct (H j x Hj) as [(a & k & b & E & _ & K & _)|[_ K]].
  - rewrite <- (All k); [exact K|]. rewrite E. apply in_app_iff. right. left. reflexivity.
  - exfalso. assert (Lj : j < length new) by (apply nth_error_Some; congruence).
    destruct (exists_last Ne) as (a & k & E). assert (k = l) by (apply All; rewrite E; apply in_app_iff; right; left; reflexivity). subst k.
    rewrite E, app_length, Nat.add_1_r in Ln. destruct (K a l [] E); lia.
Qed.
Lemma matched_again phs old new new2 : matched 0 phs old new -> matched 0 phs new new2 -> new2 = new.
Proof.
  intros [L1 H1] [L2 H2]. apply nth_error_eq; [lia|]. intros j x Hj. assert (Lj : j < length new2) by (apply nth_error_Some; congruence).
  assert (Lo : j < length old) by lia.
  destruct (H2 j x Hj) as [(a & k & b & E & _ & K & F)|[-> _]]; [|apply nth_error_nth'; lia].
  destruct (nth_error new j) as [y|] eqn:Ey; [|apply nth_error_None in Ey; lia].
  destruct (H1 j y Ey) as [(a' & k' & b' & E' & _ & K' & F')|[_ N]].
  - rewrite E in E'. assert (La : length a = length a').
    { assert (Lk : j < length k) by (apply nth_error_Some; congruence). assert (Lk' : j < length k') by (apply nth_error_Some; congruence).
      rewrite Forall_forall in F, F'.
      destruct (Nat.lt_trichotomy (length a) (length a')) as [L|[L|L]]; [|exact L|]; exfalso.
      - assert (I : In k' b).
        { assert (N := f_equal (fun z => nth_error z (length a')) E'). cbv beta in N. rewrite (nth_error_app2 a'), Nat.sub_diag in N by lia. rewrite nth_error_app2 in N by lia.
          destruct (length a' - length a) as [|v] eqn:V; [lia|]. cbn [nth_error] in N. apply nth_error_In in N. exact N. }
        apply F in I. lia.
      - assert (I : In k b').
        { assert (N := f_equal (fun z => nth_error z (length a)) E'). cbv beta in N. rewrite (nth_error_app2 a), Nat.sub_diag in N by lia. rewrite nth_error_app2 in N by lia.
          destruct (length a - length a') as [|v] eqn:V; [lia|]. cbn [nth_error] in N. symmetry in N. apply nth_error_In in N. exact N. }
        apply F' in I. lia. }
    assert (N := f_equal (fun z => nth_error z (length a)) E'). cbv beta in N. rewrite nth_error_app2, Nat.sub_diag in N by lia. rewrite La, nth_error_app2, Nat.sub_diag in N by lia.
    cbn in N. congruence.
  - exfalso. assert (Lk : j < length k) by (apply nth_error_Some; congruence). destruct (N a k b E); lia.
Qed.
Lemma sorted_fun l : forall k, StronglySorted lt l -> StronglySorted lt k -> (forall i : nat, In i l <-> In i k) -> l = k.
Proof.
  induction l as [|x l IH]; intros [|y k] S T H; [reflexivity|destruct (proj2 (H y) (or_introl eq_refl))|destruct (proj1 (H x) (or_introl eq_refl))|].
  apply StronglySorted_inv in S, T. destruct S as [S F], T as [T G]. rewrite Forall_forall in F, G.
  assert (x = y).
  { destruct (proj1 (H x) (or_introl eq_refl)) as [E|I]; [congruence|]. destruct (proj2 (H y) (or_introl eq_refl)) as [E|J]; [congruence|]. apply G in I. apply F in J. lia. }
  subst y. f_equal. apply IH; auto. intros i. split; intros I.
  - destruct (proj1 (H i) (or_intror I)) as [E|J]; [apply F in I; lia|exact J].
  - destruct (proj2 (H i) (or_intror I)) as [E|J]; [apply G in I; lia|exact J].
Qed.
Lemma behind_fun es d lp t phs phs' : behind_phases es d lp t phs -> behind_phases es d lp t phs' -> phs = phs'.
Proof.
  intros (i & S & I & F) (i' & S' & I' & F'). assert (i = i') by (apply sorted_fun; auto; intros k; rewrite I, I'; reflexivity). subst i'.
  clear S S' I I'. revert phs' F'. induction F as [|x l i phs Hx F IH]; intros phs' F'; inversion F'; subst; [reflexivity|]. f_equal; [congruence|auto].
Qed.

Lemma up_total es s n fuel c : built es s n -> length (d_nodes (net_di n)) < fuel -> exists r, find_up n fuel c = Ok r.
Proof.
  intros B Fu. destruct (smem c (d_nodes (net_di n))) eqn:Sm.
  - apply smem_In in Sm. assert (exists k, dist (linked es) s c k) as [k D].
    { destruct (proj1 (b_nodes _ _ _ B c) Sm) as (y & [Ar|Ar]); destruct (b_arc _ _ _ B _ _ Ar) as (_ & k & D1 & D2); eauto. }
    apply (up_total_node es s n B k); auto. assert (Q := d_node_dist_bound _ _ _ _ _ B D). lia.
  - destruct fuel as [|f]; [lia|]. cbn [find_up]. unfold predecessors. rewrite Sm. eauto.
Qed.
Lemma supplied_dec es s n (B : built es s n) (AN : all_named es) i : (exists t, supplied_by es (net_di n) t i) \/ forall t, ~ supplied_by es (net_di n) t i.
Proof.
  destruct (nth_error es i) as [e|] eqn:Hi; [|right; intros t (e & c & He & _); congruence].
  destruct (String.eqb_spec (e_cls e) "Load") as [Hl|Hl]; [|right; intros t (e' & c & He & Hc & _); congruence].
  destruct (e_conn e) as [c|] eqn:Ec; [|right; intros t (e' & c & He & _ & Hc & _); congruence].
  destruct (up_total es s n (S (length (d_nodes (net_di n)))) c B) as [r Er]; [lia|].
  destruct (up_spec es s n B AN _ _ _ Er) as [(t & m' & F & Hm' & ->)|[-> No]]; [left; exists t, e, c; auto|].
  right. intros t (e' & c' & He & _ & Hc & F). assert (e' = e) by congruence. subst e'. assert (c' = c) by congruence. subst c'. exact (No t F).
Qed.

Theorem terminals_effect es s n lp fuel ups ws ups' ws' : build es s = Ok n -> all_named es -> unique_names es ->
  terminals_to_phases es n lp fuel ups ws = Ok (ups', ws') ->
  (forall q t, nth_error es q = Some t -> exists phs, behind_phases es (net_di n) lp t phs /\
     ((phs = [] /\ nth_error ws' q = nth_error ws q) \/
      exists w w', nth_error ws q = Some (Some (Some w)) /\ nth_error ws' q = Some (Some (Some w')) /\ recoiled phs w w')) /\
  (forall q, nth_error es q = None -> nth_error ws' q = nth_error ws q).
Proof.
  intros Hb AN UN E. destruct (terminals_done es s n lp fuel (build_built _ _ _ Hb) AN UN _ _ _ _ E) as (_ & _ & _ & W & W0). split; [|exact W0].
  intros q t Hq. destruct (W q t Hq) as (idx & phs & S & I & F & R). exists phs. split.
  - exists idx. split; [exact S|]. split; [|exact F]. intros i. rewrite I. split; [tauto|]. intros Hs. split; [|exact Hs]. destruct Hs as (e & c & He & _). apply nth_error_Some. congruence.
  - destruct R as [[-> Q]|R]; [left; split; [inversion F; reflexivity|exact Q]|right; exact R].
Qed.

Theorem terminals_success es s n lp fuel ups ws : build es s = Ok n -> all_named es -> unique_names es -> length (d_nodes (net_di n)) < fuel ->
  (forall i e, nth_error es i = Some e -> e_cls e = "Load" -> exists m l, e_name e = Some (Some m) /\ nth_error lp i = Some (Some l)) ->
  (forall i t q, supplied_by es (net_di n) t i -> nth_error es q = Some t -> exists w, nth_error ws q = Some (Some (Some w)) /\ readable w) ->
  exists r, terminals_to_phases es n lp fuel ups ws = Ok r.
Proof.
  intros Hb AN UN Fu Ld Rd. assert (B := build_built _ _ _ Hb). unfold terminals_to_phases.
  assert (G : forall L, (forall e, In e L -> In e es) -> forall ups ws, (forall i t q, supplied_by es (net_di n) t i -> nth_error es q = Some t -> exists w, nth_error ws q = Some (Some (Some w)) /\ readable w) ->
    exists r, foldM (terminal_step es n lp fuel) L (ups, ws) = Ok r); [|apply G; auto].
  clear ups ws Rd. induction L as [|e L IH]; intros HL ups ws Rd; cbn [foldM]; [eauto|].
  assert (HL' : forall x, In x L -> In x es) by (intros x Hx; apply HL; right; exact Hx).
  unfold terminal_step at 1. destruct (String.eqb_spec (e_cls e) "Load") as [Hl|Hl]; [|cbn [bind]; apply IH; assumption].
  destruct (In_nth_error _ _ (HL e (or_introl eq_refl))) as [i Hi]. destruct (Ld i e Hi Hl) as (m & l & Hm & Hp).
  unfold key. rewrite Hm, (name_pos es UN i e m Hi Hm). cbn [of_opt bind]. rewrite Hp. cbn [bind].
  destruct (e_conn e) as [c|] eqn:Ec; [|cbn [bind]; apply IH; assumption].
  assert (T : exists r, find_up n fuel c = Ok r).
  { exact (up_total es s n fuel c B Fu). }
  destruct T as [r Er]. rewrite Er. cbn [bind]. destruct (up_spec es s n B AN _ _ _ Er) as [(t & m' & F & Hm' & ->)|[-> _]]; [|cbn [bind]; apply IH; assumption].
  destruct (feeds_pos es n _ _ F) as [q Hq]. rewrite (name_pos es UN _ _ _ Hq Hm'). cbn [of_opt bind].
  assert (Hs : supplied_by es (net_di n) t i) by (exists e, c; auto). destruct (Rd i t q Hs Hq) as (w & Hw & Rw).
  assert (St : exists ws', set_secondary l q ws = Ok ws' /\ forall p w, nth_error ws p = Some (Some (Some w)) -> readable w -> exists w', nth_error ws' p = Some (Some (Some w')) /\ readable w').
  { unfold set_secondary. rewrite Hw. cbn [bind of_opt]. destruct w as [|a [|b [|c' [|]]]]; try (eexists; split; [reflexivity|intros p w0 H R; exists w0; auto]).
    - destruct (Rw (or_introl eq_refl)) as [b' Q]. cbn in Q. injection Q as ->. cbn [of_opt bind]. eexists. split; [reflexivity|]. intros p w0 H R. rewrite nth_put, Hw.
      destruct (Nat.eqb_spec q p) as [<-|]; [|exists w0; auto]. eexists. split; [reflexivity|]. intros _. eexists. reflexivity.
    - destruct (Rw (or_intror eq_refl)) as [b' Q]. cbn in Q. injection Q as ->. cbn [of_opt bind]. eexists. split; [reflexivity|]. intros p w0 H R. rewrite nth_put, Hw.
      destruct (Nat.eqb_spec q p) as [<-|]; [|exists w0; auto]. eexists. split; [reflexivity|]. intros _. eexists. reflexivity. }
  destruct St as (ws' & -> & Keep). cbn [bind]. apply IH; [exact HL'|]. intros i' t' q' Hs' Hq'. destruct (Rd i' t' q' Hs' Hq') as (w' & Hw' & Rw'). exact (Keep _ _ Hw' Rw').
Qed.

Theorem terminals_again es s n lp fuel ups ws ups' ws' ups'' ws'' : build es s = Ok n -> all_named es -> unique_names es ->
  terminals_to_phases es n lp fuel ups ws = Ok (ups', ws') -> terminals_to_phases es n lp fuel ups' ws' = Ok (ups'', ws'') ->
  (forall i, nth_error ups'' i = nth_error ups' i) /\
  (forall q, (forall w, nth_error ws q = Some (Some (Some w)) -> length w <> 3) -> nth_error ws'' q = nth_error ws' q).
Proof.
  intros Hb AN UN E E2. assert (B := build_built _ _ _ Hb).
  destruct (terminals_done es s n lp fuel B AN UN _ _ _ _ E) as (U1 & U2 & _).
  destruct (terminals_done es s n lp fuel B AN UN _ _ _ _ E2) as (V1 & V2 & _).
  destruct (terminals_effect es s n lp fuel _ _ _ _ Hb AN UN E) as [W W0].
  destruct (terminals_effect es s n lp fuel _ _ _ _ Hb AN UN E2) as [X X0]. split.
  - intros i. destruct (nth_error es i) as [e|] eqn:Hi.
    + assert (Li : i < length es) by (apply nth_error_Some; congruence).
      assert (D := supplied_dec es s n B AN i).
      destruct D as [[t Hs]|No].
      * destruct (U1 i t Li Hs) as (m & Hm & Q). destruct (V1 i t Li Hs) as (m' & Hm' & Q'). assert (m' = m) by congruence. subst. rewrite Q', Q. destruct (nth_error ups i); reflexivity.
      * apply V2. intros _. exact No.
    + apply V2. intros L. apply nth_error_None in Hi. lia.
  - intros q N3. destruct (nth_error es q) as [t|] eqn:Hq; [|apply X0; exact Hq].
    destruct (W q t Hq) as (phs & P & Rw). destruct (X q t Hq) as (phs' & P' & Rx). assert (phs' = phs) by (eapply behind_fun; eauto). subst phs'.
    destruct Rx as [[_ Q]|(w1 & w2 & Q1 & Q2 & R2)]; [exact Q|]. destruct Rw as [[-> Q]|(w0 & w1' & Q0 & Q1' & R1)].
    + rewrite Q2, Q1. do 3 f_equal.
      destruct R2 as [(a & b & b' & -> & -> & M)|[(a & b & b' & c & -> & -> & M)|(_ & _ & ->)]]; [|exfalso; apply (N3 [a; Some b; c]); [congruence|reflexivity]|reflexivity].
      do 3 f_equal. exact (matched_again [] b b b' (matched_nil 0 b) M).
    + assert (w1' = w1) by congruence. subst w1'. rewrite Q2, Q1. do 3 f_equal.
      destruct R1 as [(a & b & b' & -> & -> & M)|[(a & b & b' & c & -> & -> & M)|(N2 & N3' & ->)]].
      * destruct R2 as [(a2 & b2 & b2' & Ea & -> & M2)|[(a2 & b2 & b2' & c2 & Ea & -> & M2)|(_ & _ & ->)]]; [|discriminate|reflexivity].
        injection Ea as <- <-. do 3 f_equal. exact (matched_again phs b b' b2' M M2).
      * exfalso. apply (N3 [a; Some b; c]); [exact Q0|reflexivity].
      * destruct R2 as [(a2 & b2 & b2' & Ea & -> & M2)|[(a2 & b2 & b2' & c2 & Ea & -> & M2)|(_ & _ & ->)]]; [subst w0; cbn in N2; lia|subst w0; cbn in N3'; lia|reflexivity].
Qed.
