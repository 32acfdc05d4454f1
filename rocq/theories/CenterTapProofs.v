(** Lemmas about loads behind transformers. *)
From Verif Require Import Base BaseFacts StoreModel NetworkModel NetworkSpec NetworkProofs NetworkBfs NetworkQueries NetworkDown NetworkTop ReaderProofs
  VoltModel VoltProofs CoordSpec CoordProofs CenterTapModel CenterTapSpec.
From Coq Require Import QArith Lqa.
Local Open Scope string_scope.
Local Open Scope nat_scope.
Local Open Scope list_scope.

(** ** Lists *)

Lemma okey_eqb_spec a b : okey_eqb a b = true <-> a = b.
Proof.
  destruct a as [a|], b as [b|]; cbn; [|split; discriminate|split; discriminate|split; reflexivity].
  rewrite String.eqb_eq. split; [intros ->; reflexivity|intros E; injection E; auto].
Qed.
Lemma is_in_spec x l : is_in x l = true <-> In x l.
Proof.
  unfold is_in. rewrite existsb_exists. split; [intros (y & Hy & E); apply okey_eqb_spec in E; congruence|].
  intros H. exists x. split; [exact H|apply okey_eqb_spec; reflexivity].
Qed.
Lemma is_in_false x l : is_in x l = false <-> ~ In x l.
Proof. rewrite <- is_in_spec. destruct (is_in x l); split; congruence. Qed.
Lemma nth_put {A} (l : list A) i x j : nth_error (put l i x) j = if Nat.eqb i j then match nth_error l i with Some _ => Some x | None => None end else nth_error l j.
Proof. revert i j. induction l as [|y l IH]; intros [|i] [|j]; cbn; try reflexivity; [destruct (Nat.eqb i j); reflexivity|apply IH]. Qed.
Lemma put_same {A} (l : list A) i x : nth_error l i = Some x -> put l i x = l.
Proof. revert i. induction l as [|y l IH]; intros [|i] E; try discriminate; cbn in *; [congruence|f_equal; auto]. Qed.

(** ** The walk *)

Section Walk.
Variables (es : list elem) (s : string) (n : network).
Hypothesis B : built es s n.
Hypothesis AN : all_named es.
Notation d := (net_di n).

Lemma pred_case x p q a r : predecessors d x = Ok ((p, q, a) :: r) -> arc d p x /\ In x (d_nodes d).
Proof.
  unfold predecessors. intros E. destruct (smem x (d_nodes d)) eqn:M; [|discriminate]. injection E as E.
  assert (H : In (p, q, a) (filter (fun e : edge => String.eqb (snd (fst e)) x) (d_edges d))) by (rewrite E; left; reflexivity).
  apply filter_In in H. destruct H as [H Q]. cbn in Q. apply String.eqb_eq in Q. subst q. split; [exists a; exact H|apply smem_In; exact M].
Qed.

Lemma ascends_inv x z : ascends es d x z -> z = x \/ exists y, arc d y x /\ (forall i, last_span es y x i -> e_cls i <> "PowerTransformer") /\ ascends es d y z.
Proof. intros H. inversion H; subst; [left; reflexivity|right; eauto]. Qed.
Lemma feeds_inv x t : feeds es d x t ->
  exists y, arc d y x /\ ((last_span es y x t /\ e_cls t = "PowerTransformer") \/
    ((forall i, last_span es y x i -> e_cls i <> "PowerTransformer") /\ feeds es d y t)).
Proof.
  intros (z & y & A & Ar & L & C). destruct (ascends_inv _ _ A) as [->|(y' & A1 & A2 & A3)]; [exists y; auto|].
  exists y'. split; [exact A1|]. right. split; [exact A2|]. exists z, y. auto.
Qed.
Lemma way_inv x l : on_the_way es d x l <->
  exists y, arc d y x /\ ((last_span es y x l /\ e_cls l = "Line") \/
    ((forall i, last_span es y x i -> e_cls i <> "PowerTransformer") /\ on_the_way es d y l)).
Proof.
  split.
  - intros (z & y & A & Ar & L & C). destruct (ascends_inv _ _ A) as [->|(y' & A1 & A2 & A3)]; [exists y; auto|].
    exists y'. split; [exact A1|]. right. split; [exact A2|]. exists z, y. auto.
  - intros (y & Ar & [[L C]|[N (z & y' & A & R)]]); [exists x, y; split; [constructor|auto]|]. exists z, y'. split; [econstructor; eauto|exact R].
Qed.

Lemma feeds_fun x t t' : feeds es d x t -> feeds es d x t' -> t = t'.
Proof.
  intros (z & y & A & Ar & L & C). revert y Ar L. induction A as [x|x y0 z A1 A2 A3 IH]; intros y Ar L H; destruct (feeds_inv _ _ H) as (y' & Ar' & [[L' C']|[N' F']]).
  - assert (y' = y) by (eapply (b_one _ _ _ B); eauto). subst. eapply last_span_fun; eauto.
  - assert (y' = y) by (eapply (b_one _ _ _ B); eauto). subst. exfalso. exact (N' _ L C).
  - assert (y' = y0) by (eapply (b_one _ _ _ B); eauto). subst. exfalso. exact (A2 _ L' C').
  - assert (y' = y0) by (eapply (b_one _ _ _ B); eauto). subst. eapply IH; eauto.
Qed.

(** Above a line in between there is the same transformer. *)
Lemma ascends_feeds x z t : ascends es d x z -> feeds es d x t -> feeds es d z t \/ exists y, arc d y z /\ last_span es y z t.
Proof.
  induction 1 as [x|x y z A1 A2 A3 IH]; intros F; [left; exact F|]. destruct (feeds_inv _ _ F) as (y' & Ar' & [[L' C']|[N' F']]);
    (assert (y' = y) by (eapply (b_one _ _ _ B); eauto); subst); [exfalso; exact (A2 _ L' C')|auto].
Qed.
Lemma ascends_feeds_to x z t : ascends es d x z -> feeds es d x t -> feeds es d z t.
Proof.
  induction 1 as [x|x y z A1 A2 A3 IH]; intros F; [exact F|]. destruct (feeds_inv _ _ F) as (y' & Ar' & [[L' C']|[N' F']]);
    (assert (y' = y) by (eapply (b_one _ _ _ B); eauto); subst); [exfalso; exact (A2 _ L' C')|auto].
Qed.
Lemma ascends_feeds_from x z t : ascends es d x z -> feeds es d z t -> feeds es d x t.
Proof.
  induction 1 as [x|x y z A1 A2 A3 IH]; intros F; [exact F|]. destruct (IH F) as (z' & y' & Q & R). exists z', y'. split; [econstructor; eauto|exact R].
Qed.

Lemma no_back y z : arc d y z -> ~ arc d z y.
Proof.
  intros A A'. destruct (b_arc _ _ _ B _ _ A) as (_ & k & D1 & D2). destruct (b_arc _ _ _ B _ _ A') as (_ & k' & D1' & D2').
  assert (Q1 := dist_fun _ _ _ _ _ D1 D2'). assert (Q2 := dist_fun _ _ _ _ _ D2 D1'). lia.
Qed.

Lemma way_same x x' l t t' : on_the_way es d x l -> on_the_way es d x' l -> feeds es d x t -> feeds es d x' t' -> t = t'.
Proof.
  intros (z & y & A & Ar & L & _) (z' & y' & A' & Ar' & L' & _) F F'.
  assert (z = z').
  { destruct L as (p & q & _ & Sp & _), L' as (p' & q' & _ & Sp' & _). unfold spans in *.
    destruct Sp as [Sp|Sp], Sp' as [Sp'|Sp'].
    - destruct Sp as (E1 & E2), Sp' as (E1' & E2'). congruence.
    - destruct Sp as (E1 & E2), Sp' as (E1' & E2'). assert (y = z') by congruence. assert (z = y') by congruence. subst. exfalso. exact (no_back _ _ Ar Ar').
    - destruct Sp as (E1 & E2), Sp' as (E1' & E2'). assert (z = y') by congruence. assert (y = z') by congruence. subst. exfalso. exact (no_back _ _ Ar Ar').
    - destruct Sp as (E1 & E2), Sp' as (E1' & E2'). congruence. }
  subst z'. exact (feeds_fun _ _ _ (ascends_feeds_to _ _ _ A F) (ascends_feeds_to _ _ _ A' F')).
Qed.

Lemma walk_ok fuel : forall x acc t ls, walk n fuel x acc = Ok (t, ls) ->
  exists o m more, feeds es d x o /\ e_name o = Some (Some m) /\ t = Some m /\ ls = acc ++ more /\
    forall k, In k more <-> exists l, on_the_way es d x l /\ e_name l = Some k.
Proof.
  induction fuel as [|fuel IH]; intros x acc t ls; cbn [walk]; [discriminate|].
  destruct (predecessors d x) as [[|[[p q] a] r]|] eqn:P; try discriminate. destruct (pred_case _ _ _ _ _ P) as [Ar Hx].
  assert (One : forall y, arc d y x -> y = p) by (intros y Hy; eapply (b_one _ _ _ B); eauto).
  destruct (edge_case es s n B AN p x) as [(i & m & Hi & Hm & Ea)|[No Ea]]; rewrite Ea.
  - cbn [ea_cls ea_name]. destruct (String.eqb_spec (e_cls i) "PowerTransformer") as [Hc|Hc].
    + intros E. injection E as <- <-. exists i, m, []. split; [exists x, p; split; [constructor|auto]|]. split; [exact Hm|]. split; [reflexivity|]. split; [symmetry; apply app_nil_r|].
      intros k. split; [intros []|]. intros (l & Hb & _). apply way_inv in Hb. destruct Hb as (y & Ay & [[L C]|[N _]]); pose proof (One _ Ay); subst y.
      * assert (l = i) by (eapply last_span_fun; eauto). subst. congruence.
      * exact (N _ Hi Hc).
    + assert (Nt : forall j, last_span es p x j -> e_cls j <> "PowerTransformer") by (intros j Hj; rewrite (last_span_fun _ _ _ _ _ Hj Hi); exact Hc).
      destruct (String.eqb_spec (e_cls i) "Line") as [Hl|Hl]; intros E; apply IH in E; destruct E as (o & m' & more & F & Ho & Et & El & Em); exists o, m'.
      * exists (Some m :: more). split; [destruct F as (z & y & A & R); exists z, y; split; [econstructor; eauto|exact R]|]. split; [exact Ho|]. split; [exact Et|].
        split; [rewrite El, <- app_assoc; reflexivity|]. intros k. split.
        -- intros [<-|Hk]; [exists i; split; [|exact Hm]; apply way_inv; exists p; auto|]. apply Em in Hk. destruct Hk as (l & Hb & Hk). exists l. split; [|exact Hk].
           apply way_inv. exists p. auto.
        -- intros (l & Hb & Hk). apply way_inv in Hb. destruct Hb as (y & Ay & [[L C]|[N Hb]]); pose proof (One _ Ay); subst y.
           ++ left. assert (l = i) by (eapply last_span_fun; eauto). subst. congruence.
           ++ right. apply Em. eauto.
      * exists more. split; [destruct F as (z & y & A & R); exists z, y; split; [econstructor; eauto|exact R]|]. split; [exact Ho|]. split; [exact Et|].
        split; [exact El|]. intros k. rewrite Em. split.
        -- intros (l & Hb & Hk). exists l. split; [|exact Hk]. apply way_inv. exists p. auto.
        -- intros (l & Hb & Hk). apply way_inv in Hb. destruct Hb as (y & Ay & [[L C]|[N Hb]]); pose proof (One _ Ay); subst y; [|eauto].
           assert (l = i) by (eapply last_span_fun; eauto). subst. contradiction.
  - intros E. apply IH in E. destruct E as (o & m' & more & F & Ho & Et & El & Em). exists o, m', more.
    assert (Nt : forall j, last_span es p x j -> e_cls j <> "PowerTransformer") by (intros j Hj; exfalso; exact (No j Hj)).
    split; [destruct F as (z & y & A & R); exists z, y; split; [econstructor; eauto|exact R]|]. split; [exact Ho|]. split; [exact Et|].
    split; [exact El|]. intros k. rewrite Em. split.
    + intros (l & Hb & Hk). exists l. split; [|exact Hk]. apply way_inv. exists p. auto.
    + intros (l & Hb & Hk). apply way_inv in Hb. destruct Hb as (y & Ay & [[L C]|[N Hb]]); pose proof (One _ Ay); subst y; [|eauto]. exfalso. exact (No _ L).
Qed.

Lemma walk_total k : forall x acc t fuel, dist (linked es) s x k -> k < fuel -> feeds es d x t -> exists r, walk n fuel x acc = Ok r.
Proof.
  induction k as [|k IH]; intros x acc t fuel D L F; (destruct fuel as [|fuel]; [lia|]); cbn [walk]; destruct (feeds_inv _ _ F) as (y & Ar & Case).
  - apply dist_zero in D as <-. exfalso. exact (built_no_pred_source _ _ _ y B Ar).
  - assert (Hx : In x (d_nodes d)) by (apply (b_nodes _ _ _ B); exists y; right; exact Ar).
    destruct (built_predecessors _ _ _ _ B Hx) as [[-> E]|(u & a & r & E & Hin & Hu)]; [exfalso; exact (built_no_pred_source _ _ _ y B Ar)|].
    assert (u = y) by (eapply (b_one _ _ _ B); [exists a; exact Hin|exact Ar]). subst u. rewrite E.
    assert (Dy : dist (linked es) s y k).
    { destruct (b_arc _ _ _ B y x Ar) as (_ & k' & D1 & D2). assert (Q := dist_fun _ _ _ _ _ D D2). injection Q as ->. exact D1. }
    destruct (edge_case es s n B AN y x) as [(i & m & Hi & Hm & Ea)|[No Ea]]; rewrite Ea.
    + cbn [ea_cls ea_name]. destruct (String.eqb_spec (e_cls i) "PowerTransformer") as [Hc|Hc]; [eauto|].
      destruct Case as [[L' C']|[_ F']]; [exfalso; apply Hc; rewrite (last_span_fun _ _ _ _ _ Hi L'); exact C'|].
      destruct (String.eqb (e_cls i) "Line"); apply (IH y _ t fuel Dy); auto; lia.
    + destruct Case as [[L' C']|[_ F']]; [exfalso; exact (No _ L')|]. apply (IH y _ t fuel Dy); auto; lia.
Qed.
End Walk.

(** ** Phase loads *)

Definition missing_in {A} (f : A -> option string) (l : list A) (ph : list (option string)) : list (option string) :=
  filter (fun x => negb (is_in x (map f l))) ph.

Lemma missing_In {A} (f : A -> option string) l ph x : In x (missing_in f l ph) <-> In x ph /\ ~ In x (map f l).
Proof. unfold missing_in. rewrite filter_In. rewrite negb_true_iff, is_in_false. reflexivity. Qed.

Lemma missing_app {A} (f : A -> option string) l a b : missing_in f l (a ++ b) = missing_in f l a ++ missing_in f l b.
Proof. apply filter_app. Qed.
Lemma missing_one {A} (f : A -> option string) l x : missing_in f l [x] = if is_in x (map f l) then [] else [x].
Proof. unfold missing_in. cbn [filter]. destruct (is_in x (map f l)); reflexivity. Qed.

Definition new_load (y : pload) (x : option string) : pload := mkPload x (pl_p y) (pl_q y) false.

Lemma add_load_app y l done x : ~ In x done ->
  add_load x ((y :: l) ++ map (new_load y) (missing_in pl_phase (y :: l) done)) =
  Ok ((y :: l) ++ map (new_load y) (missing_in pl_phase (y :: l) (done ++ [x]))).
Proof.
  intros N. unfold add_load. rewrite missing_app, missing_one, map_app, map_map.
  destruct (is_in x (map pl_phase (y :: l))) eqn:E.
  - rewrite app_nil_r. rewrite (proj2 (is_in_spec _ _)); [reflexivity|]. apply in_app_iff. left. apply is_in_spec. exact E.
  - rewrite (proj2 (is_in_false _ _)).
    + cbn [app]. rewrite map_app. cbn [map]. rewrite app_assoc. reflexivity.
    + rewrite in_app_iff. intros [H|H]; [apply is_in_false in E; contradiction|]. cbn [new_load pl_phase] in H. rewrite map_id in H.
      apply missing_In in H. destruct H. contradiction.
Qed.

(** ** Wires *)

Definition new_wire (x : option string) : wire := mkWire x false.
Definition wires_done (ph done : list (option string)) (w : list wire) : list wire :=
  map (drop_wire ph) w ++ map new_wire (missing_in w_phase w done).

Lemma drop_phase ph w : w_phase (drop_wire ph w) = w_phase w.
Proof. unfold drop_wire. destruct (_ || _); reflexivity. Qed.
Lemma drop_twice ph w : drop_wire ph (drop_wire ph w) = drop_wire ph w.
Proof. unfold drop_wire at 1. rewrite drop_phase. unfold drop_wire. destruct (_ || _); reflexivity. Qed.
Lemma map_drop_phase ph w : map w_phase (map (drop_wire ph) w) = map w_phase w.
Proof. rewrite map_map. apply map_ext. intros x. apply drop_phase. Qed.
Lemma wires_done_phases ph done w x : In x (map w_phase (wires_done ph done w)) <-> In x (map w_phase w) \/ In x done.
Proof.
  unfold wires_done. rewrite map_app, map_drop_phase, map_map, in_app_iff. cbn [new_wire w_phase]. rewrite map_id, missing_In.
  destruct (in_dec (fun a b => match okey_eqb a b as r return okey_eqb a b = r -> {a = b} + {a <> b} with true => fun E => left (proj1 (okey_eqb_spec a b) E) | false => fun E => right (fun Q => eq_ind false (fun z => if z then False else True) I true (eq_trans (eq_sym E) (proj2 (okey_eqb_spec a b) Q))) end eq_refl) x (map w_phase w)); tauto.
Qed.
Lemma wires_done_nil ph w : wires_done ph [] w = map (drop_wire ph) w.
Proof. unfold wires_done. cbn. apply app_nil_r. Qed.

Lemma wires_done_twice ph w : wires_done ph ph (wires_done ph ph w) = wires_done ph ph w.
Proof.
  unfold wires_done at 1.
  assert (M : missing_in w_phase (wires_done ph ph w) ph = []).
  { destruct (missing_in w_phase (wires_done ph ph w) ph) as [|x r] eqn:E; [reflexivity|exfalso].
    assert (H : In x (missing_in w_phase (wires_done ph ph w) ph)) by (rewrite E; left; reflexivity).
    apply missing_In in H. destruct H as [H1 H2]. apply H2, wires_done_phases. right. exact H1. }
  rewrite M. cbn [map]. rewrite app_nil_r. unfold wires_done. rewrite map_app, !map_map. f_equal.
  - apply map_ext. intros x. apply drop_twice.
  - apply map_ext_in. intros x Hx. apply missing_In in Hx. destruct Hx as [Hx _]. unfold drop_wire. cbn [new_wire w_phase].
    rewrite (proj2 (is_in_spec _ _) Hx), orb_true_r. reflexivity.
Qed.

Section Lines.
Variable es : list elem.

Definition touches (lines : list (option string)) (p : nat) : Prop := exists m, In m lines /\ lookup es m = Some p.
Definition wired_at (ws : wiring) (p : nat) (w : list wire) : Prop := nth_error ws p = Some (Some (Some w)).

Lemma wires_of_spec ws m p w : wires_of es ws m = Ok (p, w) <-> lookup es m = Some p /\ wired_at ws p w.
Proof.
  unfold wires_of, wired_at. destruct (lookup es m) as [q|]; cbn [of_opt bind]; [|split; [discriminate|intros [? _]; discriminate]].
  destruct (nth_error ws q) as [[[w'|]|]|] eqn:E; cbn [of_opt bind]; split; try discriminate; try (intros [Q1 Q2]; injection Q1 as <-; congruence).
  intros Q. injection Q as <- <-. auto.
Qed.

(** One pass over the lines with an idempotent change. *)
Lemma pass_lines (step : wiring -> option string -> res wiring) (f : list wire -> list wire) :
  (forall ws m ws', step ws m = Ok ws' -> exists p w, lookup es m = Some p /\ wired_at ws p w /\ ws' = put ws p (Some (Some (f w)))) ->
  (forall w, f (f w) = f w) ->
  forall lines ws ws', foldM step lines ws = Ok ws' ->
  (forall p, touches lines p -> exists w, wired_at ws p w /\ wired_at ws' p (f w)) /\
  (forall p, ~ touches lines p -> nth_error ws' p = nth_error ws p).
Proof.
  intros Hs Hf. induction lines as [|m lines IH]; intros ws ws'; cbn [foldM].
  - intros E. injection E as <-. split; [intros p (m & [] & _)|reflexivity].
  - destruct (step ws m) as [ws1|] eqn:E1; cbn [bind]; [|discriminate]. intros E. destruct (Hs _ _ _ E1) as (p & w & L & W & ->). destruct (IH _ _ E) as [I1 I2].
    assert (W1 : wired_at (put ws p (Some (Some (f w)))) p (f w)) by (unfold wired_at in *; rewrite nth_put, Nat.eqb_refl, W; reflexivity).
    assert (O : forall q, q <> p -> nth_error (put ws p (Some (Some (f w)))) q = nth_error ws q) by (intros q Nq; rewrite nth_put; destruct (Nat.eqb_spec p q); [congruence|reflexivity]).
    assert (T : forall q, touches lines q \/ ~ touches lines q).
    { intros q. unfold touches. destruct (in_dec Nat.eq_dec q (flat_map (fun m => match lookup es m with Some x => [x] | None => [] end) lines)) as [i|i].
      - left. apply in_flat_map in i. destruct i as (m' & H1 & H2). exists m'. split; [exact H1|]. destruct (lookup es m'); [destruct H2 as [->|[]]; reflexivity|destruct H2].
      - right. intros (m' & H1 & H2). apply i, in_flat_map. exists m'. split; [exact H1|]. rewrite H2. left. reflexivity. }
    split.
    + intros q (m' & Hm & Lq). destruct (Nat.eq_dec q p) as [->|Nq].
      * exists w. split; [exact W|]. destruct (T p) as [Tp|Tp].
        -- destruct (I1 _ Tp) as (w' & H1 & H2). assert (w' = f w) by (unfold wired_at in *; congruence). subst w'. rewrite Hf in H2. exact H2.
        -- unfold wired_at. rewrite (I2 _ Tp). exact W1.
      * destruct Hm as [<-|Hm]; [congruence|]. destruct (I1 q) as (w' & H1 & H2); [exists m'; auto|]. exists w'. split; [|exact H2]. unfold wired_at in *. rewrite O in H1; assumption.
    + intros q Nq. rewrite I2; [apply O; intros ->; apply Nq; exists m; split; [left; reflexivity|exact L]|]. intros (m' & Hm & Lq). apply Nq. exists m'. split; [right; exact Hm|exact Lq].
Qed.

Lemma drop_pass ph lines ws ws' : foldM (drop_wires es ph) lines ws = Ok ws' ->
  (forall p, touches lines p -> exists w, wired_at ws p w /\ wired_at ws' p (wires_done ph [] w)) /\
  (forall p, ~ touches lines p -> nth_error ws' p = nth_error ws p).
Proof.
  intros E. destruct (pass_lines (drop_wires es ph) (map (drop_wire ph))) with (lines := lines) (ws := ws) (ws' := ws') as [P1 P2]; auto.
  - intros v m v' Q. unfold drop_wires in Q. destruct (wires_of es v m) as [[p w]|] eqn:W; cbn [bind] in Q; [|discriminate]. injection Q as <-. apply wires_of_spec in W. destruct W. eauto 6.
  - intros w. rewrite map_map. apply map_ext. intros x. apply drop_twice.
  - split; [|exact P2]. intros p T. destruct (P1 p T) as (w & W1 & W2). exists w. rewrite wires_done_nil. auto.
Qed.

Definition addw (x : option string) (w : list wire) : list wire := if is_in x (map w_phase w) then w else w ++ [new_wire x].
Lemma addw_twice x w : addw x (addw x w) = addw x w.
Proof.
  unfold addw at 2 3. destruct (is_in x (map w_phase w)) eqn:E; unfold addw; [rewrite E; reflexivity|]. rewrite (proj2 (is_in_spec _ _)); [reflexivity|].
  rewrite map_app. apply in_app_iff. right. left. reflexivity.
Qed.
Lemma add_pass x lines ws ws' : foldM (add_wire es x) lines ws = Ok ws' ->
  (forall p, touches lines p -> exists w, wired_at ws p w /\ wired_at ws' p (addw x w)) /\
  (forall p, ~ touches lines p -> nth_error ws' p = nth_error ws p).
Proof.
  intros E. apply (pass_lines (add_wire es x) (addw x)); auto; [|apply addw_twice].
  intros v m v' Q. unfold add_wire in Q. destruct (wires_of es v m) as [[p w]|] eqn:W; cbn [bind] in Q; [|discriminate]. apply wires_of_spec in W. destruct W as [L W].
  exists p, w. split; [exact L|]. split; [exact W|]. unfold addw. destruct (is_in x (map w_phase w)) eqn:I.
  - injection Q as <-. symmetry. apply put_same. exact W.
  - destruct w as [|y w]; [discriminate|]. injection Q as <-. reflexivity.
Qed.
Lemma addw_done ph done x w : ~ In x done -> addw x (wires_done ph done w) = wires_done ph (done ++ [x]) w.
Proof.
  intros N. unfold addw. destruct (is_in x (map w_phase (wires_done ph done w))) eqn:E.
  - apply is_in_spec, wires_done_phases in E. destruct E as [E|E]; [|contradiction]. unfold wires_done. rewrite missing_app, missing_one.
    rewrite (proj2 (is_in_spec _ _) E). rewrite app_nil_r. reflexivity.
  - apply is_in_false in E. rewrite wires_done_phases in E. unfold wires_done. rewrite missing_app, missing_one.
    rewrite (proj2 (is_in_false _ _)) by tauto. rewrite map_app, app_assoc. reflexivity.
Qed.

Lemma add_phases ph lines : forall rest done, NoDup (done ++ rest) -> forall y l ws ws0 pls' ws',
  (forall p, touches lines p -> exists w, wired_at ws0 p w /\ wired_at ws p (wires_done ph done w)) ->
  (forall p, ~ touches lines p -> nth_error ws p = nth_error ws0 p) ->
  foldM (add_phase es lines) rest ((y :: l) ++ map (new_load y) (missing_in pl_phase (y :: l) done), ws) = Ok (pls', ws') ->
  pls' = (y :: l) ++ map (new_load y) (missing_in pl_phase (y :: l) (done ++ rest)) /\
  (forall p, touches lines p -> exists w, wired_at ws0 p w /\ wired_at ws' p (wires_done ph (done ++ rest) w)) /\
  (forall p, ~ touches lines p -> nth_error ws' p = nth_error ws0 p).
Proof.
  induction rest as [|x rest IH]; intros done Nd y l ws ws0 pls' ws' H1 H2; cbn [foldM].
  - intros E. injection E as <- <-. rewrite app_nil_r. auto.
  - assert (Nx : ~ In x done) by (apply NoDup_remove_2 in Nd; intros H; apply Nd; apply in_app_iff; left; exact H).
    unfold add_phase at 1. cbv beta iota. rewrite add_load_app by exact Nx. cbn [bind]. destruct (foldM (add_wire es x) lines ws) as [ws1|] eqn:E1; cbn [bind]; [|discriminate].
    intros E. destruct (add_pass _ _ _ _ E1) as [A1 A2].
    replace (done ++ x :: rest) with ((done ++ [x]) ++ rest) in * by (rewrite <- app_assoc; reflexivity).
    apply (IH (done ++ [x]) Nd y l ws1 ws0); auto.
    + intros p T. destruct (H1 p T) as (w & W0 & W). destruct (A1 p T) as (w' & W' & W1). exists w. split; [exact W0|].
      assert (w' = wires_done ph done w) by (unfold wired_at in *; congruence). subst w'. rewrite addw_done in W1 by exact Nx. exact W1.
    + intros p T. rewrite A2, H2; auto.
Qed.
Lemma add_phases_nil ph lines ws pls' ws' : foldM (add_phase es lines) ph ([], ws) = Ok (pls', ws') -> ph = [] /\ pls' = [] /\ ws' = ws.
Proof. destruct ph as [|x ph]; cbn [foldM]; [intros E; injection E as <- <-; auto|]. cbn. discriminate. Qed.
End Lines.

(** ** Sums *)

Lemma py_sum_spec l q : py_sum l = Ok q -> adds_up l q.
Proof.
  unfold py_sum, adds_up. assert (G : forall l acc r, foldM (fun acc x => match x with Some q => Ok (acc + q)%Q | None => Err EType end) l acc = Ok r ->
    exists qs, l = map Some qs /\ (r == acc + fold_right Qplus 0 qs)%Q).
  { clear. induction l as [|[x|] l IH]; intros acc r E; cbn [foldM bind] in E; try discriminate.
    - injection E as <-. exists []. split; [reflexivity|]. cbn. lra.
    - apply IH in E. destruct E as (qs & -> & Q). exists (x :: qs). split; [reflexivity|]. cbn [fold_right]. rewrite Q. lra. }
  intros E. apply G in E. destruct E as (qs & E & Q). exists qs. split; [exact E|]. rewrite Q. lra.
Qed.
Lemma py_sum_total l : (forall x, In x l -> x <> None) -> exists q, py_sum l = Ok q.
Proof.
  unfold py_sum. generalize 0%Q. induction l as [|[x|] l IH]; intros acc H; cbn [foldM bind]; [eauto| |].
  - apply IH. intros y Hy. apply H. right. exact Hy.
  - exfalso. apply (H None); [left; reflexivity|reflexivity].
Qed.
Lemma adds_even k (v total : Q) : k <> 0 -> (v == total / inject_Z (Z.of_nat k))%Q -> adds_up (repeat (Some v) k) total.
Proof.
  intros K E. exists (repeat v k). split; [clear; induction k; cbn; congruence|].
  assert (S : (fold_right Qplus 0 (repeat v k) == inject_Z (Z.of_nat k) * v)%Q).
  { clear. induction k as [|k IH]; [cbn [repeat fold_right]; change (inject_Z (Z.of_nat 0)) with 0%Q; ring|]. cbn [repeat fold_right]. rewrite IH. rewrite Nat2Z.inj_succ. unfold Z.succ. rewrite inject_Z_plus. change (inject_Z 1) with 1%Q. ring. }
  rewrite S, E. field. intros Q. unfold Qeq, inject_Z in Q. cbn in Q. lia.
Qed.

Lemma share_spec tp tq pls pls' : share tp tq pls = Ok pls' ->
  pls' = map (fun x => mkPload (pl_phase x) (Some (tp / inject_Z (Z.of_nat (length (active pls))))%Q) (Some (tq / inject_Z (Z.of_nat (length (active pls))))%Q) (pl_drop x)) pls /\
  (pls <> [] -> active pls <> []).
Proof.
  unfold share. fold (active pls). destruct (length (active pls)) as [|k] eqn:K.
  - intros E. destruct pls as [|x pls]; [injection E as <-; split; [reflexivity|congruence]|]. cbn [mapM] in E. discriminate.
  - intros E. split; [|intros _ Q; rewrite Q in K; discriminate]. revert pls' E. clear K. induction pls as [|x pls IH]; intros pls' E; cbn [mapM] in E; [injection E as <-; reflexivity|].
    cbn [bind] in E. destruct (mapM _ pls) as [r|]; cbn [bind] in E; [|discriminate]. injection E as <-. cbn [map]. f_equal. apply IH. reflexivity.
Qed.

(** ** One load *)

Lemma active_map f pls : (forall x, pl_drop (f x) = pl_drop x) -> active (map f pls) = map f (active pls).
Proof.
  intros H. unfold active. induction pls as [|x pls IH]; [reflexivity|]. cbn [map filter]. rewrite H. destruct (pl_drop x); cbn [negb]; [exact IH|cbn [map]; rewrite IH; reflexivity].
Qed.

Lemma NoDup_filter' {A} (f : A -> bool) l : NoDup l -> NoDup (filter f l).
Proof. apply NoDup_filter. Qed.

Lemma load_settled ph pls pls2 tp tq pls3 :
  NoDup ph -> adds_up (map pl_p pls) tp -> adds_up (map pl_q pls) tq ->
  (pls = [] -> pls2 = []) ->
  (forall y l, map (drop_load ph) pls = y :: l -> pls2 = (y :: l) ++ map (new_load y) (missing_in pl_phase (y :: l) ph)) ->
  (pls = [] -> ph = []) ->
  share tp tq pls2 = Ok pls3 -> settled (fun x => In x ph) pls pls3.
Proof.
  intros Nd Hp Hq Hn Hc Hph Sh. apply share_spec in Sh. destruct Sh as [E3 Ne].
  set (g := fun x : pload => mkPload (pl_phase x) (Some (tp / inject_Z (Z.of_nat (length (active pls2))))%Q) (Some (tq / inject_Z (Z.of_nat (length (active pls2))))%Q) (pl_drop x)) in E3.
  destruct pls as [|x0 pls0].
  { rewrite (Hn eq_refl) in E3. cbn in E3. subst pls3. exists [], []. split; [reflexivity|]. split; [constructor|]. split; [constructor|]. split; [constructor|].
    split; [intros x; rewrite (Hph eq_refl); cbn; tauto|]. split; [intros x y []|]. split.
    - exists tp. split; [exact Hp|exact Hp].
    - exists tq. split; [exact Hq|exact Hq]. }
  cbn [map] in Hc. specialize (Hc _ _ eq_refl). set (pls := x0 :: pls0) in *. change (drop_load ph x0 :: map (drop_load ph) pls0) with (map (drop_load ph) pls) in Hc.
  assert (Pd : forall x, pl_phase (drop_load ph x) = pl_phase x) by (intros x; unfold drop_load; destruct (is_in (pl_phase x) ph); reflexivity).
  assert (Pm : map pl_phase (map (drop_load ph) pls) = map pl_phase pls) by (rewrite map_map; apply map_ext; exact Pd).
  exists (map g (map (drop_load ph) pls)), (map g (map (new_load (drop_load ph x0)) (missing_in pl_phase (map (drop_load ph) pls) ph))).
  assert (Am : map pl_phase (map g (map (new_load (drop_load ph x0)) (missing_in pl_phase (map (drop_load ph) pls) ph))) = missing_in pl_phase (map (drop_load ph) pls) ph).
  { rewrite !map_map. cbn [g new_load pl_phase]. apply map_id. }
  assert (Ac : active pls3 = map g (active pls2)) by (rewrite E3; apply active_map; reflexivity).
  assert (K : length (active pls2) <> 0).
  { intros Q. apply length_zero_iff_nil in Q. revert Q. apply Ne. rewrite Hc. discriminate. }
  split; [rewrite E3, Hc, map_app; reflexivity|]. split; [|split; [|split; [|split; [|split; [|split]]]]].
  - rewrite map_map. clear - Pd. induction pls as [|x pls IH]; cbn [map]; constructor; [|exact IH]. cbn [g pl_phase pl_drop]. split; [apply Pd|].
    unfold drop_load. destruct (is_in (pl_phase x) ph) eqn:I; cbn [pl_drop].
    + apply is_in_spec in I. tauto.
    + apply is_in_false in I. split; [discriminate|tauto].
  - apply Forall_forall. intros x Hx. rewrite map_map in Hx. apply in_map_iff in Hx. destruct Hx as (y & <- & _). reflexivity.
  - rewrite Am. apply NoDup_filter. exact Nd.
  - intros x. rewrite Am, missing_In, Pm. reflexivity.
  - intros x y Hx Hy. rewrite E3 in Hx, Hy. apply in_map_iff in Hx, Hy. destruct Hx as (x' & <- & _), Hy as (y' & <- & _). split; reflexivity.
  - exists tp. split; [exact Hp|]. rewrite Ac, map_map. cbn [g pl_p].
    replace (map _ (active pls2)) with (repeat (Some (tp / inject_Z (Z.of_nat (length (active pls2))))%Q) (length (active pls2)));
      [apply adds_even; [exact K|reflexivity]|]. generalize (Some (tp / inject_Z (Z.of_nat (length (active pls2))))%Q). clear. intros v. induction (active pls2); cbn; congruence.
  - exists tq. split; [exact Hq|]. rewrite Ac, map_map. cbn [g pl_q].
    replace (map _ (active pls2)) with (repeat (Some (tq / inject_Z (Z.of_nat (length (active pls2))))%Q) (length (active pls2)));
      [apply adds_even; [exact K|reflexivity]|]. generalize (Some (tq / inject_Z (Z.of_nat (length (active pls2))))%Q). clear. intros v. induction (active pls2); cbn; congruence.
Qed.

Lemma neutral_spec x : is_in x [Some "N"; Some "N1"; Some "N2"] = true <-> neutral x.
Proof. rewrite is_in_spec. unfold neutral. cbn. intuition congruence. Qed.

Lemma wires_rewired ph w : NoDup ph -> rewired (fun x => In x ph) w (wires_done ph ph w).
Proof.
  intros Nd. exists (map (drop_wire ph) w), (map new_wire (missing_in w_phase w ph)). split; [reflexivity|]. split; [|split; [|split]].
  - clear Nd. induction w as [|x w IH]; cbn [map]; constructor; [|exact IH]. split; [apply drop_phase|]. unfold drop_wire.
    destruct (is_in (w_phase x) [Some "N"; Some "N1"; Some "N2"]) eqn:N; cbn [orb].
    + apply neutral_spec in N. tauto.
    + assert (~ neutral (w_phase x)) by (rewrite <- neutral_spec; congruence). destruct (is_in (w_phase x) ph) eqn:I; cbn [w_drop].
      * apply is_in_spec in I. tauto.
      * apply is_in_false in I. split; [discriminate|tauto].
  - apply Forall_forall. intros x Hx. apply in_map_iff in Hx. destruct Hx as (y & <- & _). reflexivity.
  - rewrite map_map. cbn [new_wire w_phase]. rewrite map_id. apply NoDup_filter. exact Nd.
  - intros x. rewrite map_map. cbn [new_wire w_phase]. rewrite map_id. apply missing_In.
Qed.

(** What the run does to one load behind a transformer. *)
Definition load_done (tap : bool) (phs : option string -> Prop) (l l' : load) : Prop :=
  (exists old new, l_phases l = Some old /\ l_phases l' = Some new /\ settled phs old new) /\
  (if tap then l_center l' = Some true /\ l_1N l' = Some (1 # 2)%Q /\ l_N2 l' = Some (1 # 2)%Q /\ l_12 l' = Some 0%Q
   else l_center l' = l_center l /\ l_1N l' = l_1N l /\ l_N2 l' = l_N2 l /\ l_12 l' = l_12 l) /\
  l_up l' = l_up l.

Section Jobs.
Variable es : list elem.
Variable center : nat -> bool.

Lemma one_load_spec ls ws i lines t ph ls' ws' : NoDup ph -> one_load es center (ls, ws) (i, lines, (t, ph)) = Ok (ls', ws') ->
  (exists l l', nth_error ls i = Some (Some l) /\ load_done (center t) (fun x => In x ph) l l' /\ ls' = put ls i (Some l')) /\
  (forall p, touches es lines p -> exists w, wired_at ws p w /\ wired_at ws' p (wires_done ph ph w)) /\
  (forall p, ~ touches es lines p -> nth_error ws' p = nth_error ws p).
Proof.
  intros Nd. unfold one_load. destruct (nth_error ls i) as [[l|]|] eqn:Ei; try discriminate.
  destruct (l_phases l) as [pls|] eqn:El; cbn [of_opt bind]; [|discriminate].
  destruct (py_sum (map pl_p pls)) as [tp|] eqn:Ep; cbn [bind]; [|discriminate]. destruct (py_sum (map pl_q pls)) as [tq|] eqn:Eq; cbn [bind]; [|discriminate].
  destruct (foldM (drop_wires es ph) lines ws) as [ws1|] eqn:Ew; cbn [bind]; [|discriminate].
  destruct (foldM (add_phase es lines) ph (map (drop_load ph) pls, ws1)) as [[pls2 ws2]|] eqn:Ea; cbn [bind]; [|discriminate].
  destruct (share tp tq pls2) as [pls3|] eqn:Es; cbn [bind]; [|discriminate]. intros E. injection E as <- <-.
  apply py_sum_spec in Ep, Eq. destruct (drop_pass _ _ _ _ _ Ew) as [D1 D2].
  assert (S : settled (fun x => In x ph) pls pls3 /\ (forall p, touches es lines p -> exists w, wired_at ws p w /\ wired_at ws2 p (wires_done ph ph w)) /\
    (forall p, ~ touches es lines p -> nth_error ws2 p = nth_error ws p)).
  { destruct (map (drop_load ph) pls) as [|y l0] eqn:Em.
    - apply add_phases_nil in Ea. destruct Ea as (Eph & E2 & E3). subst ws2 pls2. split; [|split].
      + apply (load_settled ph pls [] tp tq pls3 Nd Ep Eq); auto. intros y l0 Q. rewrite Em in Q. discriminate.
      + rewrite Eph in *. exact D1.
      + exact D2.
    - assert (M0 : missing_in pl_phase (y :: l0) [] = []) by reflexivity.
      destruct (add_phases es ph lines ph [] Nd y l0 ws1 ws pls2 ws2 D1 D2) as (P1 & P2 & P3); [rewrite M0; cbn [map]; rewrite app_nil_r; exact Ea|].
      cbn [app] in P1, P2. split; [|auto]. apply (load_settled ph pls pls2 tp tq pls3 Nd Ep Eq); auto.
      + intros ->. discriminate.
      + intros y' l' Q. rewrite Em in Q. injection Q as <- <-. exact P1.
      + intros ->. discriminate. }
  destruct S as (S1 & S2 & S3). split; [|auto].
  eexists l, _. split; [exact eq_refl|]. split; [|reflexivity]. split; [|split].
  - exists pls, pls3. split; [exact El|]. split; [reflexivity|exact S1].
  - destruct (center t); cbn; auto.
  - destruct (center t); reflexivity.
Qed.

(** ** All loads *)

Definition job := (nat * list (option string) * (nat * list (option string)))%type.
Definition j_pos (j : job) : nat := fst (fst j).
Definition j_lines (j : job) : list (option string) := snd (fst j).
Definition j_phases (j : job) : list (option string) := snd (snd j).

Lemma jobs_spec jobs : NoDup (map j_pos jobs) -> Forall (fun j => NoDup (j_phases j)) jobs -> forall ls ws ls' ws',
  foldM (one_load es center) jobs (ls, ws) = Ok (ls', ws') ->
  (forall i, ~ In i (map j_pos jobs) -> nth_error ls' i = nth_error ls i) /\
  (forall j, In j jobs -> exists l l', nth_error ls (j_pos j) = Some (Some l) /\ nth_error ls' (j_pos j) = Some (Some l') /\
     load_done (center (fst (snd j))) (fun x => In x (j_phases j)) l l') /\
  (forall p, (forall j, In j jobs -> ~ touches es (j_lines j) p) -> nth_error ws' p = nth_error ws p) /\
  (forall p ph, (forall j, In j jobs -> touches es (j_lines j) p -> j_phases j = ph) -> (exists j, In j jobs /\ touches es (j_lines j) p) ->
     exists w, wired_at ws p w /\ wired_at ws' p (wires_done ph ph w)).
Proof.
  induction jobs as [|[[i lines] [t ph]] jobs IH]; intros Nd Np ls ws ls' ws'; cbn [foldM].
  - intros E. injection E as <- <-. split; [reflexivity|]. split; [intros j []|]. split; [reflexivity|]. intros p ph _ (j & [] & _).
  - inversion Nd as [|? ? Ni Nd']. subst. inversion Np as [|? ? Nph Np']. subst. cbn [j_phases snd] in Nph. cbn [j_pos fst] in Ni.
    destruct (one_load es center (ls, ws) (i, lines, (t, ph))) as [[ls1 ws1]|] eqn:E1; cbn [bind]; [|discriminate]. intros E.
    destruct (one_load_spec _ _ _ _ _ _ _ _ Nph E1) as ((l & l1 & L1 & L2 & L3) & W1 & W2). destruct (IH Nd' Np' _ _ _ _ E) as (I1 & I2 & I3 & I4).
    assert (Hi : nth_error ls1 i = Some (Some l1)) by (rewrite L3, nth_put, Nat.eqb_refl, L1; reflexivity).
    assert (Ho : forall q, q <> i -> nth_error ls1 q = nth_error ls q) by (intros q Nq; rewrite L3, nth_put; destruct (Nat.eqb_spec i q); [congruence|reflexivity]).
    split; [|split; [|split]].
    + cbn [map j_pos fst In]. intros q Nq. rewrite I1, Ho; auto.
    + intros j [<-|Hj].
      * cbn [j_pos fst snd j_phases]. exists l, l1. split; [exact L1|]. split; [rewrite I1; auto|exact L2].
      * destruct (I2 j Hj) as (m & m' & M1 & M2 & M3). exists m, m'. split; [|auto]. rewrite Ho in M1; [exact M1|]. intros Q. apply Ni. rewrite <- Q. apply in_map. exact Hj.
    + intros p N. rewrite I3; [apply W2, (N (i, lines, (t, ph))); left; reflexivity|]. intros j Hj. apply N. right. exact Hj.
    + intros p ph0 Sm Ex.
      assert (T : forall ls0, touches es ls0 p \/ ~ touches es ls0 p).
      { intros ls0. unfold touches. destruct (in_dec Nat.eq_dec p (flat_map (fun m => match lookup es m with Some x => [x] | None => [] end) ls0)) as [h|h].
        - left. apply in_flat_map in h. destruct h as (m' & H1 & H2). exists m'. split; [exact H1|]. destruct (lookup es m'); [destruct H2 as [->|[]]; reflexivity|destruct H2].
        - right. intros (m' & H1 & H2). apply h, in_flat_map. exists m'. split; [exact H1|]. rewrite H2. left. reflexivity. }
      assert (D : (exists j, In j jobs /\ touches es (j_lines j) p) \/ (forall j, In j jobs -> ~ touches es (j_lines j) p)).
      { clear -T. induction jobs as [|j jobs [(j' & H1 & H2)|IH]].
        - right. intros j [].
        - left. exists j'. split; [right; exact H1|exact H2].
        - destruct (T (j_lines j)) as [h|h]; [left; exists j; split; [left; reflexivity|exact h]|]. right. intros j' [<-|Hj]; auto. }
      assert (Sm' : forall j, In j jobs -> touches es (j_lines j) p -> j_phases j = ph0) by (intros j Hj; apply Sm; right; exact Hj).
      destruct (T lines) as [Tl|Tl].
      * assert (ph = ph0) by (apply (Sm (i, lines, (t, ph))); [left; reflexivity|exact Tl]). subst ph0. destruct (W1 p Tl) as (w & V1 & V2). exists w. split; [exact V1|].
        destruct D as [D|D].
        -- destruct (I4 p ph Sm' D) as (w' & V3 & V4). assert (w' = wires_done ph ph w) by (unfold wired_at in *; congruence). subst w'. rewrite wires_done_twice in V4. exact V4.
        -- unfold wired_at. rewrite (I3 p D). exact V2.
      * assert (D' : exists j, In j jobs /\ touches es (j_lines j) p) by (destruct Ex as (j & [<-|Hj] & Tj); [contradiction|eauto]).
        destruct (I4 p ph0 Sm' D') as (w & V3 & V4). exists w. split; [|exact V4]. unfold wired_at in *. rewrite W2 in V3 by exact Tl. exact V3.
Qed.
End Jobs.

(** ** The transformers of the loads *)

Definition with_up (t : option string) (l : load) : load := mkLoad (l_phases l) (l_center l) (l_1N l) (l_N2 l) (l_12 l) t.
Definition found_t := (nat * (option string * list (option string)))%type.

Section Find.
Variables (es : list elem) (n : network) (fuel : nat).
Hypothesis AN : all_named es.
Hypothesis UN : unique_names es.

Lemma lookup_self i e c : nth_error es i = Some e -> e_conn e = Some c -> lookup es (key e) = Some i.
Proof.
  intros Hi Hc. destruct (AN e) as [m Hm]; [eapply nth_error_In; eauto|right; congruence|]. unfold key. rewrite Hm. apply lookup_spec. split; [eauto|].
  intros q j Hq Hj. assert (q = i) by (eapply UN; eauto). lia.
Qed.

Lemma find_spec L : NoDup (map fst L) -> (forall i e, In (i, e) L -> nth_error es i = Some e) -> forall ls found ls' found',
  foldM (find_step es n fuel) L (ls, found) = Ok (ls', found') ->
  exists new : list found_t, found' = found ++ new /\ NoDup (map fst new) /\
    (forall i r, In (i, r) new -> exists e c, In (i, e) L /\ e_cls e = "Load" /\ e_conn e = Some c /\ walk n fuel c [] = Ok r) /\
    (forall i e, In (i, e) L -> e_cls e = "Load" -> exists r, In (i, r) new) /\
    (forall i, ~ In i (map fst new) -> nth_error ls' i = nth_error ls i) /\
    (forall i t lines, In (i, (t, lines)) new -> nth_error ls' i = match nth_error ls i with Some (Some l) => Some (Some (with_up t l)) | x => x end).
Proof.
  induction L as [|[i e] L IH]; intros Nd HL ls found ls' found'; cbn [foldM].
  - intros E. injection E as <- <-. exists []. split; [symmetry; apply app_nil_r|]. split; [constructor|]. split; [intros i r []|]. split; [intros i e []|]. split; [reflexivity|]. intros i t lines [].
  - cbn [map fst] in Nd. inversion Nd as [|? ? Ni Nd']. subst. assert (HL' : forall j x, In (j, x) L -> nth_error es j = Some x) by (intros j x Hj; apply HL; right; exact Hj).
    unfold find_step at 1. cbv beta iota. destruct (String.eqb_spec (e_cls e) "Load") as [Hl|Hl].
    + destruct (e_conn e) as [c|] eqn:Ec; cbn [of_opt bind]; [|discriminate]. destruct (walk n fuel c []) as [[t lines]|] eqn:Ew; cbn [bind]; [|discriminate].
      rewrite (lookup_self i e c) by (try apply HL; try left; auto). cbn [of_opt bind]. intros E.
      set (ls1 := match nth_error ls i with Some (Some l) => put ls i (Some (with_up t l)) | _ => ls end).
      change (match nth_error ls i with Some (Some l) => put ls i (Some (mkLoad (l_phases l) (l_center l) (l_1N l) (l_N2 l) (l_12 l) t)) | _ => ls end) with ls1 in E.
      destruct (IH Nd' HL' _ _ _ _ E) as (new & Ef & N1 & N2 & N3 & N4 & N5).
      assert (Hi : ~ In i (map fst new)).
      { intros H. apply in_map_iff in H. destruct H as ([j r] & Q & H). cbn in Q. subst j. destruct (N2 _ _ H) as (e' & c' & H' & _). apply Ni. apply in_map_iff. exists (i, e'). auto. }
      assert (O : forall q, q <> i -> nth_error ls1 q = nth_error ls q).
      { intros q Nq. unfold ls1. destruct (nth_error ls i) as [[l|]|]; try reflexivity. rewrite nth_put. destruct (Nat.eqb_spec i q); [congruence|reflexivity]. }
      exists ((i, (t, lines)) :: new). split; [rewrite Ef, <- app_assoc; reflexivity|]. split; [cbn [map fst]; constructor; assumption|]. split; [|split; [|split]].
      * intros j r [Q|H]; [injection Q as <- <-; exists e, c; split; [left; reflexivity|auto]|]. destruct (N2 _ _ H) as (e' & c' & H' & R). exists e', c'. split; [right; exact H'|exact R].
      * intros j x [Q|H] Hx; [injection Q as <- <-; eexists; left; reflexivity|]. destruct (N3 _ _ H Hx) as [r Hr]. exists r. right. exact Hr.
      * cbn [map fst In]. intros q Nq. rewrite N4, O; auto.
      * intros j t' lines' [Q|H].
        -- injection Q as <- <- <-. rewrite N4 by exact Hi. unfold ls1. destruct (nth_error ls i) as [[l|]|] eqn:El; try exact El. rewrite nth_put, Nat.eqb_refl, El. reflexivity.
        -- rewrite (N5 _ _ _ H), O; [reflexivity|]. intros ->. apply Hi. apply in_map_iff. eexists. split; [|exact H]. reflexivity.
    + intros E. destruct (IH Nd' HL' _ _ _ _ E) as (new & Ef & N1 & N2 & N3 & N4 & N5). exists new. split; [exact Ef|]. split; [exact N1|]. split; [|split; [|auto]].
      * intros j r H. destruct (N2 _ _ H) as (e' & c' & H' & R). exists e', c'. split; [right; exact H'|exact R].
      * intros j x [Q|H] Hx; [injection Q as <- <-; contradiction|eauto].
Qed.
End Find.

Lemma phases_spec es windings t p u : transformer_phases es windings t = Ok (p, u) ->
  lookup es t = Some p /\ NoDup u /\ exists ws, windings p = Ok ws /\ forall x, In x u <-> has_phase ws x.
Proof.
  unfold transformer_phases. destruct (lookup es t) as [q|]; [|discriminate]. destruct (windings q) as [ws|] eqn:W; [|discriminate].
  destruct (forallb _ ws); [|discriminate]. destruct (np_unique (concat ws)) as [v|] eqn:U; [|discriminate]. intros E. injection E as -> ->.
  destruct (proj1 (unique_spec _) _ U) as [N I]. split; [reflexivity|]. split; [exact N|]. exists ws. split; [exact W|].
  intros x. rewrite I. rewrite in_concat. unfold has_phase. firstorder.
Qed.

Lemma phases_of_fun es windings t u v : phases_of es windings t u -> phases_of es windings t v -> forall x, u x <-> v x.
Proof.
  intros (m & p & ws & E & Hb & W & I) (m' & p' & ws' & E' & Hb' & W' & I') x. assert (m' = m) by congruence. subst. assert (p' = p) by (eapply bears_unique; eauto). subst.
  assert (ws' = ws) by congruence. subst. rewrite I, I'. reflexivity.
Qed.

Lemma settled_ext u v old new : (forall x, u x <-> v x) -> settled u old new -> settled v old new.
Proof.
  intros H (k & a & E & F & R1 & R2 & R3 & R4). exists k, a. split; [exact E|]. split.
  - clear - F H. induction F as [|x y l l' [E1 E2] F IH]; constructor; [|exact IH]. split; [exact E1|]. rewrite E2, H. reflexivity.
  - split; [exact R1|]. split; [exact R2|]. split; [|exact R4]. intros x. rewrite R3, H. reflexivity.
Qed.

Lemma rewired_ext u v old new : (forall x, u x <-> v x) -> rewired u old new -> rewired v old new.
Proof.
  intros H (k & a & E & F & R1 & R2 & R3). exists k, a. split; [exact E|]. split.
  - clear - F H. induction F as [|x y l l' [E1 E2] F IH]; constructor; [|exact IH]. split; [exact E1|]. rewrite E2, H. reflexivity.
  - split; [exact R1|]. split; [exact R2|]. intros x. rewrite R3, H. reflexivity.
Qed.

Lemma Forall2_combine {A B} (R : A -> B -> Prop) l k : Forall2 R l k -> forall x y, In (x, y) (combine l k) -> R x y /\ In x l.
Proof. induction 1 as [|a b l k H F IH]; intros x y; cbn [combine In]; [intros []|]. intros [E|E]; [injection E as <- <-; auto|]. destruct (IH _ _ E). auto. Qed.
Lemma Forall2_combine_l {A B} (R : A -> B -> Prop) l k : Forall2 R l k -> forall x, In x l -> exists y, In (x, y) (combine l k) /\ R x y.
Proof. induction 1 as [|a b l k H F IH]; intros x []; [subst; exists b; split; [left; reflexivity|exact H]|]. destruct (IH _ H0) as (y & Hy & Q). exists y. split; [right; exact Hy|exact Q]. Qed.
Lemma combine_map_l {A B C} (f : A -> C) (l : list A) (k : list B) : combine (map f l) k = map (fun ab => (f (fst ab), snd ab)) (combine l k).
Proof. revert k. induction l as [|a l IH]; intros [|b k]; cbn; try reflexivity. f_equal. apply IH. Qed.
Lemma map_fst_combine {A B} (l : list A) (k : list B) : length l = length k -> map fst (combine l k) = l.
Proof. revert k. induction l as [|a l IH]; intros [|b k] E; try discriminate; [reflexivity|]. cbn. f_equal. apply IH. injection E. auto. Qed.

Section Top.
Variables (es : list elem) (s : string) (n : network) (windings : nat -> res (list (list (option string)))) (center : nat -> bool).
Hypothesis Hb : build es s = Ok n.
Hypothesis AN : all_named es.
Hypothesis UN : unique_names es.
Notation d := (net_di n).

Lemma span_In u v i : last_span es u v i -> exists p, nth_error es p = Some i.
Proof. intros (a & b & E & _). exists (length a). rewrite E, nth_error_app2, Nat.sub_diag; [reflexivity|lia]. Qed.

Lemma way_lookup c k p : on_the_way es d c k -> nth_error es p = Some k -> exists m, e_name k = Some (Some m) /\ lookup es (Some m) = Some p.
Proof.
  intros (z & y & _ & _ & L & _) Hp. destruct (last_span_named _ _ _ _ AN L) as [m Hm]. exists m. split; [exact Hm|]. apply lookup_spec. split; [eauto|].
  intros q i Hq Hi. assert (q = p) by (eapply UN; eauto). lia.
Qed.

Theorem center_tap_effect fuel ls ws ls' ws' : center_tap_load_preprocessing es n windings center fuel ls ws = Ok (ls', ws') ->
  (forall i e, nth_error es i = Some e -> e_cls e = "Load" ->
     exists c t m p phs l l', e_conn e = Some c /\ feeds es d c t /\ e_name t = Some (Some m) /\ bears es m p /\ phases_of es windings t phs /\
       nth_error ls i = Some (Some l) /\ nth_error ls' i = Some (Some l') /\ served (center p) m phs l l') /\
  (forall i, (forall e, nth_error es i = Some e -> e_cls e <> "Load") -> nth_error ls' i = nth_error ls i) /\
  (forall q k c, nth_error es q = Some k -> carries es d k c ->
     exists t phs w w', feeds es d c t /\ phases_of es windings t phs /\
       nth_error ws q = Some (Some (Some w)) /\ nth_error ws' q = Some (Some (Some w')) /\ rewired phs w w') /\
  (forall q, (forall k c, nth_error es q = Some k -> ~ carries es d k c) -> nth_error ws' q = nth_error ws q).
Proof.
  assert (B := build_built _ _ _ Hb). unfold center_tap_load_preprocessing.
  destruct (foldM (find_step es n fuel) (combine (seq 0 (length es)) es) (ls, [])) as [[ls1 found]|] eqn:Ef; cbn [bind]; [|discriminate].
  destruct (mapM _ found) as [phases|] eqn:Em; cbn [bind]; [|discriminate]. intros E.
  assert (CI : forall i e, In (i, e) (combine (seq 0 (length es)) es) <-> nth_error es i = Some e).
  { intros i e. rewrite combine_seq_In, Nat.sub_0_r. split; [tauto|]. split; [lia|assumption]. }
  destruct (find_spec es n fuel AN UN (combine (seq 0 (length es)) es)) with (ls := ls) (found := @nil found_t) (ls' := ls1) (found' := found) as (new & En & N1 & N2 & N3 & N4 & N5); auto.
  { rewrite map_fst_combine; [apply seq_NoDup|apply seq_length]. }
  { intros i e Hi. apply CI. exact Hi. }
  cbn [app] in En. subst new. apply mapM_Forall2 in Em. set (jobs := combine (map (fun f : found_t => (fst f, snd (snd f))) found) phases) in E.
  assert (Ej : jobs = map (fun ab => ((fst (fst ab), snd (snd (fst ab))), snd ab)) (combine found phases)) by (unfold jobs; exact (combine_map_l (fun f : found_t => (fst f, snd (snd f))) found phases)).
  assert (Len : length found = length phases) by (clear - Em; induction Em; cbn; congruence).
  assert (J1 : forall j, In j jobs -> exists i t lines p ph, j = (i, lines, (p, ph)) /\ In (i, (t, lines)) found /\ transformer_phases es windings t = Ok (p, ph)).
  { intros j Hj. rewrite Ej in Hj. apply in_map_iff in Hj. destruct Hj as ([[i [t lines]] [p ph]] & <- & Hc). destruct (Forall2_combine _ _ _ Em _ _ Hc) as [Q1 Q2].
    exists i, t, lines, p, ph. split; [reflexivity|]. split; [exact Q2|exact Q1]. }
  assert (J2 : forall i t lines, In (i, (t, lines)) found -> exists p ph, In (i, lines, (p, ph)) jobs /\ transformer_phases es windings t = Ok (p, ph)).
  { intros i t lines Hf. destruct (Forall2_combine_l _ _ _ Em _ Hf) as ([p ph] & Hc & Q). exists p, ph. split; [|exact Q]. rewrite Ej. apply in_map_iff. exists ((i, (t, lines)), (p, ph)). auto. }
  assert (Pos : map j_pos jobs = map fst found).
  { rewrite Ej, map_map. cbn [j_pos fst]. rewrite <- (map_fst_combine found phases Len) at 2. rewrite map_map. reflexivity. }
  destruct (jobs_spec es center jobs) with (ls := ls1) (ws := ws) (ls' := ls') (ws' := ws') as (R1 & R2 & R3 & R4); auto.
  { rewrite Pos. exact N1. }
  { apply Forall_forall. intros j Hj. destruct (J1 j Hj) as (i & t & lines & p & ph & -> & _ & Q). apply phases_spec in Q. apply Q. }
  (* what each found entry means *)
  assert (F : forall i t lines, In (i, (t, lines)) found -> exists e c o m, nth_error es i = Some e /\ e_cls e = "Load" /\ e_conn e = Some c /\ feeds es d c o /\ e_name o = Some (Some m) /\ t = Some m /\
    forall k, In k lines <-> exists l, on_the_way es d c l /\ e_name l = Some k).
  { intros i t lines Hf. destruct (N2 _ _ Hf) as (e & c & He & Hl & Hc & W). apply CI in He. destruct (walk_ok es s n B AN _ _ _ _ _ W) as (o & m & more & W1 & W2 & W3 & W4 & W5).
    cbn [app] in W4. subst more. exists e, c, o, m. auto 8. }
  assert (Ph : forall o m t p ph, e_name o = Some (Some m) -> t = Some m -> transformer_phases es windings t = Ok (p, ph) -> NoDup ph /\ bears es m p /\ phases_of es windings o (fun x => In x ph)).
  { intros o m t p ph Ho -> Q. apply phases_spec in Q. destruct Q as (Q1 & Q2 & wd & Q3 & Q4). apply lookup_spec in Q1. split; [exact Q2|]. split; [exact Q1|]. exists m, p, wd. auto. }
  (* touching a line *)
  assert (T1 : forall i t lines c q, In (i, (t, lines)) found -> (forall k, In k lines <-> exists l, on_the_way es d c l /\ e_name l = Some k) -> touches es lines q ->
    exists k, nth_error es q = Some k /\ on_the_way es d c k).
  { intros i t lines c q _ Hk (m & Hm & Hl). apply Hk in Hm. destruct Hm as (l & Ho & Hn). assert (Ho' := Ho). destruct Ho as (z & y & _ & _ & L & _). destruct (span_In _ _ _ L) as [p Hp].
    destruct (way_lookup _ _ _ Ho' Hp) as (m' & Hm' & Hl'). assert (m = Some m') by congruence. subst m. rewrite Hl in Hl'. injection Hl' as ->. exists l. auto. }
  assert (T2 : forall lines c q k, (forall k, In k lines <-> exists l, on_the_way es d c l /\ e_name l = Some k) -> nth_error es q = Some k -> on_the_way es d c k -> touches es lines q).
  { intros lines c q k Hk Hq Ho. destruct (way_lookup _ _ _ Ho Hq) as (m & Hm & Hl). exists (Some m). split; [|exact Hl]. apply Hk. exists k. auto. }
  split; [|split; [|split]].
  - intros i e Hi Hl. apply CI in Hi. destruct (N3 _ _ Hi Hl) as [[t lines] Hf]. apply CI in Hi. destruct (F _ _ _ Hf) as (e' & c & o & m & H1 & H2 & H3 & H4 & H5 & H6 & H7).
    assert (e' = e) by congruence. subst e'. destruct (J2 _ _ _ Hf) as (p & ph & Hj & Q). destruct (Ph o m t p ph H5 H6 Q) as (P1 & P2 & P3).
    destruct (R2 _ Hj) as (l & l' & L1 & L2 & L3 & L4 & L5). cbn [j_pos fst snd j_phases] in *. rewrite (N5 _ _ _ Hf) in L1.
    destruct (nth_error ls i) as [[l0|]|] eqn:E0; try discriminate. injection L1 as <-. exists c, o, m, p, (fun x => In x ph), l0, l'.
    split; [exact H3|]. split; [exact H4|]. split; [exact H5|]. split; [exact P2|]. split; [exact P3|]. split; [reflexivity|]. split; [exact L2|].
    split; [exact L3|]. split; [exact L4|]. cbn [with_up l_up] in L5. congruence.
  - intros i Hn. rewrite R1, N4; [reflexivity| |].
    + intros H. apply in_map_iff in H. destruct H as ([j [t lines]] & Q & Hf). cbn in Q. subst j. destruct (F _ _ _ Hf) as (e & c & o & m & H1 & H2 & _). exact (Hn _ H1 H2).
    + rewrite Pos. intros H. apply in_map_iff in H. destruct H as ([j [t lines]] & Q & Hf). cbn in Q. subst j. destruct (F _ _ _ Hf) as (e & c & o & m & H1 & H2 & _). exact (Hn _ H1 H2).
  - intros q k c Hq (e & He & Hl & Hc & Hw). apply In_nth_error in He. destruct He as [i He]. assert (He' := He). apply CI in He'. destruct (N3 _ _ He' Hl) as [[t lines] Hf].
    destruct (F _ _ _ Hf) as (e' & c' & o & m & H1 & H2 & H3 & H4 & H5 & H6 & H7). assert (e' = e) by congruence. subst e'. assert (c' = c) by congruence. subst c'.
    destruct (J2 _ _ _ Hf) as (p & ph & Hj & Q). destruct (Ph o m t p ph H5 H6 Q) as (P1 & P2 & P3).
    destruct (R4 q ph) as (w & W1 & W2).
    + intros j Hj' Tj. destruct (J1 _ Hj') as (i' & t' & lines' & p' & ph' & -> & Hf' & Q'). cbn [j_lines j_phases fst snd] in *.
      destruct (F _ _ _ Hf') as (e' & c' & o' & m' & H1' & H2' & H3' & H4' & H5' & H6' & H7'). destruct (T1 _ _ _ _ _ Hf' H7' Tj) as (k' & Hk' & Hw'). assert (k' = k) by congruence. subst k'.
      assert (o' = o) by (exact (way_same es s n B c' c k o' o Hw' Hw H4' H4)). subst o'. assert (m' = m) by congruence. subst. rewrite Q in Q'. injection Q' as <- <-. reflexivity.
    + exists (i, lines, (p, ph)). split; [exact Hj|]. cbn [j_lines fst snd]. exact (T2 _ _ _ _ H7 Hq Hw).
    + exists o, (fun x => In x ph), w, (wires_done ph ph w). split; [exact H4|]. split; [exact P3|]. split; [exact W1|]. split; [exact W2|]. apply wires_rewired. exact P1.
  - intros q Hn. apply R3. intros j Hj Tj. destruct (J1 _ Hj) as (i & t & lines & p & ph & -> & Hf & Q). cbn [j_lines fst snd] in Tj.
    destruct (F _ _ _ Hf) as (e & c & o & m & H1 & H2 & H3 & H4 & H5 & H6 & H7). destruct (T1 _ _ _ _ _ Hf H7 Tj) as (k & Hk & Hw).
    apply (Hn k c Hk). exists e. split; [eapply nth_error_In; eauto|auto].
Qed.
End Top.

(** ** Success *)

Section Success.
Variable es : list elem.
Variable P : nat -> Prop.

Definition okw (ws : wiring) : Prop := forall p, P p -> exists w r, wired_at ws p (w :: r).
Definition good (lines : list (option string)) : Prop := forall m, In m lines -> exists p, lookup es m = Some p /\ P p.

Lemma okw_put ws p x r : okw ws -> okw (put ws p (Some (Some (x :: r)))).
Proof.
  intros H q Pq. unfold wired_at. rewrite nth_put. destruct (Nat.eqb_spec p q) as [->|_]; [|apply H; exact Pq].
  destruct (H q Pq) as (w & r' & W). unfold wired_at in W. rewrite W. eauto.
Qed.
Lemma drop_total ph lines : good lines -> forall ws, okw ws -> exists ws', foldM (drop_wires es ph) lines ws = Ok ws' /\ okw ws'.
Proof.
  induction lines as [|m lines IH]; intros G ws H; cbn [foldM]; [eauto|]. destruct (G m) as (p & L & Pp); [left; reflexivity|]. destruct (H p Pp) as (w & r & W).
  unfold drop_wires at 1. rewrite (proj2 (wires_of_spec es ws m p (w :: r)) (conj L W)). cbn [bind map]. apply IH; [|apply okw_put; exact H]. intros k Hk. apply G. right. exact Hk.
Qed.
Lemma add_total x lines : good lines -> forall ws, okw ws -> exists ws', foldM (add_wire es x) lines ws = Ok ws' /\ okw ws'.
Proof.
  induction lines as [|m lines IH]; intros G ws H; cbn [foldM]; [eauto|]. destruct (G m) as (p & L & Pp); [left; reflexivity|]. destruct (H p Pp) as (w & r & W).
  assert (G' : good lines) by (intros k Hk; apply G; right; exact Hk).
  unfold add_wire at 1. rewrite (proj2 (wires_of_spec es ws m p (w :: r)) (conj L W)). cbn [bind]. destruct (is_in x _); cbn [bind app]; apply IH; auto. apply okw_put. exact H.
Qed.
Lemma add_phases_total lines : good lines -> forall ph y l ws, okw ws -> exists y' l' ws', foldM (add_phase es lines) ph (y :: l, ws) = Ok (y' :: l', ws') /\ okw ws'.
Proof.
  intros G. induction ph as [|x ph IH]; intros y l ws H; cbn [foldM]; [eauto 6|]. unfold add_phase at 1. cbv beta iota. destruct (add_total x lines G ws H) as (ws1 & E1 & H1).
  unfold add_load. destruct (is_in x _); cbn [bind]; rewrite E1; cbn [bind app]; apply IH; exact H1.
Qed.

Variable center : nat -> bool.
Lemma one_load_total ls ws i lines t ph x0 l x pls : NoDup ph -> In x0 ph -> good lines -> okw ws ->
  nth_error ls i = Some (Some l) -> l_phases l = Some (x :: pls) -> Forall (fun y => pl_p y <> None /\ pl_q y <> None /\ pl_drop y = false) (x :: pls) ->
  exists l' ws', one_load es center (ls, ws) (i, lines, (t, ph)) = Ok (put ls i (Some l'), ws') /\ okw ws'.
Proof.
  intros Nd Hx0 G H El Ep F. unfold one_load. rewrite El, Ep. cbn [of_opt bind]. rewrite Forall_forall in F.
  destruct (py_sum_total (map pl_p (x :: pls))) as [tp ->]; [intros o Ho; apply in_map_iff in Ho; destruct Ho as (y & <- & Hy); apply F; exact Hy|].
  destruct (py_sum_total (map pl_q (x :: pls))) as [tq ->]; [intros o Ho; apply in_map_iff in Ho; destruct Ho as (y & <- & Hy); apply F; exact Hy|]. cbn [bind].
  destruct (drop_total ph lines G ws H) as (ws1 & E1 & H1). rewrite E1. cbn [bind]. cbn [map].
  destruct (add_phases_total lines G ph (drop_load ph x) (map (drop_load ph) pls) ws1 H1) as (y' & l' & ws2 & E2 & H2). rewrite E2. cbn [bind].
  assert (M0 : missing_in pl_phase (drop_load ph x :: map (drop_load ph) pls) [] = []) by reflexivity.
  destruct (drop_pass _ _ _ _ _ E1) as [D1 D2].
  destruct (add_phases es ph lines ph [] Nd (drop_load ph x) (map (drop_load ph) pls) ws1 ws (y' :: l') ws2 D1 D2) as (P1 & _); [rewrite M0; cbn [map]; rewrite app_nil_r; exact E2|].
  cbn [app] in P1.
  assert (A : active (y' :: l') <> []).
  { intros Q. assert (N : forall z, In z (y' :: l') -> pl_drop z = true).
    { intros z Hz. destruct (pl_drop z) eqn:Dz; [reflexivity|]. exfalso. assert (In z (active (y' :: l'))) by (apply filter_In; rewrite Dz; auto). rewrite Q in H0. destruct H0. }
    rewrite P1 in N. change (drop_load ph x :: map (drop_load ph) pls ++ map (new_load (drop_load ph x)) (missing_in pl_phase (drop_load ph x :: map (drop_load ph) pls) ph))
      with (map (drop_load ph) (x :: pls) ++ map (new_load (drop_load ph x)) (missing_in pl_phase (map (drop_load ph) (x :: pls)) ph)) in N.
    destruct (is_in x0 (map pl_phase (map (drop_load ph) (x :: pls)))) eqn:I.
    - apply is_in_spec in I. rewrite map_map in I. apply in_map_iff in I. destruct I as (z & Ez & Hz).
      assert (Dz : drop_load ph z = z).
      { unfold drop_load in *. destruct (is_in (pl_phase z) ph) eqn:J; [reflexivity|]. cbn [pl_phase] in Ez. apply is_in_false in J. rewrite Ez in J. contradiction. }
      specialize (N z). rewrite in_app_iff in N. destruct (F z Hz) as (_ & _ & Fz). rewrite N in Fz; [discriminate|]. left. apply in_map_iff. exists z. auto.
    - apply is_in_false in I. specialize (N (new_load (drop_load ph x) x0)). rewrite in_app_iff in N. cbn [new_load pl_drop] in N. discriminate N. right. apply in_map. apply missing_In. auto. }
  assert (S : exists pls3, share tp tq (y' :: l') = Ok pls3).
  { unfold share. fold (active (y' :: l')). destruct (length (active (y' :: l'))) as [|k] eqn:K; [apply length_zero_iff_nil in K; contradiction|].
    generalize (y' :: l'). clear. induction l as [|a l [r IH]]; cbn [mapM]; [eauto|]. cbn [bind]. rewrite IH. cbn [bind]. eauto. }
  destruct S as [pls3 ->]. cbn [bind]. eauto.
Qed.

Lemma jobs_total jobs : NoDup (map j_pos jobs) ->
  forall ls ws, okw ws ->
  (forall j, In j jobs -> NoDup (j_phases j) /\ (exists x0, In x0 (j_phases j)) /\ good (j_lines j) /\
     exists l x pls, nth_error ls (j_pos j) = Some (Some l) /\ l_phases l = Some (x :: pls) /\ Forall (fun y => pl_p y <> None /\ pl_q y <> None /\ pl_drop y = false) (x :: pls)) ->
  exists r, foldM (one_load es center) jobs (ls, ws) = Ok r.
Proof.
  induction jobs as [|[[i lines] [t ph]] jobs IH]; intros Nd ls ws H Hj; cbn [foldM]; [eauto|].
  cbn [map j_pos fst] in Nd. inversion Nd as [|? ? Ni Nd']. subst.
  destruct (Hj (i, lines, (t, ph))) as (N1 & (x0 & Hx0) & G & l & x & pls & L1 & L2 & L3); [left; reflexivity|]. cbn [j_phases j_lines j_pos fst snd] in *.
  destruct (one_load_total ls ws i lines t ph x0 l x pls N1 Hx0 G H L1 L2 L3) as (l' & ws' & E & H'). rewrite E. cbn [bind]. apply IH; auto.
  intros j Hj'. destruct (Hj j) as (M1 & M2 & M3 & m & y & r & M4 & M5); [right; exact Hj'|]. split; [exact M1|]. split; [exact M2|]. split; [exact M3|]. exists m, y, r. split; [|exact M5].
  rewrite nth_put. destruct (Nat.eqb_spec i (j_pos j)) as [Q|_]; [|exact M4]. exfalso. apply Ni. rewrite Q. apply in_map. exact Hj'.
Qed.
End Success.

Lemma phases_total es windings m p wd : bears es m p -> windings p = Ok wd -> phased wd -> exists u, transformer_phases es windings (Some m) = Ok (p, u) /\ exists x, In x u.
Proof.
  intros Hb W (F1 & F2 & F3). unfold transformer_phases. rewrite (proj2 (lookup_spec es m p) Hb), W.
  replace (forallb _ wd) with true.
  2:{ symmetry. apply forallb_forall. intros w Hw. apply Nat.eqb_eq. apply F1; [exact Hw|]. destruct wd as [|w0 wd]; [destruct Hw|]. left. reflexivity. }
  destruct (unique_spec (concat wd)) as (U1 & U2 & _). destruct (np_unique (concat wd)) as [u|e].
  - exists u. split; [reflexivity|]. destruct F3 as [x Hx]. exists x. apply (U1 u eq_refl). apply in_concat. destruct Hx as (w & H1 & H2). eauto.
  - destruct (U2 e eq_refl) as (_ & H & _). apply in_concat in H. destruct H as (w & H1 & H2). exfalso. apply (F2 None); [exists w; auto|reflexivity].
Qed.

Theorem center_tap_success es s n windings center fuel ls ws : build es s = Ok n -> all_named es -> unique_names es -> length (d_nodes (net_di n)) < fuel ->
  (forall i e, nth_error es i = Some e -> e_cls e = "Load" -> ready es (net_di n) windings ls ws i e) ->
  exists r, center_tap_load_preprocessing es n windings center fuel ls ws = Ok r.
Proof.
  intros Hb AN UN Fu R. assert (B := build_built _ _ _ Hb). unfold center_tap_load_preprocessing.
  assert (CI : forall i e, In (i, e) (combine (seq 0 (length es)) es) <-> nth_error es i = Some e).
  { intros i e. rewrite combine_seq_In, Nat.sub_0_r. split; [tauto|]. split; [lia|assumption]. }
  assert (FT : exists r, foldM (find_step es n fuel) (combine (seq 0 (length es)) es) (ls, []) = Ok r).
  { assert (G : forall L, (forall i e, In (i, e) L -> nth_error es i = Some e) -> forall st, exists r, foldM (find_step es n fuel) L st = Ok r).
    { induction L as [|[i e] L IH]; intros HL st; cbn [foldM]; [eauto|]. assert (HL' : forall j x, In (j, x) L -> nth_error es j = Some x) by (intros j x Hj; apply HL; right; exact Hj).
      assert (Hi : nth_error es i = Some e) by (apply HL; left; reflexivity). unfold find_step at 1. destruct st as [ls0 found]. cbv beta iota.
      destruct (String.eqb_spec (e_cls e) "Load") as [Hl|Hl]; [|cbn [bind]; apply IH; exact HL'].
      destruct (R i e Hi Hl) as (c & t & m & p & wd & l & x & pls & H1 & H2 & _). rewrite H1. cbn [of_opt bind].
      assert (exists k, dist (linked es) s c k) as [k D].
      { destruct (feeds_inv _ _ _ _ H2) as (y & Ar & _). destruct (b_arc _ _ _ B _ _ Ar) as (_ & k & _ & D). eauto. }
      destruct (walk_total es s n B AN k c [] t fuel D) as [[t' lines] ->]; [assert (Q := d_node_dist_bound _ _ _ _ _ B D); lia|exact H2|]. cbn [bind].
      rewrite (lookup_self es AN UN i e c Hi H1). cbn [of_opt bind]. apply IH. exact HL'. }
    apply G. intros i e Hi. apply CI. exact Hi. }
  destruct FT as [[ls1 found] Ef]. rewrite Ef. cbn [bind].
  destruct (find_spec es n fuel AN UN (combine (seq 0 (length es)) es)) with (ls := ls) (found := @nil found_t) (ls' := ls1) (found' := found) as (new & En & N1 & N2 & N3 & N4 & N5); auto.
  { rewrite map_fst_combine; [apply seq_NoDup|apply seq_length]. }
  { intros i e Hi. apply CI. exact Hi. }
  cbn [app] in En. subst new.
  assert (F : forall i t lines, In (i, (t, lines)) found -> exists e c o m, nth_error es i = Some e /\ e_cls e = "Load" /\ e_conn e = Some c /\ feeds es (net_di n) c o /\ e_name o = Some (Some m) /\ t = Some m /\
    forall k, In k lines <-> exists l, on_the_way es (net_di n) c l /\ e_name l = Some k).
  { intros i t lines Hf. destruct (N2 _ _ Hf) as (e & c & He & Hl & Hc & W). apply CI in He. destruct (walk_ok es s n B AN _ _ _ _ _ W) as (o & m & more & W1 & W2 & W3 & W4 & W5).
    cbn [app] in W4. subst more. exists e, c, o, m. auto 8. }
  assert (MT : exists phases, mapM (fun f : found_t => transformer_phases es windings (fst (snd f))) found = Ok phases).
  { assert (G : forall l, (forall f, In f l -> exists r, transformer_phases es windings (fst (snd f)) = Ok r) -> exists phases, mapM (fun f : found_t => transformer_phases es windings (fst (snd f))) l = Ok phases).
    { clear. induction l as [|f l IH]; intros H; cbn [mapM]; [eauto|]. destruct (H f) as [r ->]; [left; reflexivity|]. cbn [bind]. destruct IH as [ps ->]; [intros g Hg; apply H; right; exact Hg|]. cbn [bind]. eauto. }
    apply G. intros [i [t lines]] Hf. cbn [fst snd]. destruct (F _ _ _ Hf) as (e & c & o & m & H1 & H2 & H3 & H4 & H5 & -> & H7).
    destruct (R i e H1 H2) as (c' & t' & m' & p & wd & l & x & pls & R1 & R2 & R3 & R4 & R5 & R6 & _). assert (c' = c) by congruence. subst c'.
    assert (t' = o) by (eapply feeds_fun; eauto). subst t'. assert (m' = m) by congruence. subst m'. destruct (phases_total es windings m p wd R4 R5 R6) as (u & -> & _). eauto. }
  destruct MT as [phases Em]. match goal with |- context [mapM ?f found] => replace (mapM f found) with (Ok phases) by (symmetry; exact Em) end. cbn [bind]. apply mapM_Forall2 in Em.
  set (jobs := combine (map (fun f : found_t => (fst f, snd (snd f))) found) phases).
  assert (Ej : jobs = map (fun ab => ((fst (fst ab), snd (snd (fst ab))), snd ab)) (combine found phases)) by (unfold jobs; exact (combine_map_l (fun f : found_t => (fst f, snd (snd f))) found phases)).
  assert (Len : length found = length phases) by (clear - Em; induction Em; cbn; congruence).
  assert (J1 : forall j, In j jobs -> exists i t lines p ph, j = (i, lines, (p, ph)) /\ In (i, (t, lines)) found /\ transformer_phases es windings t = Ok (p, ph)).
  { intros j Hj. rewrite Ej in Hj. apply in_map_iff in Hj. destruct Hj as ([[i [t lines]] [p ph]] & <- & Hc). destruct (Forall2_combine _ _ _ Em _ _ Hc) as [Q1 Q2].
    exists i, t, lines, p, ph. split; [reflexivity|]. split; [exact Q2|exact Q1]. }
  assert (Pos : map j_pos jobs = map fst found).
  { rewrite Ej, map_map. cbn [j_pos fst]. rewrite <- (map_fst_combine found phases Len) at 2. rewrite map_map. reflexivity. }
  apply (jobs_total es (fun q => exists k c, nth_error es q = Some k /\ carries es (net_di n) k c) center jobs).
  - rewrite Pos. exact N1.
  - intros q (k & c & Hq & e & He & Hl & Hc & Hw). apply In_nth_error in He. destruct He as [i He].
    destruct (R i e He Hl) as (c' & t' & m' & p & wd & l & x & pls & R1 & _ & _ & _ & _ & _ & _ & _ & _ & R8). assert (c' = c) by congruence. subst c'. destruct (R8 k q Hw Hq) as (w & r & W). exists w, r. exact W.
  - intros j Hj. destruct (J1 _ Hj) as (i & t & lines & p & ph & -> & Hf & Q). cbn [j_phases j_lines j_pos fst snd].
    destruct (F _ _ _ Hf) as (e & c & o & m & H1 & H2 & H3 & H4 & H5 & -> & H7).
    destruct (R i e H1 H2) as (c' & t' & m' & p' & wd & l & x & pls & R1 & R2 & R3 & R4 & R5 & R6 & R7 & R8 & R9 & R10). assert (c' = c) by congruence. subst c'.
    assert (t' = o) by (eapply feeds_fun; eauto). subst t'. assert (m' = m) by congruence. subst m'. destruct (phases_total es windings m p' wd R4 R5 R6) as (u & Eu & Hu).
    rewrite Q in Eu. injection Eu as -> ->. split; [apply phases_spec in Q; apply Q|]. split; [exact Hu|]. split.
    + intros k Hk. apply H7 in Hk. destruct Hk as (lo & Hw & Hn). assert (Hw' := Hw). destruct Hw as (z & y & _ & _ & L & _). destruct (span_In es _ _ _ L) as [q Hq].
      destruct (way_lookup es n AN UN _ _ _ Hw' Hq) as (m' & Hm' & Hl'). assert (k = Some m') by congruence. subst k. exists q. split; [exact Hl'|]. exists lo, c. split; [exact Hq|]. exists e. split; [eapply nth_error_In; eauto|auto].
    + exists (with_up (Some m) l), x, pls. rewrite (N5 _ _ _ Hf), R7. split; [reflexivity|]. split; [exact R8|exact R9].
Qed.

(** ** No phase load dropped before *)

Lemma settled_active phs old new : settled phs old new -> Forall (fun x => pl_drop x = false) old ->
  forall x, In x (map pl_phase (active new)) <-> phs x.
Proof.
  intros (k & a & -> & F & A1 & A2 & A3 & _) Hd x. unfold active. rewrite filter_app, map_app, in_app_iff.
  assert (Ea : filter (fun x => negb (pl_drop x)) a = a).
  { clear - A1. induction A1 as [|y a H _ IH]; [reflexivity|]. cbn [filter]. rewrite H. cbn. congruence. }
  rewrite Ea, A3.
  assert (K : In x (map pl_phase (filter (fun x => negb (pl_drop x)) k)) <-> phs x /\ In x (map pl_phase old)).
  { clear - F Hd. induction F as [|o y old k [E1 E2] F IH]; [cbn; tauto|]. inversion Hd as [|? ? H1 H2]. subst. specialize (IH H2). cbn [filter map In].
    destruct (pl_drop y) eqn:Dy; cbn [negb map In]; rewrite IH, ?E1.
    - assert (N : ~ phs (pl_phase o)) by (intros N; destruct E2 as [_ E2]; specialize (E2 (conj H1 N)); discriminate). intuition (subst; contradiction).
    - destruct E2 as [E2 _]. specialize (E2 eq_refl). intuition (subst; tauto). }
  rewrite K. destruct (is_in x (map pl_phase old)) eqn:I; [apply is_in_spec in I|apply is_in_false in I]; tauto.
Qed.
