From Coq Require Import List String Ascii Bool Arith ZArith Reals Lra Lia.
From Verif Require Import Base BaseFacts CymeMapModel CymeParseModel CymeParseSpec CymeLoadModel CymeLoadSpec CymeLoadProofs CymeDgModel CymeDgSpec.
Import ListNotations.
Local Open Scope string_scope.
Local Open Scope nat_scope.
Local Open Scope list_scope.
Notation entry := (string * CymeParseModel.record)%type.

(** ** The last row *)
Definition lastv {A V} (h : A -> option V) (l : list A) (o : option V) : option V := fold_left (fun o a => match h a with Some v => Some v | None => o end) l o.
Lemma lastv_app {A V} (h : A -> option V) l1 l2 o : lastv h (l1 ++ l2) o = lastv h l2 (lastv h l1 o).
Proof. apply fold_left_app. Qed.
Lemma lastv_spec {A V} (P : A -> V -> Prop) (h : A -> option V) l : (forall a v, In a l -> P a v <-> h a = Some v) -> latest P l (lastv h l None).
Proof.
  induction l as [|a l IH] using rev_ind; intros H; [right; split; [intros a v []|reflexivity]|].
  rewrite lastv_app. cbn [lastv fold_left]. fold (lastv h l None).
  assert (HA : forall v, P a v <-> h a = Some v) by (intros v; apply H, in_or_app; right; now left).
  destruct (h a) as [v|] eqn:E.
  - left. exists l, a, [], v. split; [reflexivity|]. split; [now apply HA|]. split; [intros b w []|reflexivity].
  - destruct IH as [(l1 & b & l2 & v & -> & PB & N & ->)|[N ->]]; [intros b v I; apply H, in_or_app; now left| |].
    + left. exists l1, b, (l2 ++ [a]), v. rewrite <- app_assoc. split; [reflexivity|]. split; [exact PB|]. split; [|reflexivity]. intros c w I. apply in_app_or in I. destruct I as [I|[->|[]]]; [now apply N|]. intros PA. apply HA in PA. congruence.
    + right. split; [|reflexivity]. intros b v I. apply in_app_or in I. destruct I as [I|[->|[]]]; [now apply N|]. intros PA. apply HA in PA. congruence.
Qed.
(** A field of a state that every row sets to [h a] or leaves. *)
Lemma field_fold {A S V} (g : S -> option V) (f : S -> A -> S) (h : A -> option V) l s :
  (forall a s, g (f s a) = match h a with Some v => Some v | None => g s end) -> g (fold_left f l s) = lastv h l (g s).
Proof. intros H. revert s. induction l as [|a l IH]; intros s; [reflexivity|]. cbn [fold_left]. rewrite IH, H. reflexivity. Qed.
Lemma value_fold {A S V} (g : S -> V) (f : S -> A -> S) (h : A -> option V) l s :
  (forall a s, g (f s a) = match h a with Some v => v | None => g s end) -> g (fold_left f l s) = match lastv h l None with Some v => v | None => g s end.
Proof.
  intros H. induction l as [|a l IH] using rev_ind; [reflexivity|]. rewrite fold_left_app, lastv_app. cbn. rewrite H. destruct (h a); [reflexivity|]. exact IH.
Qed.
Lemma same_fold {A S V} (g : S -> V) (f : S -> A -> S) l s : (forall a s, g (f s a) = g s) -> g (fold_left f l s) = g s.
Proof. intros H. revert s. induction l as [|a l IH]; intros s; [reflexivity|]. cbn. now rewrite IH, H. Qed.

(** ** Changing the objects of a list *)
Lemma alter_nth {A} i (f : A -> A) l j : nth_error (alter i f l) j = if Nat.eqb i j then option_map f (nth_error l j) else nth_error l j.
Proof.
  revert i j. induction l as [|x l IH]; intros i j; [destruct i, j; cbn; try reflexivity; now destruct (i =? j)|].
  destruct i, j; cbn; try reflexivity. apply IH.
Qed.
Lemma runs_nth {A E} (sel : E -> option nat) (f : E -> A -> A) es l j :
  nth_error (fold_left (fun l e => match sel e with Some i => alter i (f e) l | None => l end) es l) j =
  option_map (fun p => fold_left (fun p e => match sel e with Some i => if Nat.eqb i j then f e p else p | None => p end) es p) (nth_error l j).
Proof.
  revert l. induction es as [|e es IH]; intros l; cbn; [now destruct (nth_error l j)|]. rewrite IH. destruct (sel e) as [i|]; [|reflexivity].
  rewrite alter_nth. destruct (nth_error l j) as [p|]; destruct (Nat.eqb i j); reflexivity.
Qed.

(** ** The dictionary of the devices *)
Definition last_at (settings : list entry) (dev : string) (i : nat) : Prop :=
  exists l1 e l2, settings = l1 ++ e :: l2 /\ length l1 = i /\ of_device dev e /\ forall e', In e' l2 -> ~ of_device dev e'.
Lemma last_snoc settings e dev i : last_at (settings ++ [e]) dev i <-> (of_device dev e /\ i = length settings) \/ (~ of_device dev e /\ last_at settings dev i).
Proof.
  split.
  - intros (l1 & a & l2 & E & L & D & N). destruct (exists_last (l := a :: l2)) as (m & x & M); [discriminate|]. rewrite M, app_assoc in E. apply app_inj_tail in E as [E1 <-].
    destruct m as [|b m].
    + cbn in M. injection M as -> ->. left. rewrite app_nil_r in E1. subst l1. now split.
    + cbn in M. injection M as -> ->. right. split; [apply N, in_or_app; right; now left|]. exists l1, b, m. split; [exact E1|]. split; [exact L|]. split; [exact D|]. intros e' I. apply N, in_or_app. now left.
  - intros [[D ->]|[ND (l1 & a & l2 & -> & L & D & N)]].
    + exists settings, e, []. split; [reflexivity|]. split; [reflexivity|]. split; [exact D|]. intros e' [].
    + exists l1, a, (l2 ++ [e]). rewrite <- app_assoc. split; [reflexivity|]. split; [exact L|]. split; [exact D|]. intros e' I. apply in_app_or in I. destruct I as [I|[->|[]]]; [now apply N|exact ND].
Qed.
Lemma create_spec {O} (make : entry -> res (string * O)) (P : entry -> O -> Prop) settings :
  Forall (fun e => exists n o, make e = Ok (n, o) /\ of_device n e /\ P e o) settings ->
  exists objs devs, create make settings = Ok (objs, devs) /\ Forall2 P settings objs /\ forall dev i, dget devs dev = Some i <-> last_at settings dev i.
Proof.
  induction settings as [|e settings IH] using rev_ind; intros F.
  - exists [], []. split; [reflexivity|]. split; [constructor|]. intros dev i. split; [discriminate|]. intros (l1 & a & l2 & E & _). destruct l1; discriminate.
  - apply Forall_app in F as [F FE]. inversion FE as [|? ? (n & o & M & D & PO) _]; subst. destruct (IH F) as (objs & devs & E & FP & DV).
    assert (LO : length objs = length settings) by (clear -FP; induction FP; cbn; congruence).
    unfold create in *. rewrite foldM_app, E. cbn [foldM]. rewrite M. cbn [bind fst snd]. exists (objs ++ [o]), (dset devs n (length objs)). split; [reflexivity|]. split; [apply Forall2_app; [exact FP|now constructor]|].
    intros dev i. rewrite last_snoc, dget_dset. destruct (String.eqb_spec n dev) as [->|NE].
    + rewrite LO. split; [intros H; injection H as <-; now left|]. intros [[_ ->]|[ND _]]; [reflexivity|contradiction].
    + assert (ND : ~ of_device dev e). { intros (m & E1 & L1). destruct D as (m' & E2 & L2). congruence. }
      rewrite DV. tauto.
Qed.

(** ** Cells *)
Section Cells.
Variable num : string -> option R.
Notation record := CymeParseModel.record.
Lemma float_iff d k x : float_of num d k = Ok x <-> number num d k x.
Proof.
  unfold float_of, number. destruct (dget d k) as [t|]; cbn; [|split; [discriminate|intros (t & E & _); discriminate]].
  destruct (num t) eqn:N; cbn; (split; [intros H; exists t; split; [reflexivity|congruence]|intros (t' & E & H); congruence]).
Qed.
Lemma attempt_spec d k : cell_says num d k (attempt (float_of num d k) Some None).
Proof. intros x. rewrite <- float_iff. unfold attempt. destruct (float_of num d k); split; congruence. Qed.
Definition cell (d : record) (k : string) : option R := match float_of num d k with Ok x => Some x | Err _ => None end.
Lemma cell_iff d k x : cell d k = Some x <-> number num d k x.
Proof. rewrite <- float_iff. unfold cell. destruct (float_of num d k); split; congruence. Qed.
Lemma from_node_spec sp key : element_says sp key (from_node sp key).
Proof.
  intros t. unfold from_node. destruct (dget sp (lower key)) as [s|]; [|split; [discriminate|intros (s & E & _); discriminate]].
  split; [intros H; now exists s|]. intros (s' & E & H). now injection E as <-.
Qed.
Lemma chars_letters t : chars t = letters t.
Proof. unfold letters. induction t as [|a t IH]; [reflexivity|]. cbn. now rewrite IH. Qed.
Lemma about_iff e dev : named e -> about dev e <-> device e = dev.
Proof.
  intros (id & k & E & B). unfold device. rewrite E, (strip_bare id k B). split.
  - intros (id' & k' & E' & B' & L). assert (id' = id); [|congruence]. rewrite <- (strip_bare id k B), <- (strip_bare id' k' B'). congruence.
  - intros L. now exists id, k.
Qed.
End Cells.

(** ** The tables about one device *)
Lemma latest_hit {V} hit dev (tbl : list entry) (Q : CymeParseModel.record -> V -> Prop) (c : CymeParseModel.record -> option V) :
  (forall e, In e tbl -> (hit e = true <-> about dev e)) -> (forall d v, Q d v <-> c d = Some v) ->
  latest (fun e v => about dev e /\ Q (snd e) v) tbl (lastv (fun e => if hit e then c (snd e) else None) tbl None).
Proof.
  intros H HQ. apply lastv_spec. intros e v I. rewrite <- (H e I), HQ. destruct (hit e); split; try tauto; try discriminate. intros [E _]. discriminate.
Qed.
Definition sweep {S} (hit : entry -> bool) (f : CymeParseModel.record -> S -> S) (tbl : list entry) (s : S) : S := fold_left (fun s e => if hit e then f (snd e) s else s) tbl s.

Section Tables.
Variable num : string -> option R.
Notation record := CymeParseModel.record.
Lemma times_iff d k c x : times_cell num d k c x <-> option_map (fun y => (y * c)%R) (cell num d k) = Some x.
Proof.
  unfold times_cell. destruct (cell num d k) as [y|] eqn:E; cbn.
  - apply cell_iff in E as N. split; [intros (y' & N' & ->); apply cell_iff in N'; congruence|]. intros H. injection H as <-. now exists y.
  - split; [|discriminate]. intros (y & N & _). apply cell_iff in N. congruence.
Qed.
Lemma percent_iff d k x : times_cell num d k (1 / 100) x <-> option_map (fun y => (y / 100)%R) (cell num d k) = Some x.
Proof. rewrite times_iff. destruct (cell num d k) as [y|]; cbn; [|tauto]. now replace (y * (1 / 100))%R with (y / 100)%R by field. Qed.
Definition is_default (d : record) : bool := match dget d "loadmodelname" with Some m => String.eqb (lower m) "default" | None => false end.
Lemma default_iff d : default_model d <-> is_default d = true.
Proof.
  unfold default_model, is_default. destruct (dget d "loadmodelname") as [m|]; [|split; [intros (m & E & _); discriminate|discriminate]].
  rewrite String.eqb_eq. split; [intros (m' & E & L); now injection E as <-|]. intros L. now exists m.
Qed.
Definition control_cell (d : record) : option string := control_of d None.
Lemma control_before d b : control_of d b = match control_cell d with Some c => Some c | None => b end.
Proof. unfold control_cell, control_of. destruct (dget d "controltype") as [t|]; [|reflexivity]. do 7 (destruct (String.eqb t _); [reflexivity|]). reflexivity. Qed.
Lemma control_iff d c : (exists t, dget d "controltype" = Some t /\ In (t, c) control_table) <-> control_cell d = Some c.
Proof.
  unfold control_cell, control_of. destruct (dget d "controltype") as [t|]; [|split; [intros (t & E & _); discriminate|discriminate]]. split.
  - intros (t' & E & I). injection E as <-. cbn in I. repeat (destruct I as [I|I]; [injection I as <- <-; reflexivity|]). destruct I.
  - intros H. exists t. split; [reflexivity|]. cbn.
    repeat match type of H with context [String.eqb t ?s] => destruct (String.eqb_spec t s) as [E|?]; [subst t; cbn in H; inversion H; subst; cbn; tauto|] end. discriminate.
Qed.
Lemma curves_id d c a b : set_curves num d c a b = (a, b).
Proof. unfold set_curves, as_text. destruct (float_of num d _); [|reflexivity]. destruct (_ || _); [reflexivity|]. now destruct (is_control c "voltwatt"). Qed.

Ltac field_tac := intros a s; cbv beta; match goal with |- context [?h a] => destruct (h a); [|reflexivity] end; unfold set_generation, set_inverter, set_converter, set_control, attempt, cell, is_default;
  cbn [i_active i_factor i_rated i_reactive i_min_factor i_fall i_rise i_control i_var i_voltvar i_wattpf i_voltwatt c_rated c_reactive c_min_factor];
  repeat match goal with |- context [match float_of num ?d ?k with _ => _ end] => destruct (float_of num d k); cbn [option_map] end; try reflexivity.
Ltac gen_tac := intros a s; cbv beta; match goal with |- context [?h a] => destruct (h a); [|reflexivity] end; unfold set_generation, is_default, attempt, cell; destruct (dget (snd a) "loadmodelname") as [m|]; [|reflexivity]; destruct (String.eqb (lower m) "default"); [|reflexivity];
  cbn [i_active i_factor i_rated i_reactive i_min_factor i_fall i_rise i_control i_var i_voltvar i_wattpf i_voltwatt];
  repeat match goal with |- context [match float_of num ?d ?k with _ => _ end] => destruct (float_of num d k); cbn [option_map] end; try reflexivity.

Lemma inverter_spec hit dev dg conv ctl :
  (forall e, In e dg \/ In e conv \/ In e ctl -> (hit e = true <-> about dev e)) ->
  inverter_says num dg conv ctl dev (sweep hit (set_control num) ctl (sweep hit (set_inverter num) conv (sweep hit (set_generation num) dg inverter0))).
Proof.
  intros H. unfold inverter_says, sweep.
  assert (HD : forall e, In e dg -> (hit e = true <-> about dev e)) by auto. assert (HV : forall e, In e conv -> (hit e = true <-> about dev e)) by auto. assert (HL : forall e, In e ctl -> (hit e = true <-> about dev e)) by auto.
  split.
  { rewrite (same_fold i_active) by field_tac. rewrite (same_fold i_active) by field_tac.
    rewrite (field_fold i_active _ (fun e => if hit e then if is_default (snd e) then option_map (fun y => (y * 1000)%R) (cell num (snd e) "activegeneration") else None else None)) by gen_tac.
    apply (latest_hit hit dev dg (fun d x => default_model d /\ times_cell num d "activegeneration" 1000 x) (fun d => if is_default d then option_map (fun y => (y * 1000)%R) (cell num d "activegeneration") else None)); [exact HD|].
    intros d v. rewrite default_iff, times_iff. destruct (is_default d); split; try tauto; try discriminate. intros [E _]. discriminate. }
  split.
  { rewrite (same_fold i_rated) by field_tac.
    rewrite (field_fold i_rated _ (fun e => if hit e then option_map (fun y => (y * 1000)%R) (cell num (snd e) "activepowerrating") else None)) by field_tac. rewrite (same_fold i_rated) by gen_tac.
    apply (latest_hit hit dev conv (fun d x => times_cell num d "activepowerrating" 1000 x) (fun d => option_map (fun y => (y * 1000)%R) (cell num d "activepowerrating"))); [exact HV|]. intros d v. apply times_iff. }
  split.
  { rewrite (same_fold i_reactive) by field_tac.
    rewrite (field_fold i_reactive _ (fun e => if hit e then option_map (fun y => (y * 1000)%R) (cell num (snd e) "reactivepowerrating") else None)) by field_tac. rewrite (same_fold i_reactive) by gen_tac.
    apply (latest_hit hit dev conv (fun d x => times_cell num d "reactivepowerrating" 1000 x) (fun d => option_map (fun y => (y * 1000)%R) (cell num d "reactivepowerrating"))); [exact HV|]. intros d v. apply times_iff. }
  split.
  { rewrite (same_fold i_fall) by field_tac. rewrite (field_fold i_fall _ (fun e => if hit e then cell num (snd e) "powerfalllimit" else None)) by field_tac. rewrite (same_fold i_fall) by gen_tac.
    apply (latest_hit hit dev conv (fun d x => number num d "powerfalllimit" x) (fun d => cell num d "powerfalllimit")); [exact HV|]. intros d v. symmetry. apply cell_iff. }
  split.
  { rewrite (same_fold i_rise) by field_tac. rewrite (field_fold i_rise _ (fun e => if hit e then cell num (snd e) "powerriselimit" else None)) by field_tac. rewrite (same_fold i_rise) by gen_tac.
    apply (latest_hit hit dev conv (fun d x => number num d "powerriselimit" x) (fun d => cell num d "powerriselimit")); [exact HV|]. intros d v. symmetry. apply cell_iff. }
  split.
  { rewrite (field_fold i_control _ (fun e => if hit e then control_cell (snd e) else None)).
    2: { intros a s. destruct (hit a); [|reflexivity]. cbn [set_control i_control]. apply control_before. }
    rewrite (same_fold i_control) by field_tac. rewrite (same_fold i_control) by gen_tac.
    apply (latest_hit hit dev ctl (fun d c => exists t, dget d "controltype" = Some t /\ In (t, c) control_table) control_cell); [exact HL|]. exact control_iff. }
  split.
  { rewrite (value_fold i_var _ (fun e => if hit e then cell num (snd e) "fixedvarinjection" else None)) by field_tac. rewrite (same_fold i_var) by field_tac. rewrite (same_fold i_var) by gen_tac.
    eexists. split; [|reflexivity]. apply (latest_hit hit dev ctl (fun d x => number num d "fixedvarinjection" x) (fun d => cell num d "fixedvarinjection")); [exact HL|]. intros d v. symmetry. apply cell_iff. }
  rewrite (value_fold i_factor _ (fun e => if hit e then option_map (fun y => (y / 100)%R) (cell num (snd e) "powerfactor") else None)) by field_tac. rewrite (same_fold i_factor) by field_tac.
  rewrite (value_fold i_factor (fun s e => if hit e then set_generation num (snd e) s else s) (fun e => if hit e then if is_default (snd e) then option_map (fun y => (y / 100)%R) (cell num (snd e) "powerfactor") else None else None)) by gen_tac.
  eexists. split.
  - eexists. split; [|reflexivity]. apply (latest_hit hit dev dg (fun d x => default_model d /\ times_cell num d "powerfactor" (1 / 100) x) (fun d => if is_default d then option_map (fun y => (y / 100)%R) (cell num d "powerfactor") else None)); [exact HD|].
    intros d v. rewrite default_iff, percent_iff. destruct (is_default d); split; try tauto; try discriminate. intros [E _]. discriminate.
  - eexists. split; [|reflexivity]. apply (latest_hit hit dev ctl (fun d x => times_cell num d "powerfactor" (1 / 100) x) (fun d => option_map (fun y => (y / 100)%R) (cell num d "powerfactor"))); [exact HL|]. intros d v. apply percent_iff.
Qed.
Lemma converter_spec hit dev conv : (forall e, In e conv -> (hit e = true <-> about dev e)) -> converter_says num conv dev (sweep hit (set_converter num) conv converter0).
Proof.
  intros H. unfold converter_says, sweep. split; [|split].
  - rewrite (field_fold c_rated _ (fun e => if hit e then option_map (fun y => (y * 1000)%R) (cell num (snd e) "activepowerrating") else None)) by field_tac.
    apply (latest_hit hit dev conv (fun d x => times_cell num d "activepowerrating" 1000 x) (fun d => option_map (fun y => (y * 1000)%R) (cell num d "activepowerrating"))); [exact H|]. intros d v. apply times_iff.
  - rewrite (field_fold c_reactive _ (fun e => if hit e then option_map (fun y => (y * 1000)%R) (cell num (snd e) "reactivepowerrating") else None)) by field_tac.
    apply (latest_hit hit dev conv (fun d x => times_cell num d "reactivepowerrating" 1000 x) (fun d => option_map (fun y => (y * 1000)%R) (cell num d "reactivepowerrating"))); [exact H|]. intros d v. apply times_iff.
  - rewrite (field_fold c_min_factor _ (fun e => if hit e then option_map (fun y => (y / 100)%R) (cell num (snd e) "minimumpowerfactor") else None)) by field_tac.
    apply (latest_hit hit dev conv (fun d x => times_cell num d "minimumpowerfactor" (1 / 100) x) (fun d => option_map (fun y => (y / 100)%R) (cell num d "minimumpowerfactor"))); [exact H|]. intros d v. apply percent_iff.
Qed.
Lemma sweep_none {S} hit (f : record -> S -> S) tbl s : (forall e, In e tbl -> hit e = false) -> sweep hit f tbl s = s.
Proof. intros H. unfold sweep. induction tbl as [|e tbl IH] in s, H |- *; [reflexivity|]. cbn. rewrite (H e) by now left. apply IH. intros e' I. apply H. now right. Qed.
End Tables.
