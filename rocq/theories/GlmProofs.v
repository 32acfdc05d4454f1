(** Lemmas about the GLM parser. *)
From Verif Require Import Base BaseFacts CsvModel TextModel GlmModel GlmSpec.
From Coq Require Import Lia.
Local Open Scope list_scope.
Local Open Scope string_scope.

(** ** Text *)
Lemma sapp_nil s : s ++ "" = s.
Proof. induction s; cbn; congruence. Qed.
Lemma sapp_assoc a b c : (a ++ b) ++ c = a ++ (b ++ c).
Proof. induction a; cbn; congruence. Qed.

Lemma split_blank a s : blank a -> split_ws (a ++ s) = split_ws s.
Proof. induction a as [|c a IH]; cbn [append split_ws]; intros B; [reflexivity|]. destruct B as [C B]. rewrite C. auto. Qed.
Lemma split_word w r : word w -> breaks r -> split_ws (w ++ r) = w :: split_ws r.
Proof.
  intros [N E] B. induction w as [|c w IH]; [contradiction|]. destruct E as [C E]. apply Bool.negb_true_iff in C.
  cbn [append split_ws]. rewrite C. destruct w as [|d w].
  - cbn [append]. destruct r as [|d r]; [reflexivity|]. cbn in B. rewrite B. reflexivity.
  - cbn [append]. destruct E as [D E']. pose proof D as D'. apply Bool.negb_true_iff in D'. rewrite D'.
    change (String d (w ++ r)) with (String d w ++ r). rewrite IH; [reflexivity|discriminate|split; assumption].
Qed.
Lemma spells_split r ws : spells r ws -> split_ws r = ws.
Proof.
  induction 1 as [a B|a w r ws B W K S IH].
  - rewrite <- (sapp_nil a), split_blank by assumption. reflexivity.
  - rewrite split_blank, split_word by assumption. now rewrite IH.
Qed.

Lemma lstrip_blank a s : blank a -> lstrip (a ++ s) = lstrip s.
Proof. induction a as [|c a IH]; cbn; intros B; [reflexivity|]. destruct B as [C B]. rewrite C. auto. Qed.
Lemma rstrip_blank a : blank a -> rstrip a = "".
Proof. induction a as [|c a IH]; cbn; intros B; [reflexivity|]. destruct B as [C B]. rewrite IH, C by assumption. reflexivity. Qed.
Lemma rstrip_word w x : word w -> rstrip (w ++ x) = w ++ rstrip x.
Proof.
  intros [N E]. induction w as [|c w IH]; [contradiction|]. destruct E as [C E]. apply Bool.negb_true_iff in C. cbn.
  destruct w as [|d w].
  - cbn. destruct (rstrip x); [now rewrite C|reflexivity].
  - rewrite IH by (discriminate || assumption). reflexivity.
Qed.
Lemma rstrip_pre a x : rstrip x <> "" -> rstrip (a ++ x) = a ++ rstrip x.
Proof.
  intros N. induction a as [|c a IH]; cbn; [reflexivity|]. rewrite IH. destruct (a ++ rstrip x) eqn:E; [|reflexivity].
  destruct a; [cbn in E; contradiction|discriminate].
Qed.
Lemma lstrip_word w x : word w -> lstrip (w ++ x) = w ++ x.
Proof. intros [N E]. destruct w as [|c w]; [contradiction|]. destruct E as [C _]. apply Bool.negb_true_iff in C. cbn. now rewrite C. Qed.

(** the stripped row: the first word, and up to the last one *)
Lemma spells_word r ws w : spells r ws -> In w ws -> word w.
Proof. induction 1; cbn; [contradiction|]. intros [<-|I]; auto. Qed.
Lemma rstrip_spells r ws : spells r ws -> spells (rstrip r) ws.
Proof.
  induction 1 as [a B|a w r ws B W K S IH].
  - rewrite rstrip_blank by assumption. constructor. exact I.
  - rewrite rstrip_pre; [|rewrite rstrip_word by assumption; destruct W as [N _]; destruct w; [contradiction|discriminate]].
    rewrite rstrip_word by assumption. constructor; try assumption.
    destruct r as [|c r]; [exact I|]. cbn in K |- *. destruct (rstrip r); [rewrite K; exact I|exact K].
Qed.
Lemma strip_spells r ws : spells r ws -> spells (strip r) ws.
Proof.
  intros S. unfold strip. destruct S as [a B|a w r ws B W K S].
  - rewrite <- (sapp_nil a), lstrip_blank by assumption. constructor. exact I.
  - rewrite lstrip_blank, lstrip_word by assumption. apply rstrip_spells. change (w ++ r) with ("" ++ w ++ r). constructor; auto. exact I.
Qed.
Lemma strip_first r w ws : spells r (w :: ws) -> exists x, strip r = w ++ x /\ breaks x.
Proof.
  intros S. unfold strip. inversion S as [|a w' x ws' B W K S']; subst. rewrite lstrip_blank, lstrip_word, rstrip_word by assumption.
  exists (rstrip x). split; [reflexivity|]. destruct x as [|c x]; [exact I|]. cbn in K |- *. destruct (rstrip x); [rewrite K; exact I|exact K].
Qed.
Lemma last_In {A} (l : list A) d : l <> [] -> In (last l d) l.
Proof. induction l as [|a l IH]; [contradiction|]. intros _. destruct l; [now left|]. right. apply IH. discriminate. Qed.
Lemma rstrip_head c r : rstrip (String c r) = "" \/ exists x, rstrip (String c r) = String c x.
Proof. cbn. destruct (rstrip r); [destruct (is_space c); eauto|eauto]. Qed.
(** the last word ends the stripped row *)
Lemma rstrip_last r ws : spells r ws -> ws <> [] -> exists x, rstrip r = x ++ last ws "" /\ (x = "" \/ exists y c, x = y ++ String c "" /\ is_space c = true).
Proof.
  induction 1 as [a B|a w r ws B W K S IH]; [contradiction|]. intros _.
  rewrite rstrip_pre; [|rewrite rstrip_word by assumption; destruct W as [N _]; destruct w; [contradiction|discriminate]].
  rewrite rstrip_word by assumption. destruct ws as [|w2 ws].
  - inversion S; subst. rewrite rstrip_blank by assumption. cbn [last]. exists a. rewrite sapp_nil. split; [reflexivity|].
    clear - B. induction a as [|c a IH]; [now left|]. destruct B as [C B]. right. destruct (IH B) as [->|(y & d & -> & D)].
    + exists "", c. auto.
    + exists (String c y), d. auto.
  - destruct IH as (x & E & H); [discriminate|]. rewrite E. exists (a ++ w ++ x). split; [now rewrite !sapp_assoc|]. right.
    destruct H as [->|(y & c & -> & C)].
    + exfalso. cbn [append] in E.
      assert (W2 : word (last (w2 :: ws) "")) by (apply (spells_word _ _ _ S), last_In; discriminate).
      destruct W2 as [N2 E2]. destruct (last (w2 :: ws) "") as [|d t]; [contradiction|]. destruct E2 as [D _].
      destruct r as [|c r]; [discriminate E|]. cbn in K. destruct (rstrip_head c r) as [Q|[x Q]]; rewrite Q in E; [discriminate E|].
      injection E as <- _. rewrite K in D. discriminate D.
    + exists (a ++ w ++ y), c. split; [now rewrite !sapp_assoc|assumption].
Qed.
Lemma strip_last r ws : spells r ws -> ws <> [] -> exists x, strip r = x ++ last ws "" /\ (x = "" \/ exists y c, x = y ++ String c "" /\ is_space c = true).
Proof.
  intros S N. destruct (rstrip_last (strip r) ws (strip_spells _ _ S) N) as (x & E & H). exists x. split; [|assumption]. rewrite <- E.
  unfold strip at 2. unfold strip. clear. generalize (lstrip r). intros s. induction s as [|c s IH]; cbn; [reflexivity|].
  destruct (rstrip s) eqn:R; [destruct (is_space c) eqn:C; cbn; now rewrite ?C|]. cbn in IH |- *. rewrite <- IH. reflexivity.
Qed.
Lemma last_is_app c x w : w <> "" -> last_is c (x ++ w) = last_is c w.
Proof. intros N. induction x as [|d x IH]; [reflexivity|]. cbn. destruct (x ++ w) eqn:E; [destruct x; [contradiction|discriminate]|exact IH]. Qed.
Lemma last_is_snoc c x d : last_is c (x ++ String d "") = Ascii.eqb c d.
Proof. rewrite last_is_app by discriminate. reflexivity. Qed.
Lemma drop_last_app x w : w <> "" -> drop_last (x ++ w) = x ++ drop_last w.
Proof. intros N. induction x as [|d x IH]; [reflexivity|]. cbn. destruct (x ++ w) eqn:E; [destruct x; [contradiction|discriminate]|]. now rewrite IH. Qed.
Lemma snoc_cases s : s = "" \/ exists y c, s = y ++ String c "".
Proof. induction s as [|c s [->|(y & d & ->)]]; [now left| |]; right; [exists "", c|exists (String c y), d]; reflexivity. Qed.
Lemma last_is_iff c s : last_is c s = true <-> exists y, s = y ++ String c "".
Proof.
  destruct (snoc_cases s) as [->|(y & d & ->)].
  - split; [discriminate|]. intros [y E]. destruct y; discriminate.
  - rewrite last_is_snoc. split.
    + intros E. apply Ascii.eqb_eq in E. subst. eauto.
    + intros [z E]. apply (f_equal (last_is c)) in E. rewrite !last_is_snoc, Ascii.eqb_refl in E. exact E.
Qed.
Lemma ends_close_iff s : ends_close s = true <-> exists y, s = y ++ "};".
Proof.
  unfold ends_close. rewrite Bool.andb_true_iff, !last_is_iff. split.
  - intros [[y ->] [z E]]. rewrite drop_last_app in E by discriminate. cbn in E. rewrite sapp_nil in E. subst. exists z. now rewrite sapp_assoc.
  - intros [y ->]. change "};" with ("}" ++ ";"). rewrite <- sapp_assoc. split; [eauto|]. rewrite drop_last_app by discriminate. cbn. rewrite sapp_nil. eauto.
Qed.
(** whether a row closes a block is a matter of its last word *)
Lemma closes_row r ws : spells r ws -> ws <> [] -> (last_is "}" (strip r) || ends_close (strip r))%bool = (last_is "}" (last ws "") || ends_close (last ws ""))%bool.
Proof.
  intros S N. destruct (strip_last r ws S N) as (x & E & H). rewrite E.
  assert (W : word (last ws "")) by (apply (spells_word _ _ _ S), last_In; assumption). destruct W as [NW EW].
  rewrite last_is_app by assumption. f_equal. unfold ends_close. rewrite last_is_app by assumption. f_equal. rewrite drop_last_app by assumption.
  destruct (drop_last (last ws "")) as [|d t] eqn:D; [|apply last_is_app; discriminate].
  rewrite sapp_nil. destruct H as [->|(y & c & -> & C)]; [reflexivity|]. rewrite last_is_snoc.
  change (last_is "}" "") with false. apply Ascii.eqb_neq. intros <-. discriminate C.
Qed.
Lemma closing_iff w : (last_is "}" w || ends_close w)%bool = true <-> closing w.
Proof.
  rewrite Bool.orb_true_iff, last_is_iff, ends_close_iff. unfold closing. split.
  - intros [[y E]|[y E]]; exists y; auto.
  - intros [y [E|E]]; eauto.
Qed.
Lemma not_closing w : ~ closing w -> (last_is "}" w || ends_close w)%bool = false.
Proof. intros H. apply Bool.not_true_iff_false. rewrite closing_iff. exact H. Qed.

Lemma begins_word p w x : word w -> breaks x -> every (fun c => negb (is_space c)) p -> begins p (w ++ x) = begins p w.
Proof.
  unfold begins. intros [_ E] B. revert w E. induction p as [|c p IH]; intros w E P; [destruct w, x; reflexivity|].
  destruct P as [C P]. destruct w as [|d w].
  - cbn [append]. destruct x as [|e x]; [reflexivity|]. cbn in B |- *. destruct (Ascii.ascii_dec c e); [|reflexivity]. subst. rewrite B in C. discriminate.
  - destruct E as [D E]. cbn. destruct (Ascii.ascii_dec c d); [|reflexivity]. now apply IH.
Qed.
Lemma begins_iff p s : begins p s = true <-> exists t, s = p ++ t.
Proof.
  unfold begins. revert s. induction p as [|c p IH]; intros s; [split; [exists s; reflexivity|destruct s; reflexivity]|].
  destruct s as [|d s]; cbn; [split; [discriminate|intros [t E]; discriminate]|].
  destruct (Ascii.ascii_dec c d) as [->|N].
  - rewrite IH. split; intros [t E]; exists t; congruence.
  - split; [discriminate|]. intros [t E]. congruence.
Qed.
Lemma comment_row r ws : spells r ws -> begins "//" (strip r) = begins "//" (hd "" ws).
Proof.
  intros S. destruct ws as [|w ws].
  - inversion S; subst. unfold strip. rewrite <- (sapp_nil r), lstrip_blank by assumption. reflexivity.
  - destruct (strip_first r w ws S) as (x & E & B). rewrite E. cbn [hd]. apply begins_word; [apply (spells_word _ _ _ S); now left|assumption|cbn; auto].
Qed.
Lemma no_comment_begins w : no_comment w -> begins "//" w = false.
Proof. intros H. apply Bool.not_true_iff_false. rewrite begins_iff. intros [t E]. exact (H t E). Qed.
Lemma keyword_eqb w : ~ keyword w -> String.eqb w "object" = false /\ String.eqb w "schedule" = false.
Proof. unfold keyword. intros N. split; apply String.eqb_neq; tauto. Qed.

(** ** Rows *)
Section Rows.
Variable schema : string -> option (list string).
Variable cron : string -> res bool.
Notation step := (step schema cron).
Definition ready (cnt : Z) (objs : dict obj) (scheds : dict string) : pst := mkPst None false None cnt false objs scheds.
Definition inside (nest : bool) (o : obj) (cnt : Z) (objs : dict obj) (scheds : dict string) : pst := mkPst (Some o) nest None cnt false objs scheds.
Definition opened := inside false.

Lemma step_words st r ws : spells r ws -> begins "//" (hd "" ws) = false ->
  step st r =
    if String.eqb (hd "" ws) "object" then header schema st ws
    else if String.eqb (hd "" ws) "schedule" then
      match p_sched st with
      | None => do n <- of_opt EIndex (nth_error ws 1); Ok (mkPst (p_curr st) (p_nest st) (Some n) 1 (p_found st) (p_objs st) (p_scheds st))
      | Some _ => Ok st
      end
    else
      do st <- match p_curr st with Some o => in_object schema st o (strip r) ws | None => Ok st end;
      match p_sched st with Some n => in_schedule cron st n (strip r) | None => Ok st end.
Proof. intros S B. unfold GlmModel.step. rewrite (comment_row r ws S), B, (spells_split _ _ (strip_spells _ _ S)). reflexivity. Qed.
Lemma step_comment st r ws : spells r ws -> begins "//" (hd "" ws) = true -> step st r = Ok st.
Proof. intros S B. unfold GlmModel.step. rewrite (comment_row r ws S), B. reflexivity. Qed.
Lemma comment_cases ws : comment ws -> ws = [] \/ begins "//" (hd "" ws) = true.
Proof. intros [->|(s & r & ->)]; [now left|]. right. cbn [hd]. apply begins_iff. eauto. Qed.
Lemma strip_empty r : spells r [] -> strip r = "".
Proof. intros S. inversion S; subst. unfold strip. rewrite <- (sapp_nil r), lstrip_blank by assumption. reflexivity. Qed.

Lemma split_on_none s : without_colon s -> split_on ":" s = [s].
Proof.
  induction s as [|c s IH]; [reflexivity|]. intros [C E]. cbn. apply Bool.negb_true_iff in C. rewrite C, IH by assumption. reflexivity.
Qed.
Lemma split_on_app s t : without_colon s -> split_on ":" (s ++ ":" ++ t) = s :: split_on ":" t.
Proof.
  induction s as [|c s IH]; [reflexivity|]. intros [C E]. cbn [append split_on]. apply Bool.negb_true_iff in C. rewrite C.
  change (s ++ String ":" t) with (s ++ ":" ++ t). rewrite IH by assumption. reflexivity.
Qed.
Lemma ignored_plain c : In c not_read -> without_colon c.
Proof. intros I. cbn in I. repeat destruct I as [<-|I]; [cbn; repeat split ..|contradiction]. Qed.

Lemma step_outside cnt objs scheds r : outside_row r -> step (ready cnt objs scheds) r = Ok (ready cnt objs scheds).
Proof.
  intros (ws & S & [C|[(w & rest & -> & N)|(c & rest & tag & -> & I & T)]]).
  - destruct (comment_cases ws C) as [->|B]; [|now apply step_comment with ws]. rewrite (step_words _ _ _ S) by reflexivity. reflexivity.
  - destruct (begins "//" w) eqn:B; [now apply step_comment with (w :: rest)|]. rewrite (step_words _ _ _ S) by exact B. cbn [hd].
    destruct (keyword_eqb w N) as [-> ->]. reflexivity.
  - rewrite (step_words _ _ _ S) by reflexivity. cbn [hd String.eqb]. unfold header. cbn [p_curr ready nth_error of_opt bind].
    assert (H : hd "" (split_on ":" tag) = c).
    { destruct T as [->|[i ->]]; [now rewrite (split_on_none c (ignored_plain c I))|]. now rewrite (split_on_app c i (ignored_plain c I)). }
    rewrite H. change (In c ignored) in I. apply smem_In in I. rewrite I. reflexivity.
Qed.

Definition headed (b : block) : obj := mkObj (b_cls b) (match b_id b with None => [] | Some i => [("name", b_cls b ++ ":" ++ i)] end).
Lemma step_header cnt objs scheds r b l : header_row r (b_cls b) (b_id b) -> schema (b_cls b) = Some l -> In "name" l -> ~ In (b_cls b) not_read ->
  step (ready cnt objs scheds) r = Ok (opened (headed b) cnt objs scheds).
Proof.
  intros (tag & rest & S & W & T) SC NL NI. rewrite (step_words _ _ _ S) by reflexivity. cbn [hd String.eqb]. unfold header. cbn [p_curr ready nth_error of_opt bind].
  assert (IG : smem (b_cls b) ignored = false) by (apply Bool.not_true_iff_false; rewrite smem_In; exact NI).
  unfold headed. destruct (b_id b) as [i|].
  - destruct T as [Wi ->]. rewrite (split_on_app _ _ W), (split_on_none _ Wi). cbn [hd nth_error]. rewrite IG, SC. unfold setitem. cbn [o_cls].
    rewrite SC. apply smem_In in NL. rewrite NL. reflexivity.
  - subst tag. rewrite (split_on_none _ W). cbn [hd nth_error]. rewrite IG, SC. reflexivity.
Qed.
Lemma step_quiet nest o cnt objs scheds r : quiet_row r -> step (inside nest o cnt objs scheds) r = Ok (inside nest o cnt objs scheds).
Proof.
  intros (ws & S & [C|(w & -> & N & NC)]).
  - destruct (comment_cases ws C) as [->|B]; [|now apply step_comment with ws]. rewrite (step_words _ _ _ S) by reflexivity.
    cbn [hd String.eqb p_curr inside]. rewrite (strip_empty r S). reflexivity.
  - destruct (begins "//" w) eqn:B; [now apply step_comment with [w]|]. rewrite (step_words _ _ _ S) by exact B. cbn [hd].
    destruct (keyword_eqb w N) as [-> ->]. cbn [p_curr inside]. unfold in_object. cbn [property bind].
    rewrite (closes_row _ _ S) by discriminate. cbn [last]. rewrite (not_closing w NC). reflexivity.
Qed.
Lemma step_property nest c d cnt objs scheds r k v l : property_row r k v -> schema c = Some l -> In k l ->
  step (inside nest (mkObj c d) cnt objs scheds) r = Ok (inside nest (mkObj c (dset d k v)) cnt objs scheds).
Proof.
  intros (v' & rest & S & N & NC & V & NCL) SC KL. rewrite (step_words _ _ _ S) by (apply no_comment_begins; exact NC). cbn [hd].
  destruct (keyword_eqb k N) as [-> ->]. cbn [p_curr inside]. unfold in_object. cbn [property]. unfold setitem. cbn [o_cls o_props]. rewrite SC.
  apply smem_In in KL. rewrite KL. cbn [bind].
  assert (E : (if last_is ";" v' then drop_last v' else v') = v).
  { destruct V as [->|[-> V]].
    - change ";" with (String ";" "") at 2. rewrite last_is_snoc. cbn [Ascii.eqb Bool.eqb]. rewrite drop_last_app by discriminate. cbn. apply sapp_nil.
    - destruct (last_is ";" v) eqn:L; [|reflexivity]. apply last_is_iff in L. destruct L as [y L]. exfalso. exact (V y L). }
  rewrite E, (closes_row _ _ S) by discriminate. change (last (k :: v' :: rest) "") with (last (v' :: rest) "").
  rewrite (not_closing _ NCL). reflexivity.
Qed.
Lemma step_close o cnt objs scheds r : close_row r ->
  step (opened o cnt objs scheds) r = do os <- close schema objs o; Ok (ready cnt os scheds).
Proof.
  intros H. assert (G : forall w, spells r [w] -> closing w -> ~ keyword w -> begins "//" w = false ->
    step (opened o cnt objs scheds) r = do os <- close schema objs o; Ok (ready cnt os scheds)).
  { intros w S C N B. rewrite (step_words _ _ _ S) by exact B. cbn [hd]. destruct (keyword_eqb w N) as [-> ->]. cbn [p_curr opened inside]. unfold in_object. cbn [property bind].
    rewrite (closes_row _ _ S) by discriminate. cbn [last]. apply closing_iff in C. rewrite C. unfold opened, inside, ready. cbn [p_nest p_objs p_sched p_cnt p_found p_scheds].
    destruct (close schema objs o); reflexivity. }
  destruct H as [S|S]; (apply (G _ S); [exists ""; cbn; tauto|intros [Q|Q]; discriminate Q|reflexivity]).
Qed.
Lemma step_nested o cnt objs scheds r cls id : header_row r cls id -> step (opened o cnt objs scheds) r = Ok (inside true o cnt objs scheds).
Proof. intros (tag & rest & S & _). rewrite (step_words _ _ _ S) by reflexivity. reflexivity. Qed.
Lemma step_close_nested o cnt objs scheds r : close_row r -> step (inside true o cnt objs scheds) r = Ok (opened o cnt objs scheds).
Proof.
  intros H. assert (G : forall w, spells r [w] -> closing w -> ~ keyword w -> begins "//" w = false -> step (inside true o cnt objs scheds) r = Ok (opened o cnt objs scheds)).
  { intros w S C N B. rewrite (step_words _ _ _ S) by exact B. cbn [hd]. destruct (keyword_eqb w N) as [-> ->]. cbn [p_curr inside]. unfold in_object. cbn [property bind].
    rewrite (closes_row _ _ S) by discriminate. cbn [last]. apply closing_iff in C. rewrite C. reflexivity. }
  destruct H as [S|S]; (apply (G _ S); [exists ""; cbn; tauto|intros [Q|Q]; discriminate Q|reflexivity]).
Qed.
(** a schedule's row *)
Definition reading (n : string) (found : bool) (objs : dict obj) (scheds : dict string) : pst := mkPst None false (Some n) 1 found objs scheds.
Lemma step_schedule cnt objs scheds r n rest : spells r ("schedule" :: n :: rest) -> step (ready cnt objs scheds) r = Ok (reading n false objs scheds).
Proof. intros S. rewrite (step_words _ _ _ S) by reflexivity. reflexivity. Qed.

Fixpoint dputs (d : dict string) (ps : list (string * string)) : dict string := match ps with [] => d | (k, v) :: r => dputs (dset d k v) r end.
Lemma dget_dputs ps : forall d k, dget (dputs d ps) k = match last_value k ps with Some v => Some v | None => dget d k end.
Proof.
  induction ps as [|[k' v] ps IH]; intros d k; cbn [dputs last_value]; [reflexivity|]. rewrite IH. destruct (last_value k ps); [reflexivity|].
  rewrite dget_dset. now destruct (String.eqb k' k).
Qed.
Lemma dputs_app p q : forall d, dputs (dputs d p) q = dputs d (p ++ q)%list.
Proof. induction p as [|[k v] p IH]; intros d; cbn; [reflexivity|apply IH]. Qed.
Lemma fold_body nest c l cnt objs scheds rows ps : body rows ps -> schema c = Some l -> (forall k v, In (k, v) ps -> In k l) ->
  forall d, foldM step rows (inside nest (mkObj c d) cnt objs scheds) = Ok (inside nest (mkObj c (dputs d ps)) cnt objs scheds).
Proof.
  intros B SC. induction B as [|r rows ps Q B IH|r k v rows ps Q B IH]; intros KL d; cbn [foldM dputs]; [reflexivity| |].
  - rewrite step_quiet by assumption. cbn [bind]. now apply IH.
  - rewrite (step_property nest c d cnt objs scheds r k v l) by (try assumption; apply (KL k v); now left). cbn [bind]. apply IH. intros k' v' I. apply (KL k' v'). now right.
Qed.

(** ** Schedules *)
Lemma lstrip_c_first c s : (forall t, s <> String c t) -> lstrip_c c s = s.
Proof. destruct s as [|d s]; [reflexivity|]. intros H. cbn. destruct (Ascii.eqb_spec c d); [subst; exfalso; exact (H s eq_refl)|reflexivity]. Qed.
Lemma rstrip_c_keep c x d : c <> d -> rstrip_c c (x ++ String d "") = x ++ String d "".
Proof.
  intros N. induction x as [|e x IH]; cbn [append rstrip_c].
  - destruct (Ascii.eqb_spec c d); [contradiction|reflexivity].
  - rewrite IH. destruct x; reflexivity.
Qed.
Lemma rstrip_c_drop c x : rstrip_c c (x ++ String c "") = rstrip_c c x.
Proof.
  induction x as [|e x IH]; cbn [append rstrip_c].
  - rewrite Ascii.eqb_refl. reflexivity.
  - rewrite IH. reflexivity.
Qed.
Lemma rstrip_last_prefix r ws v t : spells r (ws ++ [(v ++ t)%string])%list -> word v -> exists x, rstrip r = x ++ v ++ t /\ spells (x ++ v) (ws ++ [v])%list.
Proof.
  intros S W. remember (ws ++ [(v ++ t)%string])%list as l eqn:El. revert ws El. induction S as [a B|a w r l B W' K S IH]; intros ws El; [destruct ws; discriminate|].
  rewrite rstrip_pre; [|rewrite rstrip_word by assumption; destruct W' as [N _]; destruct w; [contradiction|discriminate]].
  rewrite rstrip_word by assumption. destruct ws as [|w2 ws]; cbn in El.
  - injection El as -> ->. inversion S; subst. rewrite rstrip_blank by assumption. exists a. rewrite sapp_nil. split; [reflexivity|].
    rewrite <- (sapp_nil v) at 1. cbn [app]. constructor; try assumption; [exact Logic.I|constructor; exact Logic.I].
  - injection El as -> El. destruct (IH ws El) as (x & E & SP). rewrite E. exists (a ++ w2 ++ x). split; [now rewrite !sapp_assoc|].
    rewrite !sapp_assoc. cbn [app]. constructor; try assumption.
    destruct W as [NV EV]. destruct r as [|c r]; [destruct x; [destruct v; [contradiction|discriminate E]|discriminate E]|].
    destruct (rstrip_head c r) as [Q|[y Q]]; rewrite Q in E.
    + destruct x; [destruct v; [contradiction|discriminate E]|discriminate E].
    + cbn in K. destruct x as [|d x]; [destruct v as [|d v]; [contradiction|]|]; cbn in E |- *; injection E as <- _; exact K.
Qed.
Lemma rstrip_idem s : rstrip (rstrip s) = rstrip s.
Proof.
  induction s as [|c s IH]; cbn; [reflexivity|]. destruct (rstrip s) eqn:R; [destruct (is_space c) eqn:C; cbn; now rewrite ?C|]. cbn in IH |- *. rewrite IH. reflexivity.
Qed.
Lemma strip_idem r : rstrip (strip r) = strip r.
Proof. apply rstrip_idem. Qed.
Lemma strip_last_prefix r ws v t : spells r (ws ++ [(v ++ t)%string])%list -> word v -> exists x, strip r = x ++ v ++ t /\ spells (x ++ v) (ws ++ [v])%list.
Proof. intros S W. rewrite <- (strip_idem r). apply rstrip_last_prefix; [|assumption]. now apply strip_spells. Qed.
(** without the semicolon *)
Lemma strip_semi r ws v : spells r (ws ++ [v])%list \/ spells r (ws ++ [(v ++ ";")%string])%list -> v <> "" -> (forall s, v <> s ++ ";") ->
  (forall s, hd "" (ws ++ [v])%list <> ";" ++ s) -> exists x, strip_c ";" (strip r) = x ++ v /\ spells (x ++ v) (ws ++ [v])%list /\ exists w y, x ++ v = w ++ y /\ word w /\ w = hd "" (ws ++ [v])%list.
Proof.
  intros H NV V F.
  assert (W : word v).
  { destruct H as [S|S].
    - apply (spells_word _ _ _ S). apply in_app_iff. right. now left.
    - assert (W : word (v ++ ";")) by (apply (spells_word _ _ _ S); apply in_app_iff; right; now left). destruct W as [_ E]. split; [assumption|].
      clear - E. induction v as [|c v IH]; [exact Logic.I|]. destruct E as [C E]. split; auto. }
  assert (G : exists x t, strip r = x ++ v ++ t /\ spells (x ++ v) (ws ++ [v])%list /\ (t = "" \/ t = ";")).
  { destruct H as [S|S].
    - rewrite <- (sapp_nil v) in S at 1. destruct (strip_last_prefix _ _ _ _ S W) as (x & E & SP). exists x, "". auto.
    - destruct (strip_last_prefix _ _ _ _ S W) as (x & E & SP). exists x, ";". auto. }
  destruct G as (x & t & E & SP & T). exists x.
  assert (FW : exists w y, x ++ v = w ++ y /\ word w /\ w = hd "" (ws ++ [v])%list).
  { assert (ST : strip (x ++ v) = x ++ v).
    { unfold strip. assert (L : lstrip (x ++ v) = x ++ v).
      { assert (LS : lstrip (strip r) = strip r).
        { destruct H as [S|S]; (destruct (ws ++ _)%list as [|w l] eqn:Q in S; [destruct ws; discriminate|]);
          destruct (strip_first _ _ _ S) as (z & Z & _); rewrite Z; apply lstrip_word; apply (spells_word _ _ _ S); now left. }
        rewrite E in LS. rewrite <- sapp_assoc in LS. destruct (x ++ v) as [|c z] eqn:XV; [reflexivity|]. cbn in LS |- *.
        destruct (is_space c) eqn:C; [|reflexivity]. exfalso. apply (f_equal String.length) in LS.
        assert (LE : forall s, (String.length (lstrip s) <= String.length s)%nat).
        { intros s0. induction s0 as [|e s0 IH]; cbn; [lia|]. destruct (is_space e); cbn; lia. }
        specialize (LE (z ++ t)). cbn in LS. lia. }
      rewrite L. destruct (snoc_cases v) as [->|(y & c & ->)]; [contradiction|].
      rewrite rstrip_pre by (destruct W as [_ EW]; rewrite <- (sapp_nil (y ++ String c "")), rstrip_word by (split; assumption); destruct y; discriminate).
      f_equal. rewrite <- (sapp_nil (y ++ String c "")) at 1. rewrite rstrip_word by assumption. apply sapp_nil. }
    destruct (ws ++ [v])%list as [|w l] eqn:Q; [destruct ws; discriminate|]. destruct (strip_first _ _ _ SP) as (z & Z & _). rewrite ST in Z.
    exists w, z. split; [assumption|]. split; [|reflexivity]. apply (spells_word _ _ _ SP). now left. }
  split; [|split; assumption]. unfold strip_c. destruct FW as (w & y & XV & WW & HW).
  rewrite E. rewrite lstrip_c_first.
  - destruct (snoc_cases v) as [->|(z & c & ->)]; [contradiction|].
    assert (NC : (";"%char <> c)) by (intros <-; exact (V z eq_refl)).
    destruct T as [->| ->].
    + rewrite sapp_nil, <- sapp_assoc. now apply rstrip_c_keep.
    + rewrite <- sapp_assoc. rewrite rstrip_c_drop, <- sapp_assoc. now apply rstrip_c_keep.
  - intros s Q. rewrite <- sapp_assoc, XV in Q. destruct WW as [NW _]. destruct w as [|c w]; [contradiction|]. injection Q as -> _. exact (F w (eq_sym HW)).
Qed.

Lemma in_schedule_row n found objs scheds r ws v :
  spells r (ws ++ [v])%list \/ spells r (ws ++ [(v ++ ";")%string])%list -> v <> "" -> (forall s, v <> s ++ ";") -> (forall s, v <> s ++ "}") ->
  (forall s, hd "" (ws ++ [v])%list <> ";" ++ s) -> (forall s, hd "" (ws ++ [v])%list <> "{" ++ s) ->
  in_schedule cron (reading n found objs scheds) n (strip r) =
    if (Nat.leb 5 (length ws) && negb found)%bool then
      do hit <- cron (String.concat " " ws);
      Ok (if hit then reading n true objs (dset scheds n v) else reading n found objs scheds)
    else Ok (reading n found objs scheds).
Proof.
  intros H NV V1 V2 F1 F2. destruct (strip_semi r ws v H NV V1 F1) as (x & E & SP & w & y & XV & WW & HW).
  unfold in_schedule. rewrite E, (spells_split _ _ SP). rewrite app_length, removelast_last, last_last. cbn [length].
  replace (Nat.ltb 5 (length ws + 1)) with (Nat.leb 5 (length ws)) by (apply Bool.eq_iff_eq_true; rewrite Nat.leb_le, Nat.ltb_lt; lia).
  assert (L : last_is "}" (x ++ v) = false).
  { rewrite last_is_app by assumption. apply Bool.not_true_iff_false. rewrite last_is_iff. intros [z Z]. exact (V2 z Z). }
  assert (FC : forall st, p_cnt st = 1%Z -> match x ++ v with
    | "" => Ok st
    | String c _ =>
      let cnt := (p_cnt st - (if last_is "}" (x ++ v) then 1 else 0) + (if Ascii.eqb c "{" then 1 else 0))%Z in
      if Z.eqb cnt 0 then Ok (mkPst (p_curr st) (p_nest st) None cnt false (p_objs st) (p_scheds st))
      else Ok (mkPst (p_curr st) (p_nest st) (p_sched st) cnt (p_found st) (p_objs st) (p_scheds st))
    end = Ok st).
  { intros st C. destruct (x ++ v) as [|c z] eqn:Q; [reflexivity|]. rewrite L, C. destruct WW as [NW _]. destruct w as [|c' w]; [contradiction|].
    injection XV as <- _. assert (N : Ascii.eqb c "{" = false) by (apply Ascii.eqb_neq; intros ->; exact (F2 w (eq_sym HW))). rewrite N.
    cbn. destruct st; cbn in *; subst; reflexivity. }
  cbn [p_found reading]. destruct (Nat.leb 5 (length ws) && negb found)%bool; cbn [bind].
  - destruct (cron (String.concat " " ws)) as [[|]|e]; cbn [bind]; [| |reflexivity]; apply FC; reflexivity.
  - apply FC. reflexivity.
Qed.
Lemma step_reading n found objs scheds r ws : spells r ws -> begins "//" (hd "" ws) = false -> ~ keyword (hd "" ws) ->
  step (reading n found objs scheds) r = in_schedule cron (reading n found objs scheds) n (strip r).
Proof. intros S B N. rewrite (step_words _ _ _ S B). destruct (keyword_eqb _ N) as [-> ->]. reflexivity. Qed.
Lemma hd_app_ne {A} (d : A) l x : l <> [] -> hd d (l ++ x)%list = hd d l.
Proof. destruct l; [contradiction|reflexivity]. Qed.
Lemma step_quiet_schedule n found objs scheds r : quiet_in_schedule r -> step (reading n found objs scheds) r = Ok (reading n found objs scheds).
Proof.
  intros (ws & S & [C|(LEN & NK & F2 & F1 & LW)]).
  - destruct (comment_cases ws C) as [->|B]; [|now apply step_comment with ws]. rewrite (step_words _ _ _ S) by reflexivity.
    cbn [hd String.eqb p_curr reading bind p_sched]. rewrite (strip_empty r S). unfold in_schedule. cbn. destruct found; reflexivity.
  - destruct (begins "//" (hd "" ws)) eqn:B; [now apply step_comment with ws|]. rewrite (step_reading _ _ _ _ _ ws) by assumption.
    destruct (exists_last (l := ws)) as (l & v & ->); [intros ->; cbn in LEN; lia|]. rewrite last_last in LW.
    assert (NV : v <> "") by (destruct (spells_word _ _ v S) as [N _]; [apply in_app_iff; right; now left|assumption]).
    rewrite (in_schedule_row n found objs scheds r l v); auto; try (intros s; apply LW).
    rewrite app_length in LEN. cbn in LEN. assert (L5 : Nat.leb 5 (length l) = false) by (apply Nat.leb_gt; lia). rewrite L5. reflexivity.
Qed.
Lemma step_cron n found objs scheds r ts v hit : cron_row r ts v -> cron (String.concat " " ts) = Ok hit ->
  step (reading n found objs scheds) r = Ok (if (hit && negb found)%bool then reading n true objs (dset scheds n v) else reading n found objs scheds).
Proof.
  intros (LEN & NK & NC & F2 & F1 & NV & V & S) C.
  assert (NE : ts <> []) by (intros ->; cbn in LEN; lia).
  assert (ST : step (reading n found objs scheds) r = in_schedule cron (reading n found objs scheds) n (strip r)).
  { destruct S as [S|S]; (apply (step_reading _ _ _ _ _ _ S); rewrite hd_app_ne by assumption; [now apply no_comment_begins|assumption]). }
  rewrite ST, (in_schedule_row n found objs scheds r ts v); auto; try (intros s; apply V); try (intros s; rewrite hd_app_ne by assumption; auto).
  assert (L5 : Nat.leb 5 (length ts) = true) by now apply Nat.leb_le. rewrite L5, C. destruct hit, found; reflexivity.
Qed.
Lemma strip_one r w : spells r [w] -> strip r = w.
Proof.
  intros S. inversion S as [|a w' b ws' B W K S']; subst. inversion S'; subst. unfold strip.
  rewrite lstrip_blank, lstrip_word, rstrip_word, rstrip_blank by assumption. apply sapp_nil.
Qed.
Lemma step_end_schedule n found objs scheds r : close_row r -> step (reading n found objs scheds) r = Ok (ready 0 objs scheds).
Proof.
  intros H. assert (G : forall w, spells r [w] -> w = "}" \/ w = "};" -> step (reading n found objs scheds) r = Ok (ready 0 objs scheds)).
  { intros w S W. rewrite (step_reading _ _ _ _ _ [w] S); [|destruct W as [->| ->]; reflexivity|destruct W as [->| ->]; intros [Q|Q]; discriminate Q].
    rewrite (strip_one r w S).
    destruct W as [->| ->]; unfold in_schedule; cbn; destruct found; reflexivity. }
  destruct H as [S|S]; apply (G _ S); auto.
Qed.
Lemma fold_sched fits n objs rows es : sched_body rows es -> (forall ts v, In (ts, v) es -> cron (String.concat " " ts) = Ok (fits ts)) ->
  forall found scheds, foldM step rows (reading n found objs scheds) =
    Ok (match (if found then None else first_hit fits es) with Some v => reading n true objs (dset scheds n v) | None => reading n found objs scheds end).
Proof.
  intros B. induction B as [|r rows l Q B IH|r ts v rows l Q B IH]; intros C found scheds; cbn [foldM first_hit].
  - destruct found; reflexivity.
  - rewrite step_quiet_schedule by assumption. cbn [bind]. now apply IH.
  - rewrite (step_cron n found objs scheds r ts v (fits ts)) by (try assumption; apply (C ts v); now left). cbn [bind].
    assert (C' : forall ts0 v0, In (ts0, v0) l -> cron (String.concat " " ts0) = Ok (fits ts0)) by (intros ts0 v0 I; apply (C ts0 v0); now right).
    destruct (fits ts), found; cbn [andb negb]; rewrite (IH C'); reflexivity.
Qed.

(** ** Objects *)
Lemma headed_props b k : dget (dputs (o_props (headed b)) (b_props b)) k = last_value k (given b).
Proof.
  rewrite dget_dputs. unfold headed, given. destruct (b_id b) as [i|]; cbn [o_props last_value dget].
  - rewrite String.eqb_sym. destruct (last_value k (b_props b)); reflexivity.
  - destruct (last_value k (b_props b)); reflexivity.
Qed.
Lemma close_readable objs b : readable schema b -> exists n o,
  block_name b = Some n /\ close schema objs (mkObj (b_cls b) (dputs (o_props (headed b)) (b_props b))) = Ok (dset objs n o) /\ expected b n o.
Proof.
  intros (l & SC & NL & KL & NB & _). unfold close, getitem. cbn [o_props]. rewrite !headed_props. unfold block_name in *.
  destruct (last_value "name" (given b)) as [n|] eqn:N.
  - exists n. eexists. split; [reflexivity|]. split; [reflexivity|]. split; [reflexivity|]. intros k. cbn [o_props]. rewrite headed_props.
    destruct (String.eqb_spec k "name") as [->|_]; [assumption|reflexivity].
  - destruct (last_value "from" (given b)) as [f|] eqn:F; [|contradiction]. destruct (last_value "to" (given b)) as [t|] eqn:T; [|contradiction].
    cbn [of_opt bind]. unfold setitem. cbn [o_cls o_props]. rewrite SC. apply smem_In in NL. rewrite NL. cbn [bind].
    eexists. eexists. split; [reflexivity|]. split; [reflexivity|]. split; [reflexivity|]. intros k. cbn [o_props]. rewrite dget_dset, headed_props, String.eqb_sym. reflexivity.
Qed.
Lemma fold_object cnt objs scheds rows b : object_rows rows b -> readable schema b -> exists n o,
  block_name b = Some n /\ expected b n o /\ foldM step rows (ready cnt objs scheds) = Ok (ready cnt (dset objs n o) scheds).
Proof.
  intros (h & l & c & -> & H & B & C) R. destruct (close_readable objs b R) as (n & o & N & E & X). exists n, o. split; [assumption|]. split; [assumption|].
  destruct R as (ks & SC & NL & KL & NB & NI). cbn [foldM]. rewrite (step_header cnt objs scheds h b ks) by assumption. cbn [bind]. rewrite foldM_app.
  replace (headed b) with (mkObj (b_cls b) (o_props (headed b))) by reflexivity. unfold opened. rewrite (fold_body false (b_cls b) ks cnt objs scheds l (b_props b) B SC KL). fold opened. cbn [foldM].
  rewrite step_close by assumption. rewrite E. reflexivity.
Qed.

(** ** Files *)
Definition holds (fits : list string -> bool) (l : list item) (objs objs' : dict obj) (scheds scheds' : dict string) : Prop :=
  (forall n, match last_block n l with Some b => exists o, dget objs' n = Some o /\ expected b n o | None => dget objs' n = dget objs n end) /\
  (forall n, dget scheds' n = match last_sched fits n l with Some v => Some v | None => dget scheds n end).
Lemma fold_glm fits rows l : glm rows l ->
  (forall b, In (Obj b) l -> readable schema b) -> (forall n es ts v, In (Sched n es) l -> In (ts, v) es -> cron (String.concat " " ts) = Ok (fits ts)) ->
  forall cnt objs scheds, exists cnt' objs' scheds', foldM step rows (ready cnt objs scheds) = Ok (ready cnt' objs' scheds') /\ holds fits l objs objs' scheds scheds'.
Proof.
  intros G. induction G as [|r rows l O G IH|a b rows l O G IH|a n es rows l O G IH]; intros HR HC cnt objs scheds.
  - exists cnt, objs, scheds. split; [reflexivity|]. split; intros; reflexivity.
  - cbn [foldM]. rewrite step_outside by assumption. cbn [bind]. now apply IH.
  - destruct (fold_object cnt objs scheds a b O (HR b (or_introl eq_refl))) as (m & o & BN & X & E).
    destruct (IH (fun b' I => HR b' (or_intror I)) (fun n es ts v I => HC n es ts v (or_intror I)) cnt (dset objs m o) scheds) as (cnt' & objs' & scheds' & F & H1 & H2).
    exists cnt', objs', scheds'. split; [rewrite foldM_app, E; exact F|]. split; [|exact H2].
    intros k. specialize (H1 k). cbn [last_block]. destruct (last_block k l); [assumption|]. rewrite BN. rewrite dget_dset in H1.
    destruct (String.eqb_spec k m) as [->|N]; [rewrite String.eqb_refl in H1; eauto|]. apply String.eqb_neq in N. rewrite String.eqb_sym in N. rewrite N in H1. exact H1.
  - destruct O as (h & bd & c & rest & -> & S & B & C).
    assert (E : foldM step (h :: (bd ++ [c])%list) (ready cnt objs scheds) = Ok (ready 0 objs (match first_hit fits es with Some v => dset scheds n v | None => scheds end))).
    { cbn [foldM]. rewrite (step_schedule cnt objs scheds h n rest S). cbn [bind]. rewrite foldM_app.
      rewrite (fold_sched fits n objs bd es B) by (intros ts v I; apply (HC n es ts v); [now left|assumption]).
      destruct (first_hit fits es); cbn [foldM]; rewrite step_end_schedule by assumption; reflexivity. }
    destruct (IH (fun b' I => HR b' (or_intror I)) (fun n es ts v I => HC n es ts v (or_intror I)) 0%Z objs (match first_hit fits es with Some v => dset scheds n v | None => scheds end)) as (cnt' & objs' & scheds' & F & H1 & H2).
    exists cnt', objs', scheds'. split; [rewrite foldM_app, E; exact F|]. split; [exact H1|].
    intros k. rewrite H2. cbn [last_sched]. destruct (last_sched fits k l); [reflexivity|].
    destruct (first_hit fits es); [rewrite dget_dset, String.eqb_sym; now destruct (String.eqb k n)|now destruct (String.eqb k n)].
Qed.
End Rows.

Lemma strip_quotes q : every (fun c => negb (Ascii.eqb c """")) q -> strip_c """" ("""" ++ q ++ """") = q.
Proof.
  intros E. unfold strip_c. change (lstrip_c """" ("""" ++ q ++ """")) with (lstrip_c """" (q ++ """")).
  assert (L : rstrip_c """" (q ++ """") = q).
  { rewrite (rstrip_c_drop """" q). destruct (snoc_cases q) as [->|(y & c & ->)]; [reflexivity|].
    apply rstrip_c_keep. intros <-. clear - E. induction y as [|d y IH]; [destruct E as [E _]; discriminate E|destruct E as [_ E]; auto]. }
  destruct q as [|c q].
  - reflexivity.
  - cbn [append lstrip_c]. destruct E as [C E]. apply Bool.negb_true_iff in C. apply Ascii.eqb_neq in C.
    destruct (Ascii.eqb_spec """" c) as [Q|_]; [subst; contradiction|exact L].
Qed.
Lemma includes_spec files rows inc : included files rows inc -> includes files rows = Ok inc.
Proof.
  intros H. unfold includes. assert (G : forall acc, foldM (fun acc row =>
    if begins "#include" row then
      do loc <- of_opt EIndex (nth_error (split_ws row) 1);
      do r <- files (strip_c """" loc);
      Ok (acc ++ r)%list
    else Ok acc) rows acc = Ok (acc ++ inc)%list); [|apply G].
  induction H as [|r rows inc N H IH|r q rest l rows inc S B Q F H IH]; intros acc; cbn [foldM]; [now rewrite app_nil_r| |].
  - assert (E : begins "#include" r = false) by (apply Bool.not_true_iff_false; rewrite begins_iff; intros [t T]; exact (N t T)). rewrite E. apply IH.
  - apply begins_iff in B. rewrite B, (spells_split _ _ S). cbn [nth_error of_opt bind]. rewrite strip_quotes by assumption. rewrite F. cbn [bind]. rewrite IH.
    now rewrite app_assoc.
Qed.
