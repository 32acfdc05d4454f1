(** Lemmas about switch files. *)
From Verif Require Import Base BaseFacts StoreModel NetworkModel NetworkSpec NetworkDown NetworkTop CsvModel CsvSpec CsvProofs TextModel SwitchModel SwitchSpec.
Local Open Scope string_scope.
Local Open Scope nat_scope.
Local Open Scope list_scope.

(** ** Text *)
Lemma sapp_assoc a b c : ((a ++ b) ++ c = a ++ b ++ c)%string.
Proof. induction a as [|x a IH]; cbn; [reflexivity|]. f_equal. exact IH. Qed.
Lemma sapp_nil a : (a ++ "" = a)%string.
Proof. induction a as [|x a IH]; cbn; [reflexivity|]. f_equal. exact IH. Qed.
Lemma solid_app a b : solid a -> solid b -> solid (a ++ b)%string.
Proof. induction a as [|x a IH]; cbn; [auto|]. intros [H1 H2] H. auto. Qed.
Lemma solid_free c s : is_space c = true -> solid s -> free c s.
Proof. intros Hc. induction s as [|x s IH]; cbn; [auto|]. intros [H1 H2]. split; [intros ->; congruence|auto]. Qed.
Lemma split_cons c x s : free c x -> split_on c (x ++ String c s)%string = x :: split_on c s.
Proof.
  induction x as [|a x IH]; cbn [append split_on]; [rewrite Ascii.eqb_refl; reflexivity|]. intros [N F]. rewrite (IH F).
  destruct (Ascii.eqb_spec a c) as [->|]; [congruence|reflexivity].
Qed.
Lemma lstrip_solid s t : s <> "" -> solid s -> lstrip (s ++ t)%string = (s ++ t)%string.
Proof. destruct s as [|c s]; [congruence|]. intros _ [H _]. cbn. rewrite H. reflexivity. Qed.
Lemma rstrip_solid s : solid s -> rstrip s = s.
Proof. induction s as [|c s IH]; [reflexivity|]. intros [H1 H2]. cbn [rstrip]. rewrite (IH H2). destruct s; [rewrite H1|]; reflexivity. Qed.
Lemma rstrip_end s e : solid s -> e = "" \/ e = newline -> rstrip (s ++ e)%string = s.
Proof.
  intros H E. induction s as [|c s IH]; cbn [append].
  - destruct E as [-> | ->]; reflexivity.
  - destruct H as [H1 H2]. cbn [rstrip]. rewrite (IH H2). destruct s; [rewrite H1|]; reflexivity.
Qed.
Lemma strip_end s e : solid s -> e = "" \/ e = newline -> strip (s ++ e)%string = s.
Proof.
  intros H E. unfold strip. destruct s as [|c s]; [destruct E as [-> | ->]; reflexivity|]. rewrite lstrip_solid; [|discriminate|exact H]. apply rstrip_end; assumption.
Qed.
Lemma strip_solid s : solid s -> strip s = s.
Proof. intros H. rewrite <- (sapp_nil s) at 1. apply strip_end; auto. Qed.

(** ** Tokens *)
Fixpoint toks (x : string) (l : list (string * string)) (e : string) : list string :=
  match l with [] => [(x ++ e)%string] | (k, v) :: t => x :: toks (k ++ "=" ++ v)%string t e end.
Lemma split_toks e : free " " e -> forall l x, free " " x -> (forall k v, In (k, v) l -> free " " k /\ free " " v) ->
  split_on " " (x ++ render_props l ++ e)%string = toks x l e.
Proof.
  intros Fe. induction l as [|[k v] l IH]; intros x Fx Fl.
  - cbn [render_props append toks]. apply split_free. apply free_app; assumption.
  - destruct (Fl k v (or_introl eq_refl)) as [Fk Fv].
    assert (E : (x ++ render_props ((k, v) :: l) ++ e)%string = (x ++ String " " ((k ++ "=" ++ v) ++ render_props l ++ e))%string) by (cbn [render_props append]; rewrite !sapp_assoc; cbn [append]; rewrite !sapp_assoc; reflexivity).
    rewrite E, split_cons by exact Fx. cbn [toks]. f_equal. apply IH; [|intros k' v' H; apply Fl; right; exact H].
    apply free_app; [exact Fk|]. cbn. split; [discriminate|exact Fv].
Qed.

Fixpoint vals (l : list (string * string)) (e : string) : list string :=
  match l with [] => [] | [(_, v)] => [(v ++ e)%string] | (_, v) :: t => v :: vals t e end.
Lemma toks_items e : free "=" e -> forall l k v, (forall k' v', In (k', v') ((k, v) :: l) -> free "=" k' /\ free "=" v') ->
  mapM (fun x => item (split_on "=" x) 0) (toks (k ++ "=" ++ v)%string l e) = Ok (map fst ((k, v) :: l)) /\
  mapM (fun x => item (split_on "=" x) 1) (toks (k ++ "=" ++ v)%string l e) = Ok (vals ((k, v) :: l) e).
Proof.
  intros Fe. induction l as [|[k' v'] l IH]; intros k v F; destruct (F k v (or_introl eq_refl)) as [Fk Fv]; cbn [toks mapM].
  - assert (Q : ((k ++ "=" ++ v) ++ e)%string = (k ++ String "=" (v ++ e))%string) by (rewrite sapp_assoc; reflexivity).
    rewrite Q, split_cons, split_free by (try apply free_app; assumption). split; reflexivity.
  - change (k ++ "=" ++ v)%string with (k ++ String "=" v)%string. rewrite split_cons, split_free by assumption. cbn [item nth_error of_opt].
    destruct (IH k' v' (fun a b H => F a b (or_intror H))) as [I1 I2]. rewrite I1, I2. split; reflexivity.
Qed.

(** ** The dictionary of a line *)
Definition later (l : list (string * string)) (key : string) (v : string) : Prop :=
  exists a k b, l = a ++ (k, v) :: b /\ lower k = key /\ forall k' v', In (k', v') b -> lower k' <> key.
Lemma later_cons k v l key w : later ((k, v) :: l) key w <-> later l key w \/ (k = k /\ lower k = key /\ v = w /\ forall k' v', In (k', v') l -> lower k' <> key).
Proof.
  split.
  - intros (a & k0 & b & E & Hk & Hb). destruct a as [|x a]; cbn in E.
    + injection E as -> -> ->. right. auto.
    + injection E as _ ->. left. exists a, k0, b. auto.
  - intros [(a & k0 & b & -> & Hk & Hb)|(_ & Hk & -> & Hb)]; [exists ((k, v) :: a), k0, b; auto|exists [], k, l; auto].
Qed.
Lemma dict_spec e : e = "" \/ e = newline -> forall l d key, (forall k v, In (k, v) l -> solid k /\ solid v) ->
  forall w, dget (fold_left (fun d kv => dset d (lower (strip (fst kv))) (strip (snd kv))) (combine (map fst l) (vals l e)) d) key = Some w <->
    later l key w \/ ((forall k v, In (k, v) l -> lower k <> key) /\ dget d key = Some w).
Proof.
  intros He. induction l as [|[k v] l IH]; intros d key S w.
  - cbn. split; [intros H; right; split; [intros k v []|exact H]|]. intros [(a & k & b & E & _)|[_ H]]; [destruct a; discriminate|exact H].
  - destruct (S k v (or_introl eq_refl)) as [Sk Sv].
    assert (Step : exists v', vals ((k, v) :: l) e = v' :: vals l e /\ strip v' = v).
    { destruct l as [|p l]; [exists (v ++ e)%string; split; [reflexivity|apply strip_end; assumption]|exists v; split; [reflexivity|apply strip_solid; exact Sv]]. }
    destruct Step as (v' & -> & Ev). cbn [map fst combine fold_left snd]. rewrite (strip_solid k Sk), Ev.
    rewrite IH by (intros k' v'' H; apply S; right; exact H). rewrite later_cons. rewrite dget_dset. destruct (String.eqb_spec (lower k) key) as [Q|Q].
    + split.
      * intros [H|[Hn H]]; [left; left; exact H|]. injection H as <-. left. right. auto.
      * intros [[H|(_ & _ & <- & Hn)]|[Hn H]]; [left; exact H| |exfalso; apply (Hn k v); [left; reflexivity|exact Q]].
        right. split; [exact Hn|]. reflexivity.
    + split.
      * intros [H|[Hn H]]; [left; left; exact H|]. right. split; [|exact H]. intros k' v'' [E|H']; [injection E as <- <-; exact Q|eapply Hn; eauto].
      * intros [[H|(_ & Hk & _)]|[Hn H]]; [left; exact H|contradiction|]. right. split; [|exact H]. intros k' v'' H'. apply (Hn k' v''). right. exact H'.
Qed.

Lemma parse_render r : wf_dss r -> exists data, parse_line (render_dss r) = Ok (lower (d_name r), data) /\ forall key v, dget data key = Some v <-> says r key v.
Proof.
  intros (Sc & (Ss & Fs) & (Sn & Fn) & Sp & He). unfold parse_line, render_dss.
  assert (Fe : forall c, c <> "010"%char -> free c (d_end r)) by (intros c Nc; destruct He as [-> | ->]; cbn; auto).
  assert (Sb : forall x, solid x -> free " " x) by (intros x; apply solid_free; reflexivity).
  change (d_cmd r ++ " " ++ d_class r ++ "." ++ d_name r ++ render_props (d_props r) ++ d_end r)%string
    with (d_cmd r ++ String " " (d_class r ++ String "." (d_name r ++ render_props (d_props r) ++ d_end r)))%string.
  rewrite split_cons by (apply Sb; exact Sc).
  assert (Q : (d_class r ++ String "." (d_name r ++ render_props (d_props r) ++ d_end r) = (d_class r ++ String "." (d_name r)) ++ render_props (d_props r) ++ d_end r)%string) by (rewrite sapp_assoc; reflexivity).
  rewrite Q. rewrite split_toks; [|apply Fe; discriminate| |intros k v H; destruct (Sp k v H) as [[A _] [B _]]; split; apply Sb; assumption].
  2:{ apply free_app; [apply Sb; exact Ss|]. cbn. split; [discriminate|apply Sb; exact Sn]. }
  assert (Vs : forall k v, In (k, v) (d_props r) -> solid k /\ solid v) by (intros k v H; destruct (Sp k v H) as [[A _] [B _]]; auto).
  assert (Says : forall key v, says r key v <-> later (d_props r) key v) by reflexivity.
  destruct (d_props r) as [|[k v] l].
  - cbn [toks item nth_error of_opt bind skipn mapM]. rewrite sapp_assoc. cbn [append]. rewrite split_cons, split_free by (try apply free_app; try apply Fe; try discriminate; assumption).
    cbn [item nth_error of_opt bind]. rewrite (strip_end _ _ Sn He). eexists. split; [reflexivity|]. intros key v. rewrite Says. cbn. split; [discriminate|].
    intros (a & k & b & E & _). destruct a; discriminate.
  - cbn [toks item nth_error of_opt bind skipn]. rewrite split_cons, split_free by assumption. cbn [item nth_error of_opt bind]. rewrite (strip_solid _ Sn).
    destruct (toks_items (d_end r)) with (l := l) (k := k) (v := v) as [I1 I2]; [apply Fe; discriminate|intros k' v' H; destruct (Sp k' v' H) as [[_ A] [_ B]]; auto|].
    rewrite I1, I2. cbn [bind]. eexists. split; [reflexivity|]. intros key w. rewrite Says. rewrite dict_spec by assumption. split; [intros [H|[_ H]]; [exact H|discriminate]|auto].
Qed.

(** ** Effects *)
Lemma set_open_nth es ws name b q : nth_error (set_open es ws name b) q =
  match lookup es (Some name) with Some p => if Nat.eqb p q then option_map (opened b) (nth_error ws q) else nth_error ws q | None => nth_error ws q end.
Proof.
  unfold set_open. destruct (lookup es (Some name)) as [p|]; [|reflexivity]. revert p q. induction ws as [|w ws IH]; intros [|p] [|q]; cbn; try reflexivity; [|apply IH].
  destruct (Nat.eqb p q); reflexivity.
Qed.
Lemma set_open_length es ws name b : length (set_open es ws name b) = length ws.
Proof. unfold set_open. destruct (lookup es (Some name)) as [p|]; [|reflexivity]. revert p. induction ws as [|w ws IH]; intros [|p]; cbn; auto. Qed.

Lemma says_fun r key v v' : says r key v -> says r key v' -> v = v'.
Proof.
  intros (a & k & b & E & Hk & Hb) (a' & k' & b' & E' & Hk' & Hb'). rewrite E in E'. clear E. revert a' E'. induction a as [|x a IH]; intros [|x' a'] E'; cbn in E'.
  - congruence.
  - injection E' as <- ->. exfalso. apply (Hb k' v'); [apply in_app_iff; right; left; reflexivity|exact Hk'].
  - injection E' as -> <-. exfalso. apply (Hb' k v); [apply in_app_iff; right; left; reflexivity|exact Hk].
  - injection E' as _ E'. exact (IH _ E').
Qed.

Lemma apply_spec es ws r data : (forall key v, dget data key = Some v <-> says r key v) ->
  length (apply_line es ws (lower (d_name r)) data) = length ws /\
  forall p, (~ switches es r p -> nth_error (apply_line es ws (lower (d_name r)) data) p = nth_error ws p) /\
    (forall b, switches es r p -> (b = true <-> says r "r1" "1e11") -> nth_error (apply_line es ws (lower (d_name r)) data) p = option_map (opened b) (nth_error ws p)).
Proof.
  intros D. unfold apply_line. destruct (dget data "switch") as [v|] eqn:Sw.
  - apply D in Sw. destruct (String.eqb v "y" || String.eqb v "yes" || String.eqb v "true") eqn:Y.
    + split; [apply set_open_length|]. intros p. rewrite set_open_nth.
      assert (SL : switch_line r). { exists v. split; [exact Sw|]. apply orb_prop in Y. destruct Y as [Y|Y]; [apply orb_prop in Y; destruct Y as [Y|Y]|]; apply String.eqb_eq in Y; subst; cbn; auto. }
      split.
      * intros N. destruct (lookup es (Some (lower (d_name r)))) as [q|] eqn:L; [|reflexivity]. destruct (Nat.eqb_spec q p) as [->|]; [|reflexivity]. exfalso. apply N. split; [exact SL|]. apply lookup_spec. exact L.
      * intros b [_ Bp] Hb. apply lookup_spec in Bp. rewrite Bp, Nat.eqb_refl. f_equal. f_equal.
        assert (Hd : dget data "r1" = Some "1e11" <-> says r "r1" "1e11") by apply D. destruct (dget data "r1") as [x|] eqn:R.
        { destruct (String.eqb_spec x "1e11") as [->|Nx]; [destruct b; [reflexivity|]; exfalso; assert (false = true) by (apply Hb, Hd; reflexivity); discriminate|].
          destruct b; [|reflexivity]. exfalso. assert (Q : says r "r1" "1e11") by (apply Hb; reflexivity). apply Hd in Q. congruence. }
        { destruct b; [|reflexivity]. exfalso. assert (Q : says r "r1" "1e11") by (apply Hb; reflexivity). apply Hd in Q. discriminate. }
    + split; [reflexivity|]. intros p. split; [reflexivity|]. intros b [(v' & Sv & Hv) _] _. exfalso. assert (v' = v) by (eapply says_fun; eauto). subst v'.
      destruct Hv as [<-|[<-|[<-|[]]]]; discriminate.
  - split; [reflexivity|]. intros p. split; [reflexivity|]. intros b [(v & Sv & _) _] _. exfalso. apply D in Sv. congruence.
Qed.

Lemma run_app es a b ws : open_close_switches es (a ++ b) ws = match open_close_switches es a ws with (ws', None) => open_close_switches es b ws' | x => x end.
Proof.
  revert ws. induction a as [|l a IH]; intros ws; cbn [open_close_switches app]; [reflexivity|]. destruct (parse_line l) as [[name data]|e]; [apply IH|reflexivity].
Qed.

Lemma switches_dec es r p : wf_dss r -> {switches es r p} + {~ switches es r p}.
Proof.
  intros W. unfold switches. assert (D1 : {bears es (lower (d_name r)) p} + {~ bears es (lower (d_name r)) p}).
  { destruct (lookup es (Some (lower (d_name r)))) as [q|] eqn:L.
    - destruct (Nat.eq_dec q p) as [->|N]; [left; apply lookup_spec; exact L|right; intros H; apply lookup_spec in H; congruence].
    - right. intros H. apply lookup_spec in H. congruence. }
  assert (D2 : {switch_line r} + {~ switch_line r}).
  { destruct (parse_line (render_dss r)) as [[nm data]|e] eqn:P.
    - assert (D : forall key v, dget data key = Some v <-> says r key v) by (destruct (parse_render r W) as (data' & P' & D); rewrite P in P'; injection P' as _ ->; exact D).
      destruct (dget data "switch") as [v|] eqn:S.
      + destruct (in_dec string_dec v ["y"; "yes"; "true"]) as [I|I]; [left; exists v; split; [apply D; exact S|exact I]|].
        right. intros (v' & Sv & Hv). apply D in Sv. congruence.
      + right. intros (v' & Sv & Hv). apply D in Sv. congruence.
    - exfalso. destruct (parse_render r W) as (data' & P' & D). congruence. }
  destruct D1, D2; [left; auto|right; tauto|right; tauto|right; tauto].
Qed.

Lemma switch_effect es ws rs : (forall r, In r rs -> wf_dss r) ->
  exists ws', open_close_switches es (map render_dss rs) ws = (ws', None) /\ length ws' = length ws /\
    (forall p, (forall r, In r rs -> ~ switches es r p) -> nth_error ws' p = nth_error ws p) /\
    (forall p a r b, rs = a ++ r :: b -> switches es r p -> (forall r', In r' b -> ~ switches es r' p) ->
       (says r "r1" "1e11" -> nth_error ws' p = option_map (opened true) (nth_error ws p)) /\
       (~ says r "r1" "1e11" -> nth_error ws' p = option_map (opened false) (nth_error ws p))).
Proof.
  induction rs as [|r rs IH] using rev_ind; intros W.
  - exists ws. split; [reflexivity|]. split; [reflexivity|]. split; [reflexivity|]. intros p a r b E. destruct a; discriminate.
  - destruct IH as (ws1 & E1 & L1 & N1 & S1); [intros q Hq; apply W; apply in_app_iff; left; exact Hq|].
    assert (Wr : wf_dss r) by (apply W; apply in_app_iff; right; left; reflexivity). destruct (parse_render r Wr) as (data & P & D).
    destruct (apply_spec es ws1 r data D) as [L2 A]. exists (apply_line es ws1 (lower (d_name r)) data). rewrite map_app, run_app, E1. cbn [map open_close_switches]. rewrite P.
    split; [reflexivity|]. split; [congruence|].
    assert (Shape : forall p, (exists b, nth_error ws1 p = option_map (opened b) (nth_error ws p)) \/ nth_error ws1 p = nth_error ws p).
    { intros p. assert (Dec : (forall q, In q rs -> ~ switches es q p) \/ exists a q b, rs = a ++ q :: b /\ switches es q p /\ forall q', In q' b -> ~ switches es q' p).
      { clear - W. induction rs as [|q rs IHr]; [left; intros q []|]. destruct IHr as [H|(a & q0 & b & -> & H)].
        - intros x Hx. apply W. right. exact Hx.
        - destruct (switches_dec es q p) as [Y|Nq]; [apply W; left; reflexivity| |].
          + right. exists [], q, rs. auto.
          + left. intros x [<-|Hx]; auto.
        - right. exists (q :: a), q0, b. auto. }
      destruct Dec as [H|(a & q & b & E & Sq & Nb)]; [right; apply N1; exact H|]. left.
      assert (R : says q "r1" "1e11" \/ ~ says q "r1" "1e11").
      { assert (Wq : wf_dss q) by (apply W; apply in_app_iff; left; rewrite E; apply in_app_iff; right; left; reflexivity). destruct (parse_render q Wq) as (dq & _ & Dq).
        destruct (dget dq "r1") as [x|] eqn:R; [destruct (string_dec x "1e11") as [->|Nx]; [left; apply Dq; exact R|]|]; right; intros Q; apply Dq in Q; congruence. }
      destruct (S1 p a q b E Sq Nb) as [T1 T2]. destruct R as [R|R]; [exists true; apply T1; exact R|exists false; apply T2; exact R]. }
    assert (Opp : forall b p, option_map (opened b) (nth_error ws1 p) = option_map (opened b) (nth_error ws p)).
    { intros b p. destruct (Shape p) as [[b' ->]| ->]; [|reflexivity]. destruct (nth_error ws p) as [[[l|]|]|]; cbn; try reflexivity. do 3 f_equal. rewrite map_map. reflexivity. }
    split.
    + intros p H. rewrite (proj1 (A p)); [apply N1; intros q Hq; apply H; apply in_app_iff; left; exact Hq|]. apply H. apply in_app_iff. right. left. reflexivity.
    + intros p a q b E Sq Nb. destruct b as [|z b _] using rev_ind.
      * apply app_inj_tail in E. destruct E as [-> <-]. split; intros R.
        { rewrite (proj2 (A p) true Sq); [apply Opp|]. split; auto. }
        { rewrite (proj2 (A p) false Sq); [apply Opp|]. split; [discriminate|intros; contradiction]. }
      * change (q :: b ++ [z]) with ((q :: b) ++ [z]) in E. rewrite app_assoc in E. apply app_inj_tail in E. destruct E as [E <-].
        rewrite (proj1 (A p)) by (apply Nb; apply in_app_iff; right; left; reflexivity). apply (S1 p a q b E Sq). intros q' Hq. apply Nb. apply in_app_iff. left. exact Hq.
Qed.

(** Lines that stop the run. *)
Lemma parse_bad line : free " " line \/ (exists c o x, line = (c ++ String " " (o ++ x))%string /\ free " " c /\ free " " o /\ free "." o /\ (x = "" \/ exists y, x = String " " y)) ->
  parse_line line = Err EIndex.
Proof.
  unfold parse_line. intros [F|(c & o & x & -> & Fc & Fo & Fd & Hx)].
  - rewrite split_free by exact F. reflexivity.
  - rewrite split_cons by exact Fc. assert (S : exists r, split_on " " (o ++ x)%string = o :: r).
    { destruct Hx as [-> |(y & ->)]; [rewrite sapp_nil, split_free by exact Fo; eauto|rewrite split_cons by exact Fo; eauto]. }
    destruct S as [r ->]. cbn [item nth_error of_opt bind]. rewrite split_free by exact Fd. reflexivity.
Qed.
Lemma parse_bad_token r t : wf_dss r -> d_end r = "" -> solid t -> free "=" t -> parse_line (render_dss r ++ String " " t)%string = Err EIndex.
Proof.
  intros (Sc & (Ss & Fs) & (Sn & Fn) & Sp & He) E0 St Ft. unfold parse_line.
  assert (Sb : forall x, solid x -> free " " x) by (intros x; apply solid_free; reflexivity).
  rewrite split_snoc by (apply Sb; exact St). unfold render_dss. rewrite E0.
  change (d_cmd r ++ " " ++ d_class r ++ "." ++ d_name r ++ render_props (d_props r) ++ "")%string
    with (d_cmd r ++ String " " (d_class r ++ String "." (d_name r ++ render_props (d_props r) ++ "")))%string.
  rewrite split_cons by (apply Sb; exact Sc).
  assert (Q : (d_class r ++ String "." (d_name r ++ render_props (d_props r) ++ "") = (d_class r ++ String "." (d_name r)) ++ render_props (d_props r) ++ "")%string) by (rewrite sapp_assoc; reflexivity).
  rewrite Q. rewrite split_toks; [|exact I| |intros k v H; destruct (Sp k v H) as [[A _] [B _]]; split; apply Sb; assumption].
  2:{ apply free_app; [apply Sb; exact Ss|]. cbn. split; [discriminate|apply Sb; exact Sn]. }
  assert (Bad : forall l, exists e, mapM (fun x => item (split_on "=" x) 1) (l ++ [t]) = Err e /\ ((forall x, In x l -> exists y, item (split_on "=" x) 1 = Ok y) -> e = EIndex)).
  { induction l as [|x l (e & I1 & I2)]; cbn [mapM app]; [rewrite split_free by exact Ft; cbn; eauto|].
    destruct (item (split_on "=" x) 1) as [y|e'] eqn:X; [|exists e'; split; [reflexivity|]; intros H; destruct (H x (or_introl eq_refl)); congruence]. rewrite I1. exists e. split; [reflexivity|].
    intros H. apply I2. intros z Hz. apply H. right. exact Hz. }
  assert (Ks : forall l, exists ks, mapM (fun x => item (split_on "=" x) 0) l = Ok ks).
  { induction l as [|x l [ks IHk]]; cbn [mapM]; [eauto|]. destruct (split_on "=" x) eqn:X; [exfalso; exact (split_nonnil _ _ X)|]. cbn [item nth_error of_opt]. rewrite IHk. eauto. }
  destruct (d_props r) as [|[k v] l].
  - cbn [toks app item nth_error of_opt bind skipn]. rewrite sapp_nil. rewrite split_cons, split_free by assumption. cbn [item nth_error of_opt bind].
    destruct (Ks [t]) as [ks ->]. cbn [bind]. destruct (Bad []) as (e & Be & Ie). cbn [app] in Be. rewrite Be. cbn [bind]. rewrite Ie; [reflexivity|intros x []].
  - cbn [toks app item nth_error of_opt bind skipn]. rewrite split_cons, split_free by assumption. cbn [item nth_error of_opt bind].
    destruct (Ks (toks (k ++ "=" ++ v)%string l "" ++ [t])) as [ks ->]. cbn [bind]. destruct (Bad (toks (k ++ "=" ++ v)%string l "")) as (e & Be & Ie). rewrite Be. cbn [bind]. rewrite Ie; [reflexivity|].
    destruct (toks_items "" I l k v) as [_ I2]; [intros k' v' H; destruct (Sp k' v' H) as [[_ A] [_ B]]; auto|].
    clear - I2. revert I2. generalize (vals ((k, v) :: l) ""), (toks (k ++ "=" ++ v)%string l ""). intros vs ts. revert vs. induction ts as [|x ts IH]; intros vs E z Hz; [destruct Hz|].
    cbn [mapM] in E. destruct (item (split_on "=" x) 1) as [y|] eqn:X; [|discriminate]. destruct (mapM _ ts) as [ys|] eqn:M; [|discriminate]. destruct Hz as [<-|Hz]; [eauto|]. eapply IH; eauto.
Qed.

Lemma switch_malformed es ws rs line rest ws1 : open_close_switches es (map render_dss rs) ws = (ws1, None) -> parse_line line = Err EIndex ->
  open_close_switches es (map render_dss rs ++ line :: rest) ws = (ws1, Some EIndex).
Proof. intros E P. rewrite run_app, E. cbn [open_close_switches]. rewrite P. reflexivity. Qed.
