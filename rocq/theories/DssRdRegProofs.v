(** Lemmas about the regulators of the OpenDSS reader. *)
From Verif Require Import Base BaseFacts CsvModel TextModel DssNameModel DssTextModel DssTextSpec DssTextProofs DssLoadSpec DssNodeSpec DssNodeProofs DssRdLoadModel DssRdLoadSpec DssRdLoadProofs DssRdCapSpec DssRdTransModel DssRdTransSpec DssRdTransProofs DssRdRegModel DssRdRegSpec.
From Coq Require Import Reals Lra Lia.
Local Open Scope string_scope.
Local Open Scope nat_scope.
Local Open Scope list_scope.

Lemma dot_prefix c s : String.prefix "." (String c s) = Ascii.eqb "." c.
Proof. cbn [String.prefix]. destruct (Ascii.ascii_dec "." c) as [<-|N]; [now destruct s|]. symmetry. now apply Ascii.eqb_neq. Qed.
Lemma pieces_plain n : ~ has "." n -> pieces (Ascii.eqb ".") n = [n].
Proof.
  induction n as [|c n IH]; intros H; [reflexivity|]. cbn [has] in H. rewrite dot_prefix in H. cbn [pieces]. destruct (Ascii.eqb "." c); [destruct H; now left|]. rewrite IH; [reflexivity|]. intros X. apply H. now right.
Qed.
Lemma pieces_dot c n : ~ has "." c -> ~ has "." n -> pieces (Ascii.eqb ".") (c ++ "." ++ n)%string = [c; n].
Proof.
  intros H N. induction c as [|x c IH]; [cbn [append pieces Ascii.eqb Bool.eqb]; cbn; now rewrite pieces_plain|].
  cbn [has] in H. rewrite dot_prefix in H. change ((String x c ++ "." ++ n)%string) with (String x (c ++ "." ++ n)%string). cbn [pieces]. destruct (Ascii.eqb "." x); [destruct H; now left|]. rewrite IH; [reflexivity|]. intros X. apply H. now right.
Qed.
Lemma find_first {A} (name : A -> string) n l x : first_named name n l x -> find (fun y => String.eqb (name y) n) l = Some x.
Proof. induction 1 as [x l <-|y l x N F IH]; cbn [find]; [now rewrite String.eqb_refl|]. destruct (String.eqb_spec (name y) n); [contradiction|exact IH]. Qed.
Lemma first_find {A} (name : A -> string) n l : match find (fun y => String.eqb (name y) n) l with Some x => first_named name n l x | None => forall y, In y l -> name y <> n end.
Proof.
  induction l as [|y l IH]; [intros y []|]. cbn [find]. destruct (String.eqb_spec (name y) n) as [E|E]; [now constructor|].
  destruct (find (fun y => String.eqb (name y) n) l); [now constructor|]. intros z [<-|Z]; [exact E|now apply IH].
Qed.
Lemma int_states int_ d k : ints int_ d k (int_of int_ d k).
Proof.
  destruct (int_of int_ d k) as [z|] eqn:E; unfold int_of, text_of in E; destruct (d k) as [[s|l]|] eqn:D; try discriminate; cbn [ints].
  - exists s. auto.
  - intros z (s' & D' & E'). rewrite D in D'. injection D' as <-. congruence.
  - intros z (s' & D' & _). congruence.
  - intros z (s' & D' & _). congruence.
Qed.

Definition nodes_of (ns : list string) : list string := match ns with [] => ["1"; "2"; "3"] | _ => ns end.
Lemma nodes_phases ns : (forall m, In m ns -> ~ In m ["A"; "B"; "C"]) -> phases_at ns (map r_phase_str (nodes_of ns)).
Proof.
  intros H. unfold phases_at, nodes_of. destruct ns as [|m0 ns0]; [left; split; reflexivity|]. right. split; [discriminate|]. revert H. generalize (m0 :: ns0). induction l as [|m l IH]; intros H; [constructor|]. cbn [map].
  constructor; [apply node_mapped, H; now left|apply IH; intros m' M'; apply H; now right].
Qed.

Section Reg.
Variable int_ : string -> option Z.
Variable num : string -> option R.
Variable source : string.
Variable transformers : list (string * data).
Variable read : list rtrans.

(** a winding as it is read before its type is known *)
Definition raw (t d : data) (ns : list string) (i : nat) (w : rwinding) : Prop :=
  rw_conn w = match item t "conns" i with Ok c => Some (if String.eqb (lower c) "wye" then "Y" else if String.eqb (lower c) "delta" then "D" else c) | Err _ => None end /\
  rw_va w = option_map (fun v => v * 1000)%R (float_item num t "kVAs" i) /\ rw_emerg w = option_map (fun v => v * 1000)%R (float_of num t "emerghkVA") /\
  rw_kv w = option_map (fun v => v * 1000)%R (float_item num t "kVs" i) /\ rw_res w = float_item num t "%Rs" i /\
  map rw_phase (rw_phases w) = map r_phase_str (nodes_of ns) /\
  forall p, In p (rw_phases w) -> (t "taps" <> None -> states_at num t "taps" i (rw_tap p)) /\ (t "taps" = None -> states num d "TapNum" (rw_tap p)) /\ rw_r p = float_of num d "R" /\ rw_x p = float_of num d "X".

Lemma reg_pw_ok t d i m : (t "taps" = None \/ exists r, number_at num t "taps" i r) -> (t "taps" = None -> d "TapNum" = None \/ exists r, number num d "TapNum" r) ->
  exists p, reg_pw num t d i m = Ok p /\ rw_phase p = r_phase_str m /\ (t "taps" <> None -> states_at num t "taps" i (rw_tap p)) /\ (t "taps" = None -> states num d "TapNum" (rw_tap p)) /\ rw_r p = float_of num d "R" /\ rw_x p = float_of num d "X".
Proof.
  intros T N. unfold reg_pw, present. destruct (t "taps") as [v|] eqn:Et.
  - destruct T as [T|(r & l & s & D & Nt & S)]; [discriminate|]. rewrite (item_ok _ _ _ _ _ D Nt). cbn [bind]. rewrite S. cbn [of_opt bind]. eexists. split; [reflexivity|]. cbn. split; [reflexivity|]. split; [intros _; exists l, s; auto|]. split; [discriminate|]. auto.
  - destruct (N eq_refl) as [X|(r & s & X & S)]; rewrite X.
    + cbn [bind]. eexists. split; [reflexivity|]. cbn. split; [reflexivity|]. split; [congruence|]. split; [intros _ r (s & D & _); congruence|]. auto.
    + unfold must, text_of. rewrite X. cbn [of_opt bind]. rewrite S. cbn [of_opt bind]. eexists. split; [reflexivity|]. cbn. split; [reflexivity|]. split; [congruence|]. split; [intros _; exists s; auto|]. auto.
Qed.
Lemma reg_windings_ok t d bs conns kvs : stands int_ num t bs conns kvs -> (t "taps" = None -> d "TapNum" = None \/ exists r, number num d "TapNum" r) ->
  forall ws s, (forall i, In i ws -> i < length bs) -> exists b ph rws, reg_windings num t d s ws = Ok (b, ph, rws) /\ Forall2 (fun i w => exists bi ns, nth_error bs i = Some (bi, ns) /\ raw t d ns i w) ws rws /\
    (forall pre i, ws = pre ++ [i] -> exists bi ns, nth_error bs i = Some (bi, ns) /\ ph = Some (nodes_of ns)).
Proof.
  intros [Ct Wn (ts & Db & Fb) Nd Cn Kv Tp] Tn. assert (Ltb : length ts = length bs) by exact (F2_length _ _ _ Fb).
  induction ws as [|i ws IH]; intros s Hi; [exists (fst s), (snd s), []; split; [reflexivity|]; split; [constructor|]; intros [|? ?] i; discriminate|].
  cbn [reg_windings]. assert (Li : i < length bs) by (apply Hi; now left). destruct (nth_error ts i) as [x|] eqn:Ti; [|apply nth_error_None in Ti; lia]. destruct (F2_nth_l _ _ _ Fb i x Ti) as ([bi ns] & Bi & Tt).
  assert (Pw : forall l, exists ps, mapM (reg_pw num t d i) l = Ok ps /\ map rw_phase ps = map r_phase_str l /\ forall p, In p ps -> (t "taps" <> None -> states_at num t "taps" i (rw_tap p)) /\ (t "taps" = None -> states num d "TapNum" (rw_tap p)) /\ rw_r p = float_of num d "R" /\ rw_x p = float_of num d "X").
  { assert (Ti' : t "taps" = None \/ exists r, number_at num t "taps" i r) by (destruct Tp as [Tp|Tp]; [now left|right; apply Tp, Li]).
    induction l as [|m l (ps & E & M & Q)]; [exists []; split; [reflexivity|]; split; [reflexivity|intros p []]|]. cbn [mapM]. destruct (reg_pw_ok t d i m Ti' Tn) as (p & -> & P1 & P2 & P3 & P4 & P5). cbn [bind]. rewrite E. cbn [bind].
    exists (p :: ps). split; [reflexivity|]. split; [cbn [map]; now rewrite P1, M|]. intros q [<-|I]; [auto|apply Q, I]. }
  unfold reg_winding. rewrite (item_ok _ _ _ _ _ Db Ti). assert (present t "buses" = true) as -> by (unfold present; now rewrite Db). cbn [of_opt bind fst snd]. rewrite (parts_of _ _ _ Tt). cbn [snd]. fold (nodes_of ns).
  destruct (Pw (nodes_of ns)) as (ps & -> & M & Q). cbn [bind fst snd].
  match goal with |- context [reg_windings num t d ?s' ws] => destruct (IH s' ltac:(intros j J; apply Hi; now right)) as (b & ph & rws & E & F & L) end. rewrite E. cbn [bind fst snd].
  eexists b, ph, _. split; [reflexivity|]. split.
  - constructor; [|exact F]. exists bi, ns. split; [exact Bi|]. unfold raw. cbn. repeat (split; [reflexivity|]). split; [exact M|exact Q].
  - intros [|a pre] j Ej; [|injection Ej as -> Ej; exact (L pre j Ej)]. injection Ej as -> ->. cbn [reg_windings] in E. injection E as _ <- _. exists bi, ns. split; [exact Bi|reflexivity].
Qed.
Lemma F2_seq {A} (P : nat -> A -> Prop) : forall n k l, Forall2 P (seq k n) l -> length l = n /\ forall i x, nth_error l i = Some x -> P (k + i) x.
Proof.
  induction n as [|n IH]; intros k l F; inversion F as [|? x ? l' H F' E1 E2]; subst; [split; [reflexivity|intros [|i] x N; discriminate]|].
  destruct (IH (S k) l' F') as (L & Q). split; [cbn; now rewrite L|]. intros [|i] y N; cbn in N; [injection N as <-; now rewrite Nat.add_0_r|]. rewrite <- Nat.add_succ_comm. apply Q, N.
Qed.
Lemma seq_last n : seq 0 (S n) = seq 0 n ++ [n].
Proof. rewrite <- (Nat.add_1_r n), seq_app. reflexivity. Qed.

Lemma reg_read v full d n tn t bs conns kvs : enabled d = true -> reports_reg int_ num transformers full d n tn t bs conns kvs ->
  exists v' r, parse_reg int_ num source transformers read v full d = Ok (v', Some r) /\ reads_reg int_ num source read d n tn t bs conns kvs r.
Proof.
  intros En [(c & -> & Pc & Pn) (s & Ds & Ls) (x & Fx & Dx) St Tn]. pose proof St as [Ct Wn (ts & Db & Fb) Nd (cs & Dc & Mc & Lc & Hc) (ks & Dk & Fk & Lk) Tp].
  unfold parse_reg. unfold enabled in En. destruct (d "enabled") as [[en|en]|]; try discriminate. cbn [of_opt bind]. rewrite En.
  assert (find_trans transformers d = Ok (Some t)) as ->. { unfold find_trans. rewrite Ds, Ls, (find_first _ _ _ _ Fx). cbn [option_map]. now rewrite Dx. } cbn [bind].
  assert (must_int int_ t "windings" = Ok (Z.of_nat (length bs))) as ->. { destruct Wn as (w & Dw & Iw). unfold must_int. rewrite Dw. cbn [of_opt bind]. now rewrite Iw. } cbn [bind].
  assert (L2 : 2 <= length conns) by (rewrite Lc; lia). assert (L3 : (2 <= Z.of_nat (length bs))%Z) by lia.
  destruct (shift_ok t cs conns (Z.of_nat (length bs)) Dc Mc Hc L2 L3) as (z & -> & Sh). cbn [bind]. rewrite Nat2Z.id.
  destruct (reg_windings_ok t d bs conns kvs St Tn (seq 0 (length bs)) (v_bus v, v_phases v)) as (b & ph & rws & -> & F & Lst). { intros i I. apply in_seq in I. lia. } cbn [bind fst snd]. cbn [v_n v_trans v_bus v_phases].
  destruct (F2_seq _ _ _ _ F) as (Lw & Qw).
  assert (Lk3 : length kvs = 2 \/ length kvs = 3) by (rewrite Lk; exact Ct).
  destruct (types_ok int_ num source t ks kvs Dk Fk Lk3) as (tys & Et & Vt). rewrite Lk in Et.
  assert (Lty : length tys = length rws) by (destruct Vt as (-> & _); now rewrite Lk, Lw).
  assert (reg_types num (Some (Z.of_nat (length bs))) (Some (TData t)) rws = Ok (with_types rws tys)) as ->.
  { unfold reg_types. cbn [of_opt bind]. assert ((Z.of_nat (length bs) =? 2)%Z || (Z.of_nat (length bs) =? 3)%Z = true)%bool as -> by (destruct Ct as [-> | ->]; reflexivity). rewrite Et. cbn [bind]. rewrite Lty, Nat.ltb_irrefl. reflexivity. }
  cbn [bind]. destruct (with_types_map rws tys Lty) as (Mt & Lt & Qt).
  eexists _, _. split; [reflexivity|]. rewrite Ds, Ls.
  constructor; cbn [rr_name rr_feeder rr_trans rr_winding rr_high rr_ct rr_delay rr_pt rr_band rr_center rr_limit rr_from rr_to rr_reacs rr_shift rr_windings rr_phase rr_set rr_low]; try reflexivity; try apply states_float; try apply int_states.
  - rewrite split_pieces, pieces_dot by assumption. reflexivity.
  - pose proof (first_find rt_name tn read) as Q. destruct (find (fun y => (rt_name y =? tn)%string) read) as [y|]; [left; exists y; auto|right; auto].
  - exists z. auto.
  - now rewrite Mt.
  - rewrite Lt, Lw. reflexivity.
  - intros i w Wi. destruct (Qt i w Wi) as (w0 & Wi0 & Q1 & Q2 & Q3 & Q4 & Q5 & _ & Q7). destruct (Qw i w0 Wi0) as (bi & ns & Bi & (R1 & R2 & R3 & R4 & R5 & R6 & R7)). cbn [Nat.add] in *.
    constructor.
    + intros c0 C0. rewrite Q1, R1. rewrite <- Mc, nth_error_map in C0. destruct (nth_error cs i) as [u|] eqn:Ci; [|discriminate]. cbn in C0. injection C0 as <-. rewrite (item_ok _ _ _ _ _ Dc Ci).
      assert (In (lower u) conns) as Ic by (rewrite <- Mc; apply in_map, (nth_error_In _ _ Ci)). destruct (Hc _ Ic) as [-> | ->]; reflexivity.
    + intros y Y. rewrite Q4, R4. destruct (F2_nth _ _ _ Fk i y Y) as (u & U & E). unfold float_item. rewrite (item_ok _ _ _ _ _ Dk U), E. reflexivity.
    + eexists. split; [apply float_item_states|now rewrite Q2].
    + eexists. split; [apply states_float|now rewrite Q3].
    + rewrite Q5, R5. apply float_item_states.
    + exists bi, ns. split; [exact Bi|]. rewrite Q7, R6. apply nodes_phases. intros m I. exact (Nd bi ns m (nth_error_In _ _ Bi) I).
    + intros p I. rewrite Q7 in I. destruct (R7 p I) as (A & B & _). auto.
    + intros p I. rewrite Q7 in I. destruct (R7 p I) as (_ & _ & -> & ->). split; apply states_float.
  - intros k b0 ns m Wk K0 Bl Nm. rewrite (int_whole _ _ _ _ Wk). destruct (length bs) as [|N] eqn:LN; [lia|]. rewrite seq_last in Lst. destruct (Lst _ _ eq_refl) as (bi & ns' & Bi & ->).
    replace (S N - 1) with N in Bl by lia. rewrite Bl in Bi. injection Bi as <- <-. unfold py_nth. assert ((k - 1 <? 0)%Z = false) as -> by (apply Z.ltb_ge; lia). unfold nodes_of. rewrite Nm. apply node_mapped.
    destruct ns as [|m0 ns0]; [|apply (Nd b0 (m0 :: ns0) m (nth_error_In _ _ Bl)), (nth_error_In _ _ Nm)]. apply nth_error_In in Nm. intros X. cbn in Nm, X. intuition congruence.
  - intros k b0 ns Wk K0 Bl Nm. rewrite (int_whole _ _ _ _ Wk). destruct (length bs) as [|N] eqn:LN; [lia|]. rewrite seq_last in Lst. destruct (Lst _ _ eq_refl) as (bi & ns' & Bi & ->).
    replace (S N - 1) with N in Bl by lia. rewrite Bl in Bi. injection Bi as <- <-. unfold py_nth. assert ((k - 1 <? 0)%Z = false) as -> by (apply Z.ltb_ge; lia). unfold nodes_of. now rewrite Nm.
Qed.
End Reg.
