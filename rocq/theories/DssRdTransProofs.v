(** Lemmas about the transformers of the OpenDSS reader. *)
From Verif Require Import Base BaseFacts CsvModel TextModel DssNameModel DssTextModel DssTextSpec DssTextProofs DssLoadSpec DssNodeSpec DssNodeProofs DssRdLoadModel DssRdLoadSpec DssRdLoadProofs DssRdCapSpec DssRdTransModel DssRdTransSpec.
From Coq Require Import Reals Lra Lia.
Local Open Scope string_scope.
Local Open Scope nat_scope.
Local Open Scope list_scope.

Lemma trans_piece c n : ~ has "ransformer." n -> second_piece "ransformer." (String c ("ransformer." ++ n)%string) = Some n.
Proof.
  intros H. unfold second_piece. assert (X : cut_at "ransformer." (String c ("ransformer." ++ n)%string) = Some (String c "", substring 0 (String.length n - 0) n)).
  { assert (P : String.prefix "ransformer." (String c ("ransformer." ++ n)%string) = false) by (cbn [append String.prefix]; destruct (Ascii.ascii_dec "r" c); [destruct (Ascii.ascii_dec "a" "r"); [discriminate|reflexivity]|reflexivity]).
    assert (Q : cut_at "ransformer." ("ransformer." ++ n)%string = Some ("", substring 0 (String.length n - 0) n)) by (cbn; assert (String.prefix "" n = true) as -> by (now destruct n); reflexivity).
    revert P Q. generalize ("ransformer." ++ n)%string. intros t P Q. cbn [cut_at]. now rewrite P, Q. }
  rewrite X. rewrite substring_all by lia. rewrite cut_at_none by (discriminate || exact H). reflexivity.
Qed.
(** ** Terminals *)
Lemma parts_of t b ns : terminal t = (b, ns) -> bus_parts t = (b, match ns with [] => ["1"; "2"; "3"] | _ => ns end).
Proof.
  intros T. unfold bus_parts. rewrite split_pieces. unfold terminal in T. destruct (pieces (Ascii.eqb ".") t) as [|x l] eqn:E; [destruct (pieces_nonempty _ _ E)|].
  injection T as <- <-. destruct l as [|y l]; [|reflexivity]. now rewrite (pieces_one _ _ _ E).
Qed.
Lemma cut_at_has w s : cut_at w s <> None <-> (w = "" \/ has w s).
Proof.
  induction s as [|c s IH]; cbn [cut_at].
  - destruct w; cbn; split; intros H; try tauto; try discriminate. destruct H; discriminate.
  - cbn [has]. destruct (String.prefix w (String c s)); [split; [tauto|discriminate]|].
    destruct (cut_at w s) as [[a b]|]; [split; [|discriminate]; intros _; destruct (proj1 IH ltac:(discriminate)); tauto|].
    split; [intros X; now contradiction X|]. intros [-> | [X|X]]; [apply IH; now left|discriminate|apply IH; now right].
Qed.
Lemma zero_prefix s h l : pieces (Ascii.eqb ".") s = h :: l -> String.prefix "0" s = String.prefix "0" h.
Proof.
  destruct s as [|c t]; cbn [pieces]; [now intros [= <- _]|]. destruct (Ascii.eqb_spec "." c) as [<-|C]; [now intros [= <- _]|].
  assert (String.prefix "" t = true) as P by (now destruct t). assert (forall u, String.prefix "" u = true) as P' by (now intros []).
  destruct (pieces (Ascii.eqb ".") t); intros [= <- _]; cbn [String.prefix]; destruct (Ascii.ascii_dec "0" c); now rewrite ?P, ?P'.
Qed.
Lemma has_zero s h l : pieces (Ascii.eqb ".") s = h :: l -> (has ".0" s <-> exists m, In m l /\ String.prefix "0" m = true).
Proof.
  revert h l. induction s as [|c t IH]; intros h l; cbn [pieces has].
  - intros [= <- <-]. split; [discriminate|]. intros (m & [] & _).
  - destruct (Ascii.eqb_spec "." c) as [<-|C].
    + intros [= <- <-]. destruct (pieces (Ascii.eqb ".") t) as [|h l] eqn:E; [destruct (pieces_nonempty _ _ E)|].
      assert (String.prefix ".0" (String "." t) = String.prefix "0" t) as -> by reflexivity. rewrite (zero_prefix _ _ _ E), (IH h l eq_refl). split.
      * intros [H|(m & I & H)]; [exists h; split; [now left|exact H]|exists m; split; [now right|exact H]].
      * intros (m & [<-|I] & H); [now left|right; exists m; auto].
    + assert (String.prefix ".0" (String c t) = false) as -> by (cbn [String.prefix]; destruct (Ascii.ascii_dec "." c); [contradiction|reflexivity]).
      destruct (pieces (Ascii.eqb ".") t) as [|h' l'] eqn:E; [destruct (pieces_nonempty _ _ E)|]. intros [= <- <-]. rewrite (IH h' l' eq_refl). intuition discriminate.
Qed.
Lemma ground_of t b ns : terminal t = (b, ns) -> (match cut_at ".0" t with Some _ => true | None => false end) = true <-> exists m, In m ns /\ String.prefix "0" m = true.
Proof.
  intros T. unfold terminal in T. destruct (pieces (Ascii.eqb ".") t) as [|x l] eqn:E; [destruct (pieces_nonempty _ _ E)|]. injection T as <- <-. rewrite <- (has_zero _ _ _ E).
  pose proof (cut_at_has ".0" t) as X. destruct (cut_at ".0" t) as [p|].
  - split; [|reflexivity]. intros _. destruct (proj1 X ltac:(discriminate)) as [Y|Y]; [discriminate|exact Y].
  - split; [discriminate|]. intros H. destruct (proj2 X (or_intror H) eq_refl).
Qed.
Lemma node_mapped m : ~ In m ["A"; "B"; "C"] -> node_phase m (r_phase_str m).
Proof.
  intros H. unfold r_phase_str, node_phase.
  destruct (String.eqb_spec m "1") as [->|H1]; [left; exists "A"; split; [constructor|reflexivity]|].
  destruct (String.eqb_spec m "A") as [->|HA]; [destruct H; now left|]. cbn [orb].
  destruct (String.eqb_spec m "2") as [->|H2]; [left; exists "B"; split; [constructor|reflexivity]|].
  destruct (String.eqb_spec m "B") as [->|HB]; [destruct H; right; now left|]. cbn [orb].
  destruct (String.eqb_spec m "3") as [->|H3]; [left; exists "C"; split; [constructor|reflexivity]|].
  destruct (String.eqb_spec m "C") as [->|HC]; [destruct H; right; right; now left|]. cbn [orb].
  right. split; [|reflexivity]. intros x L. destruct L; congruence.
Qed.
Lemma F2_nth {A B} (P : A -> B -> Prop) : forall l r, Forall2 P l r -> forall i y, nth_error r i = Some y -> exists x, nth_error l i = Some x /\ P x y.
Proof. induction 1 as [|x y l r H F IH]; intros [|i] z N; try discriminate; [injection N as <-; exists x; auto|apply IH, N]. Qed.
Lemma F2_nth_l {A B} (P : A -> B -> Prop) : forall l r, Forall2 P l r -> forall i x, nth_error l i = Some x -> exists y, nth_error r i = Some y /\ P x y.
Proof. induction 1 as [|x y l r H F IH]; intros [|i] z N; try discriminate; [injection N as <-; exists y; auto|apply IH, N]. Qed.
Lemma mapM_nums (num : string -> option R) : forall l r, Forall2 (fun w r => num w = Some r) l r -> mapM (fun x => of_opt EValue (num x)) l = Ok (r : list R).
Proof. intros l r F. induction F as [|w x l r H F IH]; [reflexivity|]. cbn [mapM]. rewrite H. cbn [of_opt bind]. now rewrite IH. Qed.

Section Trans.
Variable int_ : string -> option Z.
Variable num : string -> option R.
Variable source : string.
Variable regs : list (string * data).

Lemma item_ok d k l i s : d k = Some (PList l) -> nth_error l i = Some s -> item d k i = Ok s.
Proof. intros D N. unfold item, list_of. rewrite D. cbn [of_opt bind]. now rewrite N. Qed.
Lemma float_item_states d k i : states_at num d k i (float_item num d k i).
Proof.
  unfold float_item, item, list_of. destruct (d k) as [[s|l]|] eqn:D; cbn [of_opt bind]; try (intros r (l' & s' & D' & _); congruence).
  destruct (nth_error l i) as [s|] eqn:N; cbn [of_opt bind].
  - destruct (num s) as [r|] eqn:S; [exists l, s; auto|]. intros r (l' & s' & D' & N' & S'). rewrite D in D'. injection D' as <-. congruence.
  - intros r (l' & s' & D' & N' & S'). rewrite D in D'. injection D' as <-. congruence.
Qed.
Lemma control_steps n : Forall (fun x => sound_control num (snd x)) regs -> exists r x, foldM (control_step num (lower n)) regs (None, None) = Ok (r, x) /\ setting num regs n "R" r /\ setting num regs n "X" x.
Proof.
  induction regs as [|y l IH] using rev_ind; intros F.
  - exists None, None. split; [reflexivity|]. split; intros x [].
  - apply Forall_app in F as [F G]. inversion G as [|? ? [(s & S) K] _]; subst. destruct (IH F) as (r & x & E & R1 & X1). rewrite foldM_app, E. cbn [bind foldM]. unfold control_step. cbv zeta. cbn [fst snd].
    assert (present (snd y) "transformer" = true) as -> by (unfold present; now rewrite S). unfold text_of. rewrite S. cbn [of_opt bind].
    assert (lower (lower n) = lower n) as Ll.
    { clear. induction n as [|c t IH]; [reflexivity|]. cbn. rewrite IH. f_equal. unfold lower_ascii. destruct ((65 <=? nat_of_ascii c) && (nat_of_ascii c <=? 90))%bool eqn:E; [|now rewrite E].
      apply Bool.andb_true_iff in E as [E1 E2]. apply Nat.leb_le in E1, E2. rewrite nat_ascii_embedding by lia. assert ((nat_of_ascii c + 32 <=? 90) = false) as -> by (apply Nat.leb_gt; lia). now rewrite Bool.andb_false_r. }
    rewrite Ll. destruct (String.eqb_spec (lower s) (lower n)) as [L|L].
    + assert (Rg : regulates (snd y) n) by (exists s; auto).
      assert (forall k o, In k ["R"; "X"] -> setting num l n k o -> exists o', (if present (snd y) k then do v <- must num (snd y) k; Ok (Some v) else Ok o) = Ok o' /\ setting num (l ++ [y]) n k o') as Z.
      { intros k o I Q. unfold present. destruct (K k I) as [N|(v & N)].
        - rewrite N. exists o. split; [reflexivity|]. destruct o as [v|].
          + destruct Q as (a & x0 & z & -> & A1 & A2 & A3). exists a, x0, (z ++ [y]). split; [now rewrite <- app_assoc|]. split; [exact A1|]. split; [exact A2|]. intros w W. apply in_app_or in W as [W|[<-|[]]]; auto.
          + intros w W. apply in_app_or in W as [W|[<-|[]]]; auto.
        - exists (Some v). split; [|exists l, y, []; split; [reflexivity|]; split; [exact Rg|]; split; [exact N|intros ? []]].
          destruct N as (t & D & N). unfold must, text_of. rewrite D. cbn [of_opt bind]. rewrite N. reflexivity. }
      destruct (Z "R" r ltac:(now left) R1) as (r' & -> & R2). cbn [bind]. destruct (Z "X" x ltac:(right; now left) X1) as (x' & -> & X2). cbn [bind]. exists r', x'. auto.
    + assert (Rg : ~ regulates (snd y) n) by (intros (s' & S' & L'); rewrite S in S'; injection S' as <-; contradiction).
      assert (forall k o, setting num l n k o -> setting num (l ++ [y]) n k o) as Z.
      { intros k [v|] Q.
        - destruct Q as (a & x0 & z & -> & A1 & A2 & A3). exists a, x0, (z ++ [y]). split; [now rewrite <- app_assoc|]. split; [exact A1|]. split; [exact A2|]. intros w W. apply in_app_or in W as [W|[<-|[]]]; auto. contradiction.
        - intros w W. apply in_app_or in W as [W|[<-|[]]]; auto. contradiction. }
      exists r, x. auto.
Qed.
Lemma shift_ok d cs conns n : d "conns" = Some (PList cs) -> map lower cs = conns -> (forall c, In c conns -> c = "wye" \/ c = "delta") -> 2 <= length conns -> (2 <= n)%Z -> exists z, shift_of d n = Ok (Some z) /\ shifted conns z.
Proof.
  intros D M H L N. destruct cs as [|a [|b r]]; subst conns; cbn in L; try lia. unfold shift_of. apply Z.leb_le in N. rewrite N. unfold item, list_of. rewrite D. cbn [of_opt bind nth_error].
  destruct (H (lower a) ltac:(now left)) as [A|A]; destruct (H (lower b) ltac:(right; now left)) as [B|B]; rewrite A; cbn [String.eqb Ascii.eqb Bool.eqb]; rewrite B; cbn [String.eqb Ascii.eqb Bool.eqb];
    eexists; (split; [reflexivity|]); exists (lower a), (lower b), (map lower r); (split; [reflexivity|]); rewrite A, B; [left|right|right|left]; split; congruence.
Qed.
Lemma reacs_ok int2 full d n bs conns kvs xs ph : reports_trans int2 num full d n bs conns kvs xs ph -> reacs_of num d (Z.of_nat (length bs)) = Ok xs.
Proof.
  intros [_ _ _ _ _ _ _ _ _ [(s & rest & D & F)|(D & L & D1 & D2 & x & (s & X & N) & ->)]]; unfold reacs_of, present, list_of; rewrite D.
  - now rewrite (mapM_nums _ _ _ F).
  - rewrite L. cbn [Z.of_nat Pos.of_succ_nat Pos.succ Z.eqb Pos.eqb andb]. unfold must_if, present. rewrite X, D1, D2. unfold must, text_of. rewrite X. cbn [of_opt bind]. rewrite N. reflexivity.
Qed.
Lemma types_ok d ks kvs : d "kVs" = Some (PList ks) -> Forall2 (fun s r => num s = Some r) ks kvs -> length kvs = 2 \/ length kvs = 3 ->
  exists ts, types_of num d (Z.of_nat (length kvs)) = Ok ts /\ voltage_types kvs ts.
Proof.
  intros D F L.
  assert (K : forall i r, nth_error kvs i = Some r -> kv_item num d i = Ok r). { intros i r N. destruct (F2_nth _ _ _ F i r N) as (s & S & E). unfold kv_item. rewrite (item_ok _ _ _ _ _ D S). cbn [bind]. now rewrite E. }
  destruct L as [L|L].
  - destruct kvs as [|a [|b [|]]]; try discriminate. cbn [length Z.of_nat Pos.of_succ_nat Pos.succ]. unfold types_of. cbn [Z.eqb Pos.eqb]. rewrite (K 0 a eq_refl), (K 1 b eq_refl). cbn [bind].
    destruct (Rle_dec b a) as [H|H]; eexists; (split; [reflexivity|]); (split; [reflexivity|]).
    + exists 0, a. split; [reflexivity|]. split; [intros [|[|j]] r N; cbn in N; try discriminate; [| |destruct j; discriminate]; injection N as <-; split; try lra; lia|]. intros [|[|j]] J; cbn in J; try lia; reflexivity.
    + exists 1, b. split; [reflexivity|]. split; [intros [|[|j]] r N; cbn in N; try discriminate; [| |destruct j; discriminate]; injection N as <-; split; try lra; lia|]. intros [|[|j]] J; cbn in J; try lia; reflexivity.
  - destruct kvs as [|a [|b [|c [|]]]]; try discriminate. cbn [length Z.of_nat Pos.of_succ_nat Pos.succ]. unfold types_of. cbn [Z.eqb Pos.eqb]. rewrite (K 0 a eq_refl), (K 1 b eq_refl). cbn [bind].
    assert (kv_max num d = Ok (Rmax (Rmax a b) c)) as ->. { unfold kv_max, list_of. rewrite D. cbn [of_opt bind]. rewrite (mapM_nums _ _ _ F). reflexivity. } cbn [bind].
    pose proof (Rmax_l (Rmax a b) c). pose proof (Rmax_r (Rmax a b) c). pose proof (Rmax_l a b). pose proof (Rmax_r a b).
    assert (Rmax (Rmax a b) c = a \/ Rmax (Rmax a b) c = b \/ Rmax (Rmax a b) c = c) as M by (unfold Rmax; repeat destruct (Rle_dec _ _); tauto).
    destruct (Req_EM_T a (Rmax (Rmax a b) c)) as [E|E]; [|destruct (Req_EM_T b (Rmax (Rmax a b) c)) as [E'|E']]; eexists; (split; [reflexivity|]); (split; [reflexivity|]).
    + exists 0, a. split; [reflexivity|]. split; [intros [|[|[|j]]] r N; cbn in N; try discriminate; [| | |destruct j; discriminate]; injection N as <-; split; try lra; lia|]. intros [|[|[|j]]] J; cbn in J; try lia; reflexivity.
    + exists 1, b. split; [reflexivity|]. split; [intros [|[|[|j]]] r N; cbn in N; try discriminate; [| | |destruct j; discriminate]; injection N as <-; split; try lra; lia|]. intros [|[|[|j]]] J; cbn in J; try lia; reflexivity.
    + exists 2, c. split; [reflexivity|]. split; [intros [|[|[|j]]] r N; cbn in N; try discriminate; [| | |destruct j; discriminate]; injection N as <-; split; try lra; try lia|]; [intros [|[|[|j]]] J; cbn in J; try lia; reflexivity].
Qed.
Lemma with_types_map : forall ws ts, length ts = length ws -> map rw_type (with_types ws ts) = ts /\ length (with_types ws ts) = length ws /\
  forall i w, nth_error (with_types ws ts) i = Some w -> exists w0, nth_error ws i = Some w0 /\ rw_conn w = rw_conn w0 /\ rw_va w = rw_va w0 /\ rw_emerg w = rw_emerg w0 /\ rw_kv w = rw_kv w0 /\ rw_res w = rw_res w0 /\ rw_ground w = rw_ground w0 /\ rw_phases w = rw_phases w0.
Proof.
  induction ws as [|w ws IH]; intros [|t ts] L; try discriminate; cbn [with_types].
  - split; [reflexivity|]. split; [reflexivity|]. intros [|i] w N; discriminate.
  - injection L as L. destruct (IH ts L) as (M & Ln & Q). split; [cbn; now rewrite M|]. split; [cbn; now rewrite Ln|]. intros [|i] x N; cbn in N |- *; [injection N as <-; exists w; cbn; repeat split|apply Q, N].
Qed.
Lemma mapM_nth {A B} (f : A -> res B) : forall l r, mapM f l = Ok r -> length r = length l /\ forall i y, nth_error r i = Some y -> exists x, nth_error l i = Some x /\ f x = Ok y.
Proof.
  induction l as [|x l IH]; intros r E; cbn [mapM] in E; [injection E as <-; split; [reflexivity|intros [|i] y N; discriminate]|].
  destruct (f x) as [y|] eqn:X; [|discriminate]. cbn [bind] in E. destruct (mapM f l) as [r'|] eqn:Y; [|discriminate]. cbn [bind] in E. injection E as <-. destruct (IH r' eq_refl) as (L & Q).
  split; [cbn; now rewrite L|]. intros [|i] z N; cbn in N |- *; [injection N as <-; exists x; auto|apply Q, N].
Qed.
Lemma mapM_exists {A B} (f : A -> res B) l : (forall x, In x l -> exists y, f x = Ok y) -> exists r, mapM f l = Ok r.
Proof.
  induction l as [|x l IH]; intros H; [exists []; reflexivity|]. cbn [mapM]. destruct (H x (or_introl eq_refl)) as (y & ->). destruct IH as (r & ->); [intros z Z; apply H; now right|]. cbn. eauto.
Qed.

Lemma trans_read v full d n bs conns kvs xs ph : Forall (fun x => sound_control num (snd x)) regs -> enabled d = true -> reports_trans int_ num full d n bs conns kvs xs ph ->
  exists v' t, parse_trans int_ num source regs v full d = Ok (v', Some t) /\ reads_trans int_ num source regs d n bs conns kvs xs ph t.
Proof.
  intros G En Rp. pose proof (reacs_ok _ _ _ _ _ _ _ _ _ Rp) as X. destruct Rp as [(c & ->) Pl Ct Wn Wp (ts & Db & Fb) Nd (cs & Dc & Mc & Lc & Hc) (ks & Dk & Fk & Lk) _].
  assert (Ltb : length ts = length bs) by exact (F2_length _ _ _ Fb).
  unfold parse_trans. unfold enabled in En. destruct (d "enabled") as [[en|en]|]; try discriminate. cbn [of_opt bind]. rewrite En. rewrite (trans_piece c n Pl). rewrite (int_whole _ _ _ _ Wn), (int_whole _ _ _ _ Wp), X. cbn [bind].
  assert (L2 : 2 <= length conns) by (rewrite Lc; lia). assert (L3 : (2 <= Z.of_nat (length bs))%Z) by lia.
  destruct (shift_ok d cs conns (Z.of_nat (length bs)) Dc Mc Hc L2 L3) as (z & -> & Sh). cbn [bind].
  destruct bs as [|[b1 ns1] [|[b2 ns2] rest]]; cbn [length] in Ct; try lia.
  destruct ts as [|t1 [|t2 tr]]; cbn [length] in Ltb; try lia. pose proof Fb as Fb0. inversion_clear Fb0 as [|? ? ? ? T1 Fb1]. inversion_clear Fb1 as [|? ? ? ? T2 Fb2].
  set (nodes := match ns1 with [] => ["1"; "2"; "3"] | _ => ns1 end).
  assert (Ends : ends_of v d = Some (b1, nodes, b2)).
  { unfold ends_of, list_of. rewrite Db. cbn [length] in Ct. destruct tr as [|t3 [|]]; cbn [length] in Ltb; try lia; rewrite (parts_of _ _ _ T1), (parts_of _ _ _ T2); reflexivity. }
  rewrite Ends. destruct (control_steps n G) as (r & x & Es & Sr & Sx).
  set (N := length ((b1, ns1) :: (b2, ns2) :: rest)) in *. assert (Z.to_nat (Z.of_nat N) = N) as -> by apply Nat2Z.id.
  destruct (mapM_exists (winding_of num regs (lower n) d (Z.of_nat N) (Some nodes)) (seq 0 N)) as (ws & Ew).
  { intros i I. apply in_seq in I. destruct (nth_error (t1 :: t2 :: tr) i) as [t|] eqn:Ti; [|apply nth_error_None in Ti; cbn [length] in Ti; unfold N in I; cbn [length] in I; lia].
    unfold winding_of. rewrite (item_ok _ _ _ _ _ Db Ti). cbn [of_opt bind]. destruct (mapM_exists (pw_of num regs (lower n) d i) nodes) as (ps & Ep); [intros m _; unfold pw_of; rewrite Es; cbn; eauto|]. rewrite Ep. cbn. eauto. }
  rewrite Ew. cbn [bind]. destruct (types_ok d ks kvs Dk Fk) as (tys & Et & Vt); [rewrite Lk; unfold N; cbn [length] in Ct |- *; lia|]. rewrite Lk in Et. fold N in Et. rewrite Et. cbn [bind]. destruct (mapM_nth _ _ _ Ew) as (Lw & Qw). rewrite seq_length in Lw.
  destruct (with_types_map ws tys) as (Mt & Lt & Qt). { destruct Vt as (-> & _). now rewrite Lk, Lw. }
  eexists _, _. split; [reflexivity|]. unfold from_to, list_of. rewrite Db. cbn [fst snd].
  constructor; cbn [rt_name rt_feeder rt_loss rt_sub rt_norm rt_noload rt_from rt_to rt_reacs rt_center rt_shift rt_windings]; try reflexivity; try apply states_float.
  - eexists _, _. split; reflexivity.
  - eexists _, _, _. split; reflexivity.
  - fold N. rewrite Bool.andb_true_iff, Z.eqb_eq, Z.eqb_eq. split; intros (A & B); (split; [lia|exact B]).
  - exists z. auto.
  - now rewrite Mt.
  - now rewrite Lt.
  - intros i w Wi. destruct (Qt i w Wi) as (w0 & Wi0 & Q1 & Q2 & Q3 & Q4 & Q5 & Q6 & Q7). destruct (Qw i w0 Wi0) as (i' & Si & Wo).
    assert (i < N) by (rewrite <- Lw; apply nth_error_Some; congruence). assert (i' = i) as -> by (rewrite (nth_error_nth' _ 0) in Si by (rewrite seq_length; lia); rewrite seq_nth in Si by lia; injection Si as <-; reflexivity).
    destruct (nth_error (t1 :: t2 :: tr) i) as [t|] eqn:Ti; [|apply nth_error_None in Ti; cbn [length] in Ti; unfold N in H; cbn [length] in H; lia].
    destruct (F2_nth_l _ _ _ Fb i t Ti) as ([bi nsi] & Bi & Tt).
    unfold winding_of in Wo. rewrite (item_ok _ _ _ _ _ Db Ti) in Wo. cbn [of_opt bind] in Wo. destruct (mapM (pw_of num regs (lower n) d i) nodes) as [ps|] eqn:Ep; [|discriminate]. cbn [bind] in Wo. injection Wo as <-.
    cbn [rw_conn rw_va rw_emerg rw_kv rw_res rw_ground rw_phases] in *. destruct (mapM_nth _ _ _ Ep) as (Lp & Qp).
    assert (Pw : forall p, In p ps -> exists m, In m nodes /\ p = mkRpw (r_phase_str m) (if present d "taps" then float_item num d "taps" i else if present d "tap" then float_of num d "tap" else None) r x).
    { intros p I. destruct (In_nth_error _ _ I) as (j & J). destruct (Qp j p J) as (m & M & E). exists m. split; [exact (nth_error_In _ _ M)|]. unfold pw_of in E. rewrite Es in E. cbn in E. now injection E as <-. }
    constructor.
    + intros c0 C0. rewrite Q1. rewrite <- Mc in C0. rewrite nth_error_map in C0. destruct (nth_error cs i) as [s|] eqn:Ci; [|discriminate]. cbn in C0. injection C0 as <-. rewrite (item_ok _ _ _ _ _ Dc Ci).
      assert (In (lower s) conns) as Ic by (rewrite <- Mc; apply in_map, (nth_error_In _ _ Ci)). destruct (Hc _ Ic) as [-> | ->]; reflexivity.
    + intros y Y. rewrite Q4. destruct (F2_nth _ _ _ Fk i y Y) as (s & S & E). unfold float_item. rewrite (item_ok _ _ _ _ _ Dk S), E. reflexivity.
    + eexists. split; [apply float_item_states|exact Q2].
    + eexists. split; [apply states_float|exact Q3].
    + rewrite Q5. apply float_item_states.
    + assert (rw_ground w = ((match cut_at ".0" t with Some _ => true | None => false end) && (Z.of_nat N =? 2)%Z)%bool) as -> by exact Q6. rewrite Bool.andb_true_iff, (ground_of _ _ _ Tt), Z.eqb_eq. split.
      * intros ((m & A & B) & C). split; [unfold N in C; lia|]. exists bi, nsi, m. auto.
      * intros (C & b & ns & m & A & B & D0). rewrite Bi in A. injection A as <- <-. split; [exists m; auto|unfold N; lia].
    + exists b1, ns1, ((b2, ns2) :: rest). split; [reflexivity|]. rewrite Q7.
      assert (map rw_phase ps = map r_phase_str nodes) as ->.
      { assert (forall l ps, mapM (pw_of num regs (lower n) d i) l = Ok ps -> map rw_phase ps = map r_phase_str l) as Y; [|exact (Y nodes ps Ep)].
        clear - Es. induction l as [|m l IH]; intros ps E; cbn [mapM] in E; [now injection E as <-|]. unfold pw_of at 1 in E. rewrite Es in E. cbn [bind] in E. destruct (mapM (pw_of num regs (lower n) d i) l) as [qs|]; [|discriminate]. cbn [bind] in E. injection E as <-. cbn [map rw_phase]. f_equal. apply IH. reflexivity. }
      unfold nodes, phases_at. destruct ns1 as [|m1 ns1]; [left; split; reflexivity|]. right. split; [discriminate|]. specialize (Nd b1 (m1 :: ns1)). 
      assert (forall l, (forall m, In m l -> In m (m1 :: ns1)) -> Forall2 node_phase l (map r_phase_str l)) as Y; [|apply Y; auto]. induction l as [|m l IH]; intros I; [constructor|]. cbn [map]. constructor; [apply node_mapped, Nd; [now left|apply I; now left]|apply IH; intros m' M'; apply I; now right].
    + intros p I D0. rewrite Q7 in I. destruct (Pw p I) as (m & _ & ->). cbn [rw_tap]. unfold present. destruct (d "taps") eqn:Dt; [apply float_item_states|congruence].
    + intros p I. rewrite Q7 in I. destruct (Pw p I) as (m & _ & ->). cbn [rw_r rw_x]. auto.
Qed.
End Trans.
