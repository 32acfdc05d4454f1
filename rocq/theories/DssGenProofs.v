(** Lemmas about the generators and the feeders of the OpenDSS reader. *)
From Verif Require Import Base BaseFacts CsvModel TextModel DssNameModel DssTextSpec DssTextProofs DssNodeProofs DssRdLoadModel DssRdLoadSpec DssRdLoadProofs DssRdCapModel DssGenModel DssGenSpec.
From Coq Require Import Reals Lia.
Local Open Scope string_scope.
Local Open Scope nat_scope.
Local Open Scope list_scope.

(** ** Generators *)
Lemma gen_bus_terminal d t b ns : d "bus1" = Some (PText t) -> terminal t = (b, ns) -> gen_bus d = Some b.
Proof.
  intros D T. unfold gen_bus, text_of. rewrite D, split_pieces. unfold terminal in T. destruct (pieces (Ascii.eqb ".") t) as [|x l] eqn:E; [destruct (pieces_nonempty _ _ E)|].
  injection T as <- <-. destruct l as [|y l]; [|reflexivity]. f_equal. exact (pieces_one _ _ _ E).
Qed.
Lemma int_states int_ d k : match int_of int_ d k with Some z => whole int_ d k z | None => forall z, ~ whole int_ d k z end.
Proof.
  destruct (int_of int_ d k) as [z|] eqn:E.
  - unfold int_of, text_of in E. destruct (d k) as [[s|l]|] eqn:D; try discriminate. exists s. auto.
  - intros z W. rewrite (int_whole _ _ _ _ W) in E. discriminate.
Qed.

(** ** Feeders *)
Lemma word_strip : forall s, word s -> strip s = s.
Proof.
  assert (forall s, word s -> rstrip s = s) as R.
  { induction s as [|c t IH]; intros W; [reflexivity|]. destruct W as [C W]. cbn [rstrip]. rewrite (IH W). destruct t; [now rewrite C|reflexivity]. }
  intros [|c t] W; [reflexivity|]. unfold strip. cbn [lstrip]. destruct W as [C W]. rewrite C. apply R. now split.
Qed.
Lemma word_strip_nl : forall s, word s -> strip (s ++ String "010" "")%string = s.
Proof.
  assert (forall s, word s -> rstrip (s ++ String "010" "")%string = s) as R.
  { induction s as [|c t IH]; intros W; [reflexivity|]. destruct W as [C W]. cbn [String.append rstrip]. rewrite (IH W). destruct t; [now rewrite C|reflexivity]. }
  intros [|c t] W; [reflexivity|]. unfold strip. cbn [String.append lstrip]. destruct W as [C W]. rewrite C. apply (R (String c t)). now split.
Qed.
Lemma split_word : forall w s, word w -> split_on " " (w ++ String " " s)%string = w :: split_on " " s.
Proof.
  induction w as [|c t IH]; intros s W; [reflexivity|]. destruct W as [C W]. cbn [String.append split_on].
  destruct (Ascii.eqb_spec c " ") as [->|]; [discriminate C|]. now rewrite (IH s W).
Qed.
Lemma split_last : forall w e, word w -> e = "" \/ e = String "010" "" -> split_on " " (w ++ e)%string = [(w ++ e)%string].
Proof.
  induction w as [|c t IH]; intros e W E; [destruct E as [-> | ->]; reflexivity|]. destruct W as [C W]. cbn [String.append split_on].
  destruct (Ascii.eqb_spec c " ") as [->|]; [discriminate C|]. now rewrite (IH e W E).
Qed.
Lemma row_words line r : row_of line r -> map strip (split_on " " line) = [w_node r; w_sub r; w_feed r; w_trans r].
Proof.
  intros (W1 & W2 & W3 & W4 & L).
  assert (exists e, (e = "" \/ e = String "010" "") /\ line = (w_node r ++ " " ++ w_sub r ++ " " ++ w_feed r ++ " " ++ w_trans r ++ e)%string) as (e & E & ->).
  { destruct L as [-> | ->]; [exists ""; split; [now left|]; now rewrite app_nil_s|exists (String "010" ""); split; [now right|reflexivity]]. }
  cbn [String.append]. rewrite (split_word _ _ W1), (split_word _ _ W2), (split_word _ _ W3), (split_last _ e W4 E). cbn [map].
  rewrite (word_strip _ W1), (word_strip _ W2), (word_strip _ W3). destruct E as [-> | ->]; [now rewrite app_nil_s, (word_strip _ W4)|now rewrite (word_strip_nl _ W4)].
Qed.
Lemma no_dots_undotted : forall s, undotted s (no_dots s).
Proof.
  induction s as [|c t IH]; cbn [no_dots]; [constructor|]. destruct (Ascii.eqb_spec c ".") as [->|H]; now constructor.
Qed.
Lemma first_row_snoc f l r q : first_row f l r -> first_row f (l ++ [q]) r.
Proof. induction 1; cbn; [now constructor|apply fr_later; assumption]. Qed.
Lemma first_row_new f l r : (forall q, In q l -> w_feed q <> f) -> w_feed r = f -> first_row f (l ++ [r]) r.
Proof. induction l as [|q l IH]; intros H E; cbn; [now constructor|]. apply fr_later; [apply H; now left|apply IH; [intros x X; apply H; now right|exact E]]. Qed.
Lemma order_in rows fs : in_order rows fs -> forall q, In q rows -> In (w_feed q) fs.
Proof.
  induction 1 as [|l fs r O IH I|l fs r O IH I]; intros q Q; [destruct Q| |]; apply in_app_or in Q as [Q|[<-|[]]]; auto; apply in_or_app; [left; auto|right; now left].
Qed.
Lemma order_nodup rows fs : in_order rows fs -> NoDup fs.
Proof.
  induction 1 as [|l fs r O IH I|l fs r O IH I]; [constructor|exact IH|]. apply NoDup_Add with (a := w_feed r) (l := fs); [|split; assumption].
  replace fs with (fs ++ []) at 1 by apply app_nil_r. apply Add_app.
Qed.
Record told_by (rows : list row) (fs : list string) (tb : tables) : Prop := {
  tb_order : in_order rows fs;
  tb_keys : dkeys (t_feeders tb) = fs;
  tb_subs : forall f, In f fs -> exists r, first_row f rows r /\ dget (t_subs tb) f = Some (no_dots (lower (w_sub r)));
  tb_none : forall f, ~ In f fs -> dget (t_subs tb) f = None;
  tb_trans : t_trans tb = t_subs tb }.
Lemma feeders_told : forall lines rows, Forall2 row_of lines rows -> exists fs tb, foldM feeder_step lines (mkTb [] [] []) = Ok tb /\ told_by rows fs tb.
Proof.
  induction lines as [|line lines IH] using rev_ind; intros rows F.
  - inversion F; subst. exists [], (mkTb [] [] []). split; [reflexivity|]. constructor; cbn; try reflexivity; [constructor|tauto].
  - apply Forall2_app_inv_l in F as (rows' & rs & F & G & ->). inversion G as [|? r ? rs' W G']; subst. inversion G'; subst.
    destruct (IH rows' F) as (fs & tb & E & [O K S N T]). rewrite foldM_app, E. cbn [bind foldM]. unfold feeder_step. rewrite (row_words _ _ W). cbn [bind].
    destruct (in_dec string_dec (w_feed r) fs) as [I|I].
    + destruct (S _ I) as (q & Q & D). exists fs. eexists. split; [reflexivity|].
      assert (dmem (t_subs tb) (w_feed r) = true) as M by (unfold dmem; now rewrite D). rewrite T, M.
      constructor; cbn [t_feeders t_subs t_trans].
      * now apply io_old.
      * rewrite dkeys_dset, (proj2 (dmem_true _ _)); [exact K|now rewrite K].
      * intros f X. destruct (S f X) as (p & P & Dp). exists p. split; [now apply first_row_snoc|exact Dp].
      * exact N.
      * reflexivity.
    + exists (fs ++ [w_feed r]). eexists. split; [reflexivity|].
      assert (dmem (t_subs tb) (w_feed r) = false) as M by (unfold dmem; now rewrite (N _ I)). rewrite T, M.
      constructor; cbn [t_feeders t_subs t_trans].
      * now apply io_new.
      * rewrite dkeys_dset. destruct (dmem (t_feeders tb) (w_feed r)) eqn:X; [apply dmem_true in X; rewrite K in X; contradiction|]. now rewrite K.
      * intros f X. apply in_app_or in X as [X|[<-|[]]].
        -- destruct (S f X) as (p & P & Dp). exists p. split; [now apply first_row_snoc|]. rewrite dget_dset_other; [exact Dp|congruence].
        -- exists r. split; [|apply dget_dset_same]. apply first_row_new; [|reflexivity]. intros q Q X. apply I. rewrite <- X. exact (order_in _ _ O q Q).
      * intros f X. rewrite dget_dset_other; [apply N; intros Y; apply X, in_or_app; now left|]. intros <-. apply X, in_or_app. right. now left.
      * reflexivity.
Qed.
