(** Lemmas about the CSV reader. *)
From Verif Require Import Base BaseFacts CsvModel CsvSpec.
From Coq Require Import DecimalString DecimalNat.
Local Open Scope string_scope.
Local Open Scope list_scope.

(** ** Text *)
Lemma sapp_assoc (a b c : string) : ((a ++ b) ++ c = a ++ (b ++ c))%string.
Proof. induction a; cbn; [reflexivity|]. f_equal. assumption. Qed.
Lemma free_app c a b : free c a -> free c b -> free c (a ++ b)%string.
Proof. induction a; cbn; intuition. Qed.
Lemma split_free c s : free c s -> split_on c s = [s].
Proof. induction s as [|a s IH]; cbn; [reflexivity|]. intros [H1 H2]. apply Ascii.eqb_neq in H1. rewrite H1, IH by exact H2. reflexivity. Qed.
Lemma split_nonnil c s : split_on c s <> [].
Proof. destruct s; cbn; [discriminate|]. destruct (Ascii.eqb a c); [discriminate|]. destruct (split_on c s); discriminate. Qed.
Lemma split_snoc c s x : free c x -> split_on c (s ++ String c x)%string = split_on c s ++ [x].
Proof.
  intros F. induction s as [|a s IH]; cbn [String.append split_on].
  - rewrite Ascii.eqb_refl, split_free by exact F. reflexivity.
  - rewrite IH. destruct (Ascii.eqb a c); [reflexivity|]. destruct (split_on c s) eqn:E; [exfalso; exact (split_nonnil _ _ E)|]. reflexivity.
Qed.

Definition digit (c : ascii) : Prop := In c ["0"; "1"; "2"; "3"; "4"; "5"; "6"; "7"; "8"; "9"]%char.
Lemma free_uint c d : ~ digit c -> free c (NilEmpty.string_of_uint d).
Proof. intros H. induction d; cbn; auto; split; auto; intros <-; apply H; cbn; auto 20. Qed.
Lemma free_str c i : ~ digit c -> free c (str_of i).
Proof. apply free_uint. Qed.
Lemma str_nonempty i : str_of i <> "".
Proof.
  unfold str_of. destruct (Nat.to_uint i) eqn:E; cbn; try discriminate. exfalso.
  assert (H := DecimalNat.Unsigned.of_to i). rewrite E in H. cbn in H. subst i. discriminate E.
Qed.
Lemma int_str i : int_of (str_of i) = Ok i.
Proof.
  unfold int_of. destruct (str_of i) eqn:E; [exfalso; exact (str_nonempty _ E)|]. rewrite <- E. unfold str_of.
  rewrite NilEmpty.usu, DecimalNat.Unsigned.of_to. reflexivity.
Qed.
Lemma str_inj i j : str_of i = str_of j -> i = j.
Proof. intros E. assert (H := int_str i). rewrite E, int_str in H. congruence. Qed.

Ltac nodigit := cbn; intuition discriminate.
Lemma lstrip_free s t : s <> "" -> free "]" s -> lstrip_bracket (s ++ t)%string = (s ++ t)%string.
Proof.
  destruct s as [|a s]; [congruence|]. intros _ [H _]. cbn. destruct a as [[] [] [] [] [] [] [] []]; try reflexivity. exfalso. apply H. reflexivity.
Qed.
Lemma rstrip_free s : free "]" s -> rstrip_bracket (s ++ "]")%string = s.
Proof.
  induction s as [|a s IH]; [reflexivity|]. intros [H1 H2]. cbn. rewrite IH by exact H2. destruct s; [|reflexivity].
  apply Ascii.eqb_neq in H1. rewrite H1. reflexivity.
Qed.
Lemma strip_str i : strip_bracket (str_of i ++ "]")%string = str_of i.
Proof.
  unfold strip_bracket. rewrite lstrip_free; [|apply str_nonempty|apply free_str; nodigit]. apply rstrip_free, free_str. nodigit.
Qed.
Lemma split_layer l i : free "[" l -> split_on "[" (layer (l, i)) = [l; (str_of i ++ "]")%string].
Proof.
  intros F. unfold layer. cbn [fst snd]. change ("[" ++ str_of i ++ "]")%string with (String "[" (str_of i ++ "]")%string).
  rewrite split_snoc; [|apply free_app; [apply free_str; nodigit|cbn; intuition discriminate]]. rewrite split_free by exact F. reflexivity.
Qed.
Lemma layer_free l i : free "." l -> free "." (layer (l, i)).
Proof.
  intros F. unfold layer. apply free_app; [exact F|]. cbn [fst snd]. apply free_app; [cbn; intuition discriminate|].
  apply free_app; [apply free_str; nodigit|cbn; intuition discriminate].
Qed.
Lemma layer_inj l i l' i' : free "[" l -> free "[" l' -> layer (l, i) = layer (l', i') -> (l, i) = (l', i').
Proof.
  intros F F' E. assert (H := split_layer l i F). rewrite E, (split_layer l' i' F') in H. injection H as E1 E2.
  assert (E3 : strip_bracket (str_of i' ++ "]") = strip_bracket (str_of i ++ "]")) by (rewrite E2; reflexivity).
  rewrite !strip_str in E3. apply str_inj in E3. congruence.
Qed.

Lemma key_snoc c s x : key c (s ++ [x]) = (key c s ++ "." ++ layer x)%string.
Proof. unfold key. rewrite fold_left_app. reflexivity. Qed.
Lemma wf_snoc c s l i : wf_node c (s ++ [(l, i)]) <-> wf_node c s /\ free "." l /\ free "[" l.
Proof.
  unfold wf_node. split.
  - intros [H1 H2]. split; [split; [exact H1|]|].
    + intros l0 i0 H. apply H2 with i0. apply in_app_iff. left. exact H.
    + apply H2 with i. apply in_app_iff. right. left. reflexivity.
  - intros [[H1 H2] H3]. split; [exact H1|]. intros l0 i0 H. apply in_app_iff in H. destruct H as [H|[H|[]]]; [apply H2 with i0; exact H|]. injection H as <- <-. exact H3.
Qed.
Lemma split_key c s : wf_node c s -> split_on "." (key c s) = c :: map layer s.
Proof.
  induction s as [|[l i] s IH] using rev_ind; intros W.
  - apply split_free. exact (proj1 W).
  - apply wf_snoc in W. destruct W as (W & F & _). rewrite key_snoc. change ("." ++ layer (l, i))%string with (String "." (layer (l, i))).
    rewrite split_snoc by (apply layer_free; exact F). rewrite IH by exact W. rewrite map_app. reflexivity.
Qed.
Lemma key_inj c s c' s' : wf_node c s -> wf_node c' s' -> key c s = key c' s' -> c = c' /\ s = s'.
Proof.
  intros W W' E. assert (H := split_key c s W). rewrite E, (split_key c' s' W') in H. injection H as Ec Em. split; [congruence|].
  destruct W as [_ W]. destruct W' as [_ W']. clear E Ec. revert s' W' Em. induction s as [|[l i] s IH]; intros [|[l' i'] s'] W' Em; try discriminate; [reflexivity|].
  cbn in Em. injection Em as E1 E2. f_equal.
  - symmetry. apply layer_inj; [apply W' with i'; left; reflexivity|apply W with i; left; reflexivity|exact E1].
  - apply IH; [intros a b Hab; apply W with b; right; exact Hab|intros a b Hab; apply W' with b; right; exact Hab|exact E2].
Qed.
Lemma split_render p : wf_path p -> split_on "." (render p) = p_class p :: map layer (p_steps p) ++ [p_attr p].
Proof.
  intros [W F]. unfold render. change ("." ++ p_attr p)%string with (String "." (p_attr p)). rewrite split_snoc by exact F. rewrite split_key by exact W. reflexivity.
Qed.
Lemma render_inj p q : wf_path p -> wf_path q -> render p = render q -> p = q.
Proof.
  intros W W' E. assert (H := split_render p W). rewrite E, (split_render q W') in H. injection H as Ec Em.
  apply app_inj_tail in Em. destruct Em as [Em Ea].
  assert (K : key (p_class p) (p_steps p) = key (p_class q) (p_steps q)).
  { unfold render in E. rewrite Ea in E. clear - E. set (x := key _ _) in *. set (y := key _ _) in *. clearbody x y.
    assert (L : forall a b z : string, (a ++ z = b ++ z)%string -> String.length a = String.length b -> a = b).
    { induction a as [|u a IH]; intros [|w b] z H H'; cbn in *; try discriminate; [reflexivity|]. injection H as <- H. f_equal. eapply IH; eauto. }
    apply (L _ _ _ E). assert (L2 : forall a b, String.length (a ++ b) = String.length a + String.length b) by (induction a; cbn; intros; [reflexivity|f_equal; auto]).
    assert (Q := f_equal String.length E). rewrite !L2 in Q. lia. }
  apply key_inj in K; [|exact (proj1 W)|exact (proj1 W')]. destruct p, q; cbn in *. destruct K. congruence.
Qed.

(** ** Objects *)
Lemma nth_oset h r o s : nth_error (oset h r o) s = if Nat.eqb r s then (match nth_error h r with Some _ => Some o | None => None end) else nth_error h s.
Proof.
  revert r s. induction h as [|x h IH]; intros [|r] [|s]; cbn; try reflexivity.
  - destruct (Nat.eqb r s); reflexivity.
  - apply IH.
Qed.
Lemma oset_length h r o : length (oset h r o) = length h.
Proof. revert r. induction h as [|x h IH]; intros [|r]; cbn; auto. Qed.
Lemma oset_prefix h0 h r o : length h0 <= r -> (exists n, h = h0 ++ n) -> exists n, oset h r o = h0 ++ n.
Proof.
  revert h r. induction h0 as [|x h0 IH]; intros h r L [n ->]; [eexists; reflexivity|]. destruct r; cbn in L; [lia|].
  destruct (IH (h0 ++ n) r) as [n' E]; [lia|eauto|]. exists n'. cbn. rewrite E. reflexivity.
Qed.

Section Run.
Variable known : string -> bool.
Variable empty_lists : string -> list string.
Variable elem : string -> string -> res string.
Variable accept : string -> string -> cell -> res cell.
Notation typed := (typed known elem).

Lemma typed_fun c s k : typed c s k -> forall k', typed c s k' -> k = k'.
Proof.
  induction 1 as [c Hc|c s k l i k1 H IH H1 H2]; intros k' T; inversion T; subst.
  - reflexivity.
  - destruct s; discriminate.
  - destruct s; discriminate.
  - match goal with E : _ ++ [_] = _ ++ [_] |- _ => apply app_inj_tail in E; destruct E as [E1 E2] end. injection E2 as <- <-. subst.
    match goal with T : typed c s ?x, E : elem ?x _ = _ |- _ => assert (k = x) by (apply IH; exact T); subst x; congruence end.
Qed.

Record Inv (h0 : cheap) (N : string -> list (string * nat) -> Prop) (A : string -> list (string * nat) -> string -> option cell) (st : cstate) : Prop := {
  i_key : forall k r, dget (c_objs st) k = Some r -> exists c s, wf_node c s /\ k = key c s;
  i_cls : forall c s r, wf_node c s -> dget (c_objs st) (key c s) = Some r ->
          length h0 <= r < length (c_heap st) /\ exists k, cls (c_heap st) r = Some k /\ typed c s k;
  i_inj : forall c s c' s' r, wf_node c s -> wf_node c' s' -> dget (c_objs st) (key c s) = Some r -> dget (c_objs st) (key c' s') = Some r -> c = c' /\ s = s';
  i_lst : forall c s l i q, wf_node c (s ++ [(l, i)]) ->
          (dget (c_objs st) (key c (s ++ [(l, i)])) = Some q <->
           exists r, dget (c_objs st) (key c s) = Some r /\ nth_error (lst (c_heap st) r l) i = Some q);
  i_all : forall r, length h0 <= r < length (c_heap st) -> exists c s, wf_node c s /\ dget (c_objs st) (key c s) = Some r;
  i_old : exists n, c_heap st = h0 ++ n;
  i_dom : forall c s, wf_node c s -> (dget (c_objs st) (key c s) <> None <-> N c s);
  i_att : forall c s r a, wf_node c s -> dget (c_objs st) (key c s) = Some r -> att (c_heap st) r a = A c s a;
  i_none : forall c s a, ~ N c s -> A c s a = None;
  i_bad : forall c s r l, wf_node c s -> dget (c_objs st) (key c s) = Some r -> ~ (free "." l /\ free "[" l) -> lst (c_heap st) r l = []
}.

Lemma cls_snoc h o r : cls (h ++ [o]) r = if Nat.eqb r (length h) then Some (o_class o) else cls h r.
Proof.
  unfold cls. destruct (Nat.eqb_spec r (length h)) as [->|H].
  - rewrite nth_error_app2, Nat.sub_diag by lia. reflexivity.
  - destruct (Nat.lt_ge_cases r (length h)); [rewrite nth_error_app1 by assumption; reflexivity|].
    rewrite (proj2 (nth_error_None h r)) by lia. rewrite (proj2 (nth_error_None (h ++ [o]) r)) by (rewrite app_length; cbn; lia). reflexivity.
Qed.
Lemma nth_snoc h (o : cobj) r : r < length h -> nth_error (h ++ [o]) r = nth_error h r.
Proof. intros. apply nth_error_app1. assumption. Qed.
Lemma nth_last h (o : cobj) : nth_error (h ++ [o]) (length h) = Some o.
Proof. rewrite nth_error_app2, Nat.sub_diag by lia. reflexivity. Qed.
Lemma new_lst h c l : lst (h ++ [new_obj empty_lists c]) (length h) l = [].
Proof.
  unfold lst. rewrite nth_last. cbn. induction (empty_lists c) as [|x t IH]; cbn; [reflexivity|]. destruct (String.eqb x l); [reflexivity|exact IH].
Qed.
Lemma new_att h c a : att (h ++ [new_obj empty_lists c]) (length h) a = None.
Proof. unfold att. rewrite nth_last. reflexivity. Qed.

(** ensure_list changes nothing observable. *)
Lemma ensure_obs h p l : (forall r, cls (ensure_list h p l) r = cls h r) /\ (forall r a, att (ensure_list h p l) r a = att h r a) /\
  (forall r m, lst (ensure_list h p l) r m = lst h r m) /\ length (ensure_list h p l) = length h.
Proof.
  unfold ensure_list. destruct (nth_error h p) as [o|] eqn:E; [|auto]. destruct (dget (o_lists o) l) eqn:D; [auto|].
  unfold cls, att, lst. repeat split; try (intros r).
  - rewrite nth_oset. destruct (Nat.eqb_spec p r) as [->|]; [|reflexivity]. rewrite E. reflexivity.
  - intros a. rewrite nth_oset. destruct (Nat.eqb_spec p r) as [->|]; [|reflexivity]. rewrite E. reflexivity.
  - intros m. rewrite nth_oset. destruct (Nat.eqb_spec p r) as [->|]; [|reflexivity]. rewrite E. cbn. rewrite dget_dset.
    destruct (String.eqb_spec l m) as [->|]; [rewrite D|]; reflexivity.
  - apply oset_length.
Qed.
Lemma ensure_prefix h0 h p l : length h0 <= p -> (exists n, h = h0 ++ n) -> exists n, ensure_list h p l = h0 ++ n.
Proof.
  intros L H. unfold ensure_list. destruct (nth_error h p); [|exact H]. destruct (dget _ _); [exact H|]. apply oset_prefix; assumption.
Qed.

Definition with_node (N : string -> list (string * nat) -> Prop) c s : string -> list (string * nat) -> Prop :=
  fun c' s' => N c' s' \/ (c' = c /\ s' = s).

Lemma inv_insert h0 N A st c s k h' : Inv h0 N A st -> wf_node c s -> ~ N c s -> typed c s k ->
  let n := length (c_heap st) in
  length h' = S n -> (exists m, h' = h0 ++ m) ->
  (forall r, r < n -> cls h' r = cls (c_heap st) r) -> cls h' n = Some k ->
  (forall r a, r < n -> att h' r a = att (c_heap st) r a) -> (forall a, att h' n a = None) -> (forall l, lst h' n l = []) ->
  (s = [] /\ (forall r l, r < n -> lst h' r l = lst (c_heap st) r l) \/
   exists s0 l0 i0 r0, s = s0 ++ [(l0, i0)] /\ dget (c_objs st) (key c s0) = Some r0 /\ i0 = length (lst (c_heap st) r0 l0) /\
     forall r l, r < n -> lst h' r l = if Nat.eqb r r0 && String.eqb l l0 then lst (c_heap st) r l ++ [n] else lst (c_heap st) r l) ->
  Inv h0 (with_node N c s) A (mkCstate h' (dset (c_objs st) (key c s) n)).
Proof.
  intros I W Hn T n Ln Old C1 C2 A1 A2 L2 L1.
  assert (Hnone : dget (c_objs st) (key c s) = None).
  { destruct (dget (c_objs st) (key c s)) eqn:E; [|reflexivity]. exfalso. apply Hn. apply (i_dom _ _ _ _ I c s W). congruence. }
  assert (Hlt : forall c' s' r, wf_node c' s' -> dget (c_objs st) (key c' s') = Some r -> length h0 <= r < n) by (intros; eapply i_cls; eauto).
  assert (Hn0 : length h0 <= n) by (destruct (i_old _ _ _ _ I) as [m Em]; unfold n; rewrite Em, app_length; lia).
  assert (K : forall c' s', wf_node c' s' -> (c' = c /\ s' = s /\ dget (dset (c_objs st) (key c s) n) (key c' s') = Some n) \/
                ((c' <> c \/ s' <> s) /\ dget (dset (c_objs st) (key c s) n) (key c' s') = dget (c_objs st) (key c' s'))).
  { intros c' s' W'. rewrite dget_dset. destruct (String.eqb_spec (key c s) (key c' s')) as [E|E].
    - apply key_inj in E; [|assumption..]. destruct E as [-> ->]. left. auto.
    - right. split; [|reflexivity]. destruct (string_dec c' c) as [->|]; [|auto]. right. intros ->. apply E. reflexivity. }
  constructor; cbn [c_heap c_objs].
  - intros k0 r E. rewrite dget_dset in E. destruct (String.eqb_spec (key c s) k0) as [<-|]; [eauto|]. eapply i_key; eauto.
  - intros c' s' r W' E. destruct (K c' s' W') as [(-> & -> & E')|[_ E']]; rewrite E' in E.
    + injection E as <-. split; [lia|eauto].
    + destruct (i_cls _ _ _ _ I c' s' r W' E) as [B X]. split; [fold n in B; lia|]. rewrite C1 by (apply B). exact X.
  - intros c1 s1 c2 s2 r W1 W2 E1 E2. destruct (K c1 s1 W1) as [(-> & -> & E')|[_ E']]; rewrite E' in E1; destruct (K c2 s2 W2) as [(-> & -> & E'')|[_ E'']]; rewrite E'' in E2.
    + auto.
    + injection E1 as <-. apply Hlt in E2; [lia|assumption].
    + injection E2 as <-. apply Hlt in E1; [lia|assumption].
    + eapply i_inj; eauto.
  - intros c1 s1 l i q W1. assert (W1' := proj1 (proj1 (wf_snoc _ _ _ _) W1)).
    destruct (K c1 (s1 ++ [(l, i)]) W1) as [(E1 & E2 & ->)|[D ->]].
    + subst c1. destruct L1 as [[-> _]|(s0 & l0 & i0 & r0 & Es & E0 & Ei & L1)]; [destruct s1; discriminate|].
      rewrite Es in E2. apply app_inj_tail in E2. destruct E2 as [<- E2]. injection E2 as <- <-.
      destruct (K c s1 W1') as [(_ & E2 & _)|[_ ->]].
      { exfalso. rewrite <- E2 in Es. assert (Q := f_equal (@length _) Es). rewrite app_length in Q. cbn in Q. lia. }
      split.
      * intros E. injection E as <-. exists r0. split; [exact E0|]. rewrite L1 by (apply (Hlt c s1); assumption). rewrite Nat.eqb_refl, String.eqb_refl. cbn.
        rewrite nth_error_app2 by lia. rewrite Ei, Nat.sub_diag. reflexivity.
      * intros (r & E & Q). rewrite E0 in E. injection E as <-. rewrite L1 in Q by (apply (Hlt c s1); assumption). rewrite Nat.eqb_refl, String.eqb_refl in Q. cbn in Q.
        rewrite nth_error_app2 in Q by lia. rewrite Ei, Nat.sub_diag in Q. exact Q.
    + rewrite (i_lst _ _ _ _ I c1 s1 l i q W1).
      destruct (K c1 s1 W1') as [(-> & -> & ->)|[D' ->]].
      * split; [intros (r & E & _); congruence|]. intros (r & E & Q). injection E as <-. rewrite L2 in Q. destruct i; discriminate.
      * split; intros (r & E & Q); exists r; (split; [exact E|]); assert (B := Hlt _ _ _ W1' E);
          (destruct L1 as [[_ L1]|(s0 & l0 & i0 & r0 & Es & E0 & Ei & L1)]; [first [rewrite L1 by lia; exact Q | rewrite L1 in Q by lia; exact Q]|]).
        { rewrite L1 by lia. destruct (Nat.eqb_spec r r0) as [->|]; [|exact Q]. destruct (String.eqb_spec l l0) as [->|]; [|exact Q]. cbn.
          rewrite nth_error_app1; [exact Q|]. apply nth_error_Some. congruence. }
        { rewrite L1 in Q by lia. destruct (Nat.eqb_spec r r0) as [->|]; [|exact Q]. destruct (String.eqb_spec l l0) as [->|]; [|exact Q]. cbn in Q.
          destruct (Nat.lt_ge_cases i i0) as [Hi|Hi]; [rewrite nth_error_app1 in Q by lia; exact Q|].
          destruct (Nat.eq_dec i i0) as [->|]; [|rewrite (proj2 (nth_error_None _ _)) in Q; [discriminate|rewrite app_length; cbn; lia]].
          exfalso. assert (Ws0 : wf_node c s0) by (rewrite Es in W; apply wf_snoc in W; apply W).
          destruct (i_inj _ _ _ _ I c1 s1 c s0 r0 W1' Ws0 E E0) as [-> ->]. destruct D as [D|D]; [apply D; reflexivity|]. apply D. congruence. }
  - intros r Hr. rewrite Ln in Hr. destruct (Nat.eq_dec r n) as [->|].
    + exists c, s. split; [exact W|]. rewrite dget_dset_same. reflexivity.
    + destruct (i_all _ _ _ _ I r) as (c1 & s1 & W1 & E1); [fold n; lia|]. exists c1, s1. split; [exact W1|].
      destruct (K c1 s1 W1) as [(-> & -> & _)|[_ ->]]; [congruence|exact E1].
  - exact Old.
  - intros c1 s1 W1. unfold with_node. destruct (K c1 s1 W1) as [(-> & -> & ->)|[D ->]].
    + split; [intros _; right; auto|discriminate].
    + rewrite (i_dom _ _ _ _ I c1 s1 W1). intuition congruence.
  - intros c1 s1 r a W1 E. destruct (K c1 s1 W1) as [(-> & -> & E')|[_ E']]; rewrite E' in E.
    + injection E as <-. rewrite A2. symmetry. apply (i_none _ _ _ _ I). exact Hn.
    + rewrite A1 by (apply (Hlt c1 s1); assumption). eapply i_att; eauto.
  - intros c1 s1 a Q. apply (i_none _ _ _ _ I). intros X. apply Q. left. exact X.
  - intros c1 s1 r l W1 E B. destruct (K c1 s1 W1) as [(-> & -> & E')|[_ E']]; rewrite E' in E.
    + injection E as <-. apply L2.
    + assert (Z := i_bad _ _ _ _ I c1 s1 r l W1 E B). assert (Br := Hlt _ _ _ W1 E). destruct L1 as [[_ L1]|(s0 & l0 & i0 & r0 & Es & E0 & Ei & L1)]; rewrite L1 by lia; [exact Z|].
      destruct (Nat.eqb_spec r r0); [|exact Z]. destruct (String.eqb_spec l l0) as [->|]; [|exact Z]. exfalso. apply B. rewrite Es in W. apply wf_snoc in W. apply W.
Qed.

Lemma inv_ext h0 N N' A st : (forall c s, N c s <-> N' c s) -> Inv h0 N A st -> Inv h0 N' A st.
Proof.
  intros E I. destruct I. constructor; auto.
  - intros c s W. rewrite <- E. auto.
  - intros c s a H. apply i_none0. rewrite E. exact H.
Qed.
Lemma inv_obs h0 N A st h' : Inv h0 N A st -> (forall r, cls h' r = cls (c_heap st) r) -> (forall r a, att h' r a = att (c_heap st) r a) ->
  (forall r m, lst h' r m = lst (c_heap st) r m) -> length h' = length (c_heap st) -> (exists n, h' = h0 ++ n) -> Inv h0 N A (mkCstate h' (c_objs st)).
Proof.
  intros I C At L Ln O. destruct I. constructor; cbn [c_heap c_objs]; auto.
  - intros c s r W E. rewrite Ln, C. eauto.
  - intros c s l i q W. rewrite i_lst0 by exact W. split; intros (r & H & Q); exists r; (split; [exact H|]); [rewrite L|rewrite L in Q]; exact Q.
  - intros r Hr. rewrite Ln in Hr. auto.
  - intros c s r a W E. rewrite At. eauto.
  - intros c s r l W E B. rewrite L. eauto.
Qed.

Lemma inv_root h0 N A st c : Inv h0 N A st -> ~ N c [] -> free "." c -> known c = true ->
  Inv h0 (with_node N c []) A (mkCstate (c_heap st ++ [new_obj empty_lists c]) (dset (c_objs st) c (length (c_heap st)))).
Proof.
  intros I H F K. apply (inv_insert h0 N A st c [] c) with (h' := c_heap st ++ [new_obj empty_lists c]); auto.
  - split; [exact F|intros l i []].
  - constructor. exact K.
  - rewrite app_length. cbn. lia.
  - destruct (i_old _ _ _ _ I) as [m ->]. rewrite <- app_assoc. eauto.
  - intros r Hr. unfold cls. rewrite nth_snoc by exact Hr. reflexivity.
  - unfold cls. rewrite nth_last. reflexivity.
  - intros r a Hr. unfold att. rewrite nth_snoc by exact Hr. reflexivity.
  - apply new_att.
  - apply new_lst.
  - left. split; [reflexivity|]. intros r l Hr. unfold lst. rewrite nth_snoc by exact Hr. reflexivity.
Qed.

Lemma append_obs h p l q : p < length h ->
  (forall r, cls (append_to h p l q) r = cls h r) /\ (forall r a, att (append_to h p l q) r a = att h r a) /\
  (forall r m, lst (append_to h p l q) r m = if Nat.eqb r p && String.eqb m l then lst h r m ++ [q] else lst h r m) /\
  length (append_to h p l q) = length h.
Proof.
  intros Hp. unfold append_to. destruct (nth_error h p) as [o|] eqn:E; [|apply nth_error_None in E; lia].
  unfold cls, att, lst. repeat split; try (intros r).
  - rewrite nth_oset. destruct (Nat.eqb_spec p r) as [->|]; [|reflexivity]. rewrite E. reflexivity.
  - intros a. rewrite nth_oset. destruct (Nat.eqb_spec p r) as [->|]; [|reflexivity]. rewrite E. reflexivity.
  - intros m. rewrite nth_oset. rewrite Nat.eqb_sym. destruct (Nat.eqb_spec r p) as [->|]; [|reflexivity]. rewrite E. cbn [o_lists]. rewrite dget_dset, String.eqb_sym.
    destruct (String.eqb_spec m l) as [->|]; reflexivity.
  - apply oset_length.
Qed.
Lemma append_prefix h0 h p l q : length h0 <= p -> (exists n, h = h0 ++ n) -> exists n, append_to h p l q = h0 ++ n.
Proof. intros L H. unfold append_to. destruct (nth_error h p); [|exact H]. apply oset_prefix; assumption. Qed.

Lemma elem_name c s l j : (key c s ++ "." ++ l ++ "[" ++ str_of j ++ "]")%string = key c (s ++ [(l, j)]).
Proof. rewrite key_snoc. reflexivity. Qed.

(** Adding one element. *)
Lemma add_elem_ok h0 N A st c s p l k k' j : Inv h0 N A st -> wf_node c s -> free "." l -> free "[" l ->
  dget (c_objs st) (key c s) = Some p -> cls (c_heap st) p = Some k -> elem k l = Ok k' -> known k' = true ->
  j <= length (lst (c_heap st) p l) ->
  exists st', add_elem known empty_lists (key c s) p l k' st j = Ok st' /\ Inv h0 (with_node N c (s ++ [(l, j)])) A st' /\
    dget (c_objs st') (key c s) = Some p /\ cls (c_heap st') p = Some k /\ j < length (lst (c_heap st') p l).
Proof.
  intros I W F F' Ep Ec Ee Kk Hj. unfold add_elem. rewrite elem_name.
  assert (Wj : wf_node c (s ++ [(l, j)])) by (apply wf_snoc; auto).
  destruct (i_cls _ _ _ _ I c s p W Ep) as [Bp (k0 & Ek0 & Tk)]. rewrite Ec in Ek0. injection Ek0 as <-.
  unfold dmem. destruct (dget (c_objs st) (key c (s ++ [(l, j)]))) as [q|] eqn:D.
  - exists st. split; [reflexivity|]. split; [|split; [exact Ep|split; [exact Ec|]]].
    + apply inv_ext with N; [|exact I]. intros c1 s1. unfold with_node. split; [auto|]. intros [H|[-> ->]]; [exact H|]. apply (i_dom _ _ _ _ I _ _ Wj). congruence.
    + apply (i_lst _ _ _ _ I _ _ _ _ _ Wj) in D. destruct D as (r & E & Q). rewrite Ep in E. injection E as <-. apply nth_error_Some. congruence.
  - assert (Lj : j = length (lst (c_heap st) p l)).
    { destruct (Nat.eq_dec j (length (lst (c_heap st) p l))) as [E|E]; [exact E|]. exfalso.
      destruct (nth_error (lst (c_heap st) p l) j) as [q|] eqn:Q; [|apply nth_error_None in Q; lia].
      assert (X : dget (c_objs st) (key c (s ++ [(l, j)])) = Some q) by (apply (i_lst _ _ _ _ I _ _ _ _ _ Wj); eauto). congruence. }
    unfold create. rewrite Kk. cbn [bind c_heap c_objs]. eexists. split; [reflexivity|].
    set (h1 := c_heap st ++ [new_obj empty_lists k']). set (n := length (c_heap st)).
    assert (Lh1 : length h1 = S n) by (unfold h1, n; rewrite app_length; cbn; lia).
    destruct (append_obs h1 p l n) as (O1 & O2 & O3 & O4); [lia|].
    assert (S1 : forall r, r < n -> cls h1 r = cls (c_heap st) r) by (intros r Hr; unfold cls, h1; rewrite nth_snoc by exact Hr; reflexivity).
    assert (S3 : forall r m, r < n -> lst h1 r m = lst (c_heap st) r m) by (intros r m Hr; unfold lst, h1; rewrite nth_snoc by exact Hr; reflexivity).
    split; [|split; [|split]]; cbn [c_heap c_objs].
    + apply (inv_insert h0 N A st c (s ++ [(l, j)]) k'); auto.
      * intros H. apply (i_dom _ _ _ _ I _ _ Wj) in H. contradiction.
      * econstructor; eauto.
      * rewrite O4. exact Lh1.
      * apply append_prefix; [lia|]. destruct (i_old _ _ _ _ I) as [m Em]. unfold h1. rewrite Em, <- app_assoc. eauto.
      * intros r Hr. rewrite O1. apply S1. exact Hr.
      * rewrite O1. unfold cls, h1. rewrite nth_last. reflexivity.
      * intros r a Hr. rewrite O2. unfold att, h1. rewrite nth_snoc by exact Hr. reflexivity.
      * intros a. rewrite O2. apply new_att.
      * intros m. rewrite O3. destruct (Nat.eqb_spec (length (c_heap st)) p) as [E|]; [lia|]. apply new_lst.
      * right. exists s, l, j, p. split; [reflexivity|]. split; [exact Ep|]. split; [exact Lj|]. intros r m Hr. rewrite O3. rewrite S3 by exact Hr. reflexivity.
    + rewrite dget_dset. destruct (String.eqb_spec (key c (s ++ [(l, j)])) (key c s)) as [E|]; [|exact Ep]. rewrite E in D. congruence.
    + rewrite O1. rewrite S1 by (apply Bp). exact Ec.
    + rewrite O3, Nat.eqb_refl, String.eqb_refl. cbn. rewrite S3 by (apply Bp). rewrite app_length. cbn. lia.
Qed.

Lemma add_elems_ok h0 A c s p l k k' m : wf_node c s -> free "." l -> free "[" l -> elem k l = Ok k' -> known k' = true ->
  forall a N st, Inv h0 N A st -> dget (c_objs st) (key c s) = Some p -> cls (c_heap st) p = Some k -> a <= length (lst (c_heap st) p l) ->
  exists st', foldM (add_elem known empty_lists (key c s) p l k') (seq a m) st = Ok st' /\
    Inv h0 (fun c1 s1 => N c1 s1 \/ exists j, a <= j < a + m /\ c1 = c /\ s1 = s ++ [(l, j)]) A st' /\ dget (c_objs st') (key c s) = Some p.
Proof.
  intros W F F' Ee Kk. induction m as [|m IH]; intros a N st I Ep Ec La; cbn [seq foldM].
  - exists st. split; [reflexivity|]. split; [|exact Ep]. apply inv_ext with N; [|exact I]. intros c1 s1. split; [auto|]. intros [H|(j & H & _)]; [exact H|lia].
  - destruct (add_elem_ok h0 N A st c s p l k k' a I W F F' Ep Ec Ee Kk La) as (st1 & E1 & I1 & Ep1 & Ec1 & L1). rewrite E1.
    destruct (IH (S a) _ st1 I1 Ep1 Ec1 L1) as (st2 & E2 & I2 & Ep2). exists st2. split; [exact E2|]. split; [|exact Ep2].
    eapply inv_ext; [|exact I2]. intros c1 s1. unfold with_node. cbn beta. split.
    + intros [[H|[-> ->]]|(j & Hj & -> & ->)]; [auto|right; exists a; repeat split; lia|right; exists j; repeat split; lia].
    + intros [H|(j & Hj & -> & ->)]; [auto|]. destruct (Nat.eq_dec j a) as [->|]; [auto|]. right. exists j. repeat split; lia.
Qed.
Lemma add_elems_unknown pre p l k' js : known k' = false -> forall st st', foldM (add_elem known empty_lists pre p l k') js st = Ok st' -> c_objs st' = c_objs st.
Proof.
  intros K. induction js as [|j js IH]; intros st st'; cbn [foldM]; [intros E; injection E as <-; reflexivity|].
  unfold add_elem at 1, create. rewrite K. destruct (dmem _ _); cbn [bind]; [apply IH|discriminate].
Qed.

(** One layer. *)
Lemma layer_step_ok h0 N A st c s p l i k' : Inv h0 N A st -> wf_node c (s ++ [(l, i)]) -> dget (c_objs st) (key c s) = Some p ->
  typed c (s ++ [(l, i)]) k' ->
  exists st' q, layer_step known empty_lists elem (st, p, key c s) (layer (l, i)) = Ok (st', q, key c (s ++ [(l, i)])) /\
    dget (c_objs st') (key c (s ++ [(l, i)])) = Some q /\
    Inv h0 (fun c1 s1 => N c1 s1 \/ exists j, j <= i /\ c1 = c /\ s1 = s ++ [(l, j)]) A st'.
Proof.
  intros I Wi Ep T. assert (W := Wi). apply wf_snoc in W. destruct W as (W & F & F').
  inversion T as [|c0 s0 k l0 i0 k0 Tk Ee Kk E1 E2]; [destruct s; discriminate|]. apply app_inj_tail in E2. destruct E2 as [E2 E3]. injection E3 as -> ->. subst s0 c0 k0. clear T.
  destruct (i_cls _ _ _ _ I c s p W Ep) as [Bp (k1 & Ec & Tk1)]. assert (k1 = k) by (eapply typed_fun; eauto). subst k1.
  assert (Eo : exists o, nth_error (c_heap st) p = Some o /\ o_class o = k).
  { unfold cls in Ec. destruct (nth_error (c_heap st) p) as [o|]; [|discriminate]. exists o. injection Ec as <-. auto. }
  destruct Eo as (o & Eo & Eoc).
  unfold layer_step. rewrite split_layer by exact F'. cbn [nth_error of_opt bind]. rewrite strip_str, int_str. cbn [bind]. rewrite Eo. cbn [of_opt bind].
  rewrite Eoc, Ee. cbn [bind]. rewrite <- key_snoc. unfold dmem. destruct (dget (c_objs st) (key c (s ++ [(l, i)]))) as [q|] eqn:D; cbn [bind].
  - rewrite D. cbn. exists st, q. split; [reflexivity|]. split; [exact D|]. apply inv_ext with N; [|exact I]. intros c1 s1. split; [auto|].
    intros [H|(j & Hj & -> & ->)]; [exact H|].
    assert (Wj : wf_node c (s ++ [(l, j)])) by (apply wf_snoc; auto). apply (i_dom _ _ _ _ I _ _ Wj).
    apply (i_lst _ _ _ _ I _ _ _ _ _ Wi) in D. destruct D as (r & Er & Q). assert (Hi : i < length (lst (c_heap st) r l)) by (apply nth_error_Some; congruence).
    destruct (nth_error (lst (c_heap st) r l) j) as [q'|] eqn:Q'; [|apply nth_error_None in Q'; lia].
    rewrite (proj2 (i_lst _ _ _ _ I _ _ _ _ q' Wj)); [discriminate|eauto].
  - destruct (ensure_obs (c_heap st) p l) as (O1 & O2 & O3 & O4).
    assert (I1 : Inv h0 N A (mkCstate (ensure_list (c_heap st) p l) (c_objs st))).
    { apply inv_obs; auto. apply ensure_prefix; [lia|]. exact (i_old _ _ _ _ I). }
    destruct (add_elems_ok h0 A c s p l k k' (S i) W F F' Ee Kk 0 N _ I1) as (st' & E & I' & Ep'); [exact Ep|cbn; rewrite O1; exact Ec|lia|].
    rewrite E. cbn [bind].
    assert (X : dget (c_objs st') (key c (s ++ [(l, i)])) <> None) by (apply (i_dom _ _ _ _ I' _ _ Wi); right; exists i; repeat split; lia).
    destruct (dget (c_objs st') (key c (s ++ [(l, i)]))) as [q|] eqn:Dq; [|contradiction]. cbn. exists st', q. split; [reflexivity|]. split; [exact Dq|].
    eapply inv_ext; [|exact I']. intros c1 s1. split; (intros [H|(j & Hj & H)]; [auto|right; exists j; split; [lia|exact H]]).
Qed.
Lemma layer_step_typed h0 N A st c s p l i r : Inv h0 N A st -> wf_node c (s ++ [(l, i)]) -> dget (c_objs st) (key c s) = Some p ->
  layer_step known empty_lists elem (st, p, key c s) (layer (l, i)) = Ok r -> exists k', typed c (s ++ [(l, i)]) k'.
Proof.
  intros I Wi Ep R. assert (W := Wi). apply wf_snoc in W. destruct W as (W & F & F').
  destruct (i_cls _ _ _ _ I c s p W Ep) as [Bp (k & Ec & Tk)].
  unfold layer_step in R. rewrite split_layer in R by exact F'. cbn [nth_error of_opt bind] in R. rewrite strip_str, int_str in R. cbn [bind] in R.
  unfold cls in Ec. destruct (nth_error (c_heap st) p) as [o|]; [|discriminate]. injection Ec as Ec. cbn [of_opt bind] in R. rewrite Ec in R.
  destruct (elem k l) as [k'|] eqn:Ee; [|discriminate]. cbn [bind] in R. rewrite <- key_snoc in R. unfold dmem in R.
  destruct (dget (c_objs st) (key c (s ++ [(l, i)]))) as [q|] eqn:D.
  - destruct (i_cls _ _ _ _ I _ _ q Wi D) as [_ (x & _ & Tx)]. eauto.
  - destruct (known k') eqn:Kk; [exists k'; econstructor; eauto|]. exfalso.
    destruct (foldM (add_elem _ _ _ _ _ _) _ _) as [st'|] eqn:E; [|discriminate]. apply add_elems_unknown in E; [|exact Kk]. cbn in E. cbn [bind] in R. rewrite E, D in R. discriminate.
Qed.

Lemma typed_prefix c t : forall s k, typed c (s ++ t) k -> exists k1, typed c s k1.
Proof.
  induction t as [|x t IH] using rev_ind; intros s k T; [rewrite app_nil_r in T; eauto|].
  rewrite app_assoc in T. inversion T as [|c0 s0 k0 l0 i0 k1 Tk Ee Kk E1 E2]; [destruct (s ++ t); discriminate|].
  apply app_inj_tail in E2. destruct E2 as [-> _]. eauto.
Qed.

Definition touched (c : string) (s t : list (string * nat)) (c1 : string) (s1 : list (string * nat)) : Prop :=
  exists t1 l i t2 j, t = t1 ++ (l, i) :: t2 /\ j <= i /\ c1 = c /\ s1 = s ++ t1 ++ [(l, j)].

Lemma layers_ok h0 A c t k : forall s N st p, wf_node c (s ++ t) -> typed c (s ++ t) k -> Inv h0 N A st -> dget (c_objs st) (key c s) = Some p ->
  exists st' q, foldM (layer_step known empty_lists elem) (map layer t) (st, p, key c s) = Ok (st', q, key c (s ++ t)) /\
    dget (c_objs st') (key c (s ++ t)) = Some q /\ Inv h0 (fun c1 s1 => N c1 s1 \/ touched c s t c1 s1) A st'.
Proof.
  induction t as [|[l i] t IH]; intros s N st p W T I Ep; cbn [map foldM].
  - rewrite app_nil_r in *. exists st, p. split; [reflexivity|]. split; [exact Ep|]. apply inv_ext with N; [|exact I]. intros c1 s1. split; [auto|].
    intros [H|(t1 & l & i & t2 & j & H & _)]; [exact H|]. destruct t1; discriminate.
  - assert (E : s ++ (l, i) :: t = (s ++ [(l, i)]) ++ t) by (rewrite <- app_assoc; reflexivity). rewrite E in *.
    assert (W1 : wf_node c (s ++ [(l, i)])).
    { destruct W as [Wc Ws]. split; [exact Wc|]. intros l0 i0 H. apply Ws with i0. apply in_app_iff. left. exact H. }
    destruct (typed_prefix c t _ _ T) as [k1 T1].
    destruct (layer_step_ok h0 N A st c s p l i k1 I W1 Ep T1) as (st1 & q1 & E1 & Eq1 & I1). rewrite E1.
    destruct (IH (s ++ [(l, i)]) _ st1 q1 W T I1 Eq1) as (st2 & q2 & E2 & Eq2 & I2). exists st2, q2. split; [exact E2|]. split; [exact Eq2|].
    eapply inv_ext; [|exact I2]. intros c1 s1. cbn beta. split.
    + intros [[H|(j & Hj & -> & ->)]|(t1 & l1 & i1 & t2 & j & -> & Hj & -> & ->)]; [auto| |]; right.
      * exists [], l, i, t, j. auto.
      * exists ((l, i) :: t1), l1, i1, t2, j. rewrite <- app_assoc. auto.
    + intros [H|(t1 & l1 & i1 & t2 & j & Et & Hj & -> & ->)]; [auto|]. destruct t1 as [|x t1].
      * injection Et as -> -> ->. left. right. exists j. auto.
      * injection Et as <- ->. right. exists t1, l1, i1, t2, j. rewrite <- app_assoc. auto.
Qed.
Lemma layers_typed h0 A c t : forall s N st p r, wf_node c (s ++ t) -> Inv h0 N A st -> dget (c_objs st) (key c s) = Some p ->
  foldM (layer_step known empty_lists elem) (map layer t) (st, p, key c s) = Ok r -> exists k, typed c (s ++ t) k.
Proof.
  induction t as [|[l i] t IH]; intros s N st p r W I Ep; cbn [map foldM].
  - rewrite app_nil_r in *. intros _. destruct (i_cls _ _ _ _ I c s p W Ep) as [_ (k & _ & T)]. eauto.
  - assert (E : s ++ (l, i) :: t = (s ++ [(l, i)]) ++ t) by (rewrite <- app_assoc; reflexivity). rewrite E in *.
    assert (W1 : wf_node c (s ++ [(l, i)])).
    { destruct W as [Wc Ws]. split; [exact Wc|]. intros l0 i0 H. apply Ws with i0. apply in_app_iff. left. exact H. }
    destruct (layer_step known empty_lists elem (st, p, key c s) (layer (l, i))) as [r1|] eqn:L; [|discriminate].
    destruct (layer_step_typed h0 N A st c s p l i r1 I W1 Ep L) as [k1 T1].
    destruct (layer_step_ok h0 N A st c s p l i k1 I W1 Ep T1) as (st1 & q1 & E1 & Eq1 & I1). rewrite E1 in L. injection L as <-.
    intros R. exact (IH _ _ _ _ _ W I1 Eq1 R).
Qed.

(** Storing a cell. *)
Definition place_eq_dec (x y : string * list (string * nat) * string) : {x = y} + {x <> y}.
Proof. repeat decide equality. Defined.
Definition upd (A : string -> list (string * nat) -> string -> option cell) c s a w : string -> list (string * nat) -> string -> option cell :=
  fun c1 s1 a1 => if place_eq_dec (c1, s1, a1) (c, s, a) then Some w else A c1 s1 a1.

Lemma set_cell_given o st p a v : nth_error (c_heap st) p = Some o ->
  set_cell accept st p a v = match given a v with
    | None => Err EAttr
    | Some g => do w <- accept (o_class o) a g; Ok (mkCstate (oset (c_heap st) p (mkCobj (o_class o) (dset (o_attrs o) a w) (o_lists o))) (c_objs st))
    end.
Proof.
  intros E. unfold set_cell, given. rewrite E. cbn [of_opt bind]. destruct (String.eqb a "name"); [destruct v|]; reflexivity.
Qed.

Lemma set_cell_inv h0 N A st c s p a v st' : Inv h0 N A st -> wf_node c s -> dget (c_objs st) (key c s) = Some p ->
  set_cell accept st p a v = Ok st' ->
  exists k g w, typed c s k /\ given a v = Some g /\ accept k a g = Ok w /\ Inv h0 N (upd A c s a w) st'.
Proof.
  intros I W Ep R. destruct (i_cls _ _ _ _ I c s p W Ep) as [Bp (k & Ec & Tk)]. unfold cls in Ec.
  destruct (nth_error (c_heap st) p) as [o|] eqn:Eo; [|discriminate]. injection Ec as Ec. rewrite (set_cell_given o) in R by exact Eo.
  destruct (given a v) as [g|]; [|discriminate]. rewrite Ec in R. destruct (accept k a g) as [w|] eqn:Ea; [|discriminate]. cbn [bind] in R. injection R as <-.
  exists k, g, w. split; [exact Tk|]. split; [reflexivity|]. split; [exact Ea|].
  set (o' := mkCobj k (dset (o_attrs o) a w) (o_lists o)).
  assert (C : forall r, cls (oset (c_heap st) p o') r = cls (c_heap st) r).
  { intros r. unfold cls. rewrite nth_oset. destruct (Nat.eqb_spec p r) as [->|]; [rewrite Eo; cbn; congruence|reflexivity]. }
  assert (L : forall r l, lst (oset (c_heap st) p o') r l = lst (c_heap st) r l).
  { intros r l. unfold lst. rewrite nth_oset. destruct (Nat.eqb_spec p r) as [->|]; [rewrite Eo; reflexivity|reflexivity]. }
  assert (T : forall r b, att (oset (c_heap st) p o') r b = if Nat.eqb p r && String.eqb a b then Some w else att (c_heap st) r b).
  { intros r b. unfold att. rewrite nth_oset. destruct (Nat.eqb_spec p r) as [->|]; [rewrite Eo; cbn; apply dget_dset|reflexivity]. }
  assert (Ln := oset_length (c_heap st) p o'). destruct I. constructor; cbn [c_heap c_objs]; auto.
  - intros c1 s1 r W1 E. rewrite Ln, C. eauto.
  - intros c1 s1 l i q W1. rewrite i_lst0 by exact W1. split; intros (r & H & Q); exists r; (split; [exact H|]); [rewrite L|rewrite L in Q]; exact Q.
  - intros r Hr. rewrite Ln in Hr. auto.
  - apply oset_prefix; [lia|auto].
  - intros c1 s1 r b W1 E. rewrite T. unfold upd. destruct (place_eq_dec (c1, s1, b) (c, s, a)) as [Q|Q].
    + injection Q as -> -> ->. rewrite Ep in E. injection E as <-. rewrite Nat.eqb_refl, String.eqb_refl. reflexivity.
    + destruct (Nat.eqb_spec p r) as [<-|]; [|cbn; eauto]. destruct (String.eqb_spec a b) as [<-|]; [|cbn; eauto].
      exfalso. apply Q. destruct (i_inj0 c1 s1 c s p W1 W E Ep) as [-> ->]. reflexivity.
  - intros c1 s1 b H. unfold upd. destruct (place_eq_dec (c1, s1, b) (c, s, a)) as [Q|Q]; [|auto]. injection Q as -> -> ->. exfalso. apply H. apply (i_dom0 c s W). congruence.
  - intros c1 s1 r l W1 E B. rewrite L. eauto.
Qed.
Lemma set_cell_ok h0 N A st c s p a v k g w : Inv h0 N A st -> wf_node c s -> dget (c_objs st) (key c s) = Some p ->
  typed c s k -> given a v = Some g -> accept k a g = Ok w -> exists st', set_cell accept st p a v = Ok st'.
Proof.
  intros I W Ep Tk G Ac. destruct (i_cls _ _ _ _ I c s p W Ep) as [Bp (k1 & Ec & Tk1)]. assert (k1 = k) by (eapply typed_fun; eauto). subst k1. unfold cls in Ec.
  destruct (nth_error (c_heap st) p) as [o|] eqn:Eo; [|discriminate]. injection Ec as Ec. rewrite (set_cell_given o) by exact Eo. rewrite G, Ec, Ac. cbn. eauto.
Qed.

(** One column. *)
Notation column := (column_step known empty_lists elem accept).
Notation storable := (storable known elem accept).
Lemma layers_eq p : wf_path p -> exists x y, split_on "." (render p) = p_class p :: x :: y /\ removelast (x :: y) = map layer (p_steps p) /\
  last (p_class p :: x :: y) "" = p_attr p.
Proof.
  intros W. rewrite (split_render p W). destruct (map layer (p_steps p) ++ [p_attr p]) as [|x y] eqn:E.
  - destruct (map layer (p_steps p)); discriminate.
  - exists x, y. split; [reflexivity|]. split; [rewrite <- E; apply removelast_last|].
    change (p_class p :: x :: y) with ([p_class p] ++ (x :: y)). rewrite <- E, app_assoc. apply last_last.
Qed.

Definition added (p : path) (c : string) (s : list (string * nat)) : Prop := (c = p_class p /\ s = []) \/ touched (p_class p) [] (p_steps p) c s.

Lemma column_empty st p : wf_path p -> column st (render p, CEmpty) = Ok st.
Proof. intros W. unfold column_step. cbn [fst snd]. destruct (layers_eq p W) as (x & y & E & _). rewrite E. reflexivity. Qed.

Lemma wf_root c s : wf_node c s -> wf_node c [].
Proof. intros [H _]. split; [exact H|intros l i []]. Qed.

Lemma column_root h0 N A st c : Inv h0 N A st -> wf_node c [] -> 
  (known c = true -> exists st1 q, (match dget (c_objs st) c with Some p => Ok (st, p) | None => create known empty_lists st c c end) = Ok (st1, q) /\
    dget (c_objs st1) (key c []) = Some q /\ Inv h0 (with_node N c []) A st1) /\
  (known c = false -> exists e, (match dget (c_objs st) c with Some p => Ok (st, p) | None => create known empty_lists st c c end) = Err e).
Proof.
  intros I W. destruct (dget (c_objs st) c) as [q|] eqn:D; split; intros K.
  - exists st, q. split; [reflexivity|]. split; [exact D|]. apply inv_ext with N; [|exact I]. intros c1 s1. unfold with_node. split; [auto|].
    intros [H|[-> ->]]; [exact H|]. apply (i_dom _ _ _ _ I _ _ W). change (key c []) with c. congruence.
  - exfalso. destruct (i_cls _ _ _ _ I c [] q W D) as [_ (k & _ & T)]. inversion T; subst; [congruence|]. destruct s; discriminate.
  - unfold create. rewrite K. eexists _, _. split; [reflexivity|]. cbn [c_objs]. split; [apply dget_dset_same|]. apply inv_root; auto.
    + intros H. apply (i_dom _ _ _ _ I _ _ W) in H. contradiction.
    + apply W.
  - unfold create. rewrite K. eauto.
Qed.

Lemma typed_root c s k : typed c s k -> known c = true.
Proof. induction 1; assumption. Qed.

Lemma column_inv h0 N A st p v st' : Inv h0 N A st -> wf_path p -> v <> CEmpty -> column st (render p, v) = Ok st' ->
  exists k g w, typed (p_class p) (p_steps p) k /\ given (p_attr p) v = Some g /\ accept k (p_attr p) g = Ok w /\
    Inv h0 (fun c s => N c s \/ added p c s) (upd A (p_class p) (p_steps p) (p_attr p) w) st'.
Proof.
  intros I Wp Hv R. destruct (layers_eq p Wp) as (x & y & E & E1 & E2). destruct Wp as [W _]. set (c := p_class p) in *. set (s := p_steps p) in *.
  unfold column_step in R. cbn [fst snd] in R. rewrite E in R. cbn [tl] in R. rewrite E1, E2 in R. destruct (column_root h0 N A st c I (wf_root _ _ W)) as [K1 K2].
  destruct (known c) eqn:K; [|destruct (K2 eq_refl) as [e Ee]; rewrite Ee in R; destruct v; try discriminate; congruence].
  destruct (K1 eq_refl) as (st1 & q1 & Er & Eq & I1). rewrite Er in R. cbn [bind] in R.
  assert (R' : (do '(st, p0, _) <- foldM (layer_step known empty_lists elem) (map layer s) (st1, q1, c); set_cell accept st p0 (p_attr p) v) = Ok st') by (destruct v; [congruence|exact R|exact R]).
  clear R. change c with (key c []) in R' at 1.
  destruct (foldM (layer_step known empty_lists elem) (map layer s) (st1, q1, key c [])) as [r|] eqn:F; [|discriminate].
  destruct (layers_typed h0 A c s [] _ st1 q1 r W I1 Eq F) as [k T]. cbn [app] in T.
  destruct (layers_ok h0 A c s k [] _ st1 q1 W T I1 Eq) as (st2 & q2 & F2 & Eq2 & I2). rewrite F in F2. injection F2 as ->. cbn [bind] in R'.
  destruct (set_cell_inv h0 _ A st2 c s q2 (p_attr p) v st' I2 W Eq2 R') as (k' & g & w & T' & G & Ac & I3).
  exists k', g, w. split; [exact T'|]. split; [exact G|]. split; [exact Ac|]. eapply inv_ext; [|exact I3]. intros c1 s1. unfold with_node, added. subst c s. cbn beta. tauto.
Qed.
Lemma column_ok h0 N A st p v : Inv h0 N A st -> wf_path p -> v <> CEmpty -> storable p v -> exists st', column st (render p, v) = Ok st'.
Proof.
  intros I Wp Hv (k & g & w & T & G & Ac). destruct (layers_eq p Wp) as (x & y & E & E1 & E2). destruct Wp as [W _]. set (c := p_class p) in *. set (s := p_steps p) in *.
  unfold column_step. cbn [fst snd]. rewrite E. cbn [tl]. rewrite E1, E2. destruct (column_root h0 N A st c I (wf_root _ _ W)) as [K1 _].
  destruct (K1 (typed_root _ _ _ T)) as (st1 & q1 & Er & Eq & I1). rewrite Er. cbn [bind].
  destruct (layers_ok h0 A c s k [] _ st1 q1 W T I1 Eq) as (st2 & q2 & F2 & Eq2 & I2). change (key c []) with c in F2. rewrite F2. cbn [bind].
  destruct (set_cell_ok h0 _ A st2 c s q2 (p_attr p) v k g w I2 W Eq2 T G Ac) as [st' S]. exists st'. destruct v; [congruence|exact S|exact S].
Qed.

(** A whole row. *)
Definition agree (E : list (path * cell)) (N : string -> list (string * nat) -> Prop) (A : string -> list (string * nat) -> string -> option cell) : Prop :=
  (forall c s, N c s <-> exists p v, In (p, v) E /\ added p c s) /\
  (forall c s a v, last_entry E (mkPath c s a) v -> exists k g w, typed c s k /\ given a v = Some g /\ accept k a g = Ok w /\ A c s a = Some w) /\
  (forall c s a, (forall v, ~ In (mkPath c s a, v) E) -> A c s a = None).

Lemma agree_snoc E N A p v k g w : agree E N A -> typed (p_class p) (p_steps p) k -> given (p_attr p) v = Some g -> accept k (p_attr p) g = Ok w ->
  agree (E ++ [(p, v)]) (fun c s => N c s \/ added p c s) (upd A (p_class p) (p_steps p) (p_attr p) w).
Proof.
  intros (H1 & H2 & H3) T G Ac. split; [|split].
  - intros c s. rewrite H1. split.
    + intros [(q & u & Hq & Ha)|Ha]; [exists q, u|exists p, v]; rewrite in_app_iff; cbn; auto.
    + intros (q & u & Hq & Ha). apply in_app_iff in Hq. destruct Hq as [Hq|[Hq|[]]]; [eauto|]. injection Hq as <- <-. auto.
  - intros c s a u (b & e & Ee & Hn). unfold upd. destruct (place_eq_dec (c, s, a) (p_class p, p_steps p, p_attr p)) as [Q|Q].
    + injection Q as -> -> ->. destruct e as [|x e _] using rev_ind.
      * apply app_inj_tail in Ee. destruct Ee as [_ Ee]. injection Ee as _ <-. eauto 10.
      * change ((mkPath (p_class p) (p_steps p) (p_attr p), u) :: e ++ [x]) with (((mkPath (p_class p) (p_steps p) (p_attr p), u) :: e) ++ [x]) in Ee.
        rewrite app_assoc in Ee. apply app_inj_tail in Ee. destruct Ee as [_ <-]. exfalso. apply (Hn v). apply in_app_iff. right. left. destruct p; reflexivity.
    + destruct e as [|x e _] using rev_ind.
      * apply app_inj_tail in Ee. destruct Ee as [_ Ee]. exfalso. apply Q. injection Ee as -> _. reflexivity.
      * change ((mkPath c s a, u) :: e ++ [x]) with (((mkPath c s a, u) :: e) ++ [x]) in Ee.
        rewrite app_assoc in Ee. apply app_inj_tail in Ee. destruct Ee as [Ee _]. apply H2. exists b, e. split; [exact Ee|].
        intros z Hz. apply (Hn z). apply in_app_iff. auto.
  - intros c s a Hn. unfold upd. destruct (place_eq_dec (c, s, a) (p_class p, p_steps p, p_attr p)) as [Q|Q].
    + injection Q as -> -> ->. exfalso. apply (Hn v). apply in_app_iff. right. left. destruct p; reflexivity.
    + apply H3. intros u Hu. apply (Hn u). apply in_app_iff. auto.
Qed.

Lemma row_inv h0 (row : list (path * cell)) : (forall p v, In (p, v) row -> wf_path p) ->
  forall E0 N A st, agree E0 N A -> Inv h0 N A st ->
  (forall st', foldM column (map (fun e => (render (fst e), snd e)) row) st = Ok st' ->
     (forall p v, In (p, v) (nonempty row) -> storable p v) /\ exists N' A', agree (E0 ++ nonempty row) N' A' /\ Inv h0 N' A' st') /\
  ((forall p v, In (p, v) (nonempty row) -> storable p v) -> exists st', foldM column (map (fun e => (render (fst e), snd e)) row) st = Ok st').
Proof.
  induction row as [|[p v] row IH]; intros W E0 N A st Ag I.
  - cbn. split; [|eauto]. intros st' E. injection E as <-. rewrite app_nil_r. split; [intros p v []|eauto].
  - assert (Wp : wf_path p) by (apply (W p v); left; reflexivity). assert (W' : forall q u, In (q, u) row -> wf_path q) by (intros q u H; apply (W q u); right; exact H).
    cbn [map foldM fst snd].
    assert (Dv : v = CEmpty \/ v <> CEmpty) by (destruct v; [left; reflexivity|right; discriminate|right; discriminate]). destruct Dv as [->|Hv].
    + rewrite column_empty by exact Wp. exact (IH W' E0 N A st Ag I).
    + assert (En : nonempty ((p, v) :: row) = (p, v) :: nonempty row) by (unfold nonempty; cbn; destruct v; [congruence|reflexivity|reflexivity]). rewrite En. split.
      * destruct (column st (render p, v)) as [st1|] eqn:C; [|discriminate]. intros st' R.
        destruct (column_inv h0 N A st p v st1 I Wp Hv C) as (k & g & w & T & G & Ac & I1).
        destruct (proj1 (IH W' _ _ _ _ (agree_snoc _ _ _ _ _ _ _ _ Ag T G Ac) I1) st' R) as (S & N' & A' & Ag' & I'). split.
        { intros q u [H|H]; [injection H as <- <-; exists k, g, w; auto|auto]. }
        { exists N', A'. rewrite <- app_assoc in Ag'. split; [exact Ag'|exact I']. }
      * intros S. destruct (column_ok h0 N A st p v I Wp Hv) as [st1 C]; [apply S; left; reflexivity|]. rewrite C.
        destruct (column_inv h0 N A st p v st1 I Wp Hv C) as (k & g & w & T & G & Ac & I1).
        apply (proj2 (IH W' _ _ _ _ (agree_snoc _ _ _ _ _ _ _ _ Ag T G Ac) I1)). intros q u H. apply S. right. exact H.
Qed.

Lemma inv_start h : Inv h (fun _ _ => False) (fun _ _ _ => None) (mkCstate h []).
Proof.
  constructor; cbn; try discriminate; auto.
  - intros c s l i q _. split; [discriminate|]. intros (r & H & _). discriminate.
  - intros r H. lia.
  - exists []. symmetry. apply app_nil_r.
  - intros c s _. split; [congruence|intros []].
Qed.
Lemma agree_start : agree [] (fun _ _ => False) (fun _ _ _ => None).
Proof. split; [|split]; [|intros c s a v ([] & e & H & _); discriminate|auto]. intros c s. split; [intros []|]. intros (p & v & [] & _). Qed.

(** From the invariant to the specification. *)
Lemma nav_snoc h r s l i : nav h r (s ++ [(l, i)]) = match nav h r s with Some q => nth_error (lst h q l) i | None => None end.
Proof.
  revert r. induction s as [|[m j] s IH]; intros r; cbn; [destruct (nth_error (lst h r l) i); reflexivity|].
  destruct (nth_error (lst h r m) j); [apply IH|reflexivity].
Qed.
Lemma nav_key h0 N A st c r : Inv h0 N A st -> wf_node c [] -> dget (c_objs st) c = Some r ->
  forall s o, nav (c_heap st) r s = Some o <-> wf_node c s /\ dget (c_objs st) (key c s) = Some o.
Proof.
  intros I W Er s. induction s as [|[l i] s IH] using rev_ind; intros o.
  - cbn [nav]. change (key c []) with c. split; [intros E; injection E as <-; auto|]. intros [_ E]. congruence.
  - rewrite nav_snoc. split.
    + destruct (nav (c_heap st) r s) as [q|]; [|discriminate]. destruct (proj1 (IH q) eq_refl) as [Ws Eq]. intros E.
      assert (Wl : wf_node c (s ++ [(l, i)])).
      { apply wf_snoc. split; [exact Ws|]. assert (D : forall c l, {free c l} + {~ free c l}).
        { intros a x. induction x as [|b x [IHx|IHx]]; cbn; [left; trivial| |right; tauto]. destruct (ascii_dec b a); [right; tauto|left; tauto]. }
        destruct (D "."%char l) as [D1|D1], (D "["%char l) as [D2|D2]; auto; exfalso; rewrite (i_bad _ _ _ _ I c s q l Ws Eq) in E by tauto; destruct i; discriminate. }
      split; [exact Wl|]. apply (i_lst _ _ _ _ I _ _ _ _ _ Wl). eauto.
    + intros [Wl E]. assert (Ws : wf_node c s) by (apply wf_snoc in Wl; apply Wl). apply (i_lst _ _ _ _ I _ _ _ _ _ Wl) in E. destruct E as (q & Eq & E).
      rewrite (proj2 (IH q)) by auto. exact E.
Qed.

Lemma row_done E h0 N A st : (forall p v, In (p, v) E -> wf_path p) -> agree E N A -> Inv h0 N A st ->
  row_result known elem accept E h0 (c_heap st) (fun c => if existsb (fun e => String.eqb (p_class (fst e)) c) E then dget (c_objs st) c else None).
Proof.
  intros W (Ag1 & Ag2 & Ag3) I. set (roots := fun c => if existsb (fun e => String.eqb (p_class (fst e)) c) E then dget (c_objs st) c else None).
  assert (In_root : forall p v, In (p, v) E -> exists r, roots (p_class p) = Some r /\ dget (c_objs st) (p_class p) = Some r).
  { intros p v Hp. unfold roots. rewrite (proj2 (existsb_exists _ _)) by (exists (p, v); split; [exact Hp|cbn; apply String.eqb_refl]).
    assert (Wp : wf_node (p_class p) []) by (eapply wf_root; apply (W p v Hp)).
    assert (X : dget (c_objs st) (key (p_class p) []) <> None) by (apply (i_dom _ _ _ _ I _ _ Wp), Ag1; exists p, v; split; [exact Hp|left; auto]).
    change (key (p_class p) []) with (p_class p) in X. destruct (dget (c_objs st) (p_class p)); [eauto|contradiction]. }
  assert (Root_in : forall c r, roots c = Some r -> wf_node c [] /\ dget (c_objs st) c = Some r /\ exists p v, In (p, v) E /\ p_class p = c).
  { intros c r. unfold roots. destruct (existsb _ E) eqn:X; [|discriminate]. apply existsb_exists in X. destruct X as ([p v] & Hp & Hc). cbn in Hc. apply String.eqb_eq in Hc. subst c.
    intros Er. split; [eapply wf_root; apply (W p v Hp)|]. split; [exact Er|eauto]. }
  assert (Nav : forall c r, roots c = Some r -> forall s o, nav (c_heap st) r s = Some o <-> wf_node c s /\ dget (c_objs st) (key c s) = Some o).
  { intros c r Hr. destruct (Root_in c r Hr) as (Wc & Er & _). exact (nav_key _ _ _ _ _ _ I Wc Er). }
  constructor.
  - exact (i_old _ _ _ _ I).
  - intros c. fold (roots c). split.
    + intros H. destruct (roots c) as [r|] eqn:Er; [|contradiction]. apply (Root_in c r Er).
    + intros (p & v & Hp & <-). destruct (In_root p v Hp) as (r & -> & _). discriminate.
  - intros p v Hp. destruct (In_root p v Hp) as (r & Er & _). exists r.
    assert (X : dget (c_objs st) (key (p_class p) (p_steps p)) <> None).
    { apply (i_dom _ _ _ _ I _ _ (proj1 (W p v Hp))), Ag1. exists p, v. split; [exact Hp|]. unfold added. destruct (p_steps p) as [|x t _] using rev_ind; [auto|].
      right. destruct x as [l i]. exists t, l, i, [], i. repeat split; lia. }
    destruct (dget (c_objs st) (key (p_class p) (p_steps p))) as [o|] eqn:Eo; [|contradiction]. exists o. split; [exact Er|].
    apply (Nav _ _ Er). split; [apply (W p v Hp)|exact Eo].
  - intros c r s o Er Hn. apply (Nav _ _ Er) in Hn. destruct Hn as [Ws Eo]. destruct (i_cls _ _ _ _ I c s o Ws Eo) as [B X]. split; [lia|exact X].
  - intros c r s c' r' s' o Er Er' Hn Hn'. apply (Nav _ _ Er) in Hn. apply (Nav _ _ Er') in Hn'. destruct Hn, Hn'. eapply i_inj; eauto.
  - intros o Ho. destruct (i_all _ _ _ _ I o Ho) as (c & s & Ws & Eo).
    assert (X : N c s) by (apply (i_dom _ _ _ _ I c s Ws); congruence). apply Ag1 in X. destruct X as (p & v & Hp & Ha).
    assert (c = p_class p) by (destruct Ha as [[-> _]|(t1 & l & i & t2 & j & _ & _ & -> & _)]; reflexivity). subst c.
    destruct (In_root p v Hp) as (r & Er & _). exists (p_class p), r, s. split; [exact Er|]. apply (Nav _ _ Er). auto.
  - intros c r s o l i Er Hn. apply (Nav _ _ Er) in Hn. destruct Hn as [Ws Eo]. split.
    + intros Hi. destruct (nth_error (lst (c_heap st) o l) i) as [q|] eqn:Q; [|apply nth_error_None in Q; lia].
      assert (Hn : nav (c_heap st) r (s ++ [(l, i)]) = Some q) by (rewrite nav_snoc, (proj2 (Nav c r Er s o)) by auto; exact Q).
      apply (Nav _ _ Er) in Hn. destruct Hn as [Wl El]. assert (X : N c (s ++ [(l, i)])) by (apply (i_dom _ _ _ _ I _ _ Wl); congruence).
      apply Ag1 in X. destruct X as (p & v & Hp & [[_ X]|(t1 & l1 & i1 & t2 & j & Et & Hj & -> & X)]); [destruct s; discriminate|].
      cbn [app] in X. apply app_inj_tail in X. destruct X as [<- X]. injection X as -> ->. exists p, v, i1, t2. auto.
    + intros (p & v & j & t & Hp & <- & Et & Hj).
      assert (Wl : wf_node (p_class p) (s ++ [(l, i)])).
      { destruct (W p v Hp) as [[Wc Wt] _]. apply wf_snoc. split; [exact Ws|]. apply (Wt l j). rewrite Et. apply in_app_iff. right. left. reflexivity. }
      assert (X : dget (c_objs st) (key (p_class p) (s ++ [(l, i)])) <> None).
      { apply (i_dom _ _ _ _ I _ _ Wl), Ag1. exists p, v. split; [exact Hp|]. right. exists s, l, j, t, i. auto. }
      destruct (dget (c_objs st) (key (p_class p) (s ++ [(l, i)]))) as [q|] eqn:Eq; [|contradiction].
      apply (i_lst _ _ _ _ I _ _ _ _ _ Wl) in Eq. destruct Eq as (o' & Eo' & Q). rewrite Eo in Eo'. injection Eo' as <-. apply nth_error_Some. congruence.
  - intros c r s o a v Er Hn Hl. apply (Nav _ _ Er) in Hn. destruct Hn as [Ws Eo]. destruct (Ag2 c s a v Hl) as (k & g & w & T & G & Ac & Ea).
    destruct (i_cls _ _ _ _ I c s o Ws Eo) as [_ (k1 & Ek & Tk)]. assert (k1 = k) by (eapply typed_fun; eauto). subst k1.
    exists k, g, w. repeat split; auto. rewrite (i_att _ _ _ _ I c s o a Ws Eo). exact Ea.
  - intros c r s o a Er Hn Hl. apply (Nav _ _ Er) in Hn. destruct Hn as [Ws Eo]. rewrite (i_att _ _ _ _ I c s o a Ws Eo). apply Ag3. exact Hl.
Qed.

Lemma nonempty_in row e : In e (nonempty row) -> In e row.
Proof. unfold nonempty. intros H. apply filter_In in H. apply H. Qed.

Lemma combine_fst_snd {X Y Z} (f : X -> Z) (l : list (X * Y)) : combine (map (fun e => f (fst e)) l) (map snd l) = map (fun e => (f (fst e), snd e)) l.
Proof. induction l as [|[x y] l IH]; cbn; [reflexivity|]. rewrite IH. reflexivity. Qed.

Lemma parse_row_spec h (row : list (path * cell)) : (forall p v, In (p, v) row -> wf_path p) ->
  (forall h', parse_row known empty_lists elem accept (map (fun e => render (fst e)) row) h (map snd row) = Ok h' ->
     (forall p v, In (p, v) (nonempty row) -> storable p v) /\ exists roots, row_result known elem accept (nonempty row) h h' roots) /\
  ((forall p v, In (p, v) (nonempty row) -> storable p v) -> exists h', parse_row known empty_lists elem accept (map (fun e => render (fst e)) row) h (map snd row) = Ok h').
Proof.
  intros W. unfold parse_row. rewrite combine_fst_snd. destruct (row_inv h row W [] _ _ _ agree_start (inv_start h)) as [H1 H2]. split.
  - intros h' R. destruct (foldM _ _ _) as [st|] eqn:F; [|discriminate]. cbn in R. injection R as <-. destruct (H1 st eq_refl) as (S & N & A & Ag & I). split; [exact S|].
    eexists. eapply row_done; [|exact Ag|exact I]. intros p v Hp. apply (W p v). apply nonempty_in. exact Hp.
  - intros S. destruct (H2 S) as [st F]. rewrite F. cbn. eauto.
Qed.

Lemma combine_cols (cols : list path) (row : list cell) : length row = length cols ->
  map (fun e => render (fst e)) (combine cols row) = map render cols /\ map snd (combine cols row) = row.
Proof.
  revert row. induction cols as [|p cols IH]; intros [|v row] L; cbn in L; try discriminate; [auto|]. injection L as L. destruct (IH row L) as [E1 E2].
  cbn. rewrite E1, E2. auto.
Qed.
Lemma parse_csv_spec (cols : list path) : (forall p, In p cols -> wf_path p) -> forall rows h, (forall row, In row rows -> length row = length cols) ->
  (forall h', parse_csv known empty_lists elem accept (map render cols) rows h = Ok h' ->
     rows_result known elem accept cols rows h h' /\ forall row p v, In row rows -> In (p, v) (nonempty (combine cols row)) -> storable p v) /\
  ((forall row p v, In row rows -> In (p, v) (nonempty (combine cols row)) -> storable p v) ->
     exists h', parse_csv known empty_lists elem accept (map render cols) rows h = Ok h').
Proof.
  intros W rows. unfold parse_csv. induction rows as [|row rows IH]; intros h L; cbn [foldM].
  - split; [intros h' E; injection E as <-; split; [constructor|intros row p v []]|eauto].
  - destruct (combine_cols cols row) as [E1 E2]; [apply L; left; reflexivity|].
    destruct (parse_row_spec h (combine cols row)) as [P1 P2].
    { intros p v Hp. apply W. eapply in_combine_l. exact Hp. }
    rewrite E1, E2 in P1, P2.
    assert (L' : forall r, In r rows -> length r = length cols) by (intros r Hr; apply L; right; exact Hr). split.
    + intros h' R. destruct (parse_row _ _ _ _ _ h row) as [h1|]; [|discriminate]. destruct (P1 h1 eq_refl) as (S & roots & RR).
      destruct (proj1 (IH h1 L') h' R) as [RRs Ss]. split; [econstructor; eauto|]. intros r p v [<-|Hr]; [apply S|apply (Ss r); exact Hr].
    + intros S. destruct P2 as [h1 E]; [intros p v Hp; apply (S row); [left; reflexivity|exact Hp]|]. rewrite E. apply (proj2 (IH h1 L')).
      intros r p v Hr. apply S. right. exact Hr.
Qed.
End Run.
