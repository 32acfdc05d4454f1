From Coq Require Import List String Ascii Bool Arith Lia.
From Verif Require Import Base BaseFacts TextModel CsvModel CsvSpec GlmSpec GlmProofs CymeParseModel CymeParseSpec CymeParseProofs CymeSecModel CymeSecSpec.
Import ListNotations.
Local Open Scope string_scope.
Local Open Scope nat_scope.
Local Open Scope list_scope.

(** ** Trimmed texts *)
Lemma app_assoc_s (a b c : string) : ((a ++ b) ++ c = a ++ (b ++ c))%string.
Proof. induction a as [|x a IH]; cbn; [reflexivity|now rewrite IH]. Qed.
Lemma string_snoc (s : string) : s = "" \/ exists t c, s = (t ++ String c "")%string.
Proof.
  induction s as [|c s [-> | (t & d & ->)]]; [now left | right; exists "", c; reflexivity | right; exists (String c t), d; reflexivity].
Qed.
Lemma rstrip_end_word t c : is_space c = false -> forall b, blank b -> rstrip (t ++ String c "" ++ b)%string = (t ++ String c "")%string.
Proof.
  intros S b B. induction t as [|x t IH]; cbn [append rstrip].
  - assert (R : rstrip b = "") by (now apply rstrip_blank). rewrite R, S. reflexivity.
  - cbn [append] in IH. rewrite IH. destruct t; reflexivity.
Qed.
Lemma strip_padded t w : padded t w -> strip t = w.
Proof.
  intros (a & b & -> & A & B & F & L). unfold strip. rewrite lstrip_blank by exact A.
  destruct w as [|c w].
  - cbn [append]. assert (E : forall b, blank b -> lstrip b = "").
    { clear. induction b as [|c b IH]; cbn; [reflexivity|]. intros [S B]. rewrite S. now apply IH. }
    rewrite E by exact B. reflexivity.
  - pose proof (F c w eq_refl) as S. cbn [append lstrip]. rewrite S. change (String c (w ++ b)) with (String c w ++ b)%string.
    destruct (string_snoc (String c w)) as [E | (u & d & E)]; [discriminate|]. rewrite E.
    rewrite app_assoc_s. apply rstrip_end_word; [|exact B]. apply (L d u E).
Qed.
Lemma lower_space c : is_space (lower_ascii c) = is_space c.
Proof. destruct c as [[] [] [] [] [] [] [] []]; reflexivity. Qed.
Lemma blank_lower a : blank a -> blank (lower a).
Proof. induction a as [|c a IH]; cbn; [auto|]. intros [S B]. split; [now rewrite lower_space|now apply IH]. Qed.
Lemma trimmed_lower w : trimmed w -> trimmed (lower w).
Proof.
  intros [F L]. split.
  - intros c t E. destruct w as [|d w]; [discriminate|]. injection E as <- _. rewrite lower_space. exact (F d w eq_refl).
  - intros c t E. destruct (string_snoc w) as [-> | (u & d & ->)]; [destruct t; discriminate|].
    rewrite lower_app in E. cbn [lower] in E.
    assert (X : forall a b x y, (a ++ String x "" = b ++ String y "")%string -> x = y).
    { clear. induction a as [|p a IH]; intros [|q b] x y E; cbn in E.
      - now injection E. - injection E as _ E. destruct b; discriminate. - injection E as _ E. destruct a; discriminate.
      - injection E as _ E. now apply (IH b). }
    apply X in E. subst c. rewrite lower_space. apply (L d u eq_refl).
Qed.
Lemma padded_lower t w : padded t w -> padded (lower t) (lower w).
Proof.
  intros (a & b & -> & A & B & T). exists (lower a), (lower b). rewrite !lower_app. auto using blank_lower, trimmed_lower.
Qed.
Lemma strips cs ws : Forall2 padded cs ws -> map strip cs = ws.
Proof. induction 1; cbn [map]; [reflexivity|]. now rewrite (strip_padded _ _ H), IHForall2. Qed.
Lemma strips_lower cs ws : Forall2 padded cs ws -> map (fun a => strip (lower a)) cs = map lower ws.
Proof. induction 1; cbn [map]; [reflexivity|]. now rewrite (strip_padded _ _ (padded_lower _ _ H)), IHForall2. Qed.

(** ** A line does what it says *)
Lemma assigns_split line key cs : assigns line key cs -> exists x, nth_error (split_on "=" line) 1 = Some x /\ split_on "," x = cs.
Proof.
  intros (text & -> & FK & FT & C). exists text. rewrite split_cons_free by exact FK. cbn [nth_error].
  split; [|symmetry; now apply cells_split].
  assert (split_on "=" text = [text]) as ->; [|reflexivity].
  apply free_split in FT. destruct (split_on "=" text) as [|y [|? ?]] eqn:E; try discriminate.
  f_equal. clear FT C FK. revert y E. induction text as [|c text IH]; intros y E; cbn in E; [now injection E|].
  destruct (Ascii.eqb c "="); [injection E as _ E; now apply split_ne in E|].
  destruct (split_on "=" text) as [|z [|? ?]] eqn:F; injection E; intros; subst; try discriminate.
  - now apply split_ne in F.
  - now rewrite (IH z eq_refl).
Qed.
Lemma format_of_says line key cs ws : assigns line key cs -> Forall2 padded cs ws -> format_of line = Ok (map lower ws).
Proof.
  intros A P. destruct (assigns_split _ _ _ A) as (x & E & F). unfold format_of. rewrite E. cbn [of_opt bind].
  rewrite F, (strips_lower _ _ P). reflexivity.
Qed.
Lemma lower_upto n s : lower (String.substring 0 n s) = String.substring 0 n (lower s).
Proof. revert n; induction s as [|c s IH]; intros [|n]; cbn; try reflexivity. now rewrite IH. Qed.
Lemma starts_prefix line p : starts line p = String.prefix p (lower line).
Proof.
  unfold starts, upto. rewrite lower_upto. destruct (String.prefix p (lower line)) eqn:E.
  - apply prefix_correct in E. rewrite E. apply String.eqb_refl.
  - apply String.eqb_neq. intros F. apply prefix_correct in F. congruence.
Qed.
Lemma prefix_app p s : String.prefix p (p ++ s)%string = true.
Proof. induction p as [|c p IH]; cbn; [now destruct s|]. destruct (ascii_dec c c) as [_|N]; [exact IH|now destruct N]. Qed.
Lemma length_lower s : String.length (lower s) = String.length s.
Proof. induction s; cbn; congruence. Qed.
Lemma length_app a b : String.length (a ++ b)%string = String.length a + String.length b.
Proof. induction a; cbn; congruence. Qed.

Definition kind_type (k : string) : string := if String.eqb k "substation" then "substation" else "feeder".
(** One line, by what it says. *)
Definition item_step (st : sections) (i : item) : res sections :=
  match i with
  | SecFormat f => Ok (mkSections (Some f) (s_feeder_format st) (s_net st) (s_type st) (s_network_data st) (s_feeder_sections st)
          (s_section_feeder st) (s_section_phase st))
  | NetFormat f => Ok (mkSections (s_section_format st) (Some f) (s_net st) (s_type st) (s_network_data st) (s_feeder_sections st)
          (s_section_feeder st) (s_section_phase st))
  | Network k data =>
    match s_section_format st, s_feeder_format st with
    | Some fs, Some ff =>
      if negb (Nat.eqb (length data) (length ff)) then Err EValue
      else if negb (smem "networkid" ff) then Err EValue
      else if negb (smem "sectionid" fs) then Err EValue
      else
        do i <- index_of "networkid" ff;
        do n <- of_opt EIndex (nth_error data i);
        Ok (mkSections (Some fs) (Some ff) (Some (lower n)) (Some (kind_type k))
              (dset (s_network_data st) (lower n) (row_dict ff data)) (dset (s_feeder_sections st) (lower n) [])
              (s_section_feeder st) (s_section_phase st))
    | _, _ => Err EValue
    end
  | Section data =>
    match s_net st with
    | None => Err EValue
    | Some net =>
      do fs <- of_opt EType (s_section_format st);
      if negb (Nat.eqb (length data) (length fs)) then Err EValue
      else
        do i <- index_of "sectionid" fs;
        do n <- of_opt EIndex (nth_error data i);
        Ok (mkSections (Some fs) (s_feeder_format st) (Some net) (s_type st) (s_network_data st) (s_feeder_sections st)
              (dset (s_section_feeder st) (lower n) net) (dset (s_section_phase st) (lower n) (row_dict fs data)))
    end
  end.
Lemma names_network_or line : names_network line = (substr_in "format_feeder" (lower line) || substr_in "format_substation" (lower line)
          || substr_in "format_generalnetwork" (lower line))%bool.
Proof. unfold names_network, kinds. cbn [existsb append]. rewrite orb_false_r, orb_assoc. reflexivity. Qed.

Lemma says_step st line i : says line i -> one_line st line = item_step st i.
Proof.
  intros S. unfold one_line. rewrite <- names_network_or. fold (names_section line). destruct i as [names|names|k cs|vs]; cbn [says item_step] in *.
  - destruct S as (-> & key & cs & ws & A & P & ->). rewrite (format_of_says _ _ _ _ A P). reflexivity.
  - destruct S as (-> & -> & key & cs & ws & A & P & ->). rewrite (format_of_says _ _ _ _ A P). reflexivity.
  - destruct S as (-> & -> & K & key & E & A). destruct (assigns_split _ _ _ A) as (x & X & Y).
    assert (L : exists text, line = (key ++ String "=" text)%string) by (destruct A as (t & -> & _); eauto). destruct L as [text L].
    unfold network_line. rewrite X. cbn [of_opt bind]. rewrite Y.
    assert (LL : lower line = (k ++ String "=" (lower text))%string) by (rewrite L, lower_app, E; reflexivity).
    rewrite !starts_prefix, LL.
    assert (7 <=? String.length line = true) as ->.
    { apply Nat.leb_le. rewrite <- length_lower, LL, length_app. destruct K as [<-|[<-|[<-|[]]]]; cbn; lia. }
    destruct K as [<-|[<-|[<-|[]]]]; cbn [append String.prefix ascii_dec orb andb kind_type String.eqb Ascii.eqb Bool.eqb];
      repeat match goal with |- context [ascii_dec ?a ?b] => destruct (ascii_dec a b) as [?|?]; try discriminate; try congruence end;
      try (assert (forall s, String.prefix "" s = true) as HP by (intros []; reflexivity)); rewrite ?HP; cbn [orb andb];
      (destruct (s_section_format st); [|reflexivity]); (destruct (s_feeder_format st); reflexivity).
  - destruct S as (-> & -> & N & L & cs & C & P).
    assert (N1 := N "feeder" ltac:(cbn; auto)). assert (N2 := N "substation" ltac:(cbn; auto)). assert (N3 := N "generalnetwork" ltac:(cbn; auto)).
    cbn [append] in N1, N2, N3. rewrite !starts_prefix, N1, N2, N3. cbn [orb]. rewrite andb_false_r.
    unfold section_line. rewrite <- (cells_split _ _ C), (strips _ _ P). reflexivity.
Qed.
Lemma says_long line i : says line i -> 2 < String.length line.
Proof.
  assert (Q : forall k l, substr_in k l = true -> String.length k <= String.length l).
  { intros k l. revert k. induction l as [|c l IH]; intros k; cbn [substr_in].
    - destruct k; cbn; [lia|discriminate].
    - destruct (String.prefix k (String c l)) eqn:E; [|intros H; apply IH in H; cbn; lia].
      intros _. clear IH. revert k E. generalize (String c l) as s. induction s as [|d s IH]; intros [|x k] E; cbn in *; try lia; try discriminate.
      destruct (ascii_dec x d); [apply IH in E; lia|discriminate]. }
  destruct i; cbn [says].
  - intros [E _]. apply Q in E. rewrite length_lower in E. cbn in E. lia.
  - intros (_ & E & _). rewrite names_network_or in E. apply orb_prop in E. destruct E as [E|E]; [apply orb_prop in E; destruct E as [E|E]|];
      apply Q in E; rewrite length_lower in E; cbn in E; lia.
  - intros (_ & _ & K & key & E & text & -> & _). rewrite length_app, <- (length_lower key), E.
    destruct K as [<-|[<-|[<-|[]]]]; cbn; lia.
  - intros (_ & _ & _ & L & _). exact L.
Qed.

Lemma lines_items lines items : Forall2 says lines items -> forall st close rest, String.length close <= 2 ->
  section_lines (lines ++ close :: rest) st = foldM item_step items st.
Proof.
  induction 1 as [|line i lines items S F IH]; intros st close rest C; cbn [app section_lines foldM].
  - destruct (Nat.ltb_spec 2 (String.length close)); [lia|reflexivity].
  - pose proof (says_long _ _ S). destruct (Nat.ltb_spec 2 (String.length line)); [|lia].
    rewrite (says_step _ _ _ S). destruct (item_step st i); cbn [bind]; [now apply IH|reflexivity].
Qed.
Lemma file_items t content items : network_file content items ->
  parse_sections t content = foldM item_step items (mkSections None None None t [] [] [] []).
Proof.
  intros (pre & header & lines & close & rest & -> & P & H & F & C). unfold parse_sections.
  induction P as [|l pre N P IH]; cbn [app parse_sections_from].
  - rewrite H. now apply lines_items.
  - rewrite N. exact IH.
Qed.

(** ** The last one *)
Lemma latest_snoc {A} (pick : list item -> item -> A -> Prop) l i x :
  latest pick (l ++ [i]) x <-> pick l i x \/ ((forall y, ~ pick l i y) /\ latest pick l x).
Proof.
  split.
  - intros (a & j & b & E & P & N). destruct (exists_last (l := j :: b)) as (b' & z & EB); [discriminate|].
    rewrite EB in E. rewrite app_assoc in E. apply app_inj_tail in E. destruct E as [-> <-].
    destruct b' as [|q b'].
    + cbn in EB. injection EB as <- ->. rewrite app_nil_r. now left.
    + cbn in EB. injection EB as <- ->. right. split.
      * intros y. apply (N b' i []). reflexivity.
      * exists a, j, b'. split; [reflexivity|]. split; [exact P|]. intros b1 k b2 -> y. apply (N b1 k (b2 ++ [i])). now rewrite <- app_assoc.
  - intros [P | [N (a & j & b & -> & P & M)]].
    + exists l, i, []. split; [reflexivity|]. split; [exact P|]. intros [|? ?] ? ? E; discriminate.
    + exists a, j, (b ++ [i]). rewrite <- app_assoc. split; [reflexivity|]. split; [exact P|].
      intros b1 k b2 E y. destruct (exists_last (l := k :: b2)) as (b' & z & EB); [discriminate|].
      rewrite EB, app_assoc in E. apply app_inj_tail in E. destruct E as [E <-].
      destruct b' as [|q b'].
      * cbn in EB. injection EB as <- ->. rewrite app_nil_r in E. subst b1. apply N.
      * cbn in EB. injection EB as <- ->. apply (M b1 k b'). exact E.
Qed.
Lemma latest_nil {A} (pick : list item -> item -> A -> Prop) x : ~ latest pick [] x.
Proof. intros (a & i & b & E & _). destruct a; discriminate. Qed.

(** ** Rows *)
Fixpoint find2 (k : string) (ks vs : list string) : option string :=
  match ks, vs with q :: ks', v :: vs' => if String.eqb q k then Some v else find2 k ks' vs' | _, _ => None end.
Lemma row_fold keys : forall vals d k, NoDup keys -> length vals = length keys ->
  dget (fold_left (fun d kv => dset d (fst kv) (snd kv)) (combine keys vals) d) k =
  match find2 k keys vals with
  | Some v => Some v
  | None => dget d k
  end.
Proof.
  induction keys as [|q keys IH]; intros [|v vals] d k ND L; cbn [combine fold_left]; try reflexivity; try discriminate.
  inversion ND as [|? ? NI ND']; subst. injection L as L. rewrite (IH vals _ k ND' L). cbn [fst snd find2].
  destruct (String.eqb_spec q k) as [->|NE].
  - assert (forall vs, find2 k keys vs = None) as ->.
    { clear - NI. induction keys as [|q keys IH]; intros [|v vs]; try reflexivity. cbn in NI. cbn [find2].
      destruct (String.eqb_spec q k) as [->|_]; [tauto|apply IH; tauto]. }
    apply dget_dset_same.
  - rewrite dget_dset_other by exact NE. reflexivity.
Qed.
Lemma row_value keys vals k v : NoDup keys -> length vals = length keys -> (dget (row_dict keys vals) k = Some v <-> value keys vals k v).
Proof.
  intros ND L. unfold row_dict. rewrite row_fold by assumption. cbn [dget].
  revert vals ND L. induction keys as [|q keys IH]; intros [|w vals] ND L; try discriminate.
  - split; [discriminate|]. intros (n & E & _). destruct n; discriminate.
  - inversion ND as [|? ? NI ND']; subst. injection L as L. cbn [find2]. destruct (String.eqb_spec q k) as [->|NE].
    + split.
      * intros E. injection E as <-. now exists 0.
      * intros ([|n] & E & F); cbn in E, F; [congruence|]. apply nth_error_In in E. tauto.
    + rewrite (IH vals ND' L). split.
      * intros (n & E & F). now exists (S n).
      * intros ([|n] & E & F); cbn in E, F; [congruence|]. now exists n.
Qed.
Lemma index_in x l : In x l -> exists i, index_of x l = Ok i /\ nth_error l i = Some x.
Proof.
  induction l as [|y l IH]; cbn; [tauto|]. destruct (String.eqb_spec y x) as [->|N]; [intros _; now exists 0|].
  intros [E|H]; [congruence|]. destruct (IH H) as (i & -> & F). exists (S i). split; [reflexivity|exact F].
Qed.
Lemma index_out x l : ~ In x l -> index_of x l = Err EValue.
Proof. induction l as [|y l IH]; cbn; [reflexivity|]. intros H. destruct (String.eqb_spec y x); [tauto|]. rewrite IH by tauto. reflexivity. Qed.
Lemma value_fun names cs c v v' : NoDup names -> value names cs c v -> value names cs c v' -> v = v'.
Proof.
  intros ND (n & A & B) (m & C & D). assert (n = m) by (apply (NoDup_nth_error names) ; [exact ND|apply nth_error_Some; congruence|congruence]). congruence.
Qed.
Lemma same_length {A B} (l : list A) (m : list B) i x : length l = length m -> nth_error l i = Some x -> exists y, nth_error m i = Some y.
Proof.
  intros L E. destruct (nth_error m i) eqn:F; [eauto|]. apply nth_error_None in F. assert (i < length l) by (apply nth_error_Some; congruence). lia.
Qed.

(** ** The state says what the items mean *)
Record state_says (t : option string) (items : list item) (st : sections) : Prop := {
  i_sec : forall fs, s_section_format st = Some fs <-> latest sec_format items fs;
  i_net : forall ff, s_feeder_format st = Some ff <-> latest net_format items ff;
  i_now : forall n, s_net st = Some n <-> exists w, latest a_network items w /\ w_id w = n;
  i_type : s_net st = None -> s_type st = t;
  i_have : s_net st <> None -> s_section_format st <> None;
  i_kind : forall w, latest a_network items w -> s_type st = Some (kind_type (w_kind w));
  i_data : forall n c v, (exists r, dget (s_network_data st) n = Some r /\ dget r c = Some v) <->
             exists w, latest (with_id w_id n a_network) items w /\ value (w_names w) (w_cells w) c v;
  i_nets : forall n, dget (s_network_data st) n = None <-> forall w, ~ latest (with_id w_id n a_network) items w;
  i_lists : forall n, dget (s_feeder_sections st) n = match dget (s_network_data st) n with Some _ => Some [] | None => None end;
  i_feeder : forall s n, dget (s_section_feeder st) s = Some n <-> exists x, latest (with_id x_id s a_section) items x /\ x_net x = n;
  i_phase : forall s c v, (exists r, dget (s_section_phase st) s = Some r /\ dget r c = Some v) <->
             exists x, latest (with_id x_id s a_section) items x /\ value (x_names x) (x_cells x) c v;
  i_keys : forall s, dget (s_section_phase st) s = None <-> dget (s_section_feeder st) s = None
}.

Lemma skip {A} (pick : list item -> item -> A -> Prop) l i : (forall y, ~ pick l i y) -> forall x, latest pick (l ++ [i]) x <-> latest pick l x.
Proof. intros N x. rewrite latest_snoc. split; [intros [P|[_ H]]; [now apply N in P|exact H]|intros H; right; now split]. Qed.
Lemma hit {A} (pick : list item -> item -> A -> Prop) l i x0 : pick l i x0 -> (forall y, pick l i y -> y = x0) ->
  forall x, latest pick (l ++ [i]) x <-> x = x0.
Proof. intros P U x. rewrite latest_snoc. split; [intros [Q|[N _]]; [now apply U|now apply N in P]|intros ->; now left]. Qed.

Lemma latest_in {A} (pick : list item -> item -> A -> Prop) l x : latest pick l x -> exists a i b, l = a ++ i :: b /\ pick a i x.
Proof. intros (a & i & b & E & P & _). eauto. Qed.
Lemma sec_nodup items fs : Forall distinct items -> latest sec_format items fs -> NoDup fs.
Proof. intros D L. apply latest_in in L. destruct L as (a & i & b & -> & ->). rewrite Forall_forall in D. apply (D (SecFormat fs)). apply in_or_app. right. now left. Qed.
Lemma net_nodup items fs : Forall distinct items -> latest net_format items fs -> NoDup fs.
Proof. intros D L. apply latest_in in L. destruct L as (a & i & b & -> & ->). rewrite Forall_forall in D. apply (D (NetFormat fs)). apply in_or_app. right. now left. Qed.

Lemma start_says t : state_says t [] (mkSections None None None t [] [] [] []).
Proof.
  constructor; cbn.
  - split; [discriminate|]. intros H. now apply latest_nil in H.
  - split; [discriminate|]. intros H. now apply latest_nil in H.
  - split; [discriminate|]. intros (w & H & _). now apply latest_nil in H.
  - reflexivity.
  - intros H. now destruct H.
  - intros w H. now apply latest_nil in H.
  - split; [intros (? & ? & _); discriminate|]. intros (w & H & _). now apply latest_nil in H.
  - split; [|reflexivity]. intros _ w. apply latest_nil.
  - reflexivity.
  - split; [discriminate|]. intros (w & H & _). now apply latest_nil in H.
  - split; [intros (? & ? & _); discriminate|]. intros (w & H & _). now apply latest_nil in H.
  - tauto.
Qed.

Lemma with_none {A} (id : A -> string) n (pick : list item -> item -> A -> Prop) l i : (forall y, ~ pick l i y) -> forall y, ~ with_id id n pick l i y.
Proof. intros N y [P _]. now apply N in P. Qed.

(** A format changes no network and no section. *)
Lemma no_network_sec items f y : ~ a_network items (SecFormat f) y. Proof. intros [E _]. discriminate. Qed.
Lemma no_network_net items f y : ~ a_network items (NetFormat f) y. Proof. intros [E _]. discriminate. Qed.
Lemma no_network_section items f y : ~ a_network items (Section f) y. Proof. intros [E _]. discriminate. Qed.
Lemma no_section_sec items f y : ~ a_section items (SecFormat f) y. Proof. intros [E _]. discriminate. Qed.
Lemma no_section_net items f y : ~ a_section items (NetFormat f) y. Proof. intros [E _]. discriminate. Qed.
Lemma no_section_network items k f y : ~ a_section items (Network k f) y. Proof. intros [E _]. discriminate. Qed.

Lemma step_says t items st i : state_says t items st -> Forall distinct (items ++ [i]) -> good items i ->
  exists st', item_step st i = Ok st' /\ state_says t (items ++ [i]) st'.
Proof.
  intros I D G. assert (D' : Forall distinct items) by (apply Forall_app in D; tauto).
  destruct I as [ISEC INET INOW ITYPE IHAVE IKIND IDATA INETS ILISTS IFEEDER IPHASE IKEYS].
  destruct i as [f|f|k cs|vs]; cbn [item_step good] in *.
  - eexists. split; [reflexivity|]. constructor; cbn.
    + intros fs. rewrite (hit sec_format items (SecFormat f) f eq_refl) by (intros y E; unfold sec_format in E; congruence). split; congruence.
    + intros ff. rewrite (skip net_format) by (intros y E; discriminate). apply INET.
    + intros n. rewrite INOW. split; intros (w & L & E); exists w; (split; [|exact E]); apply (skip a_network _ _ (no_network_sec items f)); exact L.
    + exact ITYPE.
    + discriminate.
    + intros w L. apply IKIND. now apply (skip a_network _ _ (no_network_sec items f)) in L.
    + intros n c v. rewrite IDATA. split; intros (w & L & E); exists w; (split; [|exact E]); apply (skip _ _ _ (with_none w_id n a_network _ _ (no_network_sec items f))); exact L.
    + intros n. rewrite INETS. split; intros L w H; apply (L w); apply (skip _ _ _ (with_none w_id n a_network _ _ (no_network_sec items f))); exact H.
    + exact ILISTS.
    + intros s n. rewrite IFEEDER. split; intros (w & L & E); exists w; (split; [|exact E]); apply (skip _ _ _ (with_none x_id s a_section _ _ (no_section_sec items f))); exact L.
    + intros s c v. rewrite IPHASE. split; intros (w & L & E); exists w; (split; [|exact E]); apply (skip _ _ _ (with_none x_id s a_section _ _ (no_section_sec items f))); exact L.
    + exact IKEYS.
  - eexists. split; [reflexivity|]. constructor; cbn.
    + intros ff. rewrite (skip sec_format) by (intros y E; discriminate). apply ISEC.
    + intros fs. rewrite (hit net_format items (NetFormat f) f eq_refl) by (intros y E; unfold net_format in E; congruence). split; congruence.
    + intros n. rewrite INOW. split; intros (w & L & E); exists w; (split; [|exact E]); apply (skip a_network _ _ (no_network_net items f)); exact L.
    + exact ITYPE.
    + exact IHAVE.
    + intros w L. apply IKIND. now apply (skip a_network _ _ (no_network_net items f)) in L.
    + intros n c v. rewrite IDATA. split; intros (w & L & E); exists w; (split; [|exact E]); apply (skip _ _ _ (with_none w_id n a_network _ _ (no_network_net items f))); exact L.
    + intros n. rewrite INETS. split; intros L w H; apply (L w); apply (skip _ _ _ (with_none w_id n a_network _ _ (no_network_net items f))); exact H.
    + exact ILISTS.
    + intros s n. rewrite IFEEDER. split; intros (w & L & E); exists w; (split; [|exact E]); apply (skip _ _ _ (with_none x_id s a_section _ _ (no_section_net items f))); exact L.
    + intros s c v. rewrite IPHASE. split; intros (w & L & E); exists w; (split; [|exact E]); apply (skip _ _ _ (with_none x_id s a_section _ _ (no_section_net items f))); exact L.
    + exact IKEYS.
  - destruct G as (fs & ff & LS & LN & HS & HN & LEN). pose proof (net_nodup _ _ D' LN) as ND.
    assert (ES := proj2 (ISEC fs) LS). assert (EN := proj2 (INET ff) LN). rewrite ES, EN, LEN, Nat.eqb_refl. cbn [negb].
    assert (smem "networkid" ff = true) as -> by (now apply smem_In). assert (smem "sectionid" fs = true) as -> by (now apply smem_In). cbn [negb].
    destruct (index_in _ _ HN) as (j & EJ & NJ). rewrite EJ. cbn [bind]. destruct (same_length ff cs j "networkid" (eq_sym LEN) NJ) as (c & NC).
    rewrite NC. cbn [of_opt bind]. eexists. split; [reflexivity|].
    pose (w0 := mkNetwork (lower c) k ff cs).
    assert (P0 : a_network items (Network k cs) w0).
    { split; [reflexivity|]. split; [exact LN|]. exists c. split; [now exists j|reflexivity]. }
    assert (U0 : forall y, a_network items (Network k cs) y -> y = w0).
    { intros [id k' n' cs'] (E & L & c' & V & EI). cbn in *. injection E as <- <-. apply INET in L. assert (n' = ff) by congruence. subst n'.
      assert (c' = c) by (eapply value_fun; [exact ND|exact V|now exists j]). subst. reflexivity. }
    pose proof (hit a_network items (Network k cs) w0 P0 U0) as HIT.
    assert (HITN : forall n w, latest (with_id w_id n a_network) (items ++ [Network k cs]) w <-> if String.eqb (lower c) n then w = w0 else latest (with_id w_id n a_network) items w).
    { intros n w. destruct (String.eqb_spec (lower c) n) as [<-|NE].
      - apply hit; [now split|]. intros y [Y _]. now apply U0.
      - apply skip. intros y [Y E]. apply U0 in Y. subst y. cbn in E. congruence. }
    constructor; cbn.
    + intros fs'. rewrite (skip sec_format) by (intros y E; discriminate). rewrite <- ES. apply ISEC.
    + intros fs'. rewrite (skip net_format) by (intros y E; discriminate). rewrite <- EN. apply INET.
    + intros n. split; [intros E; injection E as <-; exists w0; split; [now apply HIT|reflexivity]|]. intros (w & L & <-). apply HIT in L. now subst w.
    + discriminate.
    + discriminate.
    + intros w L. apply HIT in L. now subst w.
    + intros n a v. rewrite dget_dset. destruct (String.eqb_spec (lower c) n) as [E|NE].
      * split.
        -- intros (r & ER & V). injection ER as <-. exists w0. split; [apply HITN; subst n; now rewrite String.eqb_refl|]. cbn. now apply row_value.
        -- intros (w & L & V). apply HITN in L. subst n. rewrite String.eqb_refl in L. subst w. eexists. split; [reflexivity|]. now apply row_value.
      * rewrite IDATA. split; intros (w & L & V); exists w; (split; [|exact V]); [apply HITN; destruct (String.eqb_spec (lower c) n); congruence|apply HITN in L; destruct (String.eqb_spec (lower c) n); [congruence|exact L]].
    + intros n. rewrite dget_dset. destruct (String.eqb_spec (lower c) n) as [E|NE].
      * split; [discriminate|]. intros H. destruct (H w0). apply HITN. subst n. now rewrite String.eqb_refl.
      * rewrite INETS. split; intros H w L; apply (H w); [apply HITN in L; destruct (String.eqb_spec (lower c) n); [congruence|exact L]|apply HITN; destruct (String.eqb_spec (lower c) n); [congruence|exact L]].
    + intros n. rewrite !dget_dset. destruct (String.eqb_spec (lower c) n); [reflexivity|]. apply ILISTS.
    + intros s n. rewrite IFEEDER. split; intros (w & L & E); exists w; (split; [|exact E]); apply (skip _ _ _ (with_none x_id s a_section _ _ (no_section_network items k cs))); exact L.
    + intros s a v. rewrite IPHASE. split; intros (w & L & E); exists w; (split; [|exact E]); apply (skip _ _ _ (with_none x_id s a_section _ _ (no_section_network items k cs))); exact L.
    + exact IKEYS.
  - destruct G as ((w & LW) & fs & LS & HS & LEN). pose proof (sec_nodup _ _ D' LS) as ND.
    assert (ES := proj2 (ISEC fs) LS). assert (EN := proj2 (INOW (w_id w)) (ex_intro _ w (conj LW eq_refl))).
    rewrite EN, ES. cbn [of_opt bind]. rewrite LEN, Nat.eqb_refl. cbn [negb].
    destruct (index_in _ _ HS) as (j & EJ & NJ). rewrite EJ. cbn [bind]. destruct (same_length fs vs j "sectionid" (eq_sym LEN) NJ) as (c & NC).
    rewrite NC. cbn [of_opt bind]. eexists. split; [reflexivity|].
    pose (x0 := mkSection (lower c) (w_id w) fs vs).
    assert (P0 : a_section items (Section vs) x0).
    { split; [reflexivity|]. split; [exact LS|]. split; [exists c; split; [now exists j|reflexivity]|]. now exists w. }
    assert (U0 : forall y, a_section items (Section vs) y -> y = x0).
    { intros [id n' f' cs'] (E & L & (c' & V & EI) & w' & LW' & E'). cbn in *. injection E as <-. apply ISEC in L. assert (f' = fs) by congruence. subst f'.
      assert (c' = c) by (eapply value_fun; [exact ND|exact V|now exists j]). subst.
      assert (EW := proj2 (INOW (w_id w')) (ex_intro _ w' (conj LW' eq_refl))). unfold x0. f_equal. congruence. }
    assert (HITN : forall n x, latest (with_id x_id n a_section) (items ++ [Section vs]) x <-> if String.eqb (lower c) n then x = x0 else latest (with_id x_id n a_section) items x).
    { intros n x. destruct (String.eqb_spec (lower c) n) as [<-|NE].
      - apply hit; [now split|]. intros y [Y _]. now apply U0.
      - apply skip. intros y [Y E]. apply U0 in Y. subst y. cbn in E. congruence. }
    constructor; cbn.
    + intros fs'. rewrite (skip sec_format) by (intros y E; discriminate). rewrite <- ES. apply ISEC.
    + intros fs'. rewrite (skip net_format) by (intros y E; discriminate). apply INET.
    + intros n. rewrite <- EN, INOW. split; intros (w' & L & E); exists w'; (split; [|exact E]); apply (skip a_network _ _ (no_network_section items vs)); exact L.
    + discriminate.
    + discriminate.
    + intros w' L. apply IKIND. now apply (skip a_network _ _ (no_network_section items vs)) in L.
    + intros n a v. rewrite IDATA. split; intros (w' & L & E); exists w'; (split; [|exact E]); apply (skip _ _ _ (with_none w_id n a_network _ _ (no_network_section items vs))); exact L.
    + intros n. rewrite INETS. split; intros L w' H; apply (L w'); apply (skip _ _ _ (with_none w_id n a_network _ _ (no_network_section items vs))); exact H.
    + exact ILISTS.
    + intros s n. rewrite dget_dset. destruct (String.eqb_spec (lower c) s) as [E|NE].
      * split; [intros H; injection H as <-; exists x0; split; [apply HITN; subst s; now rewrite String.eqb_refl|reflexivity]|].
        intros (x & L & <-). apply HITN in L. subst s. rewrite String.eqb_refl in L. now subst x.
      * rewrite IFEEDER. split; intros (x & L & V); exists x; (split; [|exact V]); [apply HITN; destruct (String.eqb_spec (lower c) s); congruence|apply HITN in L; destruct (String.eqb_spec (lower c) s); [congruence|exact L]].
    + intros s a v. rewrite dget_dset. destruct (String.eqb_spec (lower c) s) as [E|NE].
      * split.
        -- intros (r & ER & V). injection ER as <-. exists x0. split; [apply HITN; subst s; now rewrite String.eqb_refl|]. cbn. now apply row_value.
        -- intros (x & L & V). apply HITN in L. subst s. rewrite String.eqb_refl in L. subst x. eexists. split; [reflexivity|]. now apply row_value.
      * rewrite IPHASE. split; intros (x & L & V); exists x; (split; [|exact V]); [apply HITN; destruct (String.eqb_spec (lower c) s); congruence|apply HITN in L; destruct (String.eqb_spec (lower c) s); [congruence|exact L]].
    + intros s. rewrite !dget_dset. destruct (String.eqb_spec (lower c) s); [split; discriminate|]. apply IKEYS.
Qed.

Lemma items_says t items : Forall distinct items -> goods items ->
  exists st, foldM item_step items (mkSections None None None t [] [] [] []) = Ok st /\ state_says t items st.
Proof.
  intros D. induction items as [|i items IH] using rev_ind; intros G.
  - eexists. split; [reflexivity|]. apply start_says.
  - destruct IH as (st & E & S).
    + apply Forall_app in D. tauto.
    + intros a j b F. apply (G a j (b ++ [i])). rewrite F, <- app_assoc. reflexivity.
    + destruct (step_says _ _ _ _ S D (G items i [] eq_refl)) as (st' & E' & S'). exists st'. split; [|exact S'].
      rewrite foldM_app, E. cbn [foldM]. rewrite E'. reflexivity.
Qed.

Lemma step_bad t items st i : state_says t items st -> ~ good items i -> item_step st i = Err EValue.
Proof.
  intros [ISEC INET INOW _ IHAVE _ _ _ _ _ _ _] B. destruct i as [f|f|k cs|vs]; cbn [item_step good] in *; try (now destruct B).
  - destruct (s_section_format st) as [fs|] eqn:ES; [|reflexivity]. destruct (s_feeder_format st) as [ff|] eqn:EN; [|reflexivity].
    destruct (Nat.eqb_spec (length cs) (length ff)) as [L|L]; [cbn [negb]|reflexivity].
    destruct (smem "networkid" ff) eqn:HN; [cbn [negb]|reflexivity]. destruct (smem "sectionid" fs) eqn:HS; [cbn [negb]|reflexivity].
    destruct B. exists fs, ff. apply smem_In in HN, HS. repeat split; try assumption; [now apply ISEC|now apply INET].
  - destruct (s_net st) as [n|] eqn:EN; [|reflexivity]. assert (HV : s_section_format st <> None) by (apply IHAVE; discriminate). assert (EN' := proj1 (INOW n) eq_refl). destruct EN' as (w & L & E).
    destruct (s_section_format st) as [fs|] eqn:ES; cbn [of_opt bind].
    + destruct (Nat.eqb_spec (length vs) (length fs)) as [LL|LL]; [cbn [negb]|reflexivity].
      destruct (in_dec string_dec "sectionid" fs) as [H|H].
      * destruct B. split; [now exists w|]. exists fs. split; [now apply ISEC|]. now split.
      * now rewrite (index_out _ _ H).
    + now destruct HV.
Qed.

Lemma step_good t items st i st' : state_says t items st -> item_step st i = Ok st' -> good items i.
Proof.
  intros [ISEC INET INOW _ IHAVE _ _ _ _ _ _ _] B. destruct i as [f|f|k cs|vs]; cbn [item_step good] in *; try exact I.
  - destruct (s_section_format st) as [fs|] eqn:ES; [|discriminate]. destruct (s_feeder_format st) as [ff|] eqn:EN; [|discriminate].
    destruct (Nat.eqb_spec (length cs) (length ff)) as [L|L]; [cbn [negb] in B|discriminate].
    destruct (smem "networkid" ff) eqn:HN; [cbn [negb] in B|discriminate]. destruct (smem "sectionid" fs) eqn:HS; [cbn [negb] in B|discriminate].
    exists fs, ff. apply smem_In in HN, HS. repeat split; try assumption; [now apply ISEC|now apply INET].
  - destruct (s_net st) as [n|] eqn:EN; [|discriminate]. assert (EN' := proj1 (INOW n) eq_refl). destruct EN' as (w & L & E).
    destruct (s_section_format st) as [fs|] eqn:ES; cbn [of_opt bind] in B; [|discriminate].
    destruct (Nat.eqb_spec (length vs) (length fs)) as [LL|LL]; [cbn [negb] in B|discriminate].
    destruct (in_dec string_dec "sectionid" fs) as [H|H].
    + split; [now exists w|]. exists fs. split; [now apply ISEC|]. now split.
    + rewrite (index_out _ _ H) in B. discriminate.
Qed.
Lemma items_good t items st : Forall distinct items -> foldM item_step items (mkSections None None None t [] [] [] []) = Ok st -> goods items.
Proof.
  revert st. induction items as [|i items IH] using rev_ind; intros st D E a j b F; [destruct a; discriminate|].
  rewrite foldM_app in E. destruct (foldM item_step items (mkSections None None None t [] [] [] [])) as [st0|] eqn:E0; [|discriminate].
  assert (D' : Forall distinct items) by (apply Forall_app in D; tauto). specialize (IH st0 D' eq_refl).
  destruct (exists_last (l := j :: b)) as (b' & z & EB); [discriminate|]. rewrite EB, app_assoc in F. apply app_inj_tail in F. destruct F as [F <-].
  destruct b' as [|q b'].
  - cbn in EB. injection EB as <- ->. rewrite app_nil_r in F. subst a. destruct (items_says t items D' IH) as (st1 & E1 & S1).
    rewrite E0 in E1. injection E1 as <-. cbn [foldM] in E. destruct (item_step st0 j) as [st2|] eqn:E2; [|discriminate]. now apply (step_good _ _ _ _ _ S1 E2).
  - cbn in EB. injection EB as <- ->. apply (IH a j b'). exact F.
Qed.
