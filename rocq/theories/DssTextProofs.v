(** Reading what the OpenDSS writer wrote: rows of words. *)
From Verif Require Import Base BaseFacts DssNameModel DssTextModel DssTextSpec.
From Coq Require Import QArith Lia.
Local Open Scope string_scope.
Local Open Scope nat_scope.
Local Open Scope list_scope.

Notation nl := (String "010" "").
Definition spaced (ws : list string) : string := texts (map (String " ") ws).

Lemma app_assoc_s (a b c : string) : ((a ++ b) ++ c = a ++ (b ++ c))%string.
Proof. induction a; cbn; congruence. Qed.
Lemma app_nil_s (a : string) : (a ++ "" = a)%string.
Proof. induction a; cbn; congruence. Qed.
Lemma texts_app a b : texts (a ++ b) = (texts a ++ texts b)%string.
Proof. induction a as [|x a IH]; [reflexivity|]. cbn [app texts fold_right]. fold (texts (a ++ b)). rewrite IH. fold (texts a). now rewrite app_assoc_s. Qed.
Lemma spaced_app a b : spaced (a ++ b) = (spaced a ++ spaced b)%string.
Proof. unfold spaced. rewrite map_app. apply texts_app. Qed.
Lemma spaced_cons w r : spaced (w :: r) = String " " (w ++ spaced r)%string.
Proof. reflexivity. Qed.

Definition free (p : ascii -> bool) (s : string) : Prop := all_chars (fun c => negb (p c)) s = true.
Lemma all_app p a b : all_chars p (a ++ b)%string = (all_chars p a && all_chars p b)%bool.
Proof. induction a as [|c a IH]; [reflexivity|]. cbn. rewrite IH. now rewrite Bool.andb_assoc. Qed.
Lemma free_app p a b : free p a -> free p b -> free p (a ++ b)%string.
Proof. unfold free. rewrite all_app. now intros -> ->. Qed.
Lemma free_sub p (q : ascii -> bool) s : (forall c, p c = true -> q c = true) -> free q s -> free p s.
Proof.
  intros H. unfold free. induction s as [|c s IH]; [reflexivity|]. cbn. rewrite !Bool.andb_true_iff, !Bool.negb_true_iff. intros [A B].
  split; [|apply IH; exact B]. destruct (p c) eqn:E; [|reflexivity]. rewrite (H _ E) in A. discriminate A.
Qed.

Lemma pieces_nonempty p s : pieces p s <> [].
Proof. destruct s as [|c s]; [discriminate|]. cbn. destruct (p c); [discriminate|]. destruct (pieces p s); discriminate. Qed.
Lemma pieces_free p s : free p s -> pieces p s = [s].
Proof.
  unfold free. induction s as [|c s IH]; [reflexivity|]. cbn. rewrite Bool.andb_true_iff, Bool.negb_true_iff. intros [-> B].
  now rewrite (IH B).
Qed.
Lemma pieces_cut p a c b : free p a -> p c = true -> pieces p (a ++ String c b)%string = a :: pieces p b.
Proof.
  intros F C. unfold free in F. induction a as [|d a IH]; cbn in *; [now rewrite C|].
  rewrite Bool.andb_true_iff, Bool.negb_true_iff in F. destruct F as [-> F]. now rewrite (IH F).
Qed.

Lemma nonempty_ne s : s <> "" -> nonempty s = true.
Proof. unfold nonempty. intros H. destruct (String.eqb_spec s ""); [contradiction | reflexivity]. Qed.

(** A word: the gaps in it are in parentheses. *)
Fixpoint whole (d : nat) (s : string) : bool :=
  match s with "" => (d =? 0)%nat | String c t => negb ((d =? 0)%nat && gap c) && whole (depth d c) t end.
Definition word (w : string) : Prop := w <> "" /\ whole 0 w = true.
Lemma cuts_whole w : forall d, whole d w = true -> cuts d w = [w].
Proof.
  induction w as [|c w IH]; intros d H; [reflexivity|]. cbn [whole cuts] in *. rewrite Bool.andb_true_iff, Bool.negb_true_iff in H. destruct H as [-> H].
  now rewrite (IH _ H).
Qed.
Lemma cuts_cut w r : forall d, whole d w = true -> cuts d (w ++ String " " r)%string = w :: cuts 0 r.
Proof.
  induction w as [|c w IH]; intros d H; cbn [whole] in H.
  - apply Nat.eqb_eq in H. subst d. reflexivity.
  - rewrite Bool.andb_true_iff, Bool.negb_true_iff in H. destruct H as [E H]. cbn [append cuts]. rewrite E, (IH _ H). reflexivity.
Qed.
Lemma words_spaced ws : Forall word ws -> words (spaced ws) = ws.
Proof.
  assert (H : forall w ws, Forall word ws -> whole 0 w = true -> cuts 0 (w ++ spaced ws)%string = w :: ws).
  { intros w l. revert w. induction l as [|x r IH]; intros w Fw Gw.
    - rewrite app_nil_s. apply cuts_whole. exact Gw.
    - inversion Fw; subst. rewrite spaced_cons. rewrite cuts_cut; [|exact Gw]. now rewrite (IH x H2 (proj2 H1)). }
  intros F. unfold words. rewrite (H "" ws F eq_refl : cuts 0 (spaced ws) = _). cbn [filter nonempty String.eqb negb].
  clear H. induction F as [|x r Hx _ IH]; [reflexivity|]. cbn [filter]. rewrite (nonempty_ne x (proj1 Hx)), IH. reflexivity.
Qed.
(** Without parentheses and gaps; and a part without parentheses in front. *)
Definition plainc (c : ascii) : bool := negb (gap c) && negb (Ascii.eqb c "(") && negb (Ascii.eqb c ")").
Lemma depth_plain d c : Ascii.eqb c "(" = false -> Ascii.eqb c ")" = false -> depth d c = d.
Proof. unfold depth. now intros -> ->. Qed.
Lemma whole_app a b : all_chars plainc a = true -> whole 0 (a ++ b)%string = whole 0 b.
Proof.
  induction a as [|c a IH]; [reflexivity|]. cbn [all_chars append whole]. unfold plainc. rewrite !Bool.andb_true_iff, !Bool.negb_true_iff. intros [[[G A] B] H].
  rewrite G, (depth_plain 0 c A B), (IH H). reflexivity.
Qed.
Lemma whole_plain a : all_chars plainc a = true -> whole 0 a = true.
Proof. intros H. rewrite <- (app_nil_s a), (whole_app a "" H). reflexivity. Qed.
(** A value in parentheses. *)
Definition inner (c : ascii) : bool := negb (newline c) && negb (Ascii.eqb c "(") && negb (Ascii.eqb c ")").
Definition group (v : string) : Prop := exists x, v = ("(" ++ x ++ ")")%string /\ all_chars inner x = true.
Lemma whole_group v : group v -> whole 0 v = true.
Proof.
  intros (x & -> & H). cbn [append whole]. cbn [depth Ascii.eqb Bool.eqb]. change (depth 0 "(") with 1. cbn [Nat.eqb andb negb gap].
  change (gap "(") with false. cbn [negb andb]. induction x as [|c x IH]; [reflexivity|].
  cbn [all_chars] in H. unfold inner in H at 1. rewrite !Bool.andb_true_iff, !Bool.negb_true_iff in H. destruct H as [[[N A] B] H].
  cbn [append whole]. rewrite (depth_plain 1 c A B). cbn [Nat.eqb andb negb]. exact (IH H).
Qed.
Lemma words_row w ws : word w -> Forall word ws -> words (w ++ spaced ws)%string = w :: ws.
Proof.
  intros Hw F. rewrite <- (words_spaced (w :: ws)) by (constructor; assumption). rewrite spaced_cons. reflexivity.
Qed.

(** A token is a word, and has none of the characters that separate words, rows and properties. *)
Lemma ordinary_not c : ordinary c = true -> newline c = false /\ gap c = false /\ Ascii.eqb "=" c = false /\ Ascii.eqb "!" c = false.
Proof.
  unfold ordinary. rewrite Bool.negb_true_iff, !Bool.orb_false_iff. intros [[-> ->] H]. cbn [existsb] in H. rewrite !Bool.orb_false_iff in H.
  destruct H as (A & _ & B & _). rewrite Ascii.eqb_sym, A, Ascii.eqb_sym, B. repeat split; reflexivity.
Qed.
Lemma ordinary_plain c : ordinary c = true -> plainc c = true.
Proof.
  intros H. pose proof (ordinary_not c H) as (_ & G & _). unfold plainc. rewrite G. unfold ordinary in H. rewrite Bool.negb_true_iff, !Bool.orb_false_iff in H.
  destruct H as [_ H]. cbn [existsb] in H. rewrite !Bool.orb_false_iff in H. destruct H as (_ & _ & _ & -> & -> & _). reflexivity.
Qed.
Lemma all_sub (p q : ascii -> bool) s : (forall c, p c = true -> q c = true) -> all_chars p s = true -> all_chars q s = true.
Proof. intros H. induction s as [|c s IH]; [reflexivity|]. cbn. rewrite !Bool.andb_true_iff. intros [A B]. split; [apply H; exact A | apply IH; exact B]. Qed.
Lemma token_free p s : (forall c, ordinary c = true -> p c = false) -> all_chars ordinary s = true -> free p s.
Proof. intros H. apply all_sub. intros c C. now rewrite (H c C). Qed.
Lemma token_newline s : all_chars ordinary s = true -> free newline s.
Proof. apply token_free. intros c C. apply (ordinary_not c C). Qed.
Lemma token_gap s : all_chars ordinary s = true -> free gap s.
Proof. apply token_free. intros c C. apply (ordinary_not c C). Qed.
Lemma token_eq s : all_chars ordinary s = true -> free (Ascii.eqb "=") s.
Proof. apply token_free. intros c C. apply (ordinary_not c C). Qed.

Lemma token_plain s : all_chars ordinary s = true -> all_chars plainc s = true.
Proof. apply all_sub. exact ordinary_plain. Qed.

Lemma first_at_cut c a b : free (Ascii.eqb c) a -> first_at c (a ++ String c b)%string = Some (a, b).
Proof.
  unfold free. induction a as [|d a IH]; cbn; [now rewrite Ascii.eqb_refl|].
  rewrite Bool.andb_true_iff, Bool.negb_true_iff. intros [-> F]. now rewrite (IH F).
Qed.

(** Properties. *)
Definition pword (kv : string * string) : string := (fst kv ++ String "=" (snd kv))%string.
(** A value in brackets. *)
Definition boxed (v : string) : Prop := exists x, v = ("[" ++ x ++ "]")%string /\ all_chars ordinary x = true.
Definition valued (v : string) : Prop := token v \/ group v \/ boxed v.
Definition pok (kv : string * string) : Prop := token (fst kv) /\ valued (snd kv).
Lemma valued_ne v : valued v -> v <> "".
Proof. intros [[H _]|[(x & -> & _)|(x & -> & _)]]; [exact H | discriminate | discriminate]. Qed.
Lemma valued_whole v : valued v -> whole 0 v = true.
Proof.
  intros [[_ H]|[H|(x & -> & H)]]; [apply whole_plain, token_plain, H | apply whole_group, H|].
  apply whole_plain. rewrite !all_app, (token_plain _ H). reflexivity.
Qed.
Lemma valued_newline v : valued v -> free newline v.
Proof.
  intros [[_ H]|[(x & -> & H)|(x & -> & H)]]; [apply token_newline, H | |]; (apply free_app; [reflexivity|]; apply free_app; [|reflexivity]).
  - revert H. apply all_sub. unfold inner. intros c. rewrite !Bool.andb_true_iff. tauto.
  - exact (token_newline _ H).
Qed.
Lemma pword_read kv : pok kv -> prop_word (pword kv) = Some kv.
Proof.
  intros [[A A'] B]. unfold prop_word, pword. rewrite first_at_cut by (apply token_eq; exact A').
  rewrite !nonempty_ne by (exact A || exact (valued_ne _ B)). destruct kv; reflexivity.
Qed.
Lemma pwords_read l : Forall pok l -> prop_words (map pword l) = Some l.
Proof. induction 1 as [|x r Hx _ IH]; [reflexivity|]. cbn [map prop_words]. now rewrite (pword_read x Hx), IH. Qed.
Lemma joined_plain ws : Forall (fun w => ends_eq w = false) ws -> joined ws = ws.
Proof.
  induction 1 as [|a r Ha Hr IH]; [reflexivity|]. cbn [joined]. destruct r as [|b r]; [reflexivity|]. rewrite Ha. inversion Hr as [|? ? Hb _]; subst.
  destruct b as [|[[] [] [] [] [] [] [] []] [|d b]]; now rewrite IH.
Qed.
Lemma ends_app a b : b <> "" -> ends_eq (a ++ b)%string = ends_eq b.
Proof.
  intros H. induction a as [|c a IH]; [reflexivity|]. cbn [append ends_eq]. rewrite IH. destruct (a ++ b)%string eqn:E; [|reflexivity].
  destruct a; [cbn in E; contradiction | discriminate E].
Qed.
Lemma token_ends s : all_chars ordinary s = true -> ends_eq s = false.
Proof.
  induction s as [|c s IH]; [reflexivity|]. cbn [all_chars ends_eq]. rewrite Bool.andb_true_iff. intros [A B]. destruct s as [|d s]; [|exact (IH B)].
  destruct (ordinary_not c A) as (_ & _ & E & _). rewrite Ascii.eqb_sym. exact E.
Qed.
Lemma valued_ends v : valued v -> ends_eq v = false.
Proof.
  intros [[_ H]|[(x & -> & _)|(x & -> & _)]]; [apply token_ends; exact H | |];
    (change (?a ++ x ++ ?b)%string with (a ++ (x ++ b))%string; rewrite ends_app by (destruct x; discriminate); rewrite ends_app by discriminate; reflexivity).
Qed.
Lemma pword_eq kv : pok kv -> ends_eq (pword kv) = false.
Proof.
  intros [_ B]. unfold pword. rewrite ends_app by discriminate. rewrite (ends_app "=" (snd kv) (valued_ne _ B) : ends_eq (String "=" (snd kv)) = _). exact (valued_ends _ B).
Qed.
Lemma joined_props l : Forall pok l -> joined (map pword l) = map pword l.
Proof. intros F. apply joined_plain. apply Forall_map. revert F. apply Forall_impl. exact pword_eq. Qed.
Lemma pword_word kv : pok kv -> word (pword kv).
Proof.
  intros [[A A'] B]. split; [destruct kv as [[|c k] v]; discriminate|].
  unfold pword. rewrite (whole_app _ _ (token_plain _ A')). exact (valued_whole _ B).
Qed.
Lemma pword_newline kv : pok kv -> free newline (pword kv).
Proof. intros [[A A'] B]. apply free_app; [apply token_newline; exact A'|]. exact (valued_newline _ B). Qed.
Lemma starts_plain w : (forall t, w <> String "!" t) -> forall r, uncommented (w :: r) = w :: uncommented r.
Proof.
  intros H r. cbn [uncommented]. destruct w as [|c t]; [reflexivity|]. specialize (H t).
  destruct c as [[] [] [] [] [] [] [] []]; try reflexivity. contradiction H; reflexivity.
Qed.
Lemma token_bang s t : all_chars ordinary s = true -> s <> String "!" t.
Proof. intros H ->. cbn in H. discriminate H. Qed.
Lemma pword_bang kv t : pok kv -> pword kv <> String "!" t.
Proof.
  intros [[A A'] _] Q. destruct kv as [[|c k] v]; [exact (A eq_refl)|]. unfold pword in Q. cbn [fst append] in Q.
  injection Q as -> _. cbn in A'. discriminate A'.
Qed.
Lemma uncommented_props l cs : Forall pok l -> uncommented (map pword l ++ cs) = map pword l ++ uncommented cs.
Proof.
  induction 1 as [|x r Hx _ IH]; [reflexivity|]. cbn [map app]. rewrite starts_plain, IH; [reflexivity|]. intros t. now apply pword_bang.
Qed.

(** An element and its row; [cs] are the words of a comment. *)
Definition eok (e : element) : Prop :=
  token (e_class e) /\ dotfree (e_class e) /\ token (e_name e) /\ Forall pok (e_props e).
Definition comments (cs : list string) : Prop :=
  Forall (fun w => (exists t, w = String "!" t) /\ whole 0 w = true /\ free newline w) cs.
Definition row (e : element) (cs : list string) : string :=
  ("New" ++ spaced ((e_class e ++ String "." (e_name e))%string :: map pword (e_props e) ++ cs))%string.

Lemma uncommented_comments cs : comments cs -> uncommented cs = [].
Proof. intros H. destruct cs as [|w r]; [reflexivity|]. inversion H; subst. destruct H2 as [[t ->] _]. reflexivity. Qed.
Lemma spaced_free p ws : p " "%char = false -> Forall (free p) ws -> free p (spaced ws).
Proof.
  intros S. induction 1 as [|x r Hx _ IH]; [reflexivity|]. rewrite spaced_cons. unfold free. cbn [all_chars]. rewrite S. cbn [negb andb].
  apply free_app; assumption.
Qed.
(** Words that spell the properties. *)
Definition spell (ws : list string) (ps : list (string * string)) : Prop :=
  Forall (fun w => word w /\ free newline w /\ forall t, w <> String "!" t) ws /\ joined ws = map pword ps.
Lemma spell_props ps : Forall pok ps -> spell (map pword ps) ps.
Proof.
  intros F. split; [|apply joined_props; exact F]. apply Forall_map. revert F. apply Forall_impl. intros kv K.
  split; [apply pword_word; exact K|]. split; [apply pword_newline; exact K|]. intros t. apply pword_bang. exact K.
Qed.
Lemma uncommented_plain ws cs : Forall (fun w => forall t, w <> String "!" t) ws -> uncommented (ws ++ cs) = ws ++ uncommented cs.
Proof. induction 1 as [|x r Hx _ IH]; [reflexivity|]. cbn [app]. rewrite starts_plain, IH; [reflexivity | exact Hx]. Qed.
Definition wrow (c n : string) (ws : list string) : string := ("New" ++ spaced ((c ++ String "." n)%string :: ws))%string.
Lemma wrow_read e ws cs rest els : eok e -> spell ws (e_props e) -> comments cs -> read_dss rest = Some els ->
  read_dss (wrow (e_class e) (e_name e) (ws ++ cs) ++ nl ++ rest)%string = Some (e :: els).
Proof.
  intros (C & D & N & P) [S J] K R. unfold read_dss.
  assert (FN : free newline (wrow (e_class e) (e_name e) (ws ++ cs))).
  { unfold wrow. apply free_app; [reflexivity|]. apply spaced_free; [reflexivity|]. constructor.
    - apply free_app; [apply token_newline, C|]. exact (token_newline _ (proj2 N)).
    - apply Forall_app. split; [revert S; apply Forall_impl; tauto | revert K; apply Forall_impl; tauto]. }
  change (nl ++ rest)%string with (String "010" rest). rewrite pieces_cut; [|exact FN|reflexivity].
  cbn [commands].
  assert (W : words (wrow (e_class e) (e_name e) (ws ++ cs)) = "New" :: (e_class e ++ String "." (e_name e))%string :: ws ++ cs).
  { unfold wrow. apply words_row; [split; [discriminate | reflexivity]|]. constructor.
    - split; [destruct C as [C _]; destruct (e_class e); [contradiction C; reflexivity | discriminate]|].
      rewrite (whole_app _ _ (token_plain _ (proj2 C))). exact (whole_plain _ (token_plain _ (proj2 N))).
    - apply Forall_app. split; [revert S; apply Forall_impl; tauto|].
      revert K. apply Forall_impl. intros w [[t ->] [G _]]. split; [discriminate | exact G]. }
  rewrite W. rewrite starts_plain by discriminate. rewrite starts_plain.
  2: { intros t Q. destruct C as [C C']. destruct (e_class e) as [|c k]; [exact (C eq_refl)|]. cbn [append] in Q. injection Q as -> _. cbn in C'. discriminate C'. }
  rewrite uncommented_plain by (revert S; apply Forall_impl; tauto). rewrite (uncommented_comments cs K), app_nil_r.
  cbn [command]. rewrite first_at_cut by exact D. rewrite J, (pwords_read _ P).
  rewrite !nonempty_ne by (apply C || apply N). cbn [andb]. unfold read_dss in R. rewrite R. destruct e; reflexivity.
Qed.
Lemma row_read e cs rest els : eok e -> comments cs -> read_dss rest = Some els ->
  read_dss (row e cs ++ nl ++ rest)%string = Some (e :: els).
Proof. intros E K R. apply (wrow_read e (map pword (e_props e)) cs rest els E); [apply spell_props, E | exact K | exact R]. Qed.
Lemma blank_read rest : read_dss (nl ++ rest)%string = read_dss rest.
Proof. reflexivity. Qed.
Lemma row_read2 e cs rest els : eok e -> comments cs -> read_dss rest = Some els ->
  read_dss (row e cs ++ nl ++ nl ++ rest)%string = Some (e :: els).
Proof. intros E K R. apply row_read; [exact E | exact K|]. rewrite blank_read. exact R. Qed.

(** Looking a property up in a list made of parts. *)
Definition look (k : string) (l : list (string * string)) : option string :=
  fold_left (fun acc kv => if String.eqb (lower (fst kv)) (lower k) then Some (snd kv) else acc) l None.
Lemma look_acc k l : forall acc, fold_left (fun acc kv => if String.eqb (lower (fst kv)) (lower k) then Some (snd kv) else acc) l acc
  = match look k l with Some v => Some v | None => acc end.
Proof.
  unfold look. induction l as [|x r IH]; intros acc; [reflexivity|]. cbn [fold_left]. rewrite IH. rewrite (IH (if String.eqb _ _ then _ else _)).
  destruct (fold_left _ r None); [reflexivity|]. destruct (String.eqb _ _); reflexivity.
Qed.
Lemma look_app k a b : look k (a ++ b) = match look k b with Some v => Some v | None => look k a end.
Proof. unfold look at 1. rewrite fold_left_app. apply look_acc. Qed.
Lemma prop_look e k : prop e k = look k (e_props e).
Proof. reflexivity. Qed.

(** Terminals. *)
Lemma sub_from_token s : forall b, all_chars ordinary (sub_from b s) = true /\ free (Ascii.eqb ".") (sub_from b s).
Proof.
  induction s as [|c s IH]; intros b; [split; reflexivity|]. cbn [sub_from]. destruct (alnum c) eqn:A.
  - unfold free. cbn [all_chars]. destruct (IH false) as [-> F]. unfold free in F. rewrite F.
    assert (ordinary c = true /\ negb (Ascii.eqb "." c) = true) as [-> ->]; [|split; reflexivity].
    revert A. destruct c as [[] [] [] [] [] [] [] []]; vm_compute; intros Q; try discriminate Q; split; reflexivity.
  - destruct b; [apply IH|]. unfold free. cbn [all_chars]. destruct (IH true) as [-> F]. unfold free in F. rewrite F. split; reflexivity.
Qed.
Lemma sub_from_ne s : s <> "" -> sub_from false s <> "".
Proof. destruct s as [|c s]; [intros H; contradiction H; reflexivity|]. intros _. cbn [sub_from]. destruct (alnum c); discriminate. Qed.
Definition dotted (ns : list string) : string := texts (map (String ".") ns).
Lemma terminal_dotted b ns : free (Ascii.eqb ".") b -> Forall (free (Ascii.eqb ".")) ns -> terminal (b ++ dotted ns)%string = (b, ns).
Proof.
  intros B N. unfold terminal. enough (pieces (Ascii.eqb ".") (b ++ dotted ns)%string = b :: ns) as -> by reflexivity.
  revert b B. induction N as [|x r Hx _ IH]; intros b B.
  - unfold dotted. cbn [map texts fold_right]. rewrite app_nil_s. apply pieces_free. exact B.
  - change (dotted (x :: r)) with (String "." (x ++ dotted r)%string). rewrite pieces_cut; [|exact B | reflexivity]. now rewrite (IH x Hx).
Qed.
Lemma dotted_token ns : Forall (fun n => all_chars ordinary n = true) ns -> all_chars ordinary (dotted ns) = true.
Proof.
  induction 1 as [|x r Hx _ IH]; [reflexivity|]. change (dotted (x :: r)) with (String "." (x ++ dotted r)%string).
  cbn [all_chars]. rewrite all_app, Hx, IH. reflexivity.
Qed.
Lemma dotted_app a b : dotted (a ++ b) = (dotted a ++ dotted b)%string.
Proof. unfold dotted. rewrite map_app. apply texts_app. Qed.
Lemma bus_token b ns : b <> "" -> Forall (fun n => all_chars ordinary n = true) ns -> token (re_sub b ++ dotted ns)%string.
Proof.
  intros B N. split.
  - pose proof (sub_from_ne b B). unfold re_sub. destruct (sub_from false b); [contradiction | discriminate].
  - rewrite all_app. unfold re_sub. rewrite (proj1 (sub_from_token b false)), (dotted_token ns N). reflexivity.
Qed.

(** Properties given by fields that may be missing. *)
Definition fields := list (string * option string).
Fixpoint props_of (fs : fields) : list (string * string) :=
  match fs with [] => [] | (k, Some v) :: r => (k, v) :: props_of r | (_, None) :: r => props_of r end.
Definition field_text (f : string * option string) : string :=
  match snd f with Some v => (String " " (fst f) ++ String "=" v)%string | None => "" end.
Lemma field_texts fs : texts (map field_text fs) = spaced (map pword (props_of fs)).
Proof.
  induction fs as [|[k [v|]] r IH]; [reflexivity | | exact IH].
  cbn [props_of map]. rewrite spaced_cons, <- IH. reflexivity.
Qed.
Fixpoint look_field (k : string) (fs : fields) : option string :=
  match fs with
  | [] => None
  | (k', o) :: r => match look_field k r with Some v => Some v | None => if String.eqb (lower k') (lower k) then o else None end
  end.
Lemma look_fields k fs : look k (props_of fs) = look_field k fs.
Proof.
  induction fs as [|[k' [v|]] r IH]; [reflexivity | |]; cbn [props_of look_field]; rewrite <- IH.
  - change ((k', v) :: props_of r) with ([(k', v)] ++ props_of r). rewrite look_app. reflexivity.
  - destruct (look k (props_of r)); [reflexivity|]. destruct (String.eqb _ _); reflexivity.
Qed.
Lemma fields_valued fs : Forall (fun f => token (fst f) /\ forall v, snd f = Some v -> valued v) fs -> Forall pok (props_of fs).
Proof.
  induction 1 as [|[k [v|]] r H _ IH]; [constructor | | exact IH]. cbn [props_of]. constructor; [|exact IH].
  split; [exact (proj1 H) | exact (proj2 H v eq_refl)].
Qed.
Lemma fields_ok fs : Forall (fun f => token (fst f) /\ forall v, snd f = Some v -> token v) fs -> Forall pok (props_of fs).
Proof. intros F. apply fields_valued. revert F. apply Forall_impl. intros f [A B]. split; [exact A|]. intros v Q. left. exact (B v Q). Qed.
Lemma look_In k l v : look k l = Some v -> exists k', In (k', v) l /\ lower k' = lower k.
Proof.
  induction l as [|[k' w] r IH]; [discriminate|]. change ((k', w) :: r) with ([(k', w)] ++ r). rewrite look_app.
  destruct (look k r) as [x|] eqn:E.
  - intros Q. injection Q as ->. destruct (IH eq_refl) as (a & I & L). exists a. split; [right; exact I | exact L].
  - cbn. destruct (String.eqb_spec (lower k') (lower k)) as [L|]; [|discriminate]. intros Q. injection Q as ->.
    exists k'. split; [left; reflexivity | exact L].
Qed.
Lemma In_props k v fs : In (k, v) (props_of fs) -> In (k, Some v) fs.
Proof.
  induction fs as [|[k' [w|]] r IH]; cbn [props_of]; [intros [] | |].
  - intros [Q|I]; [injection Q as -> ->; left; reflexivity | right; apply IH; exact I].
  - intros I. right. apply IH. exact I.
Qed.
(** Text of an optional part. *)
Lemma opt_field {A} (f : A -> string) (g : A -> string) k o : (forall x, f x = (String " " k ++ String "=" (g x))%string) ->
  opt_text f o = field_text (k, option_map g o).
Proof. intros H. destruct o as [x|]; [apply H | reflexivity]. Qed.
