(** The regulators of the OpenDSS script. *)
From Verif Require Import Base BaseFacts CsvModel DssNameModel DssTextModel DssTransModel DssRegModel DssNameSpec DssTextSpec DssLoadSpec DssTransSpec DssRegSpec
  DssNameProofs DssTextProofs DssLoadProofs DssLineTextProofs DssTransProofs.
From Coq Require Import QArith Lia.
Local Open Scope string_scope.
Local Open Scope nat_scope.
Local Open Scope list_scope.

(** *** Lists in parentheses *)
Lemma sub_front a b : substring 0 (String.length a) (a ++ b)%string = a.
Proof. induction a as [|c a IH]; [destruct b; reflexivity|]. cbn. now rewrite IH. Qed.
Lemma length_app_s a b : String.length (a ++ b)%string = String.length a + String.length b.
Proof. induction a as [|c a IH]; [reflexivity|]. cbn. now rewrite IH. Qed.
Lemma unwrapped_group x : unwrapped ("(" ++ x ++ ")")%string = x.
Proof.
  unfold unwrapped. cbn [append String.length]. rewrite length_app_s. cbn [String.length]. replace (S (String.length x + 1) - 2) with (String.length x) by lia.
  change (substring 1 (String.length x) (String "(" (x ++ ")"))) with (substring 0 (String.length x) (x ++ ")")%string). apply sub_front.
Qed.
Lemma drop2_app t : drop2 (t ++ ", ")%string = t.
Proof. unfold drop2. rewrite length_app_s. cbn [String.length]. replace (String.length t + 2 - 2) with (String.length t) by lia. apply sub_front. Qed.
Lemma listing_some key x r : listing key (x :: r) = (key ++ "=(" ++ String.concat ", " (x :: r) ++ ")")%string.
Proof.
  unfold listing. assert (H : forall r x, texts (map (fun y => (y ++ ", ")%string) (x :: r)) = (String.concat ", " (x :: r) ++ ", ")%string).
  { clear. induction r as [|y r IH]; intros x; [cbn; now rewrite !app_nil_s|].
    change (texts (map (fun y => (y ++ ", ")%string) (x :: y :: r))) with ((x ++ ", ") ++ texts (map (fun y => (y ++ ", ")%string) (y :: r)))%string.
    rewrite IH. change (String.concat ", " (x :: y :: r)) with (x ++ ", " ++ String.concat ", " (y :: r))%string. now rewrite !app_assoc_s. }
  rewrite H. rewrite <- !app_assoc_s, drop2_app. rewrite !app_assoc_s. reflexivity.
Qed.
Lemma token_comma s : all_chars ordinary s = true -> free (Ascii.eqb ",") s.
Proof.
  apply token_free. intros c H. unfold ordinary in H. rewrite Bool.negb_true_iff, !Bool.orb_false_iff in H. destruct H as [_ H]. cbn [existsb] in H.
  rewrite !Bool.orb_false_iff in H. destruct H as (_ & A & _). rewrite Ascii.eqb_sym. exact A.
Qed.
Definition strip (p : string) : string := String.concat "" (pieces gap p).
Lemma strip_token s : all_chars ordinary s = true -> strip s = s /\ strip (" " ++ s)%string = s.
Proof.
  intros H. apply token_gap in H. unfold strip. split; [rewrite (pieces_free _ _ H); reflexivity|].
  change (pieces gap (" " ++ s)) with ("" :: pieces gap s). rewrite (pieces_free _ _ H). reflexivity.
Qed.
Lemma items_list x r : Forall (fun s => all_chars ordinary s = true) (x :: r) -> items ("(" ++ String.concat ", " (x :: r) ++ ")")%string = x :: r.
Proof.
  intros F. unfold items. rewrite unwrapped_group. fold strip.
  enough (H : forall r x (b : bool), Forall (fun s => all_chars ordinary s = true) (x :: r) ->
    map strip (pieces (Ascii.eqb ",") ((if b then " " else "") ++ String.concat ", " (x :: r))) = x :: r) by exact (H r x false F).
  clear. induction r as [|y r IH]; intros x b F; inversion F as [|? ? Fx Fr]; subst.
  - cbn [String.concat]. rewrite pieces_free; [|apply free_app; [destruct b; reflexivity | apply token_comma; exact Fx]]. cbn [map].
    destruct (strip_token x Fx) as [A B]. destruct b; [rewrite B | cbn [append]; rewrite A]; reflexivity.
  - change (String.concat ", " (x :: y :: r)) with (x ++ ", " ++ String.concat ", " (y :: r))%string.
    rewrite <- app_assoc_s. change (", " ++ ?z)%string with (String "," (" " ++ z)). rewrite pieces_cut; [|apply free_app; [destruct b; reflexivity | apply token_comma; exact Fx] | reflexivity].
    cbn [map]. rewrite (IH y true Fr). f_equal. destruct (strip_token x Fx) as [A B]. destruct b; [exact B | exact A].
Qed.
Lemma items_pair a b : all_chars ordinary a = true -> all_chars ordinary b = true -> items ("(" ++ (a ++ "," ++ b) ++ ")")%string = [a; b].
Proof.
  intros A B. unfold items. rewrite unwrapped_group. fold strip. change ("," ++ b)%string with (String "," b).
  rewrite pieces_cut; [|apply token_comma; exact A | reflexivity]. rewrite pieces_free by (apply token_comma; exact B). cbn [map].
  now rewrite (proj1 (strip_token a A)), (proj1 (strip_token b B)).
Qed.
Lemma ordinary_inner c : ordinary c = true -> inner c = true.
Proof.
  intros H. pose proof (ordinary_not c H) as (N & _). pose proof (ordinary_plain c H) as P. unfold plainc in P. unfold inner. rewrite N.
  rewrite !Bool.andb_true_iff in P. destruct P as [[_ ->] ->]. reflexivity.
Qed.
Lemma token_inner s : all_chars ordinary s = true -> all_chars inner s = true.
Proof. apply all_sub. exact ordinary_inner. Qed.
Lemma concat_inner l : Forall (fun s => all_chars ordinary s = true) l -> all_chars inner (String.concat ", " l) = true.
Proof.
  induction 1 as [|x r Hx Hr IH]; [reflexivity|]. destruct r as [|y r]; [exact (token_inner x Hx)|].
  change (String.concat ", " (x :: y :: r)) with (x ++ ", " ++ String.concat ", " (y :: r))%string. rewrite !all_app, (token_inner x Hx), IH. reflexivity.
Qed.

(** *** Compensators *)
Lemma set_add_In x q l : In x (set_add q l) -> In x l \/ x = q.
Proof. unfold set_add. destruct (existsb _ _); [left; assumption|]. intros I. apply in_app_or in I as [I|[->|[]]]; [left; exact I | right; reflexivity]. Qed.
Lemma set_add_ne q l : set_add q l <> [].
Proof. unfold set_add. destruct (existsb _ l) eqn:E; [intros ->; discriminate E|]. destruct l; discriminate. Qed.
Lemma set_add_keep x q l : In x l -> In x (set_add q l).
Proof. unfold set_add. destruct (existsb _ _); [trivial|]. intros I. apply in_or_app. left. exact I. Qed.
Definition picks (f : phase_winding -> option Q) (ps : list phase_winding) (s : list Q) : list Q :=
  fold_left (fun s p => match f p with Some q => set_add q s | None => s end) ps s.
Lemma picks_In f ps : forall s x, In x (picks f ps s) -> In x s \/ exists p, In p ps /\ f p = Some x.
Proof.
  induction ps as [|p r IH]; intros s x I; [left; exact I|]. cbn [picks fold_left] in I. destruct (IH _ _ I) as [J|(q & J & E)].
  - destruct (f p) as [y|] eqn:P; [|left; exact J]. apply set_add_In in J as [J| ->]; [left; exact J|]. right. exists p. split; [left; reflexivity | exact P].
  - right. exists q. split; [right; exact J | exact E].
Qed.
Lemma picks_keep f ps : forall s, s <> [] -> picks f ps s <> [].
Proof.
  induction ps as [|p r IH]; intros s H; [exact H|]. cbn [picks fold_left]. apply IH. destruct (f p); [apply set_add_ne | exact H].
Qed.
Lemma picks_some f ps p q : In p ps -> f p = Some q -> forall s, picks f ps s <> [].
Proof.
  intros I E. induction ps as [|x r IH]; [destruct I|]. intros s. cbn [picks fold_left]. destruct I as [->|I].
  - rewrite E. apply picks_keep, set_add_ne.
  - apply (IH I).
Qed.
Definition gather (f : phase_winding -> option Q) (ws : list winding) (s : list Q) : list Q := fold_left (fun s w => picks f (wd_phases w) s) ws s.
Lemma gather_In f ws : forall s x, In x (gather f ws s) -> In x s \/ exists w p, In w ws /\ In p (wd_phases w) /\ f p = Some x.
Proof.
  induction ws as [|w r IH]; intros s x I; [left; exact I|]. cbn [gather fold_left] in I. destruct (IH _ _ I) as [J|(v & p & J & K & E)].
  - apply picks_In in J as [J|(p & J & E)]; [left; exact J|]. right. exists w, p. split; [left; reflexivity | split; assumption].
  - right. exists v, p. split; [right; exact J | split; assumption].
Qed.
Lemma gather_keep f ws : forall s, s <> [] -> gather f ws s <> [].
Proof. induction ws as [|w r IH]; intros s H; [exact H|]. cbn [gather fold_left]. apply IH, picks_keep, H. Qed.
Lemma gather_some f ws w p q : In w ws -> In p (wd_phases w) -> f p = Some q -> forall s, gather f ws s <> [].
Proof.
  intros I J E. induction ws as [|x r IH]; [destruct I|]. intros s. cbn [gather fold_left]. destruct I as [->|I]; [apply gather_keep, (picks_some f _ p q J E) | apply (IH I)].
Qed.
Lemma adds_In l : forall s x, In x (fold_left (fun s q => set_add q s) l s) -> In x s \/ In x l.
Proof.
  induction l as [|y r IH]; intros s x I; [left; exact I|]. cbn [fold_left] in I. destruct (IH _ _ I) as [J|J]; [|right; right; exact J].
  apply set_add_In in J as [J| ->]; [left; exact J | right; left; reflexivity].
Qed.
Lemma adds_ne l : forall s, s <> [] \/ l <> [] -> fold_left (fun s q => set_add q s) l s <> [].
Proof.
  induction l as [|y r IH]; intros s H; [destruct H as [H|H]; [exact H | contradiction H; reflexivity]|]. cbn [fold_left]. apply IH. left. apply set_add_ne.
Qed.
Lemma compensator_In f ts n q : In q (compensator f ts n) -> setting_of f ts n q.
Proof.
  unfold compensator. enough (H : forall s, In q (fold_left (fun s t => match tr_name t with Some m => if String.eqb m n then fold_left (fun s q => set_add q s) (settings f t) s else s | None => s end) ts s) ->
    In q s \/ setting_of f ts n q) by (intros I; destruct (H [] I) as [[]|J]; exact J).
  induction ts as [|t r IH]; intros s I; [left; exact I|]. cbn [fold_left] in I. destruct (IH _ I) as [J|(u & w & p & J & K)].
  - destruct (tr_name t) as [m|] eqn:N; [|left; exact J]. destruct (String.eqb_spec m n) as [->|]; [|left; exact J].
    apply adds_In in J as [J|J]; [left; exact J|]. right. apply (gather_In f (tr_windings t) []) in J as [[]|(w & p & A & B & C)].
    exists t, w, p. split; [left; reflexivity|]. split; [exact N|]. repeat split; assumption.
  - right. exists u, w, p. split; [right; exact J | exact K].
Qed.
Lemma compensator_ne f ts n q : setting_of f ts n q -> compensator f ts n <> [].
Proof.
  intros (t & w & p & I & N & J & K & E). unfold compensator. 
  assert (Keep : forall ts s, s <> [] -> fold_left (fun s t => match tr_name t with Some m => if String.eqb m n then fold_left (fun s q => set_add q s) (settings f t) s else s | None => s end) ts s <> []).
  { clear. induction ts as [|t r IH]; intros s H; [exact H|]. cbn [fold_left]. apply IH. destruct (tr_name t); [|exact H]. destruct (String.eqb _ _); [apply adds_ne; left; exact H | exact H]. }
  enough (G : forall s, fold_left (fun s t => match tr_name t with Some m => if String.eqb m n then fold_left (fun s q => set_add q s) (settings f t) s else s | None => s end) ts s <> []) by apply G.
  induction ts as [|u r IH]; [destruct I|]. intros s. cbn [fold_left]. destruct I as [->|I]; [|apply (IH I)].
  rewrite N, String.eqb_refl. apply Keep. apply adds_ne. right. exact (gather_some f (tr_windings t) w p q J K E []).
Qed.

Section Reg.
Variable show : Q -> string.
Variable num : string -> option Q.
Hypothesis FS : faithful show num.
Variable pick : list Q -> Q.
Hypothesis PK : forall l, l <> [] -> In (pick l) l.
Variable ts : list transformer.

(** *** Controls *)
Definition comp_field (s : list Q) : option string := match s with [] => None | _ => Some (show (pick s)) end.
Definition control_1 (n : string) (r : regulator) : fields :=
  [("transformer", Some (match rg_trans r with Some t => t | None => "trans_" ++ n end)%string);
   ("winding", Some (match rg_winding r with Some w => show_int w | None => "2" end));
   ("CTprim", option_map show (rg_ct r));
   ("delay", option_map show (rg_delay r));
   ("ptratio", option_map show (rg_pt r));
   ("band", option_map (fun v => show (v * (12 # 10))%Q) (rg_band r));
   ("vreg", option_map show (rg_center r));
   ("Ptphase", option_map show_phase (rg_phase r));
   ("vlimit", option_map show (rg_vlimit r))].
Definition control_2 (r : regulator) : fields := [("vreg", option_map (fun v => show (v / 100 * 120)%Q) (rg_set r))].
Definition control_3 (n : string) : fields := [("X", comp_field (compensator pw_x ts n)); ("R", comp_field (compensator pw_r ts n))].
Definition control_fields (n : string) (r : regulator) : fields := control_1 n r ++ control_2 r ++ control_3 n.
Definition set_words (r : regulator) : list string := match rg_set r with Some v => ["vreg"; "="; show (v / 100 * 120)%Q] | None => [] end.
Definition control_words (n : string) (r : regulator) : list string :=
  map pword (props_of (control_1 n r)) ++ set_words r ++ map pword (props_of (control_3 n)).

Lemma comp_text_field key k s : key = (String " " k ++ "=")%string -> comp_text show pick key s = field_text (k, comp_field s).
Proof. intros ->. destruct s; [reflexivity|]. cbn [comp_text comp_field field_text fst snd]. rewrite app_assoc_s. reflexivity. Qed.
Lemma control_row n r :
  ("New RegControl." ++ n ++ " transformer=" ++ match rg_trans r with Some t => t | None => "trans_" ++ n end ++
   " winding=" ++ match rg_winding r with Some w => show_int w | None => "2" end ++
   opt_text (fun v => " CTprim=" ++ show v) (rg_ct r) ++
   opt_text (fun v => " delay=" ++ show v) (rg_delay r) ++
   opt_text (fun v => " ptratio=" ++ show v) (rg_pt r) ++
   opt_text (fun v => " band=" ++ show (v * (12 # 10))%Q) (rg_band r) ++
   opt_text (fun v => " vreg=" ++ show v) (rg_center r) ++
   opt_text (fun p => " Ptphase=" ++ show_phase p) (rg_phase r) ++
   opt_text (fun v => " vlimit=" ++ show v) (rg_vlimit r) ++
   opt_text (fun v => " vreg = " ++ show (v / 100 * 120)%Q) (rg_set r) ++
   comp_text show pick " X=" (compensator pw_x ts n) ++ comp_text show pick " R=" (compensator pw_r ts n) ++ nl ++ nl)%string
  = (wrow "RegControl" n (control_words n r) ++ nl ++ nl)%string.
Proof.
  rewrite (opt_field (fun v => " CTprim=" ++ show v)%string show "CTprim") by reflexivity.
  rewrite (opt_field (fun v => " delay=" ++ show v)%string show "delay") by reflexivity.
  rewrite (opt_field (fun v => " ptratio=" ++ show v)%string show "ptratio") by reflexivity.
  rewrite (opt_field (fun v => " band=" ++ show (v * (12 # 10))%Q)%string (fun v => show (v * (12 # 10))%Q) "band") by reflexivity.
  rewrite (opt_field (fun v => " vreg=" ++ show v)%string show "vreg") by reflexivity.
  rewrite (opt_field (fun v => " Ptphase=" ++ show_phase v)%string show_phase "Ptphase") by reflexivity.
  rewrite (opt_field (fun v => " vlimit=" ++ show v)%string show "vlimit") by reflexivity.
  rewrite (comp_text_field " X=" "X") by reflexivity. rewrite (comp_text_field " R=" "R") by reflexivity.
  assert (S : opt_text (fun v => " vreg = " ++ show (v / 100 * 120)%Q)%string (rg_set r) = spaced (set_words r)).
  { unfold set_words. destruct (rg_set r); [|reflexivity]. cbn [opt_text spaced map texts fold_right append]. rewrite ?app_nil_s. reflexivity. }
  rewrite S. unfold wrow, control_words. rewrite spaced_cons, !spaced_app, <- !field_texts.
  unfold control_1, control_3. cbn [map texts fold_right]. rewrite ?app_nil_s.
  change (field_text ("transformer", Some ?x)) with (" transformer=" ++ x)%string. change (field_text ("winding", Some ?x)) with (" winding=" ++ x)%string.
  cbn [append]. do 6 (rewrite ?app_assoc_s; cbn [append]). reflexivity.
Qed.

Lemma comp_field_token s v : comp_field s = Some v -> token v.
Proof. destruct s; [discriminate|]. intros Q. injection Q as <-. apply FS. Qed.
Notation fok := (fun f : string * option string => token (fst f) /\ forall v, snd f = Some v -> token v).
Lemma control_1_ok n r : token n -> (forall t, rg_trans r = Some t -> token t) -> (forall p, rg_phase r = Some p -> exists m, at_node p m) -> Forall fok (control_1 n r).
Proof.
  intros T Tt P. unfold control_1. repeat (apply Forall_cons; [split; [split; [discriminate | reflexivity] | cbn [snd]; intros v Q]|]); [..|apply Forall_nil].
  - injection Q as <-. destruct (rg_trans r) as [t|]; [apply Tt; reflexivity|]. split; [discriminate|]. exact (proj2 T).
  - injection Q as <-. destruct (rg_winding r); [apply int_token | split; [discriminate | reflexivity]].
  - exact (shown show num FS (fun x => x) _ _ Q).
  - exact (shown show num FS (fun x => x) _ _ Q).
  - exact (shown show num FS (fun x => x) _ _ Q).
  - exact (shown show num FS (fun v => v * (12 # 10))%Q _ _ Q).
  - exact (shown show num FS (fun x => x) _ _ Q).
  - destruct (rg_phase r) as [p|]; [|discriminate Q]. injection Q as <-. destruct (P p eq_refl) as [m A]. rewrite (node_show _ _ A). destruct A; (split; [discriminate | reflexivity]).
  - exact (shown show num FS (fun x => x) _ _ Q).
Qed.
Lemma control_ok n r : token n -> (forall t, rg_trans r = Some t -> token t) -> (forall p, rg_phase r = Some p -> exists m, at_node p m) ->
  Forall pok (props_of (control_1 n r)) /\ Forall pok (props_of (control_2 r)) /\ Forall pok (props_of (control_3 n)).
Proof.
  intros T Tt P. split; [apply fields_ok, control_1_ok; assumption|]. split; apply fields_ok.
  - constructor; [|constructor]. split; [split; [discriminate | reflexivity]|]. intros v Q. exact (shown show num FS (fun v => v / 100 * 120)%Q _ _ Q).
  - unfold control_3. repeat (apply Forall_cons; [split; [split; [discriminate | reflexivity] | intros v Q; exact (comp_field_token _ _ Q)]|]). apply Forall_nil.
Qed.
Lemma joined_cons_plain a r : ends_eq a = false -> (forall b q, r = "=" :: b :: q -> False) -> joined (a :: r) = a :: joined r.
Proof.
  intros E H. cbn [joined]. destruct r as [|b [|c q]]; [reflexivity | |]; rewrite E.
  - destruct b as [|[[] [] [] [] [] [] [] []] [|d b]]; reflexivity.
  - destruct (string_dec b "=") as [->|N]; [destruct (H c q eq_refl)|].
    destruct b as [|[[] [] [] [] [] [] [] []] [|d b]]; try reflexivity. contradiction N; reflexivity.
Qed.
Lemma joined_app a r : Forall (fun w => ends_eq w = false) a -> (forall b q, r = "=" :: b :: q -> False) -> joined (a ++ r) = a ++ joined r.
Proof.
  intros F H. induction F as [|x l Hx Fl IH]; [reflexivity|]. cbn [app]. rewrite joined_cons_plain, IH; [reflexivity | exact Hx|].
  intros b q Q. destruct l as [|y l]; [exact (H b q Q)|]. inversion Fl; subst. cbn [app] in Q. injection Q as -> _. discriminate.
Qed.
Lemma control_spell n r : token n -> (forall t, rg_trans r = Some t -> token t) -> (forall p, rg_phase r = Some p -> exists m, at_node p m) ->
  spell (control_words n r) (props_of (control_fields n r)).
Proof.
  intros T Tt P. destruct (control_ok n r T Tt P) as (O1 & O2 & O3). unfold control_words, control_fields. rewrite !props_of_app.
  destruct (spell_props _ O1) as [S1 J1]. destruct (spell_props _ O3) as [S3 J3].
  assert (NE : forall l, Forall pok l -> Forall (fun w => ends_eq w = false) (map pword l)) by (intros l F; apply Forall_map; revert F; apply Forall_impl; exact pword_eq).
  split.
  - apply Forall_app. split; [exact S1|]. apply Forall_app. split; [|exact S3]. unfold set_words. destruct (rg_set r) as [v|]; [|constructor].
    destruct (proj1 FS (v / 100 * 120)%Q) as [A B].
    apply Forall_cons; [|apply Forall_cons; [|apply Forall_cons; [|apply Forall_nil]]].
    + split; [split; [discriminate | reflexivity]|]. split; [reflexivity | discriminate].
    + split; [split; [discriminate | reflexivity]|]. split; [reflexivity | discriminate].
    + split; [split; [exact A | apply whole_plain, token_plain, B]|]. split; [apply token_newline, B|]. intros t. apply token_bang. exact B.
  - rewrite joined_app; [|apply NE, O1|].
    + rewrite map_app. f_equal. rewrite map_app. unfold set_words, control_2. destruct (rg_set r) as [v|]; [|exact J3]. cbn [app option_map props_of map].
      change (joined ("vreg" :: "=" :: show (v / 100 * 120)%Q :: ?x)) with (("vreg" ++ "=" ++ show (v / 100 * 120)%Q)%string :: joined x). rewrite J3. reflexivity.
    + intros b q Q. unfold set_words in Q. destruct (rg_set r) as [v|]; [discriminate Q|]. cbn [app] in Q. 
      pose proof (NE _ O3) as F. rewrite Q in F. inversion F; subst. discriminate.
Qed.

Lemma comp_is n r f k : prop (mkElement "RegControl" n (props_of (control_fields n r))) k = comp_field (compensator f ts n) ->
  compensates num f ts n (mkElement "RegControl" n (props_of (control_fields n r))) k.
Proof.
  intros P. destruct (compensator f ts n) as [|q l] eqn:C.
  - left. split; [|exact P]. intros q S. exact (compensator_ne f ts n q S C).
  - right. exists (pick (q :: l)). split; [apply compensator_In; rewrite C; apply PK; discriminate|].
    apply (show_gives show num FS _ _ _ P). reflexivity.
Qed.
Lemma control_element_is n r : rg_name r = Some n -> (forall p, rg_phase r = Some p -> exists m, at_node p m) ->
  control_of num ts r (mkElement "RegControl" n (props_of (control_fields n r))).
Proof.
  intros N Ph. set (e := mkElement _ _ _).
  assert (P : forall k, prop e k = look_field k (control_fields n r)) by (intros k; rewrite prop_look; apply look_fields).
  split.
  - reflexivity.
  - exact N.
  - rewrite P. unfold control_fields, control_1, control_2, control_3. lk. reflexivity.
  - rewrite P. unfold control_fields, control_1, control_2, control_3. lk. reflexivity.
  - apply (gives_same show num FS). rewrite P. unfold control_fields, control_1, control_2, control_3. lk. oo.
  - apply (gives_same show num FS). rewrite P. unfold control_fields, control_1, control_2, control_3. lk. oo.
  - apply (gives_same show num FS). rewrite P. unfold control_fields, control_1, control_2, control_3. lk. oo.
  - destruct (rg_band r) as [b|] eqn:B.
    + apply (show_gives show num FS) with (q := (b * (12 # 10))%Q); [|field]. rewrite P. unfold control_fields, control_1, control_2, control_3. lk. rewrite B. reflexivity.
    + cbn [gives]. rewrite P. unfold control_fields, control_1, control_2, control_3. lk. rewrite B. reflexivity.
  - destruct (rg_set r) as [b|] eqn:B.
    + apply (show_gives show num FS) with (q := (b / 100 * 120)%Q); [|reflexivity]. rewrite P. unfold control_fields, control_1, control_2, control_3. lk. rewrite B. reflexivity.
    + apply (gives_same show num FS). rewrite P. unfold control_fields, control_1, control_2, control_3. lk. rewrite B. cbn [option_map]. oo.
  - destruct (rg_phase r) as [p|] eqn:B.
    + destruct (Ph p eq_refl) as [m A]. exists m. split; [exact A|]. rewrite P. unfold control_fields, control_1, control_2, control_3. lk. rewrite B. cbn [option_map]. now rewrite (node_show _ _ A).
    + rewrite P. unfold control_fields, control_1, control_2, control_3. lk. rewrite B. reflexivity.
  - apply (gives_same show num FS). rewrite P. unfold control_fields, control_1, control_2, control_3. lk. oo.
  - apply comp_is. fold e. rewrite P. unfold control_fields, control_1, control_2, control_3. lk. destruct (comp_field (compensator pw_x ts n)); reflexivity.
  - apply comp_is. fold e. rewrite P. unfold control_fields, control_1, control_2, control_3. lk. destruct (comp_field (compensator pw_r ts n)); reflexivity.
  - apply only_fields. unfold control_fields, control_1, control_2, control_3. cbn [app]. repeat (apply Forall_cons; [cbn; tauto|]). apply Forall_nil.
Qed.

(** *** Created transformers *)
Definition bracket (l : list string) : string := ("(" ++ String.concat ", " l ++ ")")%string.
Definition bus_at (b : string) (ns : list string) : string := (re_sub b ++ dotted ns)%string.
Definition created_fields (r : regulator) (w1 : winding) (ns kvs kvas conns : list string) : fields :=
  [("phases", Some (str_of (length (wd_phases w1))));
   ("windings", Some (str_of (length (rg_windings r))));
   ("buses", match rg_from r, rg_to r with Some a, Some b => Some ("(" ++ (bus_at a ns ++ "," ++ bus_at b ns) ++ ")")%string | _, _ => None end);
   ("conns", match conns with [] => None | _ => Some (bracket conns) end);
   ("kvs", Some (bracket kvs));
   ("kvas", Some (bracket kvas));
   ("EmerghKVA", option_map show (wd_emerg w1));
   ("XHL", option_map show (nth_error (rg_reac r) 0));
   ("XLT", option_map show (nth_error (rg_reac r) 1));
   ("XHT", option_map show (nth_error (rg_reac r) 2))].
Lemma concat_dotted x r : String "." (String.concat "." (x :: r)) = dotted (x :: r).
Proof.
  revert x. induction r as [|y r IH]; intros x; [unfold dotted; cbn; now rewrite app_nil_s|].
  change (String.concat "." (x :: y :: r)) with (x ++ String "." (String.concat "." (y :: r)))%string. rewrite IH. reflexivity.
Qed.
Lemma shown_nodes l ns : Forall2 (fun p n => exists x, pw_phase p = Some x /\ at_node x n) l ns ->
  map (fun p => show_opt (option_map show_int (map_phase (pw_phase p)))) l = ns.
Proof. induction 1 as [|p n l ns (x & P & A) _ IH]; [reflexivity|]. cbn [map]. rewrite IH, P. destruct A; reflexivity. Qed.
Lemma conns_row conns : (if String.eqb (listing " conns" conns) " conns)" then "" else listing " conns" conns) = field_text ("conns", match conns with [] => None | _ => Some (bracket conns) end).
Proof. destruct conns as [|x r]; [reflexivity|]. rewrite listing_some. reflexivity. Qed.
Lemma created_row n r w1 p ps rw ns kvs : rg_windings r = w1 :: rw -> wd_phases w1 = p :: ps ->
  Forall2 (fun p n => exists x, pw_phase p = Some x /\ at_node x n) (wd_phases w1) ns ->
  mapM (fun w => do v <- of_opt EType (wd_v w); Ok (show (milli v))) (rg_windings r) = Ok kvs -> kvs <> [] ->
  let conns := somes (map (fun w => conn_name (wd_conn w)) (rg_windings r)) in
  let kvas := somes (map (fun w => option_map (fun v => show (milli v)) (wd_va w)) (rg_windings r)) in
  kvas <> [] ->
  created_text show n r = Ok (row (mkElement "Transformer" ("trans_" ++ n)%string (props_of (created_fields r w1 ns kvs kvas conns))) []).
Proof.
  intros W P F M K conns kvas KA. unfold created_text. rewrite W, P. rewrite <- P, <- W. rewrite M. cbn [bind]. cbv zeta. fold conns. fold kvas.
  rewrite (shown_nodes _ _ F). rewrite row_fields. unfold created_fields.
  rewrite (conns_row conns). destruct kvs as [|k kvs]; [contradiction K; reflexivity|]. rewrite (listing_some " kvs"). clearbody kvas.
  destruct kvas as [|ka kvas]; [contradiction KA; reflexivity|]. rewrite (listing_some " kvas").
  rewrite (opt_field (fun v => " EmerghKVA=" ++ show v)%string show "EmerghKVA") by reflexivity.
  rewrite (opt_field (fun v => " XHL=" ++ show v)%string show "XHL") by reflexivity.
  rewrite (opt_field (fun v => " XLT=" ++ show v)%string show "XLT") by reflexivity.
  rewrite (opt_field (fun v => " XHT=" ++ show v)%string show "XHT") by reflexivity.
  f_equal. cbn [map texts fold_right]. rewrite ?app_nil_s.
  assert (B : match rg_from r, rg_to r with
     | Some b1, Some b2 => (" buses=(" ++ re_sub b1 ++ "." ++ String.concat "." ns ++ "," ++ re_sub b2 ++ "." ++ String.concat "." ns ++ ")")%string | _, _ => "" end =
     field_text ("buses", match rg_from r, rg_to r with Some a, Some b => Some ("(" ++ (bus_at a ns ++ "," ++ bus_at b ns) ++ ")")%string | _, _ => None end)).
  { destruct (rg_from r) as [a|]; [|reflexivity]. destruct (rg_to r) as [b|]; [|reflexivity]. unfold bus_at.
    rewrite P in F. inversion F as [|? y ? ys ? ? E1 E2]; subst. rewrite <- (concat_dotted y ys). cbn [field_text fst snd]. cbn [append]. do 6 (rewrite ?app_assoc_s; cbn [append]). reflexivity. }
  rewrite B.
  change (field_text ("phases", Some ?x)) with (" phases=" ++ x)%string. change (field_text ("windings", Some ?x)) with (" windings=" ++ x)%string.
  change (field_text ("kvs", Some ?x)) with (" kvs=" ++ x)%string. change (field_text ("kvas", Some ?x)) with (" kvas=" ++ x)%string. unfold bracket.
  cbn [append]. do 6 (rewrite ?app_assoc_s; cbn [append]). reflexivity.
Qed.
Notation ord := (fun s => all_chars ordinary s = true).
Lemma bracket_group l : Forall ord l -> group (bracket l).
Proof. intros F. eexists. split; [reflexivity | apply concat_inner; exact F]. Qed.
Lemma bus_ord b ns : Forall ord ns -> all_chars ordinary (bus_at b ns) = true.
Proof. intros N. unfold bus_at, re_sub. rewrite all_app, (proj1 (sub_from_token b false)), (dotted_token ns N). reflexivity. Qed.
Lemma created_ok n r w1 ns kvs kvas conns : token n -> Forall ord ns -> Forall ord kvs -> Forall ord kvas -> Forall ord conns ->
  eok (mkElement "Transformer" ("trans_" ++ n)%string (props_of (created_fields r w1 ns kvs kvas conns))).
Proof.
  intros T N K KA C. unfold eok. cbn [e_class e_name e_props]. split; [split; [discriminate | reflexivity]|]. split; [reflexivity|]. split; [split; [discriminate | exact (proj2 T)]|].
  apply fields_valued. unfold created_fields. repeat (apply Forall_cons; [split; [split; [discriminate | reflexivity] | cbn [snd]; intros v Q]|]); [..|apply Forall_nil].
  - injection Q as <-. left. apply str_token.
  - injection Q as <-. left. apply str_token.
  - right. left. destruct (rg_from r) as [a|]; [|discriminate Q]. destruct (rg_to r) as [b|]; [|discriminate Q]. injection Q as <-. eexists. split; [reflexivity|].
    rewrite all_app, (token_inner _ (bus_ord a ns N)). cbn [append all_chars andb]. rewrite (token_inner _ (bus_ord b ns N)). reflexivity.
  - right. left. destruct conns as [|c cs]; [discriminate Q|]. injection Q as <-. apply bracket_group. exact C.
  - right. left. injection Q as <-. apply bracket_group. exact K.
  - right. left. injection Q as <-. apply bracket_group. exact KA.
  - left. exact (shown show num FS (fun x => x) _ _ Q).
  - left. exact (shown show num FS (fun x => x) _ _ Q).
  - left. exact (shown show num FS (fun x => x) _ _ Q).
  - left. exact (shown show num FS (fun x => x) _ _ Q).
Qed.
Lemma conns_are l : Forall2 conn_is (known_conns l) (somes (map conn_name l)) /\ Forall ord (somes (map conn_name l)).
Proof.
  induction l as [|c r [A B]]; [split; constructor|]. cbn [map known_conns somes]. destruct c as [c|]; [|exact (conj A B)].
  destruct (existsb (String.eqb c) ["Y"; "D"; "Z"]) eqn:E.
  - cbn [existsb] in E. rewrite !Bool.orb_true_iff in E. destruct E as [E|[E|[E|E]]]; try discriminate E; apply String.eqb_eq in E; subst c; cbn [conn_name];
      (split; [constructor; [constructor | exact A] | constructor; [reflexivity | exact B]]).
  - enough (conn_name (Some c) = None) as -> by exact (conj A B). cbn [existsb] in E. rewrite !Bool.orb_false_iff, !String.eqb_neq in E. destruct E as (Y & D & Z & _).
    unfold conn_name. destruct c as [|[[] [] [] [] [] [] [] []] [|d c]]; try reflexivity; contradiction.
Qed.
Lemma map_some_texts (l : list (option Q)) : somes (map (option_map (fun v => show (milli v))) l) = map (fun v => show (milli v)) (given l).
Proof. induction l as [|[v|] r IH]; [reflexivity | cbn [map somes given option_map]; now rewrite IH | exact IH]. Qed.
Lemma listed e k (vs : list Q) : vs <> [] -> prop e k = Some (bracket (map (fun v => show (milli v)) vs)) -> numbers num e k (map (fun v => v / 1000)%Q vs).
Proof.
  intros H P. exists (bracket (map (fun v => show (milli v)) vs)). split; [exact P|]. destruct vs as [|v vs]; [contradiction H; reflexivity|].
  unfold bracket. cbn [map]. rewrite items_list.
  - change (show (milli v) :: map (fun v => show (milli v)) vs) with (map (fun v => show (milli v)) (v :: vs)). change (v / 1000 :: map (fun v => v / 1000) vs)%Q with (map (fun v => v / 1000)%Q (v :: vs)).
    generalize (v :: vs). clear - FS. induction l as [|x l IH]; cbn [map]; constructor; [|exact IH].
    exists (milli x). split; [exact (proj2 FS (milli x)) | apply milli_div].
  - change (show (milli v) :: map (fun v => show (milli v)) vs) with (map (fun v => show (milli v)) (v :: vs)). apply Forall_map, Forall_forall. intros x _. apply FS.
Qed.
Lemma kvs_all (l : list winding) : (forall w, In w l -> wd_v w <> None) -> exists vs, Forall2 (fun w v => wd_v w = Some v) l vs /\
  mapM (fun w => do v <- of_opt EType (wd_v w); Ok (show (milli v))) l = Ok (map (fun v => show (milli v)) vs).
Proof.
  induction l as [|w r IH]; intros H; [exists []; split; [constructor | reflexivity]|].
  destruct (IH (fun x I => H x (or_intror I))) as (vs & F & M). destruct (wd_v w) as [v|] eqn:V; [|contradiction (H w (or_introl eq_refl) V)].
  exists (v :: vs). split; [constructor; assumption|]. cbn [mapM map]. rewrite V. cbn [of_opt bind]. rewrite M. reflexivity.
Qed.
Lemma created_reads n r : rg_name r = Some n -> token n -> rg_trans r = None -> good_reg r -> exists e,
  created_text show n r = Ok (row e []) /\ eok e /\ created_is num r e.
Proof.
  intros N T RT (_ & _ & _ & G). rewrite RT in G. destruct G as ((w1 & p & ps & W1 & P & Ph) & V & KA).
  destruct (rg_windings r) as [|w rw] eqn:W; [discriminate W1|]. injection W1 as ->. rewrite <- W in *.
  assert (NS : exists ns, Forall2 (fun p n => exists x, pw_phase p = Some x /\ at_node x n) (wd_phases w1) ns).
  { clear - Ph. induction (wd_phases w1) as [|q l IH]; [exists []; constructor|]. destruct (IH (fun y I => Ph y (or_intror I))) as [ns F].
    destruct (Ph q (or_introl eq_refl)) as (x & m & A & B). exists (m :: ns). constructor; [exists x; split; assumption | exact F]. }
  destruct NS as [ns NS].
  assert (ON : Forall ord ns /\ Forall (free (Ascii.eqb ".")) ns).
  { clear - NS. induction NS as [|q m l ns (x & A & B) _ [C D]]; [split; constructor|]. destruct (node_token _ _ B). split; constructor; assumption. }
  destruct ON as [ON DN].
  destruct (kvs_all (rg_windings r) V) as (vs & FV & M).
  assert (VN : vs <> []) by (intros ->; rewrite W in FV; inversion FV).
  assert (MM : map (fun v => show (milli v)) vs <> []) by (destruct vs; [contradiction | discriminate]).
  set (kvas := map (fun v => show (milli v)) (given (map wd_va (rg_windings r)))).
  assert (KE : somes (map (fun w => option_map (fun v => show (milli v)) (wd_va w)) (rg_windings r)) = kvas)
    by (unfold kvas; rewrite <- map_some_texts, map_map; reflexivity).
  assert (KN : kvas <> []) by (unfold kvas; destruct (given (map wd_va (rg_windings r))); [contradiction | discriminate]).
  assert (CE : somes (map (fun w => conn_name (wd_conn w)) (rg_windings r)) = somes (map conn_name (map wd_conn (rg_windings r)))) by (rewrite map_map; reflexivity).
  destruct (conns_are (map wd_conn (rg_windings r))) as [CI CO]. rewrite <- CE in CI, CO.
  pose proof (created_row n r w1 p ps rw ns _ W P NS M MM) as R. cbv zeta in R. rewrite KE in R. specialize (R KN).
  set (conns := somes (map (fun w => conn_name (wd_conn w)) (rg_windings r))) in *.
  eexists. split; [exact R|]. set (e := mkElement _ _ _). split.
  - apply created_ok; try assumption; [apply Forall_map, Forall_forall; intros x _; apply FS | unfold kvas; apply Forall_map, Forall_forall; intros x _; apply FS].
  - assert (PP : forall k, prop e k = look_field k (created_fields r w1 ns (map (fun v => show (milli v)) vs) kvas conns)) by (intros k; rewrite prop_look; apply look_fields).
    split.
    + reflexivity.
    + exists n. split; [exact N | reflexivity].
    + rewrite PP. unfold created_fields. lk. reflexivity.
    + exists w1. split; [rewrite W; reflexivity|]. split; [rewrite PP; unfold created_fields; lk; reflexivity|].
      split; [apply (gives_same show num FS); rewrite PP; unfold created_fields; lk; oo|].
      assert (PB : prop e "buses" = match rg_from r, rg_to r with Some a, Some b => Some ("(" ++ (bus_at a ns ++ "," ++ bus_at b ns) ++ ")")%string | _, _ => None end).
      { rewrite PP. unfold created_fields. lk. destruct (rg_from r); [destruct (rg_to r)|]; reflexivity. }
      destruct (rg_from r) as [a|]; [|exact PB]. destruct (rg_to r) as [b|]; [|exact PB].
      eexists _, _, _, _, _, _. split; [exact PB|]. split; [apply items_pair; apply bus_ord; exact ON|].
      split; [apply terminal_dotted; [exact (proj2 (sub_from_token a false)) | exact DN]|]. split; [apply sub_kept|].
      split; [apply terminal_dotted; [exact (proj2 (sub_from_token b false)) | exact DN]|]. split; [apply sub_kept | exact NS].
    + assert (PC : prop e "conns" = match conns with [] => None | _ => Some (bracket conns) end).
      { rewrite PP. unfold created_fields. lk. destruct conns; reflexivity. }
      clear CE. clearbody conns. destruct (known_conns (map wd_conn (rg_windings r))) as [|k ks]; [inversion CI; subst; exact PC|].
      destruct conns as [|c cs]; [inversion CI|]. eexists. split; [exact PC|]. unfold bracket. rewrite items_list by exact CO. exact CI.
    + exists vs. split; [exact FV|]. apply listed; [exact VN|]. rewrite PP. unfold created_fields. lk. reflexivity.
    + apply listed; [exact KA|]. rewrite PP. unfold created_fields. lk. reflexivity.
    + apply (gives_same show num FS). rewrite PP. unfold created_fields. lk. oo.
    + apply (gives_same show num FS). rewrite PP. unfold created_fields. lk. oo.
    + apply (gives_same show num FS). rewrite PP. unfold created_fields. lk. oo.
    + apply only_fields. unfold created_fields. repeat (apply Forall_cons; [cbn; tauto|]). apply Forall_nil.
Qed.

(** *** Groups *)
Lemma reg_reads r : good_reg r -> exists c t e,
  reg_text show pick (compensator pw_x ts) (compensator pw_r ts) r = Ok (Some (c, t)) /\ control_of num ts r e /\
  (forall rest els, read_dss rest = Some els -> read_dss (c ++ rest)%string = Some (e :: els)) /\
  match rg_trans r with
  | Some _ => t = ""
  | None => exists f, created_is num r f /\ t <> "" /\ forall rest els, read_dss rest = Some els -> read_dss (t ++ nl ++ nl ++ rest)%string = Some (f :: els)
  end.
Proof.
  intros G. pose proof G as ((n & N & T) & L & Ph & Tr). unfold reg_text. rewrite N.
  assert (Tt : forall t, rg_trans r = Some t -> token t) by (intros t E; rewrite E in Tr; exact Tr).
  assert (RC : forall rest els, read_dss rest = Some els -> read_dss ((wrow "RegControl" n (control_words n r) ++ nl ++ nl) ++ rest)%string = Some (mkElement "RegControl" n (props_of (control_fields n r)) :: els)).
  { intros rest els R. rewrite !app_assoc_s. rewrite <- (app_nil_r (control_words n r)).
    apply (wrow_read (mkElement "RegControl" n (props_of (control_fields n r)))).
    - unfold eok. cbn [e_class e_name e_props]. split; [split; [discriminate | reflexivity]|]. split; [reflexivity|]. split; [exact T|].
      unfold control_fields. rewrite !props_of_app. destruct (control_ok n r T Tt Ph) as (O1 & O2 & O3). apply Forall_app. split; [exact O1|]. apply Forall_app. split; assumption.
    - exact (control_spell n r T Tt Ph).
    - constructor.
    - rewrite blank_read. exact R. }
  destruct (rg_trans r) as [t|] eqn:RT.
  - rewrite L. cbn [bind]. eexists _, _, _. split; [reflexivity|]. split; [exact (control_element_is n r N Ph)|]. split; [|reflexivity].
    pose proof (control_row n r) as CR. rewrite RT in CR. intros rest els R. exact (eq_trans (f_equal (fun x => read_dss (x ++ rest)%string) CR) (RC rest els R)).
  - destruct (created_reads n r N T RT G) as (f & C & O & I). rewrite C, L. cbn [bind]. eexists _, _, _. split; [reflexivity|]. split; [exact (control_element_is n r N Ph)|]. split.
    + pose proof (control_row n r) as CR. rewrite RT in CR. intros rest els R. exact (eq_trans (f_equal (fun x => read_dss (x ++ rest)%string) CR) (RC rest els R)).
    + exists f. split; [exact I|]. split; [intros Q; discriminate Q|]. intros rest els R. apply row_read2; [exact O | constructor | exact R].
Qed.
Lemma blanks_read rest els : read_dss rest = Some els -> read_dss ((nl ++ nl) ++ rest)%string = Some els.
Proof. intros R. rewrite app_assoc_s, !blank_read. exact R. Qed.
Lemma empty_app a b : (a ++ b)%string = "" -> a = "" /\ b = "".
Proof. destruct a; [intros H; split; [reflexivity | exact H] | discriminate]. Qed.
Lemma group_reads l : Forall good_reg l -> forall st, exists c t cs es,
  foldM (reg_step show pick (compensator pw_x ts) (compensator pw_r ts)) l st = Ok ((fst st ++ c)%string, (snd st ++ t)%string) /\
  Forall2 (control_of num ts) l cs /\ creations num l es /\
  (forall rest els, read_dss rest = Some els -> read_dss (c ++ rest)%string = Some (cs ++ els)) /\
  (forall rest els, read_dss rest = Some els -> read_dss (t ++ rest)%string = Some (es ++ els)).
Proof.
  induction 1 as [|r l G _ IH]; intros st.
  - exists "", "", [], []. cbn [foldM]. rewrite !app_nil_s. destruct st. repeat split; try constructor; intros rest els R; exact R.
  - destruct (reg_reads r G) as (c & t & e & E & Ce & Rc & Rt). cbn [foldM]. unfold reg_step at 1. rewrite E. cbn [bind]. cbv zeta.
    assert (S : exists u fs, (if String.eqb (snd st ++ t) "" then (snd st ++ t)%string else ((snd st ++ t) ++ String "010" (String "010" ""))%string) = (snd st ++ u)%string /\
      (forall es, creations num l es -> creations num (r :: l) (fs ++ es)) /\ forall rest els, read_dss rest = Some els -> read_dss (u ++ rest)%string = Some (fs ++ els)).
    { destruct (rg_trans r) as [tr|] eqn:RT.
      - subst t. rewrite app_nil_s. destruct (String.eqb_spec (snd st) "") as [Z|Z].
        + exists "", []. rewrite Z. split; [reflexivity|]. split; [intros es X; apply cr_old; [rewrite RT; discriminate | exact X] | intros rest els R; exact R].
        + exists (nl ++ nl)%string, []. split; [reflexivity|]. split; [intros es X; apply cr_old; [rewrite RT; discriminate | exact X] | exact blanks_read].
      - destruct Rt as (f & I & NE & Rf). destruct (String.eqb_spec (snd st ++ t) "") as [Z|Z]; [apply empty_app in Z as [_ Z]; contradiction|].
        exists (t ++ nl ++ nl)%string, [f]. rewrite app_assoc_s. split; [reflexivity|]. split; [intros es X; apply cr_new; assumption|].
        intros rest els R. rewrite !app_assoc_s. apply Rf. exact R. }
    destruct S as (u & fs & S & Sc & Su). rewrite S. destruct (IH ((fst st ++ c)%string, (snd st ++ u)%string)) as (c' & t' & cs & es & F & A & B & Rc' & Rt').
    exists (c ++ c')%string, (u ++ t')%string, (e :: cs), (fs ++ es). cbn [fst snd] in F. split; [rewrite F, !app_assoc_s; reflexivity|].
    split; [constructor; assumption|]. split; [apply Sc; exact B|]. split.
    + intros rest els R. rewrite app_assoc_s. apply Rc. apply Rc'. exact R.
    + intros rest els R. rewrite app_assoc_s, <- app_assoc. apply Su. apply Rt'. exact R.
Qed.
End Reg.
