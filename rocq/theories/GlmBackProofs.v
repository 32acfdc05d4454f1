(** Reading files of the GridLAB-D writer. *)
From Verif Require Import Base BaseFacts CsvModel TextModel.
From Verif Require GlmModel GlmSpec GlmProofs GlmProps.
From Verif Require Import NetworkModel GlmWriteModel GlmWriteSpec GlmWriteProofs GlmConfProofs GlmFileProofs GlmPartsProofs GlmRefsProofs GlmBackSpec.
From Coq Require Import QArith Lia Permutation.
Local Open Scope string_scope.
Local Open Scope nat_scope.
Local Open Scope list_scope.

Definition classes : list string :=
  ["node"; "capacitor"; "load"; "transformer_configuration"; "transformer"; "regulator_configuration"; "regulator"; "line_configuration"; "underground_line"; "fuse"; "switch"; "overhead_line"].
Definition class_word (c : string) : Prop := GlmSpec.word c /\ GlmSpec.without_colon c /\ ~ In c GlmSpec.not_read.
Lemma classes_words c : In c classes -> class_word c /\ class_word (c ++ "{").
Proof.
  intros H. assert (X : forall P, In c classes -> P c = true -> P c = true) by auto.
  unfold class_word, GlmSpec.word, GlmSpec.without_colon. cbn in H.
  repeat (destruct H as [<-|H]; [split; (split; [split; [discriminate|cbn; repeat split; reflexivity]|]; split; [cbn; repeat split; reflexivity|]; cbn; intuition discriminate)|]). destruct H.
Qed.
Lemma file_classes num cplx order (perm : forall d, Permutation d (order d)) ww ms st0 rows st : good_state st0 -> phases_ok ms -> write_glm num cplx order ww ms st0 = Ok (rows, st) ->
  shape rows (file rows) /\ forall b, In b (file rows) -> In (fst b) classes.
Proof.
  intros G P E. destruct (file_parts num cplx order perm ww ms st0 rows st G P E) as (lps & tds & tnew & lds & lnew & rnew & _ & _ & _ & _ & _ & _ & _ & _ & S & F).
  split; [exact S|]. rewrite F. intros b H.
  repeat (apply in_app_or in H; destruct H as [H|H]; [apply in_map_iff in H; destruct H as (x & <- & _); cbn; tauto|]).
  apply in_map_iff in H. destruct H as (l & <- & _). pose proof (line_class_in l) as Hl. cbn [line_b fst]. cbn in Hl |- *. tauto.
Qed.

(** ** Rows *)
Lemma word_nospace w : GlmSpec.word w -> GlmSpec.every (fun c => negb (is_space c)) w.
Proof. now intros [_ H]. Qed.
Lemma every_app p a b : GlmSpec.every p (a ++ b)%string <-> GlmSpec.every p a /\ GlmSpec.every p b.
Proof. induction a as [|c a IH]; cbn; tauto. Qed.
Lemma word_app a b : GlmSpec.word a -> GlmSpec.every (fun c => negb (is_space c)) b -> GlmSpec.word (a ++ b)%string.
Proof. intros [N E] Eb. split; [destruct a; [congruence|discriminate]|]. apply every_app. auto. Qed.
Lemma spells_row k v n : GlmSpec.word k -> GlmSpec.word v -> GlmSpec.blank n -> GlmSpec.spells (n ++ k ++ " " ++ v ++ ";")%string [k; (v ++ ";")%string].
Proof.
  intros K V B. apply GlmSpec.spells_cons; [exact B|exact K|reflexivity|].
  replace (" " ++ v ++ ";")%string with (" " ++ (v ++ ";") ++ "")%string by (cbn; now rewrite GlmProofs.sapp_nil).
  apply GlmSpec.spells_cons; [cbn; auto|apply word_app; [exact V|cbn; auto]|exact I|]. apply GlmSpec.spells_nil. exact I.
Qed.
Lemma append_inj_r a b c : (a ++ String c "")%string = (b ++ String c "")%string -> a = b.
Proof.
  revert b. induction a as [|x a IH]; intros [|y b] E; cbn in E; try discriminate; [reflexivity| | |].
  - destruct b; discriminate.
  - destruct a; discriminate.
  - injection E as -> E. f_equal. now apply IH.
Qed.
Lemma last_char a b c d : (a ++ String c "")%string = (b ++ String d "")%string -> c = d.
Proof.
  revert b. induction a as [|x a IH]; intros [|y b] E; cbn in E.
  - now injection E.
  - injection E as _ E. destruct b; discriminate.
  - injection E as _ E. destruct a; discriminate.
  - injection E as _ E. now apply (IH b).
Qed.
Lemma row_prop k v r : plain_key k -> plain_value v -> r = prow (k, v) \/ r = String " " (prow (k, v)) -> GlmSpec.property_row r k v.
Proof.
  intros (K & Nk & Nc) (V & Nv) H. exists (v ++ ";")%string, []. split.
  - destruct H as [-> | ->]; [apply (spells_row k v "    ")|apply (spells_row k v "     ")]; auto; cbn; repeat split; reflexivity.
  - split; [exact Nk|]. split; [exact Nc|]. split; [now left|]. cbn [last]. intros (s & [E|E]).
    + pose proof (last_char v s ";" "}" E) as X. discriminate X.
    + change "};" with ("}" ++ String ";" "")%string in E. rewrite <- GlmProofs.sapp_assoc in E. apply append_inj_r in E. exact (Nv s E).
Qed.
Lemma head_row cls : class_word cls -> smem cls glued = false -> GlmSpec.header_row (head_of cls) cls None.
Proof.
  intros (W & C & _) G. exists cls, ["{"]. unfold head_of. rewrite G. split; [|split; [exact C|reflexivity]].
  change ("object " ++ cls ++ " {")%string with ("" ++ "object" ++ (" " ++ cls ++ " {"))%string. apply GlmSpec.spells_cons; [exact I|split; [discriminate|cbn; repeat split; reflexivity]|reflexivity|].
  apply GlmSpec.spells_cons; [cbn; auto|exact W|reflexivity|]. change " {" with (" " ++ "{" ++ "")%string. apply GlmSpec.spells_cons; [cbn; auto|split; [discriminate|cbn; auto]|exact I|]. apply GlmSpec.spells_nil. exact I.
Qed.
Lemma head_row_glued cls : class_word (cls ++ "{") -> smem cls glued = true -> GlmSpec.header_row (head_of cls) (cls ++ "{") None.
Proof.
  intros (W & C & _) G. exists (cls ++ "{")%string, []. unfold head_of. rewrite G. split; [|split; [exact C|reflexivity]].
  change ("object " ++ cls ++ "{")%string with ("" ++ "object" ++ (" " ++ cls ++ "{"))%string. apply GlmSpec.spells_cons; [exact I|split; [discriminate|cbn; repeat split; reflexivity]|reflexivity|].
  replace (" " ++ cls ++ "{")%string with (" " ++ (cls ++ "{") ++ "")%string by now rewrite GlmProofs.sapp_nil.
  apply GlmSpec.spells_cons; [cbn; auto|exact W|exact I|]. apply GlmSpec.spells_nil. exact I.
Qed.
Lemma close_is : GlmSpec.close_row "};".
Proof. right. change "};" with ("" ++ "};" ++ "")%string at 1. apply GlmSpec.spells_cons; [exact I|split; [discriminate|cbn; auto]|exact I|]. apply GlmSpec.spells_nil. exact I. Qed.
Lemma empty_outside : GlmSpec.outside_row "".
Proof. exists []. split; [apply GlmSpec.spells_nil; exact I|]. left. left. reflexivity. Qed.
Lemma module_outside r : In r module_rows -> GlmSpec.outside_row r.
Proof.
  assert (W : forall w rest, GlmSpec.spells r (w :: rest) -> ~ GlmSpec.keyword w -> GlmSpec.outside_row r) by (intros w rest S N; exists (w :: rest); split; [exact S|]; right; left; eauto).
  intros H. cbn in H. destruct H as [<-|[<-|[<-|[<-|[<-|[]]]]]].
  - apply (W "module" ["powerflow{"]); [GlmProps.row_|intros [X|X]; discriminate X].
  - apply (W "solver_method" ["NR;"]); [GlmProps.row_|intros [X|X]; discriminate X].
  - apply (W "NR_iteration_limit" ["50;"]); [GlmProps.row_|intros [X|X]; discriminate X].
  - apply (W "};" []); [GlmProps.row_|intros [X|X]; discriminate X].
  - apply empty_outside.
Qed.

(** ** Files that can be read *)
Definition item (b : block) : GlmSpec.item := GlmSpec.Obj (GlmSpec.mkBlock (fst b) None (snd b)).
Lemma glm_app a x b y : GlmSpec.glm a x -> GlmSpec.glm b y -> GlmSpec.glm (a ++ b) (x ++ y).
Proof. intros G H. induction G; cbn [app]; [exact H| | |]; rewrite <- ?app_assoc; constructor; assumption. Qed.
Lemma glm_outsides rows : (forall r, In r rows -> GlmSpec.outside_row r) -> GlmSpec.glm rows [].
Proof. induction rows as [|r rows IH]; intros H; constructor; [apply H; now left|]. apply IH. intros x Hx. apply H. now right. Qed.
Lemma body_rows body ps : Forall2 (fun r p => r = prow p \/ r = String " " (prow p)) body ps -> (forall k v, In (k, v) ps -> plain_key k /\ plain_value v) -> GlmSpec.body body ps.
Proof.
  induction 1 as [|r [k v] body ps Hr F IH]; intros P; constructor; [|apply IH; intros k' v' I; apply P; now right].
  destruct (P k v (or_introl eq_refl)) as [K V]. now apply row_prop.
Qed.
Lemma shape_glm rows bs : shape rows bs -> plain_file bs -> (forall b, In b bs -> In (fst b) classes /\ smem (fst b) glued = false) -> GlmSpec.glm rows (map item bs).
Proof.
  induction 1 as [| |cls ps body F|a b x y S1 IH1 S2 IH2]; intros P C; [constructor|apply glm_outsides; apply module_outside| |].
  - replace (head_of cls :: body ++ ["};"; ""]) with ((head_of cls :: (body ++ ["};"])) ++ [""]) by (cbn; now rewrite <- app_assoc).
    change (map item [(cls, ps)]) with ([item (cls, ps)] ++ []). apply glm_app; [|apply glm_outsides; intros r [<-|[]]; exact empty_outside].
    rewrite <- (app_nil_r (head_of cls :: _)). apply GlmSpec.glm_object; [|constructor]. exists (head_of cls), body, "};". split; [reflexivity|].
    destruct (C _ (or_introl eq_refl)) as [Hc Hg]. split; [apply head_row; [apply (classes_words cls Hc)|exact Hg]|]. split; [|exact close_is].
    apply body_rows; [exact F|]. intros k v I. apply (P (cls, ps) k v); [now left|exact I].
  - rewrite map_app. apply glm_app; [apply IH1|apply IH2]; try (intros c k v I; apply P; apply in_or_app; auto); intros c I; apply C; apply in_or_app; auto.
Qed.
Lemma shape_no_include rows bs : shape rows bs -> forall r, In r rows -> forall s, r <> ("#include" ++ s)%string.
Proof.
  induction 1 as [| |cls ps body F|a b x y S1 IH1 S2 IH2]; intros r H s; [destruct H| | |apply in_app_or in H; destruct H; auto].
  - cbn in H. destruct H as [<-|[<-|[<-|[<-|[<-|[]]]]]]; discriminate.
  - destruct H as [<-|H]; [unfold head_of; destruct (smem cls glued); discriminate|]. apply in_app_or in H. destruct H as [H|H]; [|destruct H as [<-|[<-|[]]]; discriminate].
    clear -F H. induction F as [|r' p body ps Hr F IH]; [destruct H|]. destruct H as [->|H]; [destruct Hr as [-> | ->]; discriminate|auto].
Qed.
Lemma shape_included files rows bs : shape rows bs -> GlmSpec.included files rows [].
Proof.
  intros S. pose proof (shape_no_include rows bs S) as H. clear S. induction rows as [|r rows IH]; constructor; [apply H; now left|]. apply IH. intros x Hx. apply H. now right.
Qed.
Lemma last_value_vals k ps : GlmSpec.last_value k ps = last_opt (vals ps k).
Proof.
  induction ps as [|[k' v] ps IH]; [reflexivity|]. cbn [GlmSpec.last_value]. rewrite IH, vals_cons. unfold last_opt. destruct (String.eqb k' k); cbn [app rev]; destruct (rev (vals ps k)); reflexivity.
Qed.
Lemma last_opt_in {A} (l : list A) : l <> [] -> exists x, last_opt l = Some x /\ In x l.
Proof. intros N. unfold last_opt. destruct (rev l) as [|x r] eqn:E; [apply (f_equal (@rev A)) in E; rewrite rev_involutive in E; destruct (N E)|]. exists x. split; [reflexivity|]. apply in_rev. rewrite E. now left. Qed.

Lemma item_name b n : values b "name" = [n] -> GlmSpec.block_name (GlmSpec.mkBlock (fst b) None (snd b)) = Some n.
Proof. intros H. unfold GlmSpec.block_name, GlmSpec.given. cbn [GlmSpec.b_id GlmSpec.b_props]. rewrite last_value_vals. unfold vals. fold (values b "name"). now rewrite H. Qed.

Lemma read_back schema cron files objs rows bs : shape rows bs -> plain_file bs -> (forall b, In b bs -> In (fst b) classes /\ smem (fst b) glued = false) -> known_file schema bs -> named_file bs ->
  exists objs' scheds, GlmModel.parse_glm schema cron files objs rows = Ok (objs', scheds) /\
    forall b n, In b bs -> values b "name" = [n] -> exists o, dget objs' n = Some o /\ same_object b o.
Proof.
  intros S P C K [Nn Nd]. pose proof (shape_glm rows bs S P C) as G. pose proof (shape_included files rows bs S) as Inc.
  assert (R : forall b, In (GlmSpec.Obj b) (map item bs) -> GlmSpec.readable schema b).
  { intros b H. apply in_map_iff in H. destruct H as (c & E & H). injection E as <-. destruct (K c H) as (ks & Sc & In1 & In2). exists ks. cbn [GlmSpec.b_cls GlmSpec.b_props]. split; [exact Sc|]. split; [exact In1|].
    split; [intros k v I; apply In2; unfold keys; apply (in_map fst) in I; exact I|]. split.
    - unfold GlmSpec.block_name, GlmSpec.given. cbn [GlmSpec.b_id GlmSpec.b_props]. rewrite last_value_vals. destruct (last_opt_in (vals (snd c) "name") (Nn c H)) as (x & -> & _). discriminate.
    - destruct (C c H) as [Hc _]. now destruct (classes_words _ Hc) as [(_ & _ & X) _]. }
  destruct (GlmProps.C70_objects schema cron files objs rows [] (map item bs) (fun _ => false) Inc) as (objs' & scheds & E & H); [now rewrite app_nil_r|exact R| |].
  { intros n es ts v Hi _. apply in_map_iff in Hi. destruct Hi as (c & X & _). discriminate X. }
  exists objs', scheds. split; [exact E|]. intros b n Ib Vb. specialize (H n).
  assert (L : GlmSpec.last_block n (map item bs) = Some (GlmSpec.mkBlock (fst b) None (snd b))).
  { clear -Nn Nd Ib Vb. induction bs as [|c bs IH]; [destruct Ib|]. cbn [map GlmSpec.last_block item]. cbn [flat_map] in Nd.
    assert (Nd' := nodup_app_r _ _ Nd). assert (Nn' : forall b, In b bs -> values b "name" <> []) by (intros x Hx; apply Nn; now right).
    destruct Ib as [->|Ib].
    - assert (Ln : forall l, (forall x, In x l -> ~ In n (values x "name")) -> (forall x, In x l -> values x "name" <> []) -> GlmSpec.last_block n (map item l) = None).
      { induction l as [|x l IHl]; intros A B; [reflexivity|]. cbn [map GlmSpec.last_block item]. rewrite IHl by (intros y Hy; first [apply A; now right|apply B; now right]).
        unfold GlmSpec.block_name, GlmSpec.given. cbn [GlmSpec.b_id GlmSpec.b_props]. rewrite last_value_vals. destruct (last_opt_in (vals (snd x) "name") (B x (or_introl eq_refl))) as (m & -> & Hm).
        destruct (String.eqb n m) eqn:Em; [|reflexivity]. apply String.eqb_eq in Em. subst m. destruct (A x (or_introl eq_refl) Hm). }
      rewrite Ln; [rewrite (item_name b n Vb), String.eqb_refl; reflexivity| |exact Nn'].
      intros x Hx Hn. rewrite Vb in Nd. cbn in Nd. inversion Nd as [|? ? X _]; subst. apply X. apply in_flat_map. eauto.
    - rewrite (IH Nn' Nd' Ib). reflexivity. }
  rewrite L in H. destruct H as (o & Ho & Ec & Ep). exists o. split; [exact Ho|]. split; [exact Ec|]. intros k. rewrite Ep. unfold GlmSpec.given. cbn [GlmSpec.b_id GlmSpec.b_props]. rewrite last_value_vals.
  destruct (String.eqb k "name") eqn:Ek; [|reflexivity]. apply String.eqb_eq in Ek. subst k. now rewrite Vb.
Qed.

(** ** Files that cannot be read *)
Section Stuck.
Variable schema : string -> option (list string).
Variable cron : string -> res bool.
Hypothesis braces : no_braces schema.
Notation step := (GlmModel.step schema cron).
Notation ready := GlmProofs.ready.

Lemma body_step c ks nest cnt objs scheds body ps : schema c = Some ks -> Forall2 (fun r p => r = prow p \/ r = String " " (prow p)) body ps -> (forall k v, In (k, v) ps -> plain_key k /\ plain_value v) ->
  forall d, (exists e, foldM step body (GlmProofs.inside nest (GlmModel.mkObj c d) cnt objs scheds) = Err e) \/
            exists d', foldM step body (GlmProofs.inside nest (GlmModel.mkObj c d) cnt objs scheds) = Ok (GlmProofs.inside nest (GlmModel.mkObj c d') cnt objs scheds).
Proof.
  intros Sc. induction 1 as [|r [k v] body ps Hr F IH]; intros P d; [right; exists d; reflexivity|]. destruct (P k v (or_introl eq_refl)) as [K V]. pose proof (row_prop k v r K V Hr) as PR.
  cbn [foldM]. destruct (smem k ks) eqn:M.
  - rewrite (GlmProofs.step_property schema cron nest c d cnt objs scheds r k v ks PR Sc). { cbn [bind]. apply IH. intros k' v' I. apply P. now right. }
    destruct (in_dec string_dec k ks) as [H|H]; [exact H|]. apply smem_false in H. congruence.
  - left. exists EAttr. destruct PR as (v' & rs & S & N & NC & _). rewrite (GlmProofs.step_words schema cron _ _ _ S) by (apply GlmProofs.no_comment_begins; exact NC). cbn [hd].
    destruct (GlmProofs.keyword_eqb k N) as [-> ->]. cbn [GlmModel.p_curr GlmProofs.inside]. unfold GlmModel.in_object. cbn [GlmModel.property]. unfold GlmModel.setitem. cbn [GlmModel.o_cls]. rewrite Sc, M. reflexivity.
Qed.
Lemma unknown_header cnt objs scheds h cls : GlmSpec.header_row h cls None -> ~ In cls GlmSpec.not_read -> schema cls = None -> step (ready cnt objs scheds) h = Err EAttr.
Proof.
  intros (tag & rs & S & W & T) NI SC. rewrite (GlmProofs.step_words schema cron _ _ _ S) by reflexivity. cbn [hd String.eqb Ascii.eqb Bool.eqb]. unfold GlmModel.header. cbn [GlmModel.p_curr GlmProofs.ready nth_error of_opt bind].
  subst tag. rewrite (GlmProofs.split_on_none cls W). cbn [hd]. assert (M : smem cls GlmModel.ignored = false) by (apply smem_false; exact NI). rewrite M, SC. reflexivity.
Qed.
Lemma stuck rows bs : shape rows bs -> plain_file bs -> (forall b, In b bs -> In (fst b) classes) -> forall cnt objs scheds,
  (exists e, foldM step rows (ready cnt objs scheds) = Err e) \/
  (exists objs', foldM step rows (ready cnt objs scheds) = Ok (ready cnt objs' scheds) /\ forall b, In b bs -> smem (fst b) glued = false).
Proof.
  assert (Out : forall l cnt objs scheds, (forall r, In r l -> GlmSpec.outside_row r) -> foldM step l (ready cnt objs scheds) = Ok (ready cnt objs scheds)).
  { induction l as [|r l IH]; intros cnt objs scheds H; [reflexivity|]. cbn [foldM]. rewrite (GlmProofs.step_outside schema cron) by (apply H; now left). cbn [bind]. apply IH. intros x Hx. apply H. now right. }
  induction 1 as [| |cls ps body F|a b x y S1 IH1 S2 IH2]; intros P C cnt objs scheds.
  - right. exists objs. split; [reflexivity|intros b []].
  - right. exists objs. split; [apply Out; apply module_outside|intros b []].
  - destruct (classes_words cls (C _ (or_introl eq_refl))) as [Wc Wg]. cbn [foldM]. destruct (smem cls glued) eqn:G.
    + left. exists EAttr. rewrite (unknown_header cnt objs scheds _ (cls ++ "{")); [reflexivity|now apply head_row_glued|apply Wg|apply braces].
    + destruct (schema cls) as [ks|] eqn:Sc.
      2:{ left. exists EAttr. rewrite (unknown_header cnt objs scheds _ cls); [reflexivity|now apply head_row|apply Wc|exact Sc]. }
      assert (Hd : step (ready cnt objs scheds) (head_of cls) = Ok (GlmProofs.opened (GlmModel.mkObj cls []) cnt objs scheds)).
      { destruct (head_row cls Wc G) as (tag & rs & Sp & W & T). subst tag. rewrite (GlmProofs.step_words schema cron _ _ _ Sp) by reflexivity. cbn [hd String.eqb Ascii.eqb Bool.eqb]. unfold GlmModel.header. cbn [GlmModel.p_curr GlmProofs.ready nth_error of_opt bind].
        rewrite (GlmProofs.split_on_none cls W). cbn [hd nth_error]. assert (M : smem cls GlmModel.ignored = false) by (apply smem_false; apply Wc). rewrite M, Sc. reflexivity. }
      rewrite Hd. cbn [bind]. rewrite foldM_app. unfold GlmProofs.opened.
      destruct (body_step cls ks false cnt objs scheds body ps Sc F (fun k v I => P (cls, ps) k v (or_introl eq_refl) I) []) as [(e & E)|(d' & E)]; rewrite E; cbn [bind]; [left; eauto|].
      cbn [foldM]. change (GlmProofs.inside false) with GlmProofs.opened. rewrite (GlmProofs.step_close schema cron) by exact close_is. destruct (GlmModel.close schema objs (GlmModel.mkObj cls d')) as [os|e]; cbn [bind]; [|left; eauto].
      right. exists os. rewrite (GlmProofs.step_outside schema cron) by exact empty_outside. split; [reflexivity|]. intros b [<-|[]]. exact G.
  - rewrite foldM_app. destruct (IH1 (fun c k v I => P c k v (in_or_app _ _ _ (or_introl I))) (fun c I => C c (in_or_app _ _ _ (or_introl I))) cnt objs scheds) as [(e & E)|(os & E & G1)]; rewrite E; cbn [bind]; [left; eauto|].
    destruct (IH2 (fun c k v I => P c k v (in_or_app _ _ _ (or_intror I))) (fun c I => C c (in_or_app _ _ _ (or_intror I))) cnt os scheds) as [(e & E2)|(os' & E2 & G2)]; rewrite E2; [left; eauto|].
    right. exists os'. split; [reflexivity|]. intros b0 I. apply in_app_or in I. destruct I; auto.
Qed.
End Stuck.
