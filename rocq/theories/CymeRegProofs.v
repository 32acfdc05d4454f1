(** Proofs about the merging of regulators in the CYME writer. *)
From Verif Require Import Base BaseFacts CymeMapModel CymeMapSpec CymeMapProofs.
Local Open Scope string_scope.
Local Open Scope list_scope.

(** ** Fields *)

Lemma count_app c a b : count_char c (a ++ b)%string = count_char c a + count_char c b.
Proof. induction a as [|x a IH]; cbn [String.append count_char]; [reflexivity|]. rewrite IH. lia. Qed.
Lemma comma_free_count s : comma_free s <-> count_char "," s = 0.
Proof.
  unfold comma_free. split.
  - induction s as [|c s IH]; cbn [count_char]; intros H; [reflexivity|]. destruct (Ascii.eqb "," c) eqn:E.
    + exfalso. apply Ascii.eqb_eq in E. subst. exact (H "" s eq_refl).
    + apply IH. intros a b Eq. apply (H (String c a) b). cbn. now rewrite Eq.
  - intros H a b ->. rewrite count_app in H. cbn in H. lia.
Qed.
Lemma split_nonempty s : split_comma s <> [].
Proof. induction s as [|c s IH]; cbn [split_comma]; [discriminate|]. destruct (split_comma s); [contradiction|]. destruct (Ascii.eqb c ","); discriminate. Qed.
Lemma split_free_app x s : count_char "," x = 0 -> split_comma (x ++ String "," s)%string = x :: split_comma s.
Proof.
  induction x as [|c x IH]; cbn [String.append split_comma count_char]; intros H.
  - destruct (split_comma s) eqn:E; [exfalso; exact (split_nonempty s E)|]. reflexivity.
  - destruct (Ascii.eqb "," c) eqn:E; [lia|]. rewrite IH by lia. rewrite Ascii.eqb_sym, E. reflexivity.
Qed.
Lemma split_free x : count_char "," x = 0 -> split_comma x = [x].
Proof.
  induction x as [|c x IH]; cbn [split_comma count_char]; intros H; [reflexivity|].
  destruct (Ascii.eqb "," c) eqn:E; [lia|]. rewrite IH by lia. rewrite Ascii.eqb_sym, E. reflexivity.
Qed.
Lemma split_text l : record l -> split_comma (text l) = l.
Proof.
  intros [N F]. unfold text. induction l as [|x l IH]; [contradiction|]. inversion F as [|? ? Fx Fl]; subst. apply comma_free_count in Fx.
  destruct l as [|y l]; [apply split_free; exact Fx|].
  change (String.concat "," (x :: y :: l)) with (x ++ String "," (String.concat "," (y :: l)))%string.
  rewrite split_free_app by exact Fx. rewrite IH; [reflexivity|discriminate|exact Fl].
Qed.
Lemma join_text l : join_comma l = text l.
Proof. induction l as [|x l IH]; [reflexivity|]. destruct l as [|y l]; [reflexivity|].
  change (x ++ "," ++ join_comma (y :: l) = x ++ "," ++ text (y :: l))%string. now rewrite IH. Qed.

Lemma count_insert c x s : count_char c (insert_char x s) = (if Ascii.eqb c x then 1 else 0) + count_char c s.
Proof.
  induction s as [|d s IH]; cbn [insert_char count_char]; [reflexivity|]. destruct (Nat.leb _ _); cbn [count_char]; [reflexivity|].
  rewrite IH. lia.
Qed.
Lemma count_sort c s : count_char c (sort_chars s) = count_char c s.
Proof. induction s as [|x s IH]; cbn [sort_chars count_char]; [reflexivity|]. rewrite count_insert, IH. reflexivity. Qed.

Lemma merge_field_free x y : comma_free x -> comma_free y -> comma_free (merge_field x y).
Proof.
  rewrite !comma_free_count. intros Hx Hy. unfold merge_field.
  destruct (String.eqb x y); [exact Hx|]. destruct (smem x _ && smem y _)%bool.
  - rewrite count_sort, count_app. lia.
  - destruct (String.eqb x "0" && _)%bool; [exact Hy|]. destruct (String.eqb y "0" && _)%bool; [exact Hx|reflexivity].
Qed.

Definition merged (r r' : list string) : list string := map (fun p => merge_field (fst p) (snd p)) (combine r r').
Lemma merged_length r r' : length r = length r' -> length (merged r r') = length r.
Proof. intros H. unfold merged. rewrite map_length, combine_length. lia. Qed.
Lemma merged_record r r' : length r = length r' -> record r -> record r' -> record (merged r r').
Proof.
  intros L [N F] [N' F']. split.
  - destruct r; [contradiction|]. destruct r'; [contradiction|]. discriminate.
  - clear N N'. revert r' L F'. induction F as [|x r Fx F IH]; intros [|y r'] L F'; try discriminate; [constructor|].
    inversion F'; subst. cbn. constructor; [apply merge_field_free; assumption|]. apply IH; [injection L; auto|assumption].
Qed.
Lemma merged_nth r r' i x y : nth_error r i = Some x -> nth_error r' i = Some y -> nth_error (merged r r') i = Some (merge_field x y).
Proof.
  revert r' i. induction r as [|a r IH]; intros [|b r'] [|i] H H'; try discriminate; cbn in *.
  - injection H as ->. injection H' as ->. reflexivity.
  - apply IH; assumption.
Qed.
Lemma merged_section r r' : r <> [] -> r' <> [] -> section_of r = section_of r' -> section_of (merged r r') = section_of r.
Proof.
  destruct r as [|a r]; [contradiction|]. destruct r' as [|b r']; [contradiction|]. cbn. intros _ _ <-. unfold merge_field. now rewrite String.eqb_refl.
Qed.
Lemma merge_text r r' : length r = length r' -> record r -> record r' -> merge (text r) (text r') = Ok (text (merged r r')).
Proof. intros L R R'. unfold merge. rewrite !split_text by assumption. rewrite L, Nat.eqb_refl. cbn [negb]. rewrite join_text. reflexivity. Qed.

(** ** Sections *)

Definition step (d : list (string * list string)) (r : list string) : list (string * list string) :=
  match dget d (section_of r) with
  | Some o => dset d (section_of r) (merged o r)
  | None => dset d (section_of r) r
  end.
Definition texts (d : list (string * list string)) : list (string * string) := map (fun p => (fst p, text (snd p))) d.

Lemma dget_texts d k : dget (texts d) k = option_map text (dget d k).
Proof. induction d as [|[a v] d IH]; cbn; [reflexivity|]. destruct (String.eqb a k); [reflexivity|exact IH]. Qed.
Lemma dset_texts d k r : dset (texts d) k (text r) = texts (dset d k r).
Proof. induction d as [|[a v] d IH]; cbn [texts map dset fst snd]; [reflexivity|]. destruct (String.eqb a k); cbn; [reflexivity|]. unfold texts in IH. now rewrite IH. Qed.

Definition good (w : nat) (d : list (string * list string)) : Prop :=
  NoDup (dkeys d) /\ forall k r, dget d k = Some r -> record r /\ length r = w /\ section_of r = k.
Lemma good_step w d r : good w d -> record r -> length r = w -> good w (step d r).
Proof.
  intros [N G] R L. unfold step. destruct (dget d (section_of r)) as [o|] eqn:E.
  - split; [apply dset_NoDup; exact N|]. intros k x Hx. destruct (string_dec (section_of r) k) as [<-|Ne].
    + rewrite dget_dset_same in Hx. injection Hx as <-. destruct (G _ _ E) as (Ro & Lo & So). split; [apply merged_record; congruence|].
      split; [rewrite merged_length; congruence|]. rewrite merged_section; [congruence|apply Ro|apply R|congruence].
    + rewrite dget_dset_other in Hx by congruence. apply G. exact Hx.
  - split; [apply dset_NoDup; exact N|]. intros k x Hx. destruct (string_dec (section_of r) k) as [<-|Ne].
    + rewrite dget_dset_same in Hx. injection Hx as <-. auto.
    + rewrite dget_dset_other in Hx by congruence. apply G. exact Hx.
Qed.

Lemma run_texts w rs : Forall record rs -> Forall (fun r => length r = w) rs -> forall d, good w d ->
  foldM (fun d reg => let key := hd "" (split_comma reg) in
            match dget d key with
            | Some old => do m <- merge old reg; Ok (dset d key m)
            | None => Ok (dset d key reg)
            end) (map text rs) (texts d) = Ok (texts (fold_left step rs d)) /\ good w (fold_left step rs d).
Proof.
  intros F L. induction rs as [|r rs IH]; intros d G; cbn [map foldM fold_left]; [split; [reflexivity|exact G]|].
  inversion F as [|? ? Fr Frs]; subst. inversion L as [|? ? Lr Lrs]; subst. assert (G' := good_step _ _ _ G Fr eq_refl).
  cbv zeta. rewrite split_text by exact Fr. change (hd "" r) with (section_of r). rewrite dget_texts.
  replace (match option_map text (dget d (section_of r)) with
           | Some old => do m <- merge old (text r); Ok (dset (texts d) (section_of r) m)
           | None => Ok (dset (texts d) (section_of r) (text r))
           end) with (Ok (texts (step d r))).
  - apply (IH Frs Lrs (step d r) G').
  - unfold step. destruct (dget d (section_of r)) as [o|] eqn:E; cbn [option_map].
    + destruct (proj2 G _ _ E) as (Ro & Lo & So). rewrite merge_text by congruence. cbn [bind]. now rewrite dset_texts.
    + now rewrite dset_texts.
Qed.

Definition of_section (s : string) (rs : list (list string)) := filter (fun r => String.eqb (section_of r) s) rs.
Lemma run_section rs s : forall d, dget (fold_left step rs d) s =
  match dget d s, of_section s rs with
  | Some o, l => Some (fold_left merged l o)
  | None, r :: l => Some (fold_left merged l r)
  | None, [] => None
  end.
Proof.
  induction rs as [|r rs IH]; intros d; cbn [fold_left of_section filter]; [destruct (dget d s); reflexivity|].
  rewrite IH. fold (of_section s rs). unfold step. destruct (String.eqb (section_of r) s) eqn:E.
  - apply String.eqb_eq in E. rewrite E. destruct (dget d s) as [o|]; rewrite dget_dset_same; reflexivity.
  - apply String.eqb_neq in E. destruct (dget d (section_of r)) as [o|]; rewrite dget_dset_other by congruence; reflexivity.
Qed.

Lemma fold_merged_nth i l : forall o x, nth_error o i = Some x -> (forall r, In r l -> length r = length o) ->
  nth_error (fold_left merged l o) i = Some (fold_left merge_field (map (fun r => nth i r "") l) x).
Proof.
  induction l as [|r l IH]; intros o x H L; cbn [fold_left map]; [exact H|].
  assert (Lr := L r (or_introl eq_refl)).
  apply IH.
  - apply merged_nth; [exact H|]. apply nth_error_nth'. rewrite Lr. apply nth_error_Some. congruence.
  - intros r' Hr'. rewrite merged_length by congruence. apply L. right. exact Hr'.
Qed.

(** ** Columns *)

Lemma zero_column v l : forall x, (forall y, In y (x :: l) -> y = "0" \/ y = v) -> In v (x :: l) -> fold_left merge_field l x = v.
Proof.
  induction l as [|y l IH]; intros x H Hv; cbn [fold_left]; [destruct Hv as [Hv|[]]; exact Hv|].
  assert (M : In (merge_field x y) (v :: "0" :: []) /\ (x = v \/ y = v -> merge_field x y = v)).
  { destruct (string_dec v "0") as [Z|Z].
    - assert (x = v /\ y = v) as [-> ->].
      { split; [destruct (H x (or_introl eq_refl))|destruct (H y (or_intror (or_introl eq_refl)))]; congruence. }
      unfold merge_field. rewrite String.eqb_refl. split; [left; reflexivity|reflexivity].
    - destruct (H x (or_introl eq_refl)) as [->| ->], (H y (or_intror (or_introl eq_refl))) as [->| ->]; unfold merge_field.
      + rewrite String.eqb_refl. split; [right; left; reflexivity|intuition congruence].
      + replace (String.eqb "0" v) with false by (symmetry; apply String.eqb_neq; congruence).
        change (smem "0" phase_combinations) with false. cbn [andb]. change (String.eqb "0" "0") with true. cbn [andb].
        replace (String.eqb v "0") with false by (symmetry; apply String.eqb_neq; congruence). cbn [negb]. split; [left; reflexivity|reflexivity].
      + replace (String.eqb v "0") with false by (symmetry; apply String.eqb_neq; congruence).
        change (smem "0" phase_combinations) with false. rewrite andb_false_r. change (String.eqb "0" "0") with true. cbn [andb negb]. split; [left; reflexivity|reflexivity].
      + rewrite String.eqb_refl. split; [left; reflexivity|reflexivity]. }
  destruct M as [M1 M2]. apply IH.
  - intros z [<-|Hz]; [destruct M1 as [<-|[<-|[]]]; auto|]. apply H. right. right. exact Hz.
  - destruct Hv as [Hv|[Hv|Hv]]; [left; apply M2; left; exact Hv|left; apply M2; right; exact Hv|right; exact Hv].
Qed.

Lemma phase_column l x : NoDup (x :: l) -> (forall y, In y (x :: l) -> In y ["A"; "B"; "C"]) ->
  forall c, count_char c (fold_left merge_field l x) = if in_dec string_dec (String c "") (x :: l) then 1 else 0.
Proof.
  intros N H c.
  assert (L : length (x :: l) <= 3) by (change 3 with (length ["A"; "B"; "C"]); apply NoDup_incl_length; [exact N|exact H]).
  assert (Q : forall y, In y ["A"; "B"; "C"] -> y = "A" \/ y = "B" \/ y = "C") by (cbn; intuition congruence).
  assert (E : forall s t, String.eqb s t = true -> s = t) by (intros s t; apply String.eqb_eq).
  assert (Fin : forall l0 : list string, fold_left merge_field (tl l0) (hd "" l0) = sort_chars (String.concat "" l0) ->
     (forall y, In y l0 -> In y ["A"; "B"; "C"]) -> NoDup l0 ->
     count_char c (fold_left merge_field (tl l0) (hd "" l0)) = if in_dec string_dec (String c "") l0 then 1 else 0).
  { intros l0 -> H0 N0. rewrite count_sort. clear - H0 N0 Q. induction l0 as [|y l0 IH]; [reflexivity|].
    inversion N0 as [|? ? Ny Nl]; subst.
    assert (C : count_char c (String.concat "" (y :: l0)) = count_char c y + count_char c (String.concat "" l0)).
    { destruct l0; [cbn; lia|]. change (String.concat "" (y :: s :: l0)) with (y ++ "" ++ String.concat "" (s :: l0))%string. rewrite count_app. reflexivity. }
    rewrite C, IH; [|intros z Hz; apply H0; right; exact Hz|exact Nl].
    assert (Cy : count_char c y = if string_dec (String c "") y then 1 else 0).
    { destruct (Q y (H0 y (or_introl eq_refl))) as [->|[->| ->]]; cbn [count_char];
        (match goal with |- context [Ascii.eqb c ?d] => destruct (Ascii.eqb_spec c d) as [->|Nc] end;
         [destruct (string_dec _ _); [reflexivity|congruence]|destruct (string_dec _ _) as [Z|]; [injection Z as ->; congruence|reflexivity]]). }
    rewrite Cy. destruct (in_dec string_dec (String c "") (y :: l0)) as [I|I]; destruct (string_dec (String c "") y) as [Ey|Ey]; destruct (in_dec string_dec (String c "") l0) as [J|J]; try reflexivity; exfalso.
    - apply Ny. rewrite <- Ey. exact J.
    - destruct I as [I|I]; [congruence|contradiction].
    - apply I. left. congruence.
    - apply I. left. congruence.
    - apply I. right. exact J. }
  apply (Fin (x :: l)); [|exact H|exact N]. cbn [hd tl]. clear Fin E.
  destruct (Q x (H x (or_introl eq_refl))) as [Ex|[Ex|Ex]]; subst x;
  (destruct l as [|y l]; [reflexivity|]; destruct (Q y (H y ltac:(cbn; auto))) as [Ey|[Ey|Ey]]; subst y;
   try (exfalso; inversion N as [|? ? NN _]; apply NN; left; reflexivity);
   (destruct l as [|z l]; [reflexivity|]; destruct (Q z (H z ltac:(cbn; auto))) as [Ez|[Ez|Ez]]; subst z;
    try (exfalso; inversion N as [|? ? NN N2]; apply NN; right; left; reflexivity);
    try (exfalso; inversion N as [|? ? NN N2]; inversion N2 as [|? ? N3 _]; apply N3; left; reflexivity);
    (destruct l as [|? l]; [reflexivity|cbn in L; lia]))).
Qed.

(** ** The whole function *)

Lemma merge_regulators_run w rs : Forall record rs -> Forall (fun r => length r = w) rs -> exists outs,
  merge_regulators (map text rs) = Ok (map text outs) /\ Forall record outs /\ Forall (fun r => length r = w) outs /\
  NoDup (map section_of outs) /\
  (forall s, In s (map section_of outs) <-> In s (map section_of rs)) /\
  forall o i, In o outs -> exists r l, of_section (section_of o) rs = r :: l /\
    forall x, nth_error r i = Some x -> nth_error o i = Some (fold_left merge_field (map (fun r => nth i r "") l) x).
Proof.
  intros F L. assert (G0 : good w []) by (split; [constructor|discriminate]).
  destruct (run_texts w rs F L [] G0) as [E [N G]]. set (d := fold_left step rs []) in *. exists (map snd d).
  assert (S : map section_of (map snd d) = dkeys d).
  { rewrite map_map. unfold dkeys. apply map_ext_in. intros [k r] Hp. cbn. exact (proj2 (proj2 (G k r (dget_NoDup _ _ _ N Hp)))). }
  assert (In_d : forall o, In o (map snd d) -> dget d (section_of o) = Some o).
  { intros o Ho. apply in_map_iff in Ho. destruct Ho as ([k r] & <- & Hp). cbn. assert (Z := dget_NoDup _ _ _ N Hp).
    rewrite (proj2 (proj2 (G _ _ Z))). exact Z. }
  split; [|split; [|split; [|split; [|split]]]].
  - unfold merge_regulators. change (@nil (string * string)) with (texts []). cbv zeta in E |- *. rewrite E. cbn [bind]. unfold texts. rewrite !map_map. reflexivity.
  - apply Forall_forall. intros o Ho. apply (G _ _ (In_d o Ho)).
  - apply Forall_forall. intros o Ho. apply (G _ _ (In_d o Ho)).
  - rewrite S. exact N.
  - intros s. rewrite S. assert (R := run_section rs s []). fold d in R. cbn [dget] in R. split.
    + intros Hs. destruct (dget d s) as [o|] eqn:Es; [|exfalso; apply dget_None in Es; contradiction].
      destruct (of_section s rs) as [|r l] eqn:Er; [discriminate|]. assert (Hr : In r (of_section s rs)) by (rewrite Er; left; reflexivity).
      apply filter_In in Hr. destruct Hr as [Hr Q]. apply String.eqb_eq in Q. rewrite <- Q. apply in_map. exact Hr.
    + intros Hs. apply in_map_iff in Hs. destruct Hs as (r & Q & Hr). assert (Hf : In r (of_section s rs)) by (apply filter_In; split; [exact Hr|apply String.eqb_eq; exact Q]).
      destruct (of_section s rs) as [|r' l]; [destruct Hf|]. exact (dget_Some_key _ _ _ R).
  - intros o i Ho. assert (R := run_section rs (section_of o) []). fold d in R. cbn [dget] in R. rewrite (In_d o Ho) in R.
    destruct (of_section (section_of o) rs) as [|r l] eqn:Er; [discriminate|]. exists r, l. split; [reflexivity|]. intros x Hx.
    injection R as R. rewrite R. apply fold_merged_nth; [exact Hx|]. intros r' Hr'.
    assert (A : forall z, In z (r :: l) -> length z = w).
    { intros z Hz. rewrite <- Er in Hz. apply filter_In in Hz. exact (proj1 (Forall_forall _ _) L z (proj1 Hz)). }
    rewrite (A r' (or_intror Hr')), (A r (or_introl eq_refl)). reflexivity.
Qed.

Theorem regulators w rs : Forall record rs -> Forall (fun r => length r = w) rs -> exists outs,
  merge_regulators (map text rs) = Ok (map text outs) /\ Forall record outs /\ Forall (fun r => length r = w) outs /\
  NoDup (map section_of outs) /\
  (forall s, In s (map section_of outs) <-> In s (map section_of rs)) /\
  (forall o i v, In o outs -> (forall x, column rs (section_of o) i x -> x = "0" \/ x = v) -> column rs (section_of o) i v -> nth_error o i = Some v) /\
  (forall o i, In o outs -> i < w -> NoDup (map (fun r => nth i r "") (filter (fun r => String.eqb (section_of r) (section_of o)) rs)) ->
     (forall x, column rs (section_of o) i x -> In x ["A"; "B"; "C"]) ->
     exists f, nth_error o i = Some f /\
       forall c, (column rs (section_of o) i (String c "") -> count_char c f = 1) /\ (~ column rs (section_of o) i (String c "") -> count_char c f = 0)).
Proof.
  intros F L. destruct (merge_regulators_run w rs F L) as (outs & E & Fo & Lo & N & S & C). exists outs.
  split; [exact E|]. split; [exact Fo|]. split; [exact Lo|]. split; [exact N|]. split; [exact S|].
  assert (Col : forall s i x, i < w -> column rs s i x <-> In x (map (fun r => nth i r "") (of_section s rs))).
  { intros s i x Hi. split.
    - intros (r & Hr & Hs & Hx). apply in_map_iff. exists r. split; [apply nth_error_nth with (d := "") in Hx; exact Hx|].
      apply filter_In. split; [exact Hr|apply String.eqb_eq; exact Hs].
    - intros Hx. apply in_map_iff in Hx. destruct Hx as (r & Hx & Hr). apply filter_In in Hr. destruct Hr as [Hr Hs]. apply String.eqb_eq in Hs.
      exists r. split; [exact Hr|]. split; [exact Hs|]. rewrite <- Hx. apply nth_error_nth'. rewrite (proj1 (Forall_forall _ _) L r Hr). exact Hi. }
  split.
  - intros o i v Ho Hz Hv. assert (Hi : i < w).
    { destruct Hv as (r & Hr & _ & Hx). rewrite <- (proj1 (Forall_forall _ _) L r Hr). apply nth_error_Some. congruence. }
    destruct (C o i Ho) as (r & l & Er & Hn). assert (Hr : In r rs) by (apply (filter_In (fun r => String.eqb (section_of r) (section_of o))); fold (of_section (section_of o) rs); rewrite Er; left; reflexivity).
    assert (Ex : nth_error r i = Some (nth i r "")) by (apply nth_error_nth'; rewrite (proj1 (Forall_forall _ _) L r Hr); exact Hi).
    rewrite (Hn _ Ex). f_equal. apply zero_column.
    + intros y Hy. apply Hz. apply (Col _ _ _ Hi). rewrite Er. exact Hy.
    + apply (Col _ _ _ Hi) in Hv. rewrite Er in Hv. exact Hv.
  - intros o i Ho Hi Nd Hp. destruct (C o i Ho) as (r & l & Er & Hn).
    assert (Hr : In r rs) by (apply (filter_In (fun r => String.eqb (section_of r) (section_of o))); fold (of_section (section_of o) rs); rewrite Er; left; reflexivity).
    assert (Ex : nth_error r i = Some (nth i r "")) by (apply nth_error_nth'; rewrite (proj1 (Forall_forall _ _) L r Hr); exact Hi).
    eexists. split; [exact (Hn _ Ex)|]. fold (of_section (section_of o) rs) in Nd. rewrite Er in Nd. cbn [map] in Nd.
    assert (Q : forall y, In y (nth i r "" :: map (fun r => nth i r "") l) -> In y ["A"; "B"; "C"]).
    { intros y Hy. apply Hp. apply (Col _ _ _ Hi). rewrite Er. exact Hy. }
    intros c. rewrite (phase_column _ _ Nd Q). rewrite (Col _ _ _ Hi), Er. cbn [map].
    destruct (in_dec string_dec (String c "") _) as [I|I]; split; intros X; try reflexivity; contradiction.
Qed.
