From Coq Require Import List String Ascii Bool Arith QArith Lia.
From Verif Require Import Base BaseFacts CsvModel CsvSpec CsvProofs CymeParseProofs HeadModel HeadSpec.
Import ListNotations.
Local Open Scope string_scope.
Local Open Scope nat_scope.
Local Open Scope list_scope.

Lemma prefix_spec sub s : (String.prefix sub s = true <-> exists r, s = (sub ++ r)%string).
Proof.
  revert s. induction sub as [|a sub IH]; intros s; [split; [intros _; now exists s|intros _; destruct s; reflexivity]|].
  destruct s as [|b s]; cbn; [split; [discriminate|intros [r H]; discriminate]|]. destruct (ascii_dec a b) as [->|N].
  - rewrite IH. split; intros [r H]; exists r; congruence.
  - split; [discriminate|]. intros [r H]. congruence.
Qed.
Lemma remove_skip sub a s : remove_from sub (String.length a) (a ++ s) = remove_from sub 0 s.
Proof. induction a as [|c a IH]; [reflexivity|]. cbn. exact IH. Qed.
Lemma remove_spec sub s : sub <> "" -> removed sub s (remove sub s).
Proof.
  intros NE. unfold remove. remember (String.length s) as n eqn:E. revert s E. induction n as [n IH] using lt_wf_ind. intros s ->. destruct s as [|c t]; [constructor|].
  assert (LA : forall a b, String.length (a ++ b) = String.length a + String.length b) by (induction a; cbn; intros; [reflexivity|f_equal; auto]).
  cbn [remove_from]. destruct (String.prefix sub (String c t)) eqn:P.
  - apply prefix_spec in P. destruct P as [r P]. destruct sub as [|x sub]; [congruence|]. cbn in P. injection P as -> ->. cbn [String.length]. replace (S (String.length sub) - 1) with (String.length sub) by lia. rewrite remove_skip.
    change (String x (sub ++ r)) with (String x sub ++ r)%string. constructor. apply (IH (String.length r)); [|reflexivity]. cbn. rewrite LA. lia.
  - constructor; [intros r H; assert (X : String.prefix sub (String c t) = true) by (apply prefix_spec; now exists r); congruence|]. apply (IH (String.length t)); [cbn; lia|reflexivity].
Qed.
Lemma removed_inv sub s t : removed sub s t -> (s = "" /\ t = "") \/ (exists r, s = (sub ++ r)%string /\ removed sub r t) \/
  (exists c r u, s = String c r /\ t = String c u /\ (forall r', s <> (sub ++ r')%string) /\ removed sub r u).
Proof. intros [|r u H|c r u N H]; [now left|right; left; now exists r|right; right; exists c, r, u; now repeat split]. Qed.
Lemma removed_fun sub s t t' : sub <> "" -> removed sub s t -> removed sub s t' -> t = t'.
Proof.
  intros NE H. assert (NS : forall r, (sub ++ r)%string <> "") by (intros r; destruct sub; [congruence|discriminate]).
  revert t'. induction H as [|s t H IH|c s t N H IH]; intros t' H'; apply removed_inv in H'; destruct H' as [[E ->]|[(r & E & H')|(c0 & r & u & E & -> & N' & H')]]; try reflexivity; try (symmetry in E; now apply NS in E); try (now apply NS in E); try discriminate E.
  - apply IH. assert (r = s); [|now subst]. clear - E. induction sub; cbn in E; [congruence|]. injection E. auto.
  - exfalso. now apply (N' s).
  - exfalso. now apply (N r).
  - injection E as <- <-. f_equal. now apply IH.
Qed.
Lemma clean_spec n : plain_name n (clean_name n).
Proof. exists (remove "." n). split; apply remove_spec; discriminate. Qed.
Lemma plain_fun n c c' : plain_name n c -> plain_name n c' -> c = c'.
Proof. intros (a & A1 & A2) (b & B1 & B2). assert (a = b) by (apply (removed_fun "." n); [discriminate|exact A1|exact B1]). subst b. apply (removed_fun "_src" (lower a)); [discriminate|exact A2|exact B2]. Qed.

Lemma sassoc a b c : ((a ++ b) ++ c = a ++ b ++ c)%string.
Proof. induction a; cbn; [reflexivity|now f_equal]. Qed.
Lemma snil a : (a ++ "" = a)%string.
Proof. induction a; cbn; [reflexivity|now f_equal]. Qed.
Lemma lstrip_spec s : exists a, s = (a ++ lstrip_x s)%string /\ all_x a /\ forall t, lstrip_x s <> String "x" t.
Proof.
  induction s as [|c s (a & E & A & N)]; [exists ""; repeat split; [constructor|intros; discriminate]|].
  destruct (ascii_dec c "x") as [->|NC].
  - exists (String "x" a). cbn. split; [f_equal; exact E|]. split; [now constructor|exact N].
  - assert (X : lstrip_x (String c s) = String c s). { clear - NC. cbn. destruct c as [[] [] [] [] [] [] [] []]; try reflexivity. now destruct NC. }
    rewrite X. exists "". split; [reflexivity|]. split; [constructor|]. intros t H. congruence.
Qed.
Lemma rstrip_spec s : exists b, s = (rstrip_x s ++ b)%string /\ all_x b /\ forall t, rstrip_x s <> (t ++ "x")%string.
Proof.
  induction s as [|c s (b & E & A & N)]; [exists ""; repeat split; [constructor|intros [|]; discriminate]|].
  cbn [rstrip_x]. destruct (rstrip_x s) as [|d r] eqn:R.
  - cbn in E. subst s. destruct (Ascii.eqb_spec c "x") as [->|NC].
    + exists (String "x" b). split; [reflexivity|]. split; [now constructor|]. intros [|? ?]; discriminate.
    + exists b. split; [reflexivity|]. split; [exact A|]. intros [|? [|? ?]]; cbn; congruence.
  - exists b. split; [cbn; f_equal; exact E|]. split; [exact A|]. intros [|y t] H; cbn in H; [injection H as -> H; discriminate H|]. injection H as -> H. eapply N. exact H.
Qed.
Lemma strip_trimmed s : trimmed s (strip_x s).
Proof.
  destruct (lstrip_spec s) as (a & E & A & N). destruct (rstrip_spec (lstrip_x s)) as (b & E' & A' & N'). exists a, b. unfold strip_x. split; [rewrite <- E'; exact E|]. repeat split; try assumption.
  intros t H. destruct (lstrip_x s) as [|c u] eqn:EL; [discriminate H|]. rewrite E' in N. rewrite H in N. eapply N. reflexivity.
Qed.
Lemma all_x_head a c : all_x (String a c) -> a = "x"%char /\ all_x c.
Proof. inversion 1; subst; now split. Qed.
Lemma all_x_last a : all_x a -> a = "" \/ exists t, a = (t ++ "x")%string /\ all_x t.
Proof. induction 1 as [|s H [->|(t & -> & IH)]]; [now left|right; now exists ""|right; exists (String "x" t); split; [reflexivity|now constructor]]. Qed.
Lemma snoc_inj a b c e : (a ++ String c "")%string = (b ++ String e "")%string -> a = b /\ c = e.
Proof.
  revert b. induction a as [|x a IH]; intros [|y b] H; cbn in H.
  - injection H as <-. now split.
  - injection H as _ H. destruct b; discriminate.
  - injection H as _ H. destruct a; discriminate.
  - injection H as -> H. apply IH in H. destruct H as [-> ->]. now split.
Qed.
Lemma slast s : s = "" \/ exists t c, s = (t ++ String c "")%string.
Proof. induction s as [|a s [->|(t & c & ->)]]; [now left|right; now exists "", a|right; now exists (String a t), c]. Qed.
Lemma trimmed_fun h c c' : trimmed h c -> trimmed h c' -> c = c'.
Proof.
  intros (a & b & -> & A & B & N1 & N2) (a' & b' & E & A' & B' & N1' & N2').
  destruct (slast c) as [->|(t & z & EC)].
  - cbn in E. assert (X : all_x (a ++ b)) by (clear -A B; induction A; cbn; [exact B|now constructor]). destruct c' as [|y c']; [reflexivity|]. exfalso. rewrite E in X. clear -X A' N1'.
    induction A'; cbn in X; [|apply all_x_head in X; now apply IHA']. apply all_x_head in X. destruct X as [-> _]. now apply (N1' c').
  - (* the front *)
    assert (F : (c ++ b = c' ++ b')%string).
    { clear N2 N2'. revert a' E A'. induction A as [|a A IH]; intros a' E A'.
      - destruct A' as [|a' A']; [exact E|]. cbn in E. destruct c as [|x c]; [destruct t; discriminate|]. cbn in E. injection E as -> _. exfalso. now apply (N1 c).
      - destruct A' as [|a' A']; [|cbn in E; injection E as E; now apply (IH a')]. cbn in E. destruct c' as [|x c'].
        + exfalso. cbn in E. assert (X : all_x (String "x" (a ++ c ++ b))) by (rewrite E; exact B'). apply all_x_head in X. destruct X as [_ X]. clear - X A N1 EC. induction A; cbn in X; [|apply all_x_head in X; now apply IHA].
          destruct c as [|y c]; [destruct t; discriminate|]. cbn in X. apply all_x_head in X. destruct X as [-> _]. now apply (N1 c).
        + cbn in E. injection E as <- _. exfalso. now apply (N1' c'). }
    clear E a a' A A'. assert (Z : z <> "x"%char) by (intros ->; now apply (N2 t)).
    assert (KEY : forall u v, all_x v -> forall w, all_x w -> forall c2, (u ++ String z "" ++ v)%string = (c2 ++ w)%string -> (forall t, c2 <> (t ++ "x")%string) -> (u ++ String z "")%string = c2).
    { clear - Z. intros u v V. remember (String.length v) as k eqn:K. revert u v K V. induction k as [|k IH]; intros u v K V w W c2 E N.
      - destruct v; [|discriminate]. destruct (all_x_last w W) as [->|(w' & -> & W')]; [rewrite !snil in E; exact E|].
        exfalso. rewrite snil in E. rewrite <- sassoc in E. change "x" with (String "x" "") in E. apply snoc_inj in E. now destruct E.
      - destruct (all_x_last v V) as [->|(v' & -> & V')]; [discriminate|]. destruct (all_x_last w W) as [->|(w' & -> & W')].
        + exfalso. rewrite snil in E. apply (N (u ++ String z "" ++ v')%string). rewrite <- E. rewrite !sassoc. reflexivity.
        + apply (IH u v') with (w := w'); try assumption.
          * assert (LA : forall a b, String.length (a ++ b) = String.length a + String.length b) by (induction a; cbn; intros; [reflexivity|f_equal; auto]). rewrite LA in K. cbn in K. lia.
          * assert (E' : ((u ++ String z "" ++ v') ++ String "x" "")%string = ((c2 ++ w') ++ String "x" "")%string) by (rewrite !sassoc in *; exact E). apply snoc_inj in E'. now destruct E'. }
    subst c. apply (KEY t b B b' B'); [rewrite <- sassoc; exact F|exact N2'].
Qed.
Lemma strip_iff x c : strip_x x = c <-> trimmed x c.
Proof. split; [intros <-; apply strip_trimmed|]. intros H. eapply trimmed_fun; [apply strip_trimmed|exact H]. Qed.

Lemma substr_free c s : substr_in (String c "") s = false <-> free c s.
Proof.
  split; [|apply substr_char]. induction s as [|a s IH]; cbn [substr_in]; intros H; [exact I|]. cbn in H. destruct (ascii_dec c a) as [->|N]; [destruct s; discriminate H|].
  split; [congruence|now apply IH].
Qed.

Lemma split_parts c s : Forall (free c) (split_on c s) /\ String.concat (String c "") (split_on c s) = s.
Proof.
  induction s as [|a s [IH1 IH2]]; cbn [split_on]; [split; [now repeat constructor|reflexivity]|]. destruct (Ascii.eqb_spec a c) as [->|N].
  - split; [constructor; [exact I|exact IH1]|]. destruct (split_on c s) as [|x xs] eqn:E; [now apply split_nonnil in E|]. change (String.concat (String c "") ("" :: x :: xs)) with (String c (String.concat (String c "") (x :: xs))). now rewrite IH2.
  - destruct (split_on c s) as [|x xs] eqn:E; [now apply split_nonnil in E|]. pose proof (Forall_inv IH1). apply Forall_inv_tail in IH1. split; [constructor; [now split|assumption]|]. destruct xs; cbn in IH2 |- *; congruence.
Qed.
Lemma turned_iff h r : reverse_name h = Ok r <-> turned h r.
Proof.
  unfold reverse_name. destruct (substr_in ">" h) eqn:S.
  - assert (NF : ~ free ">" h) by (intros F; apply substr_free in F; congruence). destruct (split_parts ">" h) as [F C]. split.
    + destruct (split_on ">" h) as [|a [|b [|]]] eqn:E; try discriminate. intros H. injection H as <-. right. exists a, b. inversion F as [|? ? F1 F2]; subst. inversion F2; subst. repeat split; try assumption.
    + intros [[F' _]|(a & b & FA & FB & -> & ->)]; [tauto|]. change (">" ++ b)%string with (String ">" b). rewrite split_snoc, split_free by assumption. reflexivity.
  - assert (F : free ">" h) by now apply substr_free. split; [intros H; injection H as <-; now left|]. intros [[_ ->]|(a & b & FA & FB & -> & ->)]; [reflexivity|]. exfalso. clear - F. induction a; cbn in F; [now destruct F|now apply IHa].
Qed.
Lemma index_spec l x : match index_of l x with
  | Some i => nth_error l i = Some x /\ Forall (fun y => y <> x) (firstn i l)
  | None => Forall (fun y => y <> x) l
  end.
Proof.
  induction l as [|y l IH]; cbn; [constructor|]. destruct (String.eqb_spec y x) as [->|N]; [split; [reflexivity|constructor]|].
  destruct (index_of l x) as [i|]; [destruct IH as [A B]; split; [exact A|cbn; now constructor]|now constructor].
Qed.
Lemma first_of {A} (P : A -> Prop) (l : list A) i h : nth_error l i = Some h -> P h -> Forall (fun x => ~ P x) (firstn i l) -> exists b a, l = b ++ h :: a /\ P h /\ Forall (fun x => ~ P x) b.
Proof.
  intros E H F. exists (firstn i l), (skipn (S i) l). split; [|now split]. clear - E. revert i E. induction l as [|x l IH]; intros [|i] E; try discriminate; [injection E as ->; reflexivity|]. cbn [firstn skipn app]. f_equal. now apply IH.
Qed.
Lemma mapM_all {A B} (f : A -> res B) l : (forall x, In x l -> exists y, f x = Ok y) -> exists r, mapM f l = Ok r /\ Forall2 (fun x y => f x = Ok y) l r.
Proof.
  induction l as [|x l IH]; intros H; [exists []; now split|]. destruct (H x (or_introl eq_refl)) as [y E]. destruct IH as (r & Er & F); [intros z Z; apply H; now right|]. exists (y :: r). cbn. rewrite E, Er. split; [reflexivity|now constructor].
Qed.
Lemma Forall2_nth {A B} (P : A -> B -> Prop) l r i y : Forall2 P l r -> nth_error r i = Some y -> exists x, nth_error l i = Some x /\ P x y.
Proof. intros F. revert i. induction F; intros [|i] E; try discriminate; cbn in *; [injection E as ->; eauto|now apply IHF]. Qed.
Lemma Forall2_firstn {A B} (P : A -> B -> Prop) l r i : Forall2 P l r -> Forall2 P (firstn i l) (firstn i r).
Proof. intros F. revert i. induction F; intros [|i]; cbn; constructor; auto. Qed.

Section Heads.
Variable successors : string -> option (list string).
Variable voltage_of : string -> res (option Q).
(** The function can do its work on a feeder. *)
Definition ready (f : meta) : Prop := exists n sub heads, f_name f = Some n /\ f_sub f = Some sub /\ successors sub = Some heads /\
  (forall h t, In h heads -> trimmed h t -> exists r, turned t r) /\ forall h, In h heads -> exists v, voltage_of h = Ok v.
Lemma head_ok f : ready f -> exists f', set_head successors voltage_of f = Ok f' /\ headed successors voltage_of f f'.
Proof.
  intros (n & sub & heads & EN & ES & EH & RT & RV). unfold set_head. rewrite EN, ES. cbn [of_opt bind]. rewrite EH. cbn [of_opt bind]. cbv zeta.
  pose proof (clean_spec n) as CN. set (c := clean_name n) in *. clearbody c.
  destruct (smem c heads) eqn:M.
  - eexists. split; [reflexivity|]. exists n, c, sub, heads. do 4 (split; [assumption|]). do 2 (split; [now rewrite ?EN, ?ES|]). left. apply smem_In in M. now repeat split.
  - assert (NI : ~ In c heads) by (now apply smem_not_In). pose proof (index_spec (map strip_x heads) c) as X. destruct (index_of (map strip_x heads) c) as [i|] eqn:IX.
    + destruct X as [X1 X2]. rewrite nth_error_map in X1. destruct (nth_error heads i) as [h|] eqn:NH; [|discriminate]. cbn in X1. injection X1 as X1. cbn [of_opt bind]. eexists. split; [reflexivity|].
      exists n, c, sub, heads. do 4 (split; [assumption|]). do 2 (split; [now rewrite ?EN, ?ES|]). right. split; [exact NI|]. left. exists h. split; [|now repeat split].
      apply (first_of (fun x => trimmed x c) heads i h NH); [now apply strip_iff|]. rewrite firstn_map in X2. apply (proj1 (Forall_map strip_x (fun y => y <> c) _)) in X2. eapply Forall_impl; [|exact X2]. cbn. intros x H T. apply H. now apply strip_iff.
    + apply (proj1 (Forall_map strip_x (fun y => y <> c) _)) in X. assert (NT : Forall (fun x => ~ trimmed x c) heads) by (eapply Forall_impl; [|exact X]; cbn; intros x H T; apply H; now apply strip_iff).
      destruct (mapM_all reverse_name (map strip_x heads)) as (rev & ER & FR). { intros t T. apply in_map_iff in T. destruct T as (h & <- & IH). destruct (RT h (strip_x h) IH (strip_trimmed h)) as [r R]. exists r. now apply turned_iff. }
      rewrite ER. cbn [bind]. assert (FH : Forall2 (fun h r => turned (strip_x h) r) heads rev).
      { clear - FR. remember (map strip_x heads) as l eqn:E. revert heads E. induction FR as [|t r l rev H FR IH]; intros [|h heads] E; try discriminate; constructor; cbn in E; injection E as -> E; [now apply turned_iff|now apply IH]. }
      assert (KEY : forall h r, turned (strip_x h) r -> (r = c <-> exists t, trimmed h t /\ turned t c)).
      { intros h r T. split; [intros ->; exists (strip_x h); split; [apply strip_trimmed|exact T]|]. intros (t & T1 & T2). apply strip_iff in T1. subst t. apply turned_iff in T. apply turned_iff in T2. congruence. }
      pose proof (index_spec rev c) as Y. destruct (index_of rev c) as [i|] eqn:IY.
      * destruct Y as [Y1 Y2]. destruct (Forall2_nth _ _ _ _ _ FH Y1) as (h & NH & TH). rewrite NH. cbn [of_opt bind]. destruct (RV h) as [v EV]; [eapply nth_error_In; exact NH|]. rewrite EV. cbn [bind]. eexists. split; [reflexivity|].
        exists n, c, sub, heads. do 4 (split; [assumption|]). do 2 (split; [now rewrite ?EN, ?ES|]). right. split; [exact NI|]. right. split; [exact NT|]. left. exists h, v. split; [|now repeat split].
        apply (first_of (fun x => exists t, trimmed x t /\ turned t c) heads i h NH); [now apply (KEY h c TH)|]. pose proof (Forall2_firstn _ _ _ i FH) as FI. clear - FI Y2 KEY.
        induction FI as [|x y l r T FI IH]; [constructor|]. inversion Y2; subst. constructor; [|now apply IH]. intros H. apply (KEY x y T) in H. contradiction.
      * eexists. split; [reflexivity|]. exists n, c, sub, heads. do 4 (split; [assumption|]). do 2 (split; [reflexivity|]). right. split; [exact NI|]. right. split; [exact NT|]. right. split; [|reflexivity].
        clear - FH Y KEY. induction FH as [|x y l r T FH IH]; [constructor|]. inversion Y; subst. constructor; [|now apply IH]. intros H. apply (KEY x y T) in H. contradiction.
Qed.
End Heads.
