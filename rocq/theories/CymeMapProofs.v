(** Proofs about the CYME code tables. *)
From Coq Require Import QArith Reals Lra.
From Verif Require Import Base BaseFacts NetworkModel CymeMapModel CymeMapSpec.
Local Close Scope Q_scope.
Local Open Scope string_scope.
Local Open Scope list_scope.

(** ** Phases *)

Lemma z_codes z : (0 <= z <= 7)%Z -> z = 0%Z \/ z = 1%Z \/ z = 2%Z \/ z = 3%Z \/ z = 4%Z \/ z = 5%Z \/ z = 6%Z \/ z = 7%Z.
Proof. lia. Qed.
Lemma phase_mapping_outside z : ~ (0 <= z <= 7)%Z -> phase_mapping (VInt z) = Err EType.
Proof.
  intros H. unfold phase_mapping, is_num.
  repeat match goal with |- context [Z.eqb z ?n] => destruct (Z.eqb_spec z n); [exfalso; lia|] end. reflexivity.
Qed.
Lemma phase_mapping_ok_range z l : phase_mapping (VInt z) = Ok l -> (0 <= z <= 7)%Z.
Proof.
  intros H. destruct (Z_le_dec 0 z); [destruct (Z_le_dec z 7); [lia|]|]; rewrite phase_mapping_outside in H by lia; discriminate.
Qed.
Lemma phase_mapping_inj z z' l : phase_mapping (VInt z) = Ok l -> phase_mapping (VInt z') = Ok l -> z = z'.
Proof.
  intros H H'. assert (R := z_codes _ (phase_mapping_ok_range _ _ H)). assert (R' := z_codes _ (phase_mapping_ok_range _ _ H')).
  destruct R as [->|[->|[->|[->|[->|[->|[->| ->]]]]]]]; cbn in H; injection H as <-;
  destruct R' as [->|[->|[->|[->|[->|[->|[->| ->]]]]]]]; cbn in H'; try discriminate H'; reflexivity.
Qed.
Lemma chars_concat s : String.concat "" (chars s) = s.
Proof.
  induction s as [|c t IH]; [reflexivity|]. cbn [chars]. destruct t as [|d t]; [reflexivity|].
  cbn [chars] in *. change ((String c EmptyString ++ "" ++ String.concat "" (String d EmptyString :: chars t))%string = String c (String d t)).
  rewrite IH. reflexivity.
Qed.
Lemma chars_single s : Forall (fun x => String.length x = 1) (chars s).
Proof. induction s; constructor; auto. Qed.

(** ** Strings *)

Local Close Scope list_scope.

Lemma append_nil_r s : s ++ "" = s.
Proof. induction s as [|c s IH]; cbn; [reflexivity|]. now rewrite IH. Qed.
Lemma append_assoc a b c : (a ++ b) ++ c = a ++ (b ++ c).
Proof. induction a as [|x a IH]; cbn; [reflexivity|]. now rewrite IH. Qed.
Lemma prefix_spec h s : String.prefix h s = true <-> exists b, s = h ++ b.
Proof.
  revert s. induction h as [|c h IH]; intros s; cbn [String.prefix String.append].
  - split; [intros _; exists s; reflexivity|intros _; destruct s; reflexivity].
  - destruct s as [|d s]; [split; [discriminate|intros [b E]; discriminate]|].
    cbn [String.prefix]. destruct (ascii_dec c d) as [->|N].
    + split; [intros P; apply IH in P|intros P; apply IH]; destruct P as [b E]; exists b; [now rewrite E|now injection E].
    + split; [discriminate|]. intros [b E]. injection E as E _. congruence.
Qed.
Lemma substr_in_spec h s : substr_in h s = true <-> occurs h s.
Proof.
  unfold occurs. induction s as [|c s IH].
  - cbn [substr_in]. destruct (String.prefix h "") eqn:P.
    + apply prefix_spec in P. destruct P as [b P]. split; [intros _; exists "", b; exact P|reflexivity].
    + split; [discriminate|]. intros (a & b & E). exfalso. destruct a; [|discriminate]. cbn in E.
      assert (String.prefix h "" = true) by (apply prefix_spec; exists b; exact E). congruence.
  - cbn [substr_in]. destruct (String.prefix h (String c s)) eqn:P.
    + apply prefix_spec in P. destruct P as [b P]. split; [intros _; exists "", b; exact P|reflexivity].
    + rewrite IH. split; intros (a & b & E).
      * exists (String c a), b. cbn. now rewrite E.
      * destruct a as [|x a]; cbn in E.
        { exfalso. assert (String.prefix h (String c s) = true) by (apply prefix_spec; exists b; exact E). congruence. }
        injection E as -> E. exists a, b. exact E.
Qed.

Local Open Scope list_scope.

(** ** Headers *)

Lemma dget_update m upd k value : dget m k = Some value ->
  dget (update_header_mapping m upd) k =
    Some (match dget upd k with
          | Some h => if existsb (header_eqb h) value then [HList value] else [h]
          | None => [HList value]
          end).
Proof.
  induction m as [|[k' v] m IH]; cbn [dget update_header_mapping map]; [discriminate|]. destruct (String.eqb k' k) eqn:E.
  - intros H. injection H as ->. apply String.eqb_eq in E. subst k'.
    destruct (dget upd k) as [h|]; [destruct (existsb (header_eqb h) value)|]; cbn [dget]; rewrite String.eqb_refl; reflexivity.
  - intros H. destruct (dget upd k') as [h|]; [destruct (existsb (header_eqb h) v)|]; cbn [dget]; rewrite E; apply IH; exact H.
Qed.
Lemma not_listed h value : ~ In (HStr h) value -> existsb (header_eqb (HStr h)) value = false.
Proof.
  intros N. destruct (existsb _ _) eqn:E; [|reflexivity]. exfalso. apply existsb_exists in E. destruct E as (x & Hx & E).
  destruct x as [s|l]; cbn in E; [|discriminate]. apply String.eqb_eq in E. subst. contradiction.
Qed.
Lemma listed h value : In (HStr h) value -> existsb (header_eqb (HStr h)) value = true.
Proof. intros N. apply existsb_exists. exists (HStr h). split; [exact N|]. cbn. apply String.eqb_refl. Qed.

(** ** Panel dimensions *)

Definition prod (l : list Z) : Z := fold_right Z.mul 1%Z l.
Lemma prod_cons x l : prod (x :: l) = (x * prod l)%Z.
Proof. reflexivity. Qed.
Lemma prod_nil : prod [] = 1%Z.
Proof. reflexivity. Qed.
Lemma prod_app l l' : prod (l ++ l') = (prod l * prod l')%Z.
Proof. induction l as [|x l IH]; cbn [app]; [rewrite prod_nil; ring|]. rewrite !prod_cons, IH. ring. Qed.
Lemma prod_rev l : prod (rev l) = prod l.
Proof. induction l as [|x l IH]; [reflexivity|]. cbn [rev]. rewrite prod_app, IH, !prod_cons, prod_nil. ring. Qed.

Lemma factor_loop_prod fuel : forall i n acc fs, factor_loop fuel i n acc = Ok fs -> (2 <= i)%Z -> (1 <= n)%Z ->
  (forall f, In f acc -> (2 <= f)%Z) ->
  prod fs = (prod acc * n)%Z /\ forall f, In f fs -> (2 <= f)%Z.
Proof.
  induction fuel as [|k IH]; intros i n acc fs; cbn [factor_loop]; [discriminate|].
  destruct (Z.leb_spec (i * i) n) as [L|L].
  - destruct (Z.eqb_spec (n mod i) 0) as [M|M]; cbn [negb]; intros E Hi Hn Ha.
    + assert (D : n = (i * (n / i))%Z) by (apply Z.div_exact; lia).
      destruct (IH i (n / i)%Z (acc ++ [i]) fs E) as [P F].
      * exact Hi.
      * nia.
      * intros f Hf. apply in_app_iff in Hf. destruct Hf as [Hf|[<-|[]]]; [apply Ha; exact Hf|exact Hi].
      * split; [|exact F]. rewrite P, prod_app. rewrite ?prod_cons, ?prod_nil. rewrite D at 2. ring.
    + apply (IH (i + 1)%Z n acc fs E); [lia|exact Hn|exact Ha].
  - intros E Hi Hn Ha. destruct (Z.ltb_spec 1 n) as [N|N].
    + injection E as <-. split; [rewrite prod_app; rewrite ?prod_cons, ?prod_nil; ring|].
      intros f Hf. apply in_app_iff in Hf. destruct Hf as [Hf|[<-|[]]]; [apply Ha; exact Hf|lia].
    + injection E as <-. split; [replace n with 1%Z by lia; ring|exact Ha].
Qed.
Lemma factor_loop_total fuel : forall i n acc, (2 <= i)%Z -> (Z.to_nat (n - i) < fuel)%nat -> exists fs, factor_loop fuel i n acc = Ok fs.
Proof.
  induction fuel as [|k IH]; intros i n acc Hi Hf; [lia|]. cbn [factor_loop].
  destruct (Z.leb_spec (i * i) n) as [L|L]; [|eexists; reflexivity].
  destruct (Z.eqb_spec (n mod i) 0) as [M|M]; cbn [negb].
  - apply IH; [exact Hi|]. assert (D : n = (i * (n / i))%Z) by (apply Z.div_exact; lia). assert (n / i < n)%Z by nia. nia.
  - apply IH; [lia|]. nia.
Qed.

Lemma greedy_divides fs : forall n r b, exists q, (r * prod fs)%Z = (greedy fs n r b * q)%Z /\ ((1 <= r)%Z -> (forall f, In f fs -> (2 <= f)%Z) -> (1 <= q)%Z /\ (1 <= greedy fs n r b)%Z).
Proof.
  induction fs as [|f t IH]; intros n r b; cbn [greedy].
  - exists 1%Z. rewrite ?prod_cons, ?prod_nil. split; [ring|intros; lia].
  - destruct (match b with Some b0 => _ | None => false end).
    + exists (prod (f :: t)). split; [reflexivity|]. intros Hr Hf. split; [|exact Hr].
      clear - Hf. induction (f :: t) as [|x l IHl]; [cbn; lia|]. rewrite ?prod_cons, ?prod_nil.
      assert (1 <= prod l)%Z by (apply IHl; intros y Hy; apply Hf; right; exact Hy). specialize (Hf x (or_introl eq_refl)). nia.
    + match goal with |- context [greedy t n (r * f)%Z ?b'] => destruct (IH n (r * f)%Z b') as (q & E & P) end.
      exists q. split; [rewrite <- E; rewrite ?prod_cons, ?prod_nil; ring|].
      intros Hr Hf. apply P; [|intros g Hg; apply Hf; right; exact Hg]. specialize (Hf f (or_introl eq_refl)). nia.
Qed.

Lemma smallest_perimeter_factors n : (1 <= n)%Z -> exists a b, smallest_perimeter n = Ok (inject_Z a, (inject_Z n / inject_Z a)%Q) /\
  (1 <= a)%Z /\ (1 <= b)%Z /\ (a * b = n)%Z /\ (inject_Z n / inject_Z a == inject_Z b)%Q.
Proof.
  intros Hn. unfold smallest_perimeter. destruct (factor_loop_total (Z.to_nat n + 2) 2 n []) as [fs E]; [lia|lia|]. rewrite E. cbn [bind].
  destruct (factor_loop_prod _ _ _ _ _ E) as [P F]; [lia|exact Hn|intros f []|]. rewrite ?prod_cons, ?prod_nil in P.
  destruct (greedy_divides (rev (tl fs)) n 1 None) as (q & Q & B).
  assert (Ft : forall f, In f (rev (tl fs)) -> (2 <= f)%Z).
  { intros f Hf. apply in_rev in Hf. apply F. destruct fs as [|x l]; [destruct Hf|right; exact Hf]. }
  destruct (B ltac:(lia) Ft) as [Bq Bg]. rewrite prod_rev in Q.
  set (g := greedy (rev (tl fs)) n 1 None) in *.
  assert (X : exists b, (g * b = n)%Z /\ (1 <= b)%Z).
  { destruct fs as [|x l].
    - exists q. cbn [tl] in *. rewrite ?prod_cons, ?prod_nil in *. split; [lia|exact Bq].
    - exists (q * x)%Z. cbn [tl] in *. rewrite ?prod_cons, ?prod_nil in *. assert (2 <= x)%Z by (apply F; left; reflexivity). split; nia. }
  destruct X as (b & X & Hb). exists g, b. split; [reflexivity|]. split; [exact Bg|]. split; [exact Hb|]. split; [exact X|].
  rewrite <- X, inject_Z_mult. field. unfold Qeq. cbn. lia.
Qed.

(** ** Load values *)

Local Open Scope R_scope.
Lemma pf_range v : - 1 <= v <= 1 -> 0 <= 1 - v * v.
Proof. intros. nra. Qed.
Lemma np_sqrt_ok x : 0 <= x -> np_sqrt x = Some (sqrt x).
Proof. intros H. unfold np_sqrt. destruct (Rlt_dec x 0); [lra|reflexivity]. Qed.

Lemma kva_pf_spec s pf : - 1 <= pf <= 1 -> exists p q, kva_pf s pf = Ok (Some (p, Some q)) /\ p = s * pf /\ p * p + q * q = s * s.
Proof.
  intros H. unfold kva_pf. rewrite np_sqrt_ok by (apply pf_range; exact H). cbn [scaled]. eexists; eexists. split; [reflexivity|]. split; [reflexivity|].
  assert (Q := sqrt_sqrt _ (pf_range _ H)). replace (s * sqrt (1 - pf * pf) * (s * sqrt (1 - pf * pf))) with (s * s * (sqrt (1 - pf * pf) * sqrt (1 - pf * pf))) by ring.
  rewrite Q. ring.
Qed.
Lemma kw_pf_spec p pf : - 1 <= pf <= 1 -> pf <> 0 -> exists q, kw_pf p pf = Ok (Some (p, Some q)) /\ p * p = pf * pf * (p * p + q * q).
Proof.
  intros H N. unfold kw_pf. destruct (Req_EM_T pf 0); [contradiction|]. rewrite np_sqrt_ok by (apply pf_range; exact H). cbn [scaled].
  eexists. split; [reflexivity|]. assert (Q := sqrt_sqrt _ (pf_range _ H)).
  replace (p / pf * sqrt (1 - pf * pf) * (p / pf * sqrt (1 - pf * pf))) with ((p / pf) * (p / pf) * (sqrt (1 - pf * pf) * sqrt (1 - pf * pf))) by ring.
  rewrite Q. field. exact N.
Qed.
Lemma pf_ratio p q pf : 0 < p -> p * p = pf * pf * (p * p + q * q) -> p / sqrt (p * p + q * q) = Rabs pf.
Proof.
  intros Hp H. assert (S : 0 < p * p + q * q) by nra. assert (Hs : 0 < sqrt (p * p + q * q)) by (apply sqrt_lt_R0; exact S).
  assert (E := sqrt_sqrt _ (Rlt_le _ _ S)). set (s := sqrt (p * p + q * q)) in *.
  assert (P : p = Rabs pf * s).
  { assert (A := Rabs_pos pf). assert (A2 : Rabs pf * Rabs pf = pf * pf) by (rewrite <- Rabs_mult; apply Rabs_pos_eq; nra).
    assert (Z : (Rabs pf * s) * (Rabs pf * s) = p * p) by (rewrite H, <- E, <- A2; ring).
    apply Rsqr_inj; unfold Rsqr; nra. }
  rewrite P at 1. field. lra.
Qed.
