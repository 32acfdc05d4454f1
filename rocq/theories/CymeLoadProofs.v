From Coq Require Import List String Ascii Bool Arith ZArith Reals Lra Lia.
From Verif Require Import Base BaseFacts CymeMapModel CymeMapSpec CymeMapProps CymeParseModel CymeParseSpec CymeParseProofs CymeSecProofs ReaderModel CymeNodeModel CymeNodeProofs CymeLoadModel CymeLoadSpec.
Import ListNotations.
Local Open Scope string_scope.
Local Open Scope nat_scope.
Local Open Scope list_scope.

(** ** Stars *)
Lemma lower_star c : is_star (lower_ascii c) = is_star c.
Proof. destruct c as [[] [] [] [] [] [] [] []]; reflexivity. Qed.
Lemma lower_stars k : lower (stars k) = stars k.
Proof. induction k; cbn; [reflexivity|now rewrite IHk]. Qed.
Lemma rstrip_stars k : rstrip_star (stars k) = "".
Proof. induction k; cbn; [reflexivity|now rewrite IHk]. Qed.
Lemma rstrip_end s c k : is_star c = false -> rstrip_star (s ++ String c (stars k))%string = (s ++ String c "")%string.
Proof.
  intros N. induction s as [|x s IH]; cbn [append rstrip_star].
  - rewrite rstrip_stars. now rewrite N.
  - rewrite IH. destruct s; reflexivity.
Qed.
Lemma strip_bare id k : bare id -> strip_star (id ++ stars k)%string = id.
Proof.
  intros [B E]. unfold strip_star. destruct (string_snoc id) as [-> | (t & c & ->)].
  - cbn [append]. assert (lstrip_star (stars k) = "") as ->; [|reflexivity]. clear. induction k; [reflexivity|exact IHk].
  - assert (N : is_star c = false). { destruct (is_star c) eqn:S; [|reflexivity]. apply Ascii.eqb_eq in S. subst c. now destruct (E t). }
    assert (lstrip_star ((t ++ String c "") ++ stars k) = ((t ++ String c "") ++ stars k))%string as ->.
    { destruct t as [|d t]; cbn [append lstrip_star]; [now rewrite N|]. destruct (is_star d) eqn:S; [|reflexivity]. apply Ascii.eqb_eq in S. subst d. now destruct (B (t ++ String c "")%string). }
    rewrite app_assoc_s. cbn [append]. now apply rstrip_end.
Qed.
Lemma bare_lower id : bare id -> bare (lower id).
Proof.
  intros [B E]. split.
  - intros t H. destruct id as [|c id]; [discriminate|]. cbn in H. injection H as H _. assert (S : is_star c = true) by (rewrite <- lower_star, H; reflexivity).
    apply Ascii.eqb_eq in S. subst c. now apply (B id).
  - intros t H. destruct (string_snoc id) as [-> | (u & c & ->)]; [destruct t; discriminate|]. rewrite lower_app in H. cbn in H.
    assert (X : forall a b x y, (a ++ String x "" = b ++ String y "")%string -> x = y).
    { clear. induction a as [|p a IH]; intros [|q b] x y E; cbn in E.
      - now injection E. - injection E as _ E. destruct b; discriminate. - injection E as _ E. destruct a; discriminate.
      - injection E as _ E. now apply (IH b). }
    apply X in H. assert (S : is_star c = true) by (rewrite <- lower_star, H; reflexivity). apply Ascii.eqb_eq in S. subst c. now apply (E u).
Qed.
Lemma ends_app s c : ends_star (s ++ String c "")%string = is_star c.
Proof. induction s as [|d s IH]; cbn [append ends_star]; [reflexivity|]. destruct s; cbn [append] in *; exact IH. Qed.
Lemma ends_bare id : bare id -> ends_star id = false.
Proof.
  intros [_ E]. destruct (string_snoc id) as [-> | (t & c & ->)]; [reflexivity|]. rewrite ends_app. destruct (is_star c) eqn:S; [|reflexivity].
  apply Ascii.eqb_eq in S. subst c. now destruct (E t).
Qed.
Lemma ends_stars id k : ends_star (id ++ stars (S k))%string = true.
Proof. rewrite <- star_snoc, <- app_assoc_s. apply (ends_app _ "*"). Qed.

Section Loads.
Variable num : string -> option R.
Variable int_ : string -> option Z.
Variable loads : list (string * record).
Variable classes : list (string * record).
Variable section_phase : list (string * record).
Variable section_feeder : list (string * string).
Notation one_load := (one_load num int_ loads classes section_phase section_feeder).
Notation make_loads := (make_loads num int_ loads classes section_phase section_feeder).
Notation number := (number num).
Notation row_says := (row_says num int_ classes).
Notation load_says := (load_says loads section_phase section_feeder).

(** ** Power *)
Lemma msqrt_ok x r : (0 <= r)%R -> (r * r = x)%R -> msqrt x = Some r.
Proof.
  intros P E. unfold msqrt. destruct (Rlt_dec x 0) as [L|_]; [subst x; pose proof (Rle_0_sqr r) as S; unfold Rsqr in S; lra|].
  f_equal. rewrite <- E. apply sqrt_square. exact P.
Qed.
Lemma from_factor_ok v p q pf : (0 < pf <= 1)%R -> (0 <= q * p)%R -> (pf * pf * (p * p + q * q) = p * p)%R ->
  from_factor v p pf = Goes (with_pq v p q).
Proof.
  intros F S E. unfold from_factor. destruct (Req_EM_T pf 0) as [Z|_]; [lra|].
  assert (PP : (0 < pf * pf)%R) by nra.
  set (x := ((1 - pf * pf) / (pf * pf))%R). assert (X0 : (0 <= x)%R) by (apply Rmult_le_pos; [nra|left; now apply Rinv_0_lt_compat]).
  assert (XE : (x * (pf * pf) = 1 - pf * pf)%R) by (unfold x; field; nra).
  unfold msqrt. destruct (Rlt_dec x 0); [lra|]. unfold with_pq. f_equal. f_equal. f_equal.
  assert (S0 : (0 <= sqrt x)%R) by apply sqrt_pos. assert (SS : (sqrt x * sqrt x = x)%R) by (now apply sqrt_sqrt).
  assert (QQ : (q * q = p * p * x)%R).
  { apply Rmult_eq_reg_l with (pf * pf)%R; [|nra]. replace (pf * pf * (p * p * x))%R with (p * p * (x * (pf * pf)))%R by ring. rewrite XE. nra. }
  assert (D : ((q - p * sqrt x) * (q + p * sqrt x) = 0)%R).
  { replace ((q - p * sqrt x) * (q + p * sqrt x))%R with (q * q - p * p * (sqrt x * sqrt x))%R by ring. rewrite SS, QQ. ring. }
  apply Rmult_integral in D. destruct D as [D|D]; [lra|].
  assert (Q2 : (q = - (p * sqrt x))%R) by lra.
  assert (PZ : (p * p * sqrt x <= 0)%R) by (rewrite Q2 in S; nra).
  assert (PS : (0 <= p * p * sqrt x)%R) by (apply Rmult_le_pos; [nra|exact S0]).
  assert (Z : (p * p * sqrt x = 0)%R) by lra. apply Rmult_integral in Z. destruct Z as [Z|Z].
  - assert (p = 0)%R by nra. subst p. rewrite Q2. ring.
  - rewrite Q2, Z. ring.
Qed.
Lemma power_ok v kva z v1 v2 p q t1 t2 : v_type v = Some z -> num t1 = Some v1 -> num t2 = Some v2 -> power kva z v1 v2 p q ->
  power_of num v kva t1 t2 = Ok (Goes (with_pq v p q)).
Proof.
  intros T N1 N2 P. unfold power_of. rewrite N1. cbn [of_opt bind].
  assert (ZE : forall (k : bool -> res outcome), (do zero <- (if Req_EM_T v1 0 then do w <- of_opt EValue (num t2); Ok (if Req_EM_T w 0 then true else false) else Ok false); k zero) =
               k (if Req_EM_T v1 0 then if Req_EM_T v2 0 then true else false else false)).
  { intros k. destruct (Req_EM_T v1 0); [|reflexivity]. rewrite N2. cbn [of_opt bind]. reflexivity. }
  rewrite ZE. clear ZE. rewrite N2, T. cbn [of_opt bind].
  destruct P as [z|v1 v2|v1 v2 s p q NZ A B EP Q0 E|v1 v2 pf q F S E].
  - destruct (Req_EM_T 0 0); [reflexivity|congruence].
  - destruct (Req_EM_T v1 0) as [->|_]; [destruct (Req_EM_T v2 0) as [->|_]; reflexivity|reflexivity].
  - assert ((if Req_EM_T v1 0 then if Req_EM_T v2 0 then true else false else false) = false) as ->.
    { destruct (Req_EM_T v1 0); [|reflexivity]. destruct (Req_EM_T v2 0); [tauto|reflexivity]. }
    cbn [Z.eqb Pos.eqb].
    assert ((if Req_EM_T v1 0 then match kva with Some k => k | None => v1 end else v1) = s) as ->.
    { destruct A as [[N ->]|[-> K]]; [destruct (Req_EM_T v1 0); [congruence|reflexivity]|].
      destruct (Req_EM_T 0 0); [|congruence]. destruct kva; congruence. }
    assert ((s * (v2 * (1 / 100)))%R = p) as -> by (subst p; field).
    assert (M : msqrt (s * s - p * p) = Some q) by (apply msqrt_ok; [exact Q0|lra]). rewrite M. reflexivity.
  - assert (NZ : (if Req_EM_T v1 0 then if Req_EM_T v2 0 then true else false else false) = false).
    { destruct (Req_EM_T v1 0); [|reflexivity]. destruct (Req_EM_T v2 0); [|reflexivity]. destruct F as [[H _]|[H _]]; lra. }
    rewrite NZ. cbn [Z.eqb Pos.eqb]. destruct F as [[H ->]|[H ->]].
    + destruct (Rle_dec 0 v2); [|lra]. destruct (Rle_dec v2 1); [|lra]. rewrite (from_factor_ok v v1 q v2); [reflexivity|lra|exact S|exact E].
    + destruct (Rle_dec 0 v2); [|lra]. destruct (Rle_dec v2 1); [lra|]. destruct (Rle_dec v2 100); [|lra].
      rewrite (from_factor_ok v v1 q (v2 / 100)); [reflexivity|lra|exact S|exact E].
Qed.

(** ** One row *)
Definition class_of (d : record) : record := match dget d "loadtype" with Some t => match dget classes t with Some c => c | None => [] end | None => [] end.
Lemma class_shares d sh : class_says num classes d sh -> shares num (Some (class_of d)) = sh.
Proof.
  intros [(t & c & E & F & S)|[N ->]]; unfold class_of, shares.
  - rewrite E, F. unfold share_keys. clear E F t.
    induction S as [|k x ks xs (u & U & W) S IH]; cbn [shares_from]; [reflexivity|]. rewrite U, W, IH. f_equal. field.
  - destruct (dget d "loadtype") as [t|]; [rewrite (N t eq_refl)|]; reflexivity.
Qed.
Definition conn_of (sid : string) : option string :=
  match dget (match dget loads sid with Some d => d | None => [] end) "connection" with
  | Some t => match connection_configuration_mapping (VStr t) with Ok (Some c) => Some c | _ => None end
  | None => None
  end.
Definition element_of (sid : string) : option string := match dget section_phase sid with Some d => dget d "fromnodeid" | None => None end.
Definition rphases (r : row) (sh : list R) : list phase_load :=
  map (fun ph => mkPhaseLoad ph (Some (1000 * r_p r / INR (length (r_phases r)), 1000 * r_q r / INR (length (r_phases r)))%R) sh) (r_phases r).
Definition new_load (sid feeder : string) (d : record) (r : row) : load :=
  mkLoad ("Load_" ++ sid ++ "_" ++ String.concat "_" (r_phases r))%string (option_map (fun k => k * 1000)%R (r_kva r)) (conn_of sid) (element_of sid)
    feeder (r_users r) (rphases r (r_shares r)).
Definition fused (l : load) (feeder : string) (r : row) (sh : list R) : load :=
  mkLoad (l_name l ++ "_" ++ String.concat "_" (r_phases r))%string
    (match r_kva r with Some k => match l_kva l with Some k0 => Some (k0 + k * 1000)%R | None => Some (k * 1000)%R end | None => l_kva l end)
    (l_connection l) (l_element l) feeder (r_users r) (l_phases l ++ rphases r sh).

Lemma row_step doubled st key d r sid feeder : row_says d r -> lower (strip_star key) = sid -> dget section_feeder sid = Some feeder ->
  exists v, (v_class v = v_class (st_vars st) /\ v_q v = Some (r_q r)) /\
  (~ counts (negb (smem sid doubled)) r -> one_load doubled st (key, d) = Ok (mkState (st_loads st) (st_index st) (st_dup st) v)) /\
  (counts (negb (smem sid doubled)) r -> (smem sid doubled = true -> dget (st_index st) sid = None) ->
     one_load doubled st (key, d) = Ok (mkState (st_loads st ++ [new_load sid feeder d r]) (dset (st_index st) sid (length (st_loads st)))
       (add_dup (st_dup st) sid (length (st_loads st))) (mkVars (v_type v) (v_p v) (v_q v) (Some (class_of d))))) /\
  (forall i l, counts (negb (smem sid doubled)) r -> smem sid doubled = true -> dget (st_index st) sid = Some i -> nth_error (st_loads st) i = Some l ->
     one_load doubled st (key, d) = Ok (mkState (put (st_loads st) i (fused l feeder r (shares num (v_class (st_vars st))))) (st_index st) (st_dup st) v)).
Proof.
  intros (HK & (t & z & v1 & v2 & ET & EZ & (t1 & E1 & N1) & (t2 & E2 & N2) & P) & (s & ES & SN & EP) & (tu & EU & NU) & CS) SID FE.
  pose (v0 := mkVars (Some z) (v_p (st_vars st)) (v_q (st_vars st)) (v_class (st_vars st))).
  exists (with_pq v0 (r_p r) (r_q r)). split; [now split|].
  assert (KV : (match dget d "connectedkva" with Some t => do k <- of_opt EValue (num t); Ok (Some k) | None => Ok None end) = Ok (r_kva r)).
  { destruct (r_kva r) as [k|]; [destruct HK as (u & -> & ->); reflexivity|now rewrite HK]. }
  pose proof (power_ok v0 (r_kva r) z v1 v2 (r_p r) (r_q r) t1 t2 eq_refl N1 N2 P) as PO.
  assert (LE : letters s = r_phases r) by (rewrite EP; reflexivity).
  assert (JN : joined (r_phases r) = Some (String.concat "_" (r_phases r))) by (rewrite EP; destruct s; [congruence|reflexivity]).
  assert (FL : forall (k : bool -> res state), (do flows <- (if Rle_dec 0 (r_p r) then Ok true else do q <- of_opt EName (Some (r_q r)); Ok (if Rle_dec 0 q then true else false)); k flows) =
               k (if Rle_dec 0 (r_p r) then true else if Rle_dec 0 (r_q r) then true else false)).
  { intros k. destruct (Rle_dec 0 (r_p r)); reflexivity. }
  unfold CymeLoadModel.one_load. cbn [fst snd]. rewrite SID, KV. cbn [bind]. rewrite ET, EZ. cbn [of_opt bind]. rewrite E1, E2. fold v0. rewrite PO. cbn [bind with_pq v_p v_q v_class v_type of_opt].
  rewrite FL, ES, LE, FE, EU. cbn [of_opt bind]. rewrite NU, JN. cbn [of_opt bind]. clear FL PO KV.
  split; [|split].
  - intros NC. destruct (Rle_dec 0 (r_p r)) as [LP|LP].
    + destruct (smem sid doubled) eqn:D; cbn [andb negb] in *.
      * destruct (Req_EM_T (r_p r) 0) as [Z|Z]; [reflexivity|]. destruct NC. split; [now left|]. intros _; exact Z.
      * destruct NC. split; [now left|discriminate].
    + destruct (Rle_dec 0 (r_q r)) as [LQ|LQ]; [|reflexivity].
      destruct (smem sid doubled) eqn:D; cbn [andb negb] in *.
      * destruct (Req_EM_T (r_p r) 0) as [Z|Z]; [lra|]. destruct NC. split; [now right|]. intros _; exact Z.
      * destruct NC. split; [now right|discriminate].
  - intros [CF CP] NI. assert ((if Rle_dec 0 (r_p r) then true else if Rle_dec 0 (r_q r) then true else false) = true) as ->.
    { destruct (Rle_dec 0 (r_p r)); [reflexivity|]. destruct (Rle_dec 0 (r_q r)); [reflexivity|]. destruct CF; contradiction. }
    assert ((smem sid doubled && (if Req_EM_T (r_p r) 0 then true else false))%bool = false) as ->.
    { destruct (smem sid doubled); [|reflexivity]. destruct (Req_EM_T (r_p r) 0); [|reflexivity]. now destruct (CP eq_refl). }
    assert ((if smem sid doubled then match dget (st_index st) sid with Some i => match nth_error (st_loads st) i with Some l => Some (i, l) | None => None end | None => None end else None) = None) as ->.
    { destruct (smem sid doubled); [now rewrite NI|reflexivity]. }
    fold (class_of d). unfold new_load, phase_loads, rphases. rewrite (class_shares _ _ CS). reflexivity.
  - intros i l [CF CP] D I NL. rewrite D in *. assert ((if Rle_dec 0 (r_p r) then true else if Rle_dec 0 (r_q r) then true else false) = true) as ->.
    { destruct (Rle_dec 0 (r_p r)); [reflexivity|]. destruct (Rle_dec 0 (r_q r)); [reflexivity|]. destruct CF; contradiction. }
    destruct (Req_EM_T (r_p r) 0) as [Z|_]; [now destruct (CP eq_refl)|]. cbn [andb]. rewrite I, NL. reflexivity.
Qed.

(** ** Groups *)
Lemma counts_dec single r : counts single r \/ ~ counts single r.
Proof.
  unfold counts. destruct (Rle_dec 0 (r_p r)); destruct (Rle_dec 0 (r_q r)); destruct (Req_EM_T (r_p r) 0); destruct single; try tauto; try (left; split; [tauto|congruence]); right; intros [A B]; try tauto; try (now apply B).
Qed.
Lemma counted_ex single rs : exists us, counted single rs us.
Proof.
  induction rs as [|r rs [us IH]]; [exists []; constructor|]. destruct (counts_dec single r); [exists (r :: us)|exists us]; now constructor.
Qed.
Lemma put_same {A} (l : list A) i x : nth_error l i = Some x -> put l i x = l.
Proof. revert i; induction l as [|y l IH]; intros [|i] H; try discriminate; cbn in *; [congruence|now rewrite IH]. Qed.
Lemma put_nth {A} (l : list A) i x y : nth_error l i = Some y -> nth_error (put l i x) i = Some x.
Proof. revert i; induction l as [|z l IH]; intros [|i] H; try discriminate; cbn in *; [reflexivity|now apply IH]. Qed.
Lemma put_put {A} (l : list A) i x y : put (put l i x) i y = put l i y.
Proof. revert i; induction l as [|z l IH]; intros [|i]; cbn; try reflexivity. now rewrite IH. Qed.
Lemma put_end {A} (l : list A) x y : put (l ++ [x]) (length l) y = l ++ [y].
Proof. induction l as [|z l IH]; cbn; [reflexivity|now rewrite IH]. Qed.
Lemma nth_end {A} (l : list A) x : nth_error (l ++ [x]) (length l) = Some x.
Proof. rewrite nth_error_app2 by lia. now rewrite Nat.sub_diag. Qed.

Lemma rest_rows doubled id sid feeder i : bare id -> sid = lower id -> dget section_feeder sid = Some feeder -> smem sid doubled = true ->
  forall rs k xs us, group_rows num int_ classes id k rs xs -> counted false rs us ->
  forall st l, dget (st_index st) sid = Some i -> nth_error (st_loads st) i = Some l ->
  exists v, v_class v = v_class (st_vars st) /\
    foldM (one_load doubled) xs st =
      Ok (mkState (put (st_loads st) i (fold_left (fun l r => fused l feeder r (shares num (v_class (st_vars st)))) us l)) (st_index st) (st_dup st) v).
Proof.
  intros B S FE D. induction rs as [|r rs IH]; intros k [|[key d] xs] us GR C st l I N; cbn [group_rows] in GR; try contradiction.
  - inversion C; subst. exists (st_vars st). split; [reflexivity|]. cbn [foldM fold_left]. rewrite (put_same _ _ _ N). destruct st; reflexivity.
  - destruct GR as (EK & RS & GR). cbn [fst snd] in EK, RS.
    assert (SID : lower (strip_star key) = sid) by (rewrite EK, (strip_bare _ _ B); congruence).
    destruct (row_step doubled st key d r sid feeder RS SID FE) as (v & [VC _] & SK & _ & FU). rewrite D in SK, FU. cbn [negb] in SK, FU.
    inversion C as [|? ? m CT C'|? ? m CT C']; subst.
    + specialize (FU i l CT eq_refl I N). cbn [foldM]. rewrite FU.
      destruct (IH (S k) xs m GR C' (mkState (put (st_loads st) i (fused l feeder r (shares num (v_class (st_vars st))))) (st_index st) (st_dup st) v)
                  (fused l feeder r (shares num (v_class (st_vars st)))) I (put_nth _ _ _ _ N)) as (v' & VC' & E).
      cbn [st_vars st_loads st_index st_dup] in VC', E. rewrite VC in VC', E. exists v'. split; [exact VC'|]. rewrite E. cbn [fold_left]. now rewrite put_put.
    + specialize (SK CT). cbn [foldM]. rewrite SK.
      destruct (IH (S k) xs us GR C' (mkState (st_loads st) (st_index st) (st_dup st) v) l I N) as (v' & VC' & E).
      cbn [st_vars st_loads st_index st_dup] in VC', E. rewrite VC in VC', E. exists v'. split; [exact VC'|]. exact E.
Qed.
Lemma first_rows doubled id sid feeder : bare id -> sid = lower id -> dget section_feeder sid = Some feeder -> smem sid doubled = true ->
  forall rs k xs us, group_rows num int_ classes id k rs xs -> counted false rs us ->
  forall st, dget (st_index st) sid = None ->
  exists v, foldM (one_load doubled) xs st = Ok match us with
    | [] => mkState (st_loads st) (st_index st) (st_dup st) v
    | u :: us' => mkState (st_loads st ++ [fold_left (fun l r => fused l feeder r (r_shares u)) us' (new_load sid feeder [] u)])
                    (dset (st_index st) sid (length (st_loads st))) (add_dup (st_dup st) sid (length (st_loads st))) v
    end.
Proof.
  intros B S FE D. induction rs as [|r rs IH]; intros k [|[key d] xs] us GR C st I; cbn [group_rows] in GR; try contradiction.
  - inversion C; subst. exists (st_vars st). cbn [foldM]. destruct st; reflexivity.
  - destruct GR as (EK & RS & GR). cbn [fst snd] in EK, RS.
    assert (SID : lower (strip_star key) = sid) by (rewrite EK, (strip_bare _ _ B); congruence).
    destruct (row_step doubled st key d r sid feeder RS SID FE) as (v & VC & SK & NW & _). rewrite D in SK, NW. cbn [negb] in SK, NW.
    inversion C as [|? ? m CT C'|? ? m CT C']; subst us.
    + specialize (NW CT (fun _ => I)). cbn [foldM]. rewrite NW.
      match type of NW with _ = Ok ?s => set (s1 := s) in * end.
      destruct (rest_rows doubled id sid feeder (length (st_loads st)) B S FE D rs (Datatypes.S k) xs m GR C' s1 (new_load sid feeder d r)) as (v' & _ & E).
      { cbn. apply dget_dset_same. } { cbn. apply nth_end. }
      exists v'. rewrite E. cbn [s1 st_loads st_index st_dup st_vars v_class]. rewrite put_end.
      assert (class_says num classes d (r_shares r)) as CS by (destruct RS as (_ & _ & _ & _ & CS); exact CS). rewrite (class_shares _ _ CS). reflexivity.
    + specialize (SK CT). cbn [foldM]. rewrite SK.
      destruct (IH (Datatypes.S k) xs m GR C' (mkState (st_loads st) (st_index st) (st_dup st) v) I) as (v' & E). exists v'. exact E.
Qed.

Lemma concat_app_ne sep a b : a <> [] -> b <> [] -> String.concat sep (a ++ b) = (String.concat sep a ++ sep ++ String.concat sep b)%string.
Proof.
  intros A B. induction a as [|x a IH]; [congruence|]. destruct a as [|y a].
  - destruct b; [congruence|]. reflexivity.
  - change (String.concat sep ((x :: y :: a) ++ b)) with (x ++ sep ++ String.concat sep ((y :: a) ++ b))%string. rewrite IH by discriminate.
    change (String.concat sep (x :: y :: a)) with (x ++ sep ++ String.concat sep (y :: a))%string. now rewrite !app_assoc_s.
Qed.
Lemma last_cons {A} (x d : A) l : last (x :: l) d = last l x.
Proof. revert x; induction l as [|y l IH]; intros x; [reflexivity|]. change (last (x :: y :: l) d) with (last (y :: l) d). rewrite IH. destruct l as [|z l]; [reflexivity|]. change (last (y :: z :: l) x) with (last (z :: l) x). clear. revert z; induction l as [|w l IH]; intros z; [reflexivity|exact (IH w)]. Qed.
Lemma connection_cases t : (exists z a n r, In (z, a, n, r) connection_table /\ spelt a n t) \/ forall z a n r, In (z, a, n, r) connection_table -> ~ spelt a n t.
Proof.
  generalize connection_table as tb. induction tb as [|[[[z a] n] r] tb [(z' & a' & n' & r' & I & S)|N]]; [now right|left; exists z', a', n', r'; split; [now right|exact S]|].
  unfold spelt. destruct (string_dec t a) as [E|E]; [left; exists z, a, n, r; split; [now left|now left]|].
  destruct (string_dec (lower t) n) as [F|F]; [left; exists z, a, n, r; split; [now left|now right]|].
  right. intros z' a' n' r' [H|H]; [injection H as <- <- <- <-; tauto|now apply (N z' a' n' r')].
Qed.
Lemma conn_says sid : connection_says loads sid (conn_of sid).
Proof.
  unfold connection_says, conn_of. destruct (dget loads sid) as [d|] eqn:E; [|right; split; [discriminate|reflexivity]].
  destruct (dget d "connection") as [t|] eqn:F.
  - destruct C61_connection as (T & _ & ERR & _ & NO). 
    destruct (connection_cases t) as [(z & a & n & r & I & S)|N].
    + left. exists d, t, z, a, n, r. split; [reflexivity|]. split; [exact F|]. split; [exact I|]. split; [exact S|]. destruct (T z a n r I) as [_ TS]. now rewrite (TS t S).
    + right. split; [intros d' t' z a n r H1 H2; injection H1 as <-; rewrite F in H2; injection H2 as <-; apply N|].
      assert (Q : spelt "6" "ct" t \/ spelt "7" "dg" t \/ (~ spelt "6" "ct" t /\ ~ spelt "7" "dg" t)).
      { unfold spelt. destruct (string_dec t "6"); [tauto|]. destruct (string_dec (lower t) "ct"); [tauto|]. destruct (string_dec t "7"); [tauto|]. destruct (string_dec (lower t) "dg"); tauto. }
      destruct Q as [Q|[Q|[Q1 Q2]]]; [rewrite ERR by tauto|rewrite ERR by tauto|rewrite NO by assumption]; reflexivity.
  - right. split; [|reflexivity]. intros d' t' z a n r H1 H2. injection H1 as <-. congruence.
Qed.
Lemma group_load g u us feeder : dget section_feeder (lower (g_id g)) = Some feeder -> Forall (fun r => r_phases r <> []) (u :: us) ->
  load_says g u us (fold_left (fun l r => fused l feeder r (r_shares u)) us (new_load (lower (g_id g)) feeder [] u)).
Proof.
  intros FE NE. set (sid := lower (g_id g)) in *. unfold CymeLoadSpec.load_says. fold sid.
  assert (Q : forall l0, l_connection l0 = conn_of sid -> l_element l0 = element_of sid -> l_feeder l0 = feeder -> forall us, Forall (fun r => r_phases r <> []) us ->
     let l := fold_left (fun l r => fused l feeder r (r_shares u)) us l0 in
     (forall pre ps, ps <> [] -> l_name l0 = (pre ++ String.concat "_" ps)%string -> l_name l = (pre ++ String.concat "_" (ps ++ flat_map r_phases us))%string) /\
     l_kva l = fold_left (fun a r => match r_kva r with Some k => Some (match a with Some x => x | None => 0 end + k * 1000)%R | None => a end) us (l_kva l0) /\
     l_connection l = conn_of sid /\ l_element l = element_of sid /\ l_feeder l = feeder /\ (forall r0, l_users l0 = r_users r0 -> l_users l = r_users (last us r0)) /\
     l_phases l = l_phases l0 ++ flat_map (fun r => rphases r (r_shares u)) us).
  { intros l0 C E F us'. revert l0 C E F. induction us' as [|r us' IH]; intros l0 C E F N; cbn [fold_left flat_map].
    - cbn. repeat split; try assumption; try (intros; now rewrite ?app_nil_r).
    - inversion N as [|? ? NR N']; subst. destruct (IH (fused l0 (l_feeder l0) r (r_shares u)) C E eq_refl N') as (A1 & A2 & A3 & A4 & A5 & A6 & A7).
      cbn zeta. split; [|split; [|split; [exact A3|split; [exact A4|split; [exact A5|split]]]]].
      + intros pre ps PN EN. rewrite app_assoc. apply A1; [destruct ps; [congruence|discriminate]|]. cbn [fused l_name]. rewrite EN, (concat_app_ne "_" ps (r_phases r) PN NR). now rewrite !app_assoc_s.
      + rewrite A2. cbn [fused l_kva]. f_equal. destruct (r_kva r); [|reflexivity]. destruct (l_kva l0); [reflexivity|]. f_equal. lra.
      + intros r0 _. rewrite (A6 r eq_refl). now rewrite last_cons.
      + rewrite A7. cbn [fused l_phases]. now rewrite <- app_assoc. }
  inversion NE as [|? ? NU NS]; subst.
  destruct (Q (new_load sid feeder [] u) eq_refl eq_refl eq_refl us NS) as (A1 & A2 & A3 & A4 & A5 & A6 & A7). cbv zeta in *. clear Q.
  split; [|split; [|split; [|split; [|split; [|split]]]]].
  - rewrite (A1 ("Load_" ++ sid ++ "_")%string (r_phases u) NU); [now rewrite !app_assoc_s|]. cbn [new_load l_name]. now rewrite !app_assoc_s.
  - rewrite A2. unfold total. cbn [fold_left new_load l_kva]. f_equal. destruct (r_kva u); [|reflexivity]. cbn. f_equal. lra.
  - rewrite A3. apply conn_says.
  - intros n. rewrite A4. unfold element_of. destruct (dget section_phase sid) as [d|]; split; [intros H; now exists d|intros (d' & H & K); congruence|discriminate|intros (d' & H & K); congruence].
  - now rewrite A5.
  - now apply A6.
  - rewrite A7. reflexivity.
Qed.

Notation group_says := (group_says num int_ classes).
Notation loads_of := (loads_of loads section_phase section_feeder).
Lemma group_phases id k rs xs : group_rows num int_ classes id k rs xs -> Forall (fun r => r_phases r <> []) rs.
Proof.
  revert k xs; induction rs as [|r rs IH]; intros k [|x xs] H; cbn [group_rows] in H; try contradiction; constructor.
  - destruct H as (_ & (_ & _ & (s & _ & N & ->) & _) & _). destruct s; [congruence|discriminate].
  - destruct H as (_ & _ & H). exact (IH _ _ H).
Qed.
Lemma counted_forall (P : row -> Prop) single rs us : counted single rs us -> Forall P rs -> Forall P us.
Proof. induction 1; intros F; inversion F; subst; auto. Qed.
Lemma group_step doubled g xs st feeder : group_says g xs -> smem (lower (g_id g)) doubled = negb (Nat.eqb (length (g_rows g)) 1) ->
  dget section_feeder (lower (g_id g)) = Some feeder -> dget (st_index st) (lower (g_id g)) = None ->
  exists us v, of_group g us /\
    match us with
    | [] => foldM (one_load doubled) xs st = Ok (mkState (st_loads st) (st_index st) (st_dup st) v)
    | u :: us' => exists l, load_says g u us' l /\
        foldM (one_load doubled) xs st = Ok (mkState (st_loads st ++ [l]) (dset (st_index st) (lower (g_id g)) (length (st_loads st))) (add_dup (st_dup st) (lower (g_id g)) (length (st_loads st))) v)
    end.
Proof.
  intros (B & NE & GR) D FE I. unfold of_group. destruct (counted_ex (Nat.eqb (length (g_rows g)) 1) (g_rows g)) as [us C]. exists us.
  pose proof (counted_forall _ _ _ _ C (group_phases _ _ _ _ GR)) as PH.
  destruct (Nat.eqb (length (g_rows g)) 1) eqn:L; cbn [negb] in D.
  - apply Nat.eqb_eq in L. destruct (g_rows g) as [|r [|r2 rs]] eqn:ER; try discriminate.
    destruct xs as [|[key d] [|x2 xs]]; cbn [group_rows] in GR; try tauto. destruct GR as (EK & RS & _). cbn [fst snd] in EK, RS.
    assert (SID : lower (strip_star key) = lower (g_id g)) by (rewrite EK, (strip_bare _ _ B); reflexivity).
    destruct (row_step doubled st key d r _ feeder RS SID FE) as (v & _ & SK & NW & _). rewrite D in SK, NW. cbn [negb] in SK, NW.
    inversion C as [|? ? m CT C'|? ? m CT C']; subst; inversion C'; subst.
    + exists (mkVars (v_type v) (v_p v) (v_q v) (Some (class_of d))). split; [exact C|]. exists (new_load (lower (g_id g)) feeder [] r).
      split; [exact (group_load g r [] feeder FE PH)|]. cbn [foldM]. rewrite (NW CT ltac:(discriminate)). reflexivity.
    + exists v. split; [exact C|]. cbn [foldM]. rewrite (SK CT). reflexivity.
  - destruct (first_rows doubled (g_id g) _ feeder B eq_refl FE D _ _ _ _ GR C st I) as (v & E). exists v. split; [exact C|].
    destruct us as [|u us]; [exact E|]. exists (fold_left (fun l r => fused l feeder r (r_shares u)) us (new_load (lower (g_id g)) feeder [] u)).
    split; [now apply group_load|exact E].
Qed.

(** ** Sections with several rows *)
Lemma doubled_app a b : doubled_of (a ++ b) = doubled_of a ++ doubled_of b.
Proof. unfold doubled_of. now rewrite filter_app, map_app. Qed.
Lemma doubled_rows id : bare id -> forall rs k xs, group_rows num int_ classes id (S k) rs xs -> doubled_of xs = repeat (lower id) (length rs).
Proof.
  intros B. induction rs as [|r rs IH]; intros k [|[key d] xs] H; cbn [group_rows] in H; try contradiction; [reflexivity|].
  destruct H as (EK & _ & H). cbn [fst] in EK. specialize (IH _ _ H). unfold doubled_of in *. cbn [filter fst]. rewrite EK, ends_stars. cbn [map fst length repeat].
  rewrite IH. f_equal. rewrite lower_app, lower_stars. apply (strip_bare _ (S k)). now apply bare_lower.
Qed.
Lemma doubled_group g xs : group_says g xs -> doubled_of xs = repeat (lower (g_id g)) (length (g_rows g) - 1).
Proof.
  intros (B & NE & GR). destruct (g_rows g) as [|r rs]; [congruence|]. destruct xs as [|[key d] xs]; cbn [group_rows] in GR; [contradiction|].
  destruct GR as (EK & _ & GR). cbn [fst stars] in EK. change (stars 0) with "" in EK. rewrite sapp_nil in EK.
  change ((key, d) :: xs) with ([(key, d)] ++ xs). rewrite doubled_app, (doubled_rows _ B _ _ _ GR).
  unfold doubled_of. cbn [filter fst]. rewrite EK, (ends_bare _ B). cbn. now rewrite Nat.sub_0_r.
Qed.
Lemma doubled_in gs parts : Forall2 group_says gs parts -> forall s, In s (doubled_of (List.concat parts)) <-> exists g, In g gs /\ s = lower (g_id g) /\ 2 <= length (g_rows g).
Proof.
  induction 1 as [|g xs gs parts GS F IH]; intros s; cbn [List.concat].
  - split; [intros []|now intros (g & [] & _)].
  - rewrite doubled_app, in_app_iff, IH, (doubled_group _ _ GS). split.
    + intros [I|(g' & I & R)]; [|exists g'; split; [now right|exact R]]. exists g. split; [now left|]. pose proof I as J. apply repeat_spec in I. split; [exact I|].
      destruct (length (g_rows g)) as [|[|n]]; cbn in J; try contradiction. lia.
    + intros (g' & [<-|I] & E & L); [left|right; now exists g'; auto]. subst s. destruct (length (g_rows g)) as [|[|n]]; try lia. now left.
Qed.
Notation sid := (fun g => lower (g_id g)).
Lemma doubled_smem gs parts : Forall2 group_says gs parts -> NoDup (map sid gs) -> forall g, In g gs ->
  smem (lower (g_id g)) (doubled_of (List.concat parts)) = negb (Nat.eqb (length (g_rows g)) 1).
Proof.
  intros F N g I. assert (NZ : g_rows g <> []).
  { clear N. induction F as [|? ? ? ? H F IH]; [destruct I|destruct I as [<-|I]; [now destruct H as (_ & ? & _)|now apply IH]]. }
  destruct (Nat.eqb (length (g_rows g)) 1) eqn:L; cbn [negb].
  - apply smem_not_In. rewrite (doubled_in _ _ F). intros (g' & I' & E & L'). apply Nat.eqb_eq in L.
    assert (g = g') as <-; [|lia]. revert N I I' E. clear. induction gs as [|x gs IH]; intros N I I' E; [destruct I|]. inversion N as [|? ? NI N']; subst.
    destruct I as [<-|I], I' as [<-|I']; [reflexivity|destruct NI; apply in_map_iff; now exists g'|destruct NI; apply in_map_iff; now exists g|now apply IH].
  - apply smem_In. rewrite (doubled_in _ _ F). exists g. split; [exact I|]. split; [reflexivity|]. apply Nat.eqb_neq in L. destruct (g_rows g) as [|a [|b l]]; cbn in *; try congruence; lia.
Qed.

(** ** All groups *)
Lemma loads_of_in gs ls : loads_of gs ls -> forall s, ~ In s (map sid gs) -> ~ In s (map (fun p => lower (g_id (fst p))) ls).
Proof. induction 1; intros s N; cbn in *; tauto || (intros I; apply (IHloads_of s); tauto) || (intros [I|I]; [tauto|apply (IHloads_of s); tauto]). Qed.
Lemma groups_steps doubled : forall gs parts, Forall2 group_says gs parts -> NoDup (map sid gs) ->
  Forall (fun g => smem (lower (g_id g)) doubled = negb (Nat.eqb (length (g_rows g)) 1)) gs ->
  Forall (fun g => dget section_feeder (lower (g_id g)) <> None) gs ->
  forall st, Forall (fun g => dget (st_index st) (lower (g_id g)) = None) gs -> Forall (fun g => dget (st_dup st) (lower (g_id g)) = None) gs ->
  exists ls st', foldM (one_load doubled) (List.concat parts) st = Ok st' /\ loads_of gs ls /\ st_loads st' = st_loads st ++ map snd ls /\
    (forall s, ~ In s (map (fun p => lower (g_id (fst p))) ls) -> dget (st_index st') s = dget (st_index st) s /\ dget (st_dup st') s = dget (st_dup st) s) /\
    (forall j g l, nth_error ls j = Some (g, l) -> dget (st_index st') (lower (g_id g)) = Some (length (st_loads st) + j) /\ dget (st_dup st') (lower (g_id g)) = Some [length (st_loads st) + j]).
Proof.
  induction 1 as [|g xs gs parts GS F IH]; intros N D FE st I DU.
  - exists [], st. cbn. rewrite app_nil_r. split; [reflexivity|]. split; [constructor|]. split; [reflexivity|]. split; [now split|]. intros [|j]; discriminate.
  - inversion N as [|? ? NI N']; subst. inversion D as [|? ? D0 D']; subst. inversion FE as [|? ? FE0 FE']; subst. inversion I as [|? ? I0 I']; subst. inversion DU as [|? ? DU0 DU']; subst.
    destruct (dget section_feeder (lower (g_id g))) as [feeder|] eqn:EF; [|congruence].
    destruct (group_step doubled g xs st feeder GS D0 EF I0) as (us & v & OG & E).
    assert (OT : forall g', In g' gs -> lower (g_id g') <> lower (g_id g)). { intros g' H K. apply NI. rewrite <- K. apply in_map_iff. now exists g'. }
    cbn [List.concat map]. rewrite foldM_app. destruct us as [|u us].
    + rewrite E. cbn [bind]. destruct (IH N' D' FE' (mkState (st_loads st) (st_index st) (st_dup st) v) I' DU') as (ls & st' & E' & LO & LS & OTH & IDX).
      exists ls, st'. split; [exact E'|]. split; [now apply loads_none|]. split; [exact LS|]. split; [exact OTH|exact IDX].
    + destruct E as (l & LSY & E). rewrite E. cbn [bind].
      match goal with |- context [foldM _ (List.concat parts) ?s] => set (s1 := s) end.
      assert (I1 : Forall (fun g => dget (st_index s1) (lower (g_id g)) = None) gs).
      { apply Forall_forall. intros g' H. cbn. rewrite dget_dset_other by (apply not_eq_sym; now apply OT). exact (proj1 (Forall_forall _ _) I' g' H). }
      assert (U1 : Forall (fun g => dget (st_dup s1) (lower (g_id g)) = None) gs).
      { apply Forall_forall. intros g' H. cbn. unfold add_dup. rewrite dget_dset_other by (apply not_eq_sym; now apply OT). exact (proj1 (Forall_forall _ _) DU' g' H). }
      destruct (IH N' D' FE' s1 I1 U1) as (ls & st' & E' & LO & LS & OTH & IDX).
      exists ((g, l) :: ls), st'. split; [exact E'|]. split; [now apply (loads_one _ _ _ g u us)|]. split; [rewrite LS; cbn; now rewrite <- app_assoc|]. split.
      * intros s H. destruct (OTH s) as [A B]; [intros K; apply H; now right|]. unfold s1 in A, B. cbn [st_index st_dup] in A, B. unfold add_dup in B.
        assert (lower (g_id g) <> s) by (intros <-; apply H; now left). rewrite dget_dset_other in A by assumption. rewrite dget_dset_other in B by assumption. now split.
      * intros [|j] g' l' H; cbn [nth_error] in H.
        -- injection H as <- <-. destruct (OTH (lower (g_id g)) (loads_of_in _ _ LO _ NI)) as [A B]. unfold s1 in A, B. cbn [st_index st_dup] in A, B. unfold add_dup in B. rewrite dget_dset_same in A. rewrite dget_dset_same in B. rewrite DU0 in B. rewrite Nat.add_0_r. now split.
        -- destruct (IDX j g' l' H) as [A B]. cbn in A, B. rewrite app_length in A, B. cbn [length] in A, B. rewrite A, B. replace (length (st_loads st) + 1 + j) with (length (st_loads st) + S j) by lia. now split.
Qed.
End Loads.

(** ** The file *)
Definition sel (k : kind) (d : three) : list (string * record) := match k, d with Loads, (l, _, _) => l | Customers, (_, c, _) => c | Classes, (_, _, g) => g end.
Definition obj_of (k : kind) : string := match k with Loads => "loads" | Customers => "customer_loads" | Classes => "customer_class" end.
Lemma obj_header k : dget cyme_headers (obj_of k) = Some [HStr (header_of k)].
Proof. destruct k; reflexivity. Qed.
Definition cols_of (k : kind) : columns := match k with Loads => load_columns | Customers => customer_columns | Classes => class_columns end.
Definition attrs_of (k : kind) : list string := match k with Loads => load_attrs | Customers => customer_attrs | Classes => class_attrs end.
Lemma attrs_columns k : attrs_of k = columns_of k.
Proof. destruct k; reflexivity. Qed.
Lemma columns_nodup k : NoDup (columns_of k).
Proof. destruct k; repeat constructor; cbn; intuition discriminate. Qed.
Lemma helper_no k line rest : substr_in (header_of k) line = false -> parser_helper cyme_headers [obj_of k] (attrs_of k) (cols_of k) [] [] line rest = Ok ([], rest).
Proof.
  intros H. apply helper_other; [apply (plain_one (obj_of k) (header_of k)), obj_header|]. rewrite (heads_one _ _ _ (obj_header k)). congruence.
Qed.
Lemma update_nil {V} (d : list (string * V)) : dict_update d [] = d.
Proof. reflexivity. Qed.
Lemma part_step k header f names body lines rest fuel d : (forall k', substr_in (header_of k') header = true <-> k' = k) -> substr_in "format" (lower f) = true -> format_line f names ->
  lines <> [] -> section_of lines body rest -> sel k d = [] ->
  exists d1, read_load_file (S fuel) d (header :: f :: lines) = read_load_file fuel d1 rest /\
    records_of [] (map (pair (Announced (columns_of k) names)) (filter is_row body)) (sel k d1) /\ forall k', k' <> k -> sel k' d1 = sel k' d.
Proof.
  intros HD FM FL NL SO EK.
  destruct (section_format cyme_headers [obj_of k] (attrs_of k) (cols_of k) [] header f names lines body rest) as (recs & A & B & C); try assumption.
  { apply (plain_one (obj_of k) (header_of k)), obj_header. } { apply (heads_one _ _ _ (obj_header k)). now apply HD. }
  { rewrite attrs_columns. apply columns_nodup. } { constructor. }
  rewrite attrs_columns in B.
  assert (NO : forall k', k' <> k -> forall rest, parser_helper cyme_headers [obj_of k'] (attrs_of k') (cols_of k') [] [] header rest = Ok ([], rest)).
  { intros k' D r. apply helper_no. destruct (substr_in (header_of k') header) eqn:S; [|reflexivity]. apply HD in S. contradiction. }
  destruct d as [[l0 c0] g0]. cbn [read_load_file].
  destruct k; cbn [obj_of attrs_of cols_of sel] in A, EK; subst.
  - rewrite A. cbn [bind]. pose proof (NO Customers ltac:(discriminate) rest) as H2. pose proof (NO Classes ltac:(discriminate) rest) as H3. cbn [obj_of attrs_of cols_of] in H2, H3.
    rewrite H2. cbn [bind]. rewrite H3. cbn [bind]. eexists. split; [reflexivity|]. cbn [sel]. split; [rewrite update_fresh by (cbn; exact C); exact B|]. intros [] D; try congruence; reflexivity.
  - pose proof (NO Loads ltac:(discriminate) (f :: lines)) as H1. pose proof (NO Classes ltac:(discriminate) rest) as H3. cbn [obj_of attrs_of cols_of] in H1, H3.
    rewrite H1. cbn [bind]. rewrite A. cbn [bind]. rewrite H3. cbn [bind]. eexists. split; [reflexivity|]. cbn [sel]. split; [rewrite update_fresh by (cbn; exact C); exact B|]. intros [] D; try congruence; reflexivity.
  - pose proof (NO Loads ltac:(discriminate) (f :: lines)) as H1. pose proof (NO Customers ltac:(discriminate) (f :: lines)) as H2. cbn [obj_of attrs_of cols_of] in H1, H2.
    rewrite H1. cbn [bind]. rewrite H2. cbn [bind]. rewrite A. cbn [bind]. eexists. split; [reflexivity|]. cbn [sel]. split; [rewrite update_fresh by (cbn; exact C); exact B|]. intros [] D; try congruence; reflexivity.
Qed.
Lemma load_file_reads content ps : load_file content ps -> NoDup (map (fun p => fst (fst p)) ps) -> forall fuel d, length content < fuel ->
  (forall k, In k (map (fun p => fst (fst p)) ps) -> sel k d = []) ->
  exists d', read_load_file fuel d content = Ok d' /\
    (forall k names body, In (k, names, body) ps -> records_of [] (map (pair (Announced (columns_of k) names)) (filter is_row body)) (sel k d')) /\
    (forall k, ~ In k (map (fun p => fst (fst p)) ps) -> sel k d' = sel k d).
Proof.
  induction 1 as [|l rest ps NO F IH|k header f names body b rest ps HD FM FL FB LB F IH|k header f names body HD FM FL FB NB]; intros N fuel d LF E.
  - exists d. destruct fuel; [cbn in LF; lia|]. cbn [read_load_file]. split; [reflexivity|]. split; [intros ? ? ? []|reflexivity].
  - destruct fuel; [cbn in LF; lia|]. cbn [length] in LF. destruct d as [[l0 c0] g0]. cbn [read_load_file].
    pose proof (helper_no Loads l rest (NO Loads)) as H1. pose proof (helper_no Customers l rest (NO Customers)) as H2. pose proof (helper_no Classes l rest (NO Classes)) as H3.
    cbn [obj_of attrs_of cols_of] in H1, H2, H3. rewrite H1. cbn [bind]. rewrite H2. cbn [bind]. rewrite H3. cbn [bind]. rewrite !update_nil.
    apply (IH N); [lia|exact E].
  - destruct fuel; [cbn in LF; lia|]. cbn [length] in LF. rewrite app_length in LF. cbn [length] in LF. inversion N as [|? ? NI N']; subst. cbn [fst] in NI.
    destruct (part_step k header f names body (body ++ b :: rest) rest fuel d HD FM FL) as (d1 & S1 & S2 & S3).
    { destruct body; discriminate. } { split; [exact FB|]. right. eauto. } { apply E; now left. }
    rewrite S1. destruct (IH N' fuel d1) as (d' & R & P & Q).
    { lia. } { intros k' I. rewrite S3; [apply E; now right|]. intros ->. contradiction. }
    exists d'. split; [exact R|]. split.
    + intros k' n' b' [I|I]; [injection I as -> -> ->; rewrite (Q k' NI); exact S2|now apply P].
    + intros k' NI'. cbn [map fst In] in NI'. rewrite Q by tauto. apply S3. intros ->. tauto.
  - destruct fuel; [cbn in LF; lia|].
    destruct (part_step k header f names body body [] fuel d HD FM FL NB) as (d1 & S1 & S2 & S3).
    { split; [exact FB|]. now left. } { apply E; now left. }
    rewrite S1. cbn [length] in LF. destruct fuel; [lia|]. cbn [read_load_file]. exists d1. split; [reflexivity|]. split.
    + intros k' n' b' [I|[]]. injection I as -> -> ->. exact S2.
    + intros k' NI'. cbn [map fst In] in NI'. apply S3. intros ->. tauto.
Qed.
