(** C103: the wires of lines with a geometry. *)
From Verif Require Import Base BaseFacts CsvModel TextModel UnitsSpec UnitsProofs DssTextModel DssTextSpec DssTextProofs DssLoadSpec DssNodeProofs
  DssRdLoadModel DssRdLoadSpec DssRdLoadProofs DssRdLoadProps DssRdTransModel DssRdTransProofs DssRdTransProps DssRdLineModel DssRdLineSpec DssRdLineProofs DssRdLineProps DssRdGeoSpec DssRdGeoProofs.
From Verif Require DssTextProps DssStoreModel.
From Coq Require Import QArith Lia.
Local Open Scope string_scope.
Local Open Scope nat_scope.
Local Open Scope list_scope.

Lemma same_made l ty ws : same_line l (mkRline (rn_name l) (rn_feeder l) (rn_class l) (rn_length l) (rn_from l) (rn_to l) (rn_kind l) (rn_fault l) (rn_Z l) (rn_C l) ty ws).
Proof. repeat split. Qed.
(** The wires that precede, all bare and known *)
Lemma bare_wires int_ num fs full kind len geometries wiredata cndata d g ws ts zs v : NoDup (map fst wiredata) -> names_cables cndata -> d "enabled" <> None -> geometry int_ num geometries d g ws ->
  length ts <= length ws -> (forall p c t, nth_error ws p = Some c -> nth_error ts p = Some t -> bare wiredata cndata c t /\ wire_data num t) ->
  exists v' ty new, foldM (wire_step int_ num wiredata cndata fs full kind len (Some g) zs) (seq 0 (length ts)) (v, d, None, []) = Ok (v', d, ty, new) /\ length new = length ts /\
    (forall p c t w, nth_error ws p = Some c -> nth_error ts p = Some t -> nth_error new p = Some w -> reads_geo num d g t zs kind len c p w) /\
    (forall i t, length ts = S i -> nth_error ts i = Some t -> wv_data v' = Some (Some t) /\ ty = Some "overhead").
Proof.
  intros Nw Nc En G L H.
  destruct (fold_wires (wire_step int_ num wiredata cndata fs full kind len (Some g) zs)
    (fun i s => snd (fst s) = d /\ forall j t, i = S j -> nth_error ts j = Some t -> wv_data (fst (fst s)) = Some (Some t) /\ snd s = Some "overhead")
    (fun p w => forall c t, nth_error ws p = Some c -> nth_error ts p = Some t -> reads_geo num d g t zs kind len c p w) (length ts)) with (m := length ts) (i := 0) (s := (v, d, @None string)) (ws := @nil rwire) as ([[v' d'] ty] & new & E & Ln & [I1 I2] & P).
  - intros [[v1 d1] ty1] new i Li [D1 _]. cbn [fst snd] in *. subst d1.
    destruct (nth_error ts i) as [t|] eqn:T; [|apply nth_error_None in T; lia]. destruct (nth_error ws i) as [c|] eqn:C; [|apply nth_error_None in C; lia]. destruct (H _ _ _ C T) as [B W].
    destruct (plain_starts num fs full kind zs d i (or_introl En)) as (w0 & E0 & S0). destruct (geo_wire_read int_ num geometries wiredata cndata kind len d d g ws zs v1 ty1 i c t (Some "overhead") w0 G C W (bare_lookup _ _ _ _ _ _ Nw Nc B) S0) as (w & Ew & R).
    eexists _, w. unfold wire_step. rewrite E0. cbn [bind]. rewrite Ew. cbn [bind]. split; [reflexivity|]. cbn [fst snd wv_data]. split; [split; [reflexivity|]|].
    + intros j t' J T'. assert (j = i) as -> by lia. rewrite T in T'. injection T' as <-. auto.
    + intros c' t' C' T'. congruence.
  - lia.
  - cbn [fst snd]. split; [reflexivity|]. intros j t J. discriminate J.
  - cbn [fst snd] in *. subst d'. exists v', ty, new. split; [exact E|]. split; [exact Ln|]. split; [intros p c t w C T W; exact (P _ _ W _ _ C T)|]. intros i t Li T. exact (I2 i t Li T).
Qed.
Lemma read_plainly int_ num source fuses reclosers linecodes wiredata cndata fs rs v full d n b1 b2 zs f k mr mx mc : watched_by fuses fs -> watched_by reclosers rs -> d "Switch" <> None -> d "enabled" <> None -> counts d = true -> reports_line int_ num [] full d n b1 b2 zs f k mr mx mc ->
  exists l, parse_line int_ num source linecodes [] wiredata cndata fs rs v full d = Ok (v, Some l) /\ reads_line int_ num source fuses reclosers d n b1 b2 zs f k mr mx mc l /\ snd (end_of int_ d "bus1") = zs.
Proof.
  intros Fs Rs P1 P2 C Rp. destruct (line_read int_ num source fuses reclosers linecodes [] wiredata cndata fs rs v full d n b1 b2 zs f k mr mx mc Fs Rs P1 P2 C Rp) as (l & E & R & _). exists l. split; [exact E|]. split; [exact R|].
  destruct (ri_bus1 _ _ _ _ _ _ _ _ _ _ _ _ _ _ Rp) as (t1 & ns1 & B1 & T1 & N1). destruct (end_read int_ d "bus1" t1 b1 ns1 B1 T1) as (_ & A1 & Z1); [intros X; destruct N1 as [(_ & S & _)|(X' & _)]; [exact S|congruence]|].
  destruct N1 as [(X & _ & ->)|(X & Y)]; auto.
Qed.

(** C103: a line with a geometry of bare wires has one wire for each conductor of the geometry, with its name, place, size,
    resistance and ratings; the rest of the line is as without a geometry. *)
Theorem C103_wires : forall int_ num source fuses reclosers linecodes geometries wiredata cndata fs rs v full d n b1 b2 zs f k mr mx mc g ws ts, NoDup (map fst wiredata) -> names_cables cndata ->
  watched_by fuses fs -> watched_by reclosers rs -> d "Switch" <> None -> d "enabled" <> None -> counts d = true -> reports_line int_ num [] full d n b1 b2 zs f k mr mx mc -> geometry int_ num geometries d g ws ->
  Forall2 (fun c t => bare wiredata cndata c t /\ wire_data num t) ws ts ->
  exists v' l l', parse_line int_ num source linecodes [] wiredata cndata fs rs v full d = Ok (v, Some l) /\ reads_line int_ num source fuses reclosers d n b1 b2 zs f k mr mx mc l /\
    parse_line int_ num source linecodes geometries wiredata cndata fs rs v full d = Ok (v', Some l') /\ same_line l l' /\ length (rn_wires l') = length ws /\
    (forall p c t w, nth_error ws p = Some c -> nth_error ts p = Some t -> nth_error (rn_wires l') p = Some w -> reads_geo num d g t zs (rn_kind l) (rn_length l) c p w) /\
    rn_type l' = Some "overhead".
Proof.
  intros int_ num source fuses reclosers linecodes geometries wiredata cndata fs rs v full d n b1 b2 zs f k mr mx mc g ws ts Nw Nc Fs Rs P1 P2 C Rp G F.
  destruct (read_plainly int_ num source fuses reclosers linecodes wiredata cndata fs rs v full d n b1 b2 zs f k mr mx mc Fs Rs P1 P2 C Rp) as (l & E & R & Z). pose proof (F2_length _ _ _ F) as Lt.
  destruct (bare_wires int_ num fs full (rn_kind l) (rn_length l) geometries wiredata cndata d g ws ts zs v Nw Nc P2 G) as (v' & ty & new & Ef & Ln & Hw & Hl); [lia| |].
  { intros p c t Hc Ht. destruct (F2_nth_l _ _ _ F _ _ Hc) as (t' & Ht' & X). rewrite Ht in Ht'. injection Ht' as <-. exact X. }
  exists v', l. eexists. split; [exact E|]. split; [exact R|]. rewrite (with_geometry int_ num source linecodes geometries wiredata cndata fs rs v full d v l g E (geometry_found _ _ _ _ _ _ G)).
  rewrite (conductors_found _ _ _ _ _ _ G). cbn [bind]. rewrite Nat2Z.id, Z, Lt.
  match goal with |- context [bind ?x _] => assert (HH : x = Ok (v', d, ty, new)) by exact Ef; rewrite HH; clear HH end. cbn [bind]. split; [reflexivity|]. split; [apply same_made|]. cbn [rn_wires rn_type]. split; [lia|]. split; [exact Hw|].
  destruct (ge_wires _ _ _ _ _ _ G) as (s & _ & S). destruct ts as [|t0 ts]; [destruct ws; [destruct (pieces_nonempty _ _ S)|discriminate Lt]|]. destruct (nth_error (t0 :: ts) (length ts)) as [t|] eqn:T; [|apply nth_error_None in T; cbn in T; lia]. exact (proj2 (Hl (length ts) t eq_refl T)).
Qed.
Print Assumptions C103_wires.

(** A wire whose data is not in the circuit gets that of the wire before it. *)
Theorem C103_carried_refuted : forall int_ num source fuses reclosers linecodes geometries wiredata cndata fs rs v full d n b1 b2 zs f k mr mx mc g ws c0 c1 ts t, NoDup (map fst wiredata) -> names_cables cndata ->
  watched_by fuses fs -> watched_by reclosers rs -> d "Switch" <> None -> d "enabled" <> None -> counts d = true -> reports_line int_ num [] full d n b1 b2 zs f k mr mx mc -> geometry int_ num geometries d g (ws ++ [c0; c1]) ->
  Forall2 (fun c t => bare wiredata cndata c t /\ wire_data num t) (ws ++ [c0]) (ts ++ [t]) -> unknown wiredata cndata c1 ->
  exists v' l w, parse_line int_ num source linecodes geometries wiredata cndata fs rs v full d = Ok (v', Some l) /\ nth_error (rn_wires l) (S (length ws)) = Some w /\
    reads_geo num d g t zs (rn_kind l) (rn_length l) c1 (S (length ws)) w.
Proof.
  intros int_ num source fuses reclosers linecodes geometries wiredata cndata fs rs v full d n b1 b2 zs f k mr mx mc g ws c0 c1 ts t Nw Nc Fs Rs P1 P2 C Rp G F U.
  destruct (read_plainly int_ num source fuses reclosers linecodes wiredata cndata fs rs v full d n b1 b2 zs f k mr mx mc Fs Rs P1 P2 C Rp) as (l & E & R & Z). pose proof (F2_length _ _ _ F) as Lt. rewrite !app_length in Lt. cbn [length] in Lt. assert (Lw : length ts = length ws) by lia.
  destruct (bare_wires int_ num fs full (rn_kind l) (rn_length l) geometries wiredata cndata d g (ws ++ [c0; c1]) (ts ++ [t]) zs v Nw Nc P2 G) as (v' & ty & new & Ef & Ln & _ & Hl); [rewrite !app_length; cbn; lia| |].
  { intros p c t' Hc Ht. assert (p < length (ts ++ [t])) by (apply nth_error_Some; congruence). rewrite app_length in H. cbn in H. assert (Hc' : nth_error (ws ++ [c0]) p = Some c). { change [c0; c1] with ([c0] ++ [c1]) in Hc. rewrite app_assoc, nth_error_app1 in Hc by (rewrite app_length; cbn; lia). exact Hc. }
    destruct (F2_nth_l _ _ _ F _ _ Hc') as (t2 & Ht' & X). rewrite Ht in Ht'. injection Ht' as <-. exact X. }
  destruct (Hl (length ts) t) as [Hv _]; [rewrite app_length; cbn; lia|now rewrite nth_error_app2, Nat.sub_diag by lia|].
  destruct (plain_starts num fs full (rn_kind l) zs d (S (length ws)) (or_introl P2)) as (w0 & E0 & S0).
  assert (N1 : nth_error (ws ++ [c0; c1]) (S (length ws)) = Some c1) by (rewrite nth_error_app2 by lia; now replace (S (length ws) - length ws) with 1 by lia).
  assert (Wt : wire_data num t). { destruct (F2_nth _ _ _ F (length ts) t) as (c & _ & [_ X]); [now rewrite nth_error_app2, Nat.sub_diag by lia|exact X]. }
  assert (Lk : wire_lookup wiredata cndata (wv_data v') ty (Some (lower c1)) = (Some (Some t), false, ty)) by (rewrite unknown_lookup by assumption; now rewrite Hv).
  destruct (geo_wire_read int_ num geometries wiredata cndata (rn_kind l) (rn_length l) d d g _ zs v' ty _ c1 t ty w0 G N1 Wt Lk S0) as (w & Ew & Rw).
  rewrite (with_geometry int_ num source linecodes geometries wiredata cndata fs rs v full d v l g E (geometry_found _ _ _ _ _ _ G)). rewrite (conductors_found _ _ _ _ _ _ G). cbn [bind]. rewrite Nat2Z.id, Z.
  replace (length (ws ++ [c0; c1])) with (length (ts ++ [t]) + 1) by (rewrite !app_length; cbn; lia). rewrite seq_app, foldM_app.
  match goal with |- context [foldM ?a (seq 0 ?b) ?c] => assert (HH : foldM a (seq 0 b) c = Ok (v', d, ty, new)) by exact Ef; rewrite HH; clear HH end. cbn [bind seq foldM plus].
  replace (length (ts ++ [t])) with (S (length ws)) by (rewrite app_length; cbn; lia). unfold wire_step at 1. rewrite E0. cbn [bind]. rewrite Ew. cbn [bind]. do 2 eexists. exists w. split; [reflexivity|]. cbn [rn_wires rn_kind rn_length].
  split; [|exact Rw]. rewrite nth_error_app2 by (rewrite Ln, app_length; cbn; lia). rewrite Ln, app_length. cbn [length]. now replace (S (length ws) - (length ts + 1)) with 0 by lia.
Qed.
Print Assumptions C103_carried_refuted.

(** When no line before had wire data, a first wire whose data is not in the circuit stops the reading. *)
Theorem C103_first_refuted : forall int_ num source fuses reclosers linecodes geometries wiredata cndata fs rs full d n b1 b2 zs f k mr mx mc g ws c0 ls, names_cables cndata -> watched_all fuses = Ok fs -> watched_all reclosers = Ok rs ->
  watched_by fuses fs -> watched_by reclosers rs -> d "Switch" <> None -> d "enabled" <> None -> counts d = true -> reports_line int_ num [] full d n b1 b2 zs f k mr mx mc -> geometry int_ num geometries d g (c0 :: ws) -> unknown wiredata cndata c0 ->
  parse_lines int_ num source fuses reclosers linecodes geometries wiredata cndata ((full, d) :: ls) = Err EName.
Proof.
  intros int_ num source fuses reclosers linecodes geometries wiredata cndata fs rs full d n b1 b2 zs f k mr mx mc g ws c0 ls Nc Ef Er Fs Rs P1 P2 C Rp G U.
  destruct (read_plainly int_ num source fuses reclosers linecodes wiredata cndata fs rs (mkWv None None) full d n b1 b2 zs f k mr mx mc Fs Rs P1 P2 C Rp) as (l & E & R & Z).
  unfold parse_lines. rewrite Ef, Er. cbn [bind parse_all_lines]. enough (parse_line int_ num source linecodes geometries wiredata cndata fs rs (mkWv None None) full d = Err EName) as -> by reflexivity.
  rewrite (with_geometry int_ num source linecodes geometries wiredata cndata fs rs _ full d _ l g E (geometry_found _ _ _ _ _ _ G)). rewrite (conductors_found _ _ _ _ _ _ G). cbn [bind]. rewrite Nat2Z.id. cbn [length seq foldM]. unfold wire_step at 1.
  destruct (plain_starts num fs full (rn_kind l) (snd (end_of int_ d "bus1")) d 0 (or_introl P2)) as (w0 & -> & _). cbn [bind]. unfold geo_wire. destruct (ge_places _ _ _ _ _ _ G 0) as [Px Py]; [cbn; lia|].
  destruct (place_read num g "x" 0 Px) as (u & x & Hu & X & _). destruct (place_read num g "h" 0 Py) as (u' & y & Hu' & Y & _). rewrite Hu in Hu'. injection Hu' as <-. rewrite Hu. cbn [bind]. rewrite X. cbn [bind]. rewrite Y. cbn [bind].
  destruct (code_found _ _ _ _ _ _ (mkWv None None) 0 c0 G eq_refl) as [-> _]. cbn [bind wv_data]. rewrite unknown_lookup by assumption. reflexivity.
Qed.
Print Assumptions C103_first_refuted.

Lemma cable_first int_ num source fuses reclosers linecodes geometries wiredata cndata fs rs v full d n b1 b2 zs f k mr mx mc g c0 ws t cs x : names_cables cndata ->
  watched_by fuses fs -> watched_by reclosers rs -> d "Switch" <> None -> d "enabled" <> None -> counts d = true -> reports_line int_ num [] full d n b1 b2 zs f k mr mx mc -> geometry int_ num geometries d g (c0 :: ws) ->
  cable cndata c0 t -> wire_data num t -> cndata = cs ++ [x] -> (forall y, In y cndata -> strands int_ num (snd y)) ->
  exists v' l w, parse_line int_ num source linecodes [] wiredata cndata fs rs v full d = Ok (v, Some l) /\ rn_kind l = kind_of fs rs (lower n) d /\ snd (end_of int_ d "bus1") = zs /\
    (parse_line int_ num source linecodes geometries wiredata cndata fs rs v full d =
      do st <- foldM (wire_step int_ num wiredata cndata fs full (rn_kind l) (rn_length l) (Some g) zs) (seq 1 (length ws)) (v', snd x, Some "underground", [w]);
      let '(v', _, ty, ws) := st in Ok (v', Some (mkRline (rn_name l) (rn_feeder l) (rn_class l) (rn_length l) (rn_from l) (rn_to l) (rn_kind l) (rn_fault l) (rn_Z l) (rn_C l) ty ws))) /\
    rw_class w = Some c0 /\ sized num g t (rn_length l) 0 w /\ rating num t d "normamps" (rw_amp w) /\ rating num t d "emergamps" (rw_emamp w) /\ neutral_of int_ num (snd x) w.
Proof.
  intros Nc Fs Rs P1 P2 C Rp G Ca Wt Ex St.
  destruct (read_plainly int_ num source fuses reclosers linecodes wiredata cndata fs rs v full d n b1 b2 zs f k mr mx mc Fs Rs P1 P2 C Rp) as (l & E & R & Z).
  destruct (plain_starts num fs full (rn_kind l) zs d 0 (or_introl P2)) as (w0 & E0 & S0).
  destruct (geo_cable_read int_ num geometries wiredata cndata (rn_kind l) (rn_length l) d d g (c0 :: ws) zs v None 0 c0 t cs x w0 G eq_refl Wt Nc Ca Ex St S0) as (w & Ew & Rest).
  exists (mkWv (Some (Some (lower c0))) (Some (Some t))), l, w. split; [exact E|]. split.
  { clear - E Rp. unfold parse_line in E. destruct (d "Switch") as [sw|]; [|discriminate]. cbn [of_opt bind] in *. match type of E with (do x <- ?y; _) = _ => destruct y as [on|]; [|discriminate] end. cbn [bind] in *. destruct (negb on); [discriminate|].
    rewrite (ri_name _ _ _ _ _ _ _ _ _ _ _ _ _ _ Rp), line_piece in E by exact (ri_plain _ _ _ _ _ _ _ _ _ _ _ _ _ _ Rp). cbn [of_opt bind] in *. destruct (code_of linecodes d) as [code|]; [|discriminate]. cbn [bind] in *. destruct (unit_of d _) as [u|]; [|discriminate]. cbn [bind] in *.
    destruct (end_of int_ d "bus1") as [from zs']. destruct (check_ends int_ d); [|discriminate]. cbn [bind] in *. destruct (imped_of _ _ _ _) as [z|]; [|discriminate]. cbn [bind] in *. destruct (cap_of _ _ _ _) as [c|]; [|discriminate]. cbn [bind] in *.
    destruct (conductors int_ d (geometry_of [] d)) as [k0|]; [|discriminate]. cbn [bind] in E. match type of E with (do x <- ?y; _) = _ => destruct y as [[[[v1 d1] ty1] ws1]|]; [|discriminate] end. cbn [bind] in E. injection E as _ <-. reflexivity. }
  split; [exact Z|]. split; [|exact Rest].
  rewrite (with_geometry int_ num source linecodes geometries wiredata cndata fs rs _ full d _ l g E (geometry_found _ _ _ _ _ _ G)). rewrite (conductors_found _ _ _ _ _ _ G). cbn [bind]. rewrite Nat2Z.id, Z. cbn [length seq foldM]. unfold wire_step at 1. rewrite E0. cbn [bind]. rewrite Ew. reflexivity.
Qed.

(** A line whose only wire is a cable has a wire with its name, place, size and resistance; when it is the only cable of the circuit,
    then with its concentric neutral as well (but for the resistance of the neutral, see below). *)
Theorem C103_cable : forall int_ num source fuses reclosers linecodes geometries wiredata cndata fs rs v full d n b1 b2 zs f k mr mx mc g c0 t cs x, names_cables cndata ->
  watched_by fuses fs -> watched_by reclosers rs -> d "Switch" <> None -> d "enabled" <> None -> counts d = true -> reports_line int_ num [] full d n b1 b2 zs f k mr mx mc -> geometry int_ num geometries d g [c0] ->
  cable cndata c0 t -> wire_data num t -> cndata = cs ++ [x] -> (forall y, In y cndata -> strands int_ num (snd y)) ->
  exists v' l w, parse_line int_ num source linecodes geometries wiredata cndata fs rs v full d = Ok (v', Some l) /\ rn_type l = Some "underground" /\ rn_wires l = [w] /\
    rw_class w = Some c0 /\ sized num g t (rn_length l) 0 w /\ rating num t d "normamps" (rw_amp w) /\ rating num t d "emergamps" (rw_emamp w) /\ (cs = [] -> neutral_of int_ num t w) /\ neutral_of int_ num (snd x) w.
Proof.
  intros int_ num source fuses reclosers linecodes geometries wiredata cndata fs rs v full d n b1 b2 zs f k mr mx mc g c0 t cs x Nc Fs Rs P1 P2 C Rp G Ca Wt Ex St.
  destruct (cable_first int_ num source fuses reclosers linecodes geometries wiredata cndata fs rs v full d n b1 b2 zs f k mr mx mc g c0 [] t cs x Nc Fs Rs P1 P2 C Rp G Ca Wt Ex St) as (v' & l & w & E & _ & _ & Ep & A1 & A2 & A3 & A4 & A5).
  exists v'. eexists. exists w. rewrite Ep. cbn [length seq foldM bind]. split; [reflexivity|]. cbn [rn_type rn_wires rn_length]. repeat (split; [solve [reflexivity|assumption]|]). split; [|exact A5]. intros ->. rewrite Ex in Ca. destruct Ca as [Ca|[]]. subst x. exact A5.
Qed.
Print Assumptions C103_cable.

(** A cable gets the concentric neutral of the last cable of the circuit: with another number of strands, it has that number. *)
Theorem C103_neutral_refuted : forall int_ num source fuses reclosers linecodes geometries wiredata cndata fs rs v full d n b1 b2 zs f k mr mx mc g c0 t cs x z z', names_cables cndata ->
  watched_by fuses fs -> watched_by reclosers rs -> d "Switch" <> None -> d "enabled" <> None -> counts d = true -> reports_line int_ num [] full d n b1 b2 zs f k mr mx mc -> geometry int_ num geometries d g [c0] ->
  cable cndata c0 t -> wire_data num t -> cndata = cs ++ [x] -> (forall y, In y cndata -> strands int_ num (snd y)) -> whole int_ t "k" z -> whole int_ (snd x) "k" z' -> z <> z' ->
  exists v' l w, parse_line int_ num source linecodes geometries wiredata cndata fs rs v full d = Ok (v', Some l) /\ rn_wires l = [w] /\ ~ neutral_of int_ num t w.
Proof.
  intros int_ num source fuses reclosers linecodes geometries wiredata cndata fs rs v full d n b1 b2 zs f k mr mx mc g c0 t cs x z z' Nc Fs Rs P1 P2 C Rp G Ca Wt Ex St Kz Kz' Nz.
  destruct (C103_cable int_ num source fuses reclosers linecodes geometries wiredata cndata fs rs v full d n b1 b2 zs f k mr mx mc g c0 t cs x Nc Fs Rs P1 P2 C Rp G Ca Wt Ex St) as (v' & l & w & E & _ & W & _ & _ & _ & _ & _ & N). exists v', l, w. split; [exact E|]. split; [exact W|].
  intros (g1 & r1 & a1 & b1' & c1 & k1 & X1 & _ & _ & _ & _ & K1 & _). destruct N as (g2 & r2 & a2 & b2' & c2 & k2 & X2 & _ & _ & _ & _ & K2 & _). rewrite X1 in X2. injection X2 as _ _ _ _ _ Ek. rewrite (K1 _ Kz), (K2 _ Kz') in Ek. congruence.
Qed.
Print Assumptions C103_neutral_refuted.

(** The resistance of a concentric neutral, which is per length, is multiplied by the unit of length. *)
Theorem C103_resistance_refuted : forall int_ num source fuses reclosers linecodes geometries wiredata cndata fs rs v full d n b1 b2 zs f k mr mx mc g c0 t q u, names_cables cndata ->
  watched_by fuses fs -> watched_by reclosers rs -> d "Switch" <> None -> d "enabled" <> None -> counts d = true -> reports_line int_ num [] full d n b1 b2 zs f k mr mx mc -> geometry int_ num geometries d g [c0] ->
  cable cndata c0 t -> wire_data num t -> length cndata = 1 -> strands int_ num t -> measured num t "Rstrand" "Runits" q u -> ~ (q == 0)%Q -> ~ (u * u == 1)%Q ->
  exists v' l w gm r a b c z, parse_line int_ num source linecodes geometries wiredata cndata fs rs v full d = Ok (v', Some l) /\ rn_wires l = [w] /\ rw_cn w = Some (gm, Some r, a, b, c, z) /\ (r == q * u)%Q /\ ~ (r * u == q)%Q.
Proof.
  intros int_ num source fuses reclosers linecodes geometries wiredata cndata fs rs v full d n b1 b2 zs f k mr mx mc g c0 t q u Nc Fs Rs P1 P2 C Rp G Ca Wt Ln St M Nq Nu.
  destruct cndata as [|x [|y r]]; try discriminate Ln. pose proof Ca as Ca'. destruct Ca' as [Ca'|[]]. subst x.
  destruct (C103_cable int_ num source fuses reclosers linecodes geometries wiredata [(("CNData." ++ lower c0)%string, t)] fs rs v full d n b1 b2 zs f k mr mx mc g c0 t [] _ Nc Fs Rs P1 P2 C Rp G Ca Wt eq_refl) as (v' & l & w & E & _ & W & _ & _ & _ & _ & N & _); [intros y [<-|[]]; exact St|].
  destruct (N eq_refl) as (g1 & r1 & a1 & b1' & c1 & k1 & X1 & _ & _ & _ & _ & _ & K1). destruct (K1 q u M) as (r & -> & V). exists v', l, w, g1, r, a1, b1', c1, k1. split; [exact E|]. split; [exact W|]. split; [exact X1|]. split; [exact V|].
  rewrite V. intros Y. apply Nu. apply (Qmult_inj_l _ _ q Nq). rewrite Qmult_1_r, Qmult_assoc. exact Y.
Qed.
Print Assumptions C103_resistance_refuted.

(** A switch with more than one wire of which the first is a cable stops the reading. *)
Theorem C103_cable_switch_refuted : forall int_ num source fuses reclosers linecodes geometries wiredata cndata fs rs v full d n b1 b2 zs f k mr mx mc g c0 c1 ws t cs x, names_cables cndata ->
  watched_by fuses fs -> watched_by reclosers rs -> yes d "Switch" -> d "enabled" <> None -> unremarkable fuses reclosers n -> reports_line int_ num [] full d n b1 b2 zs f k mr mx mc -> geometry int_ num geometries d g (c0 :: c1 :: ws) ->
  cable cndata c0 t -> wire_data num t -> cndata = cs ++ [x] -> (forall y, In y cndata -> strands int_ num (snd y)) -> snd x "enabled" = None ->
  parse_line int_ num source linecodes geometries wiredata cndata fs rs v full d = Err EKey.
Proof.
  intros int_ num source fuses reclosers linecodes geometries wiredata cndata fs rs v full d n b1 b2 zs f k mr mx mc g c0 c1 ws t cs x Nc Fs Rs Sw P2 Un Rp G Ca Wt Ex St Xe.
  assert (P1 : d "Switch" <> None) by (unfold yes in Sw; congruence). assert (C : counts d = true) by (unfold counts; now rewrite Sw).
  destruct (cable_first int_ num source fuses reclosers linecodes geometries wiredata cndata fs rs v full d n b1 b2 zs f k mr mx mc g c0 (c1 :: ws) t cs x Nc Fs Rs P1 P2 C Rp G Ca Wt Ex St) as (v' & l & w & E & Kd & _ & -> & _).
  assert (rn_kind l = Some KSwitch) as ->. { rewrite Kd. destruct Un as (U1 & U2 & U3). unfold kind_of. assert (smem (lower n) fs = false) as ->. { apply smem_not_In. intros I. apply Fs in I as (y & I & W). exact (U1 y (or_introl I) W). }
    assert (smem (lower n) rs = false) as ->. { apply smem_not_In. intros I. apply Rs in I as (y & I & W). exact (U1 y (or_intror I) W). }
    apply within_not in U2; [|discriminate]. apply within_not in U3; [|discriminate]. rewrite U2, U3, Sw. reflexivity. }
  cbn [length seq foldM]. unfold wire_step at 1, plain_wire. cbn [kind_is]. rewrite Xe. reflexivity.
Qed.
Print Assumptions C103_cable_switch_refuted.

(** Wire data whose unit of resistance is not a unit of length, as when it is not given, stops the reading. *)
Theorem C103_units_refuted : forall int_ num source fuses reclosers linecodes geometries wiredata cndata fs rs v full d n b1 b2 zs f k mr mx mc g c0 ws t q u, NoDup (map fst wiredata) -> names_cables cndata ->
  watched_by fuses fs -> watched_by reclosers rs -> d "Switch" <> None -> d "enabled" <> None -> counts d = true -> reports_line int_ num [] full d n b1 b2 zs f k mr mx mc -> geometry int_ num geometries d g (c0 :: ws) ->
  bare wiredata cndata c0 t -> (exists s, t "radunits" = Some (PText s)) -> (exists s, t "GMRunits" = Some (PText s)) -> qnumber num t "Rac" q -> t "Runits" = Some (PText u) -> (forall x, ~ unit_worth u x) ->
  parse_line int_ num source linecodes geometries wiredata cndata fs rs v full d = Err EType.
Proof.
  intros int_ num source fuses reclosers linecodes geometries wiredata cndata fs rs v full d n b1 b2 zs f k mr mx mc g c0 ws t q u Nw Nc Fs Rs P1 P2 C Rp G B (s1 & D1) (s2 & D2) Rq Ru Nu.
  destruct (read_plainly int_ num source fuses reclosers linecodes wiredata cndata fs rs v full d n b1 b2 zs f k mr mx mc Fs Rs P1 P2 C Rp) as (l & E & R & Z). destruct (rs_length _ _ _ _ _ _ _ _ _ _ _ _ _ _ _ _ R) as (ql & len & _ & Hl & _).
  rewrite (with_geometry int_ num source linecodes geometries wiredata cndata fs rs _ full d _ l g E (geometry_found _ _ _ _ _ _ G)). rewrite (conductors_found _ _ _ _ _ _ G). cbn [bind]. rewrite Nat2Z.id, Hl. cbn [length seq foldM]. unfold wire_step at 1.
  destruct (plain_starts num fs full (rn_kind l) (snd (end_of int_ d "bus1")) d 0 (or_introl P2)) as (w0 & -> & _). cbn [bind]. unfold geo_wire. destruct (ge_places _ _ _ _ _ _ G 0) as [Px Py]; [cbn; lia|].
  destruct (place_read num g "x" 0 Px) as (u' & x & Hu & X & _). destruct (place_read num g "h" 0 Py) as (u2 & y & Hu' & Y & _). rewrite Hu in Hu'. injection Hu' as <-. rewrite Hu. cbn [bind]. rewrite X. cbn [bind]. rewrite Y. cbn [bind].
  destruct (code_found _ _ _ _ _ _ v 0 c0 G eq_refl) as [-> _]. cbn [bind]. rewrite (bare_lookup _ _ _ _ _ t) by assumption. cbn [of_opt bind]. unfold wire_values, text_must. rewrite D1, D2. cbn [of_opt bind]. rewrite (qfloat_number _ _ _ _ Rq), Ru. cbn [of_opt bind].
  assert (per_meter (Some q) u = None) as ->; [|reflexivity]. unfold per_meter. apply to_meters_none_iff. right. right. right. exists u. auto.
Qed.
Print Assumptions C103_units_refuted.

(** ** Cases that meet the hypotheses *)
Definition ex_g (ws n : string) : data := lists [("wires", [ws]); ("x", ["-1/1"; "3/2"]); ("h", ["28/1"; "29/1"]); ("units", ["ft"; "m"])] (tbl [("nconds", n)]).
Definition ex_gl (sw g : string) : data := ex_rd ex_mats [("Switch", sw); ("enabled", "Yes"); ("linecode", ""); ("units", "kft"); ("length", "2/1"); ("bus1", "b1.3.1"); ("bus2", "b2.3.1"); ("phases", "2"); ("faultrate", "1/10"); ("normamps", "400/1"); ("geometry", g)].
Definition ex_wire (u amps : string) : data := tbl [("diam", "1/2"); ("radunits", "in"); ("GMRac", "1/5"); ("GMRunits", "In"); ("Rac", "3/10"); ("Runits", u); ("normamps", amps)].
Definition ex_cable (n : string) : data := tbl [("diam", "1/2"); ("radunits", "in"); ("GMRac", "1/5"); ("GMRunits", "in"); ("Rac", "3/10"); ("Runits", "mi"); ("GmrStrand", "1/50"); ("Rstrand", "15/1"); ("DiaStrand", "1/16"); ("DiaCable", "1/1"); ("InsLayer", "1/5"); ("k", n)].
Definition ex_wiredata : list (string * data) := [("wiredata.acsr", ex_wire "mi" "300/1"); ("wiredata.none", ex_wire "none" "0/1"); ("wiredata.cu", ex_wire "kft" "-1/1")].
Definition ex_cndata : list (string * data) := [("CNData.c13", ex_cable "13"); ("CNData.c20", ex_cable "20")].
Definition ex_geos : list (string * data) := [("linegeometry.g2", ex_g "ACSR cu" "2"); ("linegeometry.g3", ex_g "ACSR lost" "2"); ("linegeometry.g4", ex_g "lost" "1"); ("linegeometry.g5", ex_g "c13" "1"); ("linegeometry.g6", ex_g "c13 cu" "2"); ("linegeometry.g7", ex_g "none" "1")].
Lemma gl_reports sw g : reports_line DssStoreModel.read_int DssTextProps.num_q [] "Line.L1" (ex_gl sw g) "L1" "b1" "b2" [3; 1]%Z (304 + 8 / 10)%Q 2 [[1 # 10]; [1 # 50; 1 # 10]] [[3 # 10]; [1 # 25; 3 # 10]] [[10%Q]; [(-2)%Q; 10%Q]].
Proof.
  destruct l1_reports as [A1 A2 _ A4 A5 A6 A7 A8 A9 A10 A11 A12 A13 _]. constructor; auto; [right; now exists ""|]. right. exists g. split; [reflexivity|]. right. intros x [].
Qed.
Ltac ft_worth := apply unit_worth_lower; cbn; tauto.
Ltac place p := (eexists _, _; split; [eexists _, _; split; [reflexivity|]; split; [reflexivity|]; reflexivity|eexists _, _; split; [reflexivity|]; split; [reflexivity|]]; ft_worth).
Ltac geo n s := constructor; [exists n; split; [reflexivity|]; split; [discriminate|]; cbn; tauto|repeat constructor; cbn; intuition discriminate|eexists; split; reflexivity|exists s; split; reflexivity|repeat constructor; discriminate|].
Lemma g2_geometry sw : geometry DssStoreModel.read_int DssTextProps.num_q ex_geos (ex_gl sw "G2") (ex_g "ACSR cu" "2") ["ACSR"; "cu"].
Proof. geo "G2" "ACSR cu". intros [|[|p]] L; [split; place 0|split; place 1|cbn in L; lia]. Qed.
Lemma g3_geometry sw : geometry DssStoreModel.read_int DssTextProps.num_q ex_geos (ex_gl sw "G3") (ex_g "ACSR lost" "2") ["ACSR"; "lost"].
Proof. geo "G3" "ACSR lost". intros [|[|p]] L; [split; place 0|split; place 1|cbn in L; lia]. Qed.
Lemma g4_geometry sw : geometry DssStoreModel.read_int DssTextProps.num_q ex_geos (ex_gl sw "G4") (ex_g "lost" "1") ["lost"].
Proof. geo "G4" "lost". intros [|p] L; [split; place 0|cbn in L; lia]. Qed.
Lemma g5_geometry sw : geometry DssStoreModel.read_int DssTextProps.num_q ex_geos (ex_gl sw "G5") (ex_g "c13" "1") ["c13"].
Proof. geo "G5" "c13". intros [|p] L; [split; place 0|cbn in L; lia]. Qed.
Lemma g6_geometry sw : geometry DssStoreModel.read_int DssTextProps.num_q ex_geos (ex_gl sw "G6") (ex_g "c13 cu" "2") ["c13"; "cu"].
Proof. geo "G6" "c13 cu". intros [|[|p]] L; [split; place 0|split; place 1|cbn in L; lia]. Qed.
Lemma g7_geometry sw : geometry DssStoreModel.read_int DssTextProps.num_q ex_geos (ex_gl sw "G7") (ex_g "none" "1") ["none"].
Proof. geo "G7" "none". intros [|p] L; [split; place 0|cbn in L; lia]. Qed.
Ltac meas := (eexists _, _; split; [eexists; split; reflexivity|eexists; split; [reflexivity|ft_worth]]).
Lemma ex_wire_data u a f : unit_worth u f -> wire_data DssTextProps.num_q (ex_wire u a).
Proof. intros W. constructor; [meas|meas|]. eexists _, f. split; [eexists; split; reflexivity|]. exists u. split; [reflexivity|exact W]. Qed.
Lemma ex_cable_data n : wire_data DssTextProps.num_q (ex_cable n).
Proof. constructor; meas. Qed.
Lemma ex_strands n z : DssStoreModel.read_int n = Some z -> strands DssStoreModel.read_int DssTextProps.num_q (ex_cable n).
Proof. intros E. constructor; try meas. exists z, n. split; [reflexivity|exact E]. Qed.
Lemma ex_watch : watched_by ([] : list (string * data)) [].
Proof. intros m. split; [intros []|intros (x & [] & _)]. Qed.
Lemma ex_names : NoDup (map fst ex_wiredata) /\ names_cables ex_cndata.
Proof.
  split; [repeat constructor; cbn; intuition discriminate|]. split; [repeat constructor; cbn; intuition discriminate|]. intros x [<-|[<-|[]]]; [exists "c13"|exists "c20"]; (split; [reflexivity|]; cbn; intuition discriminate).
Qed.
Example C103_hypotheses_met : NoDup (map fst ex_wiredata) /\ names_cables ex_cndata /\ counts (ex_gl "No" "G2") = true /\ geometry DssStoreModel.read_int DssTextProps.num_q ex_geos (ex_gl "No" "G2") (ex_g "ACSR cu" "2") ["ACSR"; "cu"] /\
  Forall2 (fun c t => bare ex_wiredata ex_cndata c t /\ wire_data DssTextProps.num_q t) ["ACSR"; "cu"] [ex_wire "mi" "300/1"; ex_wire "kft" "-1/1"] /\
  match parse_lines DssStoreModel.read_int DssTextProps.num_q "src" [] [] [] ex_geos ex_wiredata ex_cndata [("Line.L1", ex_gl "No" "G2")] with
  | Ok [l] => map rw_amp (rn_wires l) = [Some (300 # 1); Some (400 # 1)] /\ map rw_class (rn_wires l) = [Some "ACSR"; Some "cu"] /\ map rw_node (rn_wires l) = [Some "C"; Some "A"]
  | _ => False
  end.
Proof.
  split; [exact (proj1 ex_names)|]. split; [exact (proj2 ex_names)|]. split; [reflexivity|]. split; [apply g2_geometry|]. split.
  - apply Forall2_cons; [|apply Forall2_cons; [|apply Forall2_nil]]; (split; [split; [cbn; tauto|intros x [<-|[<-|[]]]; discriminate]|]).
    + apply (ex_wire_data _ _ (1609 + 34 / 100)%Q). ft_worth.
    + apply (ex_wire_data _ _ (304 + 8 / 10)%Q). ft_worth.
  - vm_compute. repeat split.
Qed.
Example C103_refuted_met : (geometry DssStoreModel.read_int DssTextProps.num_q ex_geos (ex_gl "No" "G3") (ex_g "ACSR lost" "2") ([] ++ ["ACSR"; "lost"]) /\ unknown ex_wiredata ex_cndata "lost" /\
    Forall2 (fun c t => bare ex_wiredata ex_cndata c t /\ wire_data DssTextProps.num_q t) ([] ++ ["ACSR"]) ([] ++ [ex_wire "mi" "300/1"])) /\
  (geometry DssStoreModel.read_int DssTextProps.num_q ex_geos (ex_gl "No" "G4") (ex_g "lost" "1") ["lost"]) /\
  (geometry DssStoreModel.read_int DssTextProps.num_q ex_geos (ex_gl "No" "G5") (ex_g "c13" "1") ["c13"] /\ cable ex_cndata "c13" (ex_cable "13") /\ wire_data DssTextProps.num_q (ex_cable "13") /\
    ex_cndata = [("CNData.c13", ex_cable "13")] ++ [("CNData.c20", ex_cable "20")] /\ (forall y, In y ex_cndata -> strands DssStoreModel.read_int DssTextProps.num_q (snd y)) /\ whole DssStoreModel.read_int (ex_cable "13") "k" 13 /\ whole DssStoreModel.read_int (ex_cable "20") "k" 20 /\
    measured DssTextProps.num_q (ex_cable "13") "Rstrand" "Runits" 15 (1609 + 34 / 100)) /\
  (geometry DssStoreModel.read_int DssTextProps.num_q ex_geos (ex_gl "Yes" "G6") (ex_g "c13 cu" "2") ["c13"; "cu"] /\ yes (ex_gl "Yes" "G6") "Switch" /\ unremarkable [] [] "L1" /\ ex_cable "20" "enabled" = None) /\
  (geometry DssStoreModel.read_int DssTextProps.num_q ex_geos (ex_gl "No" "G7") (ex_g "none" "1") ["none"] /\ bare ex_wiredata ex_cndata "none" (ex_wire "none" "0/1") /\ qnumber DssTextProps.num_q (ex_wire "none" "0/1") "Rac" (3 # 10) /\ forall x, ~ unit_worth "none" x).
Proof.
  split; [|split; [apply g4_geometry|split; [|split]]].
  - split; [apply g3_geometry|]. split; [split; [intros x [<-|[<-|[<-|[]]]]; discriminate|intros x [<-|[<-|[]]]; discriminate]|]. constructor; [|constructor]. split; [split; [cbn; tauto|intros x [<-|[<-|[]]]; discriminate]|]. apply (ex_wire_data _ _ (1609 + 34 / 100)%Q). ft_worth.
  - split; [apply g5_geometry|]. split; [cbn; unfold cable; tauto|]. split; [apply ex_cable_data|]. split; [reflexivity|]. split; [intros y [<-|[<-|[]]]; eapply ex_strands; reflexivity|]. split; [eexists; split; reflexivity|]. split; [eexists; split; reflexivity|]. split; [eexists; split; reflexivity|]. eexists. split; [reflexivity|ft_worth].
  - split; [apply g6_geometry|]. split; [reflexivity|]. split; [|reflexivity]. split; [intros x [[]|[]]|]. split; cbn; intuition discriminate.
  - split; [apply g7_geometry|]. split; [split; [cbn; tauto|intros x [<-|[<-|[]]]; discriminate]|]. split; [eexists; split; reflexivity|]. intros x X. apply unit_worth_lower in X. cbn in X. intuition discriminate.
Qed.
