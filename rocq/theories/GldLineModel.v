(** The lines of the GridLAB-D reader.
    Models ditto/readers/gridlabd/read.py 316-407 (compute_secondary_matrix), 1494-1637 (overhead lines),
    1639-1745 (triplex lines) and 1747-2087 (underground lines); compute_spacing is SpacingModel, compute_matrix ImpedModel.

    Simplifications:
    - Floats are real numbers; [num] is Python's float() of a string.
    - Wire objects are positions in a list ([heap]), because two lines can share them: a line without a configuration
      uses the local variables [config] and [conductors] as the last line left them, and [api_wire] and [conn2] are also
      kept from object to object.  Fuses and switches, which set [api_wire] too, are in other models; the functions here
      take any state.
    - The trait impedance_matrix accepts numbers only: assigning strings raises TraitError, here EType.
    - wires is an empty list until it is set; insulation_thickness has the default value 0. *)
From Coq Require Import Reals.
From Verif Require Import Base TextModel GlmModel GldModel MatrixModel ImpedModel SpacingModel.
Local Open Scope string_scope.
Local Open Scope list_scope.
Local Open Scope R_scope.

Notation C := ImpedModel.C.
Record wire := mkWire {
  w_phase : string; w_diam : option R; w_gmr : option R; w_res : option R; w_amp : option R; w_emerg : option R;
  w_ins : option R; w_cgmr : option R; w_cres : option R; w_x : option R; w_y : option R }.
(** [Wire(model)] with a phase *)
Definition new_wire (ph : string) : wire := mkWire ph None None None None None (Some 0) None None None None.
Definition set_xy (w : wire) (p : R * R) : wire :=
  mkWire (w_phase w) (w_diam w) (w_gmr w) (w_res w) (w_amp w) (w_emerg w) (w_ins w) (w_cgmr w) (w_cres w) (Some (fst p)) (Some (snd p)).
(** the attributes that compute_matrix reads *)
Definition plain (w : wire) : ImpedModel.wire := ImpedModel.mkWire (Some (w_phase w)) (w_res w) (w_gmr w) (w_x w) (w_y w).

Record line := mkLine {
  l_type : option string; l_name : option string; l_len : option R; l_from : option string; l_to : option string;
  l_z : cmat; l_wires : list nat }.
Record state := mkState { heap : list wire; cur : option (obj * list nat); conn2 : option string; api_wire : option nat }.
Definition load_w (h : list wire) (i : nat) : wire := nth i h (new_wire "").
(** change some of the wires *)
Fixpoint update (h : list wire) (i : nat) (f : wire -> wire) : list wire :=
  match h, i with
  | [], _ => []
  | w :: r, O => f w :: r
  | w :: r, S k => w :: update r k f
  end.
Definition update_all (h : list wire) (is_ : list nat) (f : wire -> wire) : list wire := fold_left (fun h i => update h i f) is_ h.

Definition inch : R := / 39.3701.
Definition feet : R := / 3.28084.
Definition mile : R := / 1609.34.
Definition scale (k : R) (x : option R) : option R := option_map (fun v => v * k) x.
Definition cscale (k : R) (z : C) : C := (fst z * k, snd z * k).

(** ** compute_secondary_matrix: 316-407 *)
(** 327-332 *)
Fixpoint cable (ws : list wire) : option (R * R) :=
  match ws with
  | [] => None
  | w :: r => match w_diam w, w_ins w with Some d, Some t => Some ((d + 2 * t) / 12, (d + t) / 12) | _, _ => cable r end
  end.
(** 320 *)
Definition wire_map2 (p : string) : option nat := dget [("A", 0%nat); ("B", 1%nat); ("N", 2%nat)] p.
(** 334-398: one entry *)
Definition secondary_cell (freq rho : R) (ws : list wire) (i : nat) (m : cmat) (j : nat) : res cmat :=
  do w <- of_opt EIndex (nth_error ws i);
  do w' <- of_opt EIndex (nth_error ws j);
  if Nat.eqb i j then
    do z <- self_z freq rho (plain w);
    do a <- of_opt EKey (wire_map2 (w_phase w));
    set2 m a a (cscale mile z)
  else
    match cable ws with
    | Some (d12, d1n) =>
      do l <- log_term freq rho (if (String.eqb (w_phase w) "N" || String.eqb (w_phase w') "N")%bool then d1n else d12);
      do a <- of_opt EKey (wire_map2 (w_phase w));
      do b <- of_opt EKey (wire_map2 (w_phase w'));
      set2 m a b (cscale mile (158836 / 100000000 * freq, 202237 / 100000000 * freq * l))
    | None => Ok m
    end.
Definition compute_secondary_matrix (ws : list wire) (freq rho : R) : res cmat :=
  do m <- foldM (fun m i => foldM (secondary_cell freq rho ws i) (seq 0 (length ws)) m)
            (seq 0 (length ws)) (tabulate 3 3 (fun _ _ => c0));
  mapM (fun i => mapM (fun j =>
    do q <- cdiv (cmul (centry m i 2) c1) (centry m 2 2);
    Ok (csub (centry m i j) (cmul q (centry m 2 j)))) (seq 0 2)) (seq 0 2).

(** ** Positions of underground conductors: 1864-2028 *)
Definition pairs4 : list (nat * nat) := [(0, 1); (0, 2); (0, 3); (1, 2); (1, 3); (2, 3)]%nat.
Definition indices4 : list (nat * nat) := list_prod [0; 1; 2; 3]%nat [0; 1; 2; 3]%nat.
Definition letter (i : nat) : string := nth i ["A"; "B"; "C"; "N"] "".
(** 1872-1883 *)
Definition distances1 (sp : spacing) (m : mat) (p : nat * nat) : mat :=
  let '(i, j) := p in
  match sp i j with
  | None => m
  | Some d => upd (upd (upd (upd m i j d) j i d) i i 0) j j 0
  end.
Definition distances (sp : spacing) : mat := fold_left (distances1 sp) pairs4 (fun _ _ => -1).
(** Python's index -1 is the last row; the phase of index -1 is "N". *)
Definition at4 (o : option nat) : nat := match o with Some i => i | None => 3%nat end.

(** 1902-1905, 1966-1969, 2023-2026 *)
Definition in_a_row (cs : list string) : list (R * R) := map (fun k => (5 / 10 * INR k, -6)) (seq 0 (length cs)).

Section Under.
Variable D : mat.
(** 1884-1894 *)
Definition n_known : nat := Nat.sqrt (length (filter (known D) indices4)).
Definition last_known : nat * nat :=
  fold_left (fun r (p : nat * nat) => if known D p then if Req_EM_T (D (fst p) (snd p)) 0 then r else p else r) indices4 (0, 0)%nat.
(** 1895-1905 *)
Definition under2 (cs : list string) : list (R * R) :=
  let d := D (fst last_known) (snd last_known) in
  if Req_EM_T d 0 then in_a_row cs
  else match cs with [] => [] | _ :: r => (0, -6) :: map (fun _ => (d, -6)) r end.
(** 1917-1925: sum, maximum and where it is *)
Definition longest1 (st : R * R * option nat * option nat) (p : nat * nat) : R * R * option nat * option nat :=
  let '(tot, mx, f, t) := st in
  if known D p then
    let d := D (fst p) (snd p) in
    if Rlt_dec mx d then (tot + d, d, Some (fst p), Some (snd p)) else (tot + d, mx, f, t)
  else st.
(** 1927-1933 *)
Definition middle (f t : option nat) : option nat :=
  fold_left (fun r i => if (negb (is_at f i) && negb (is_at t i) && known D (i, at4 f))%bool then Some i else r) [0; 1; 2; 3]%nat None.
(** 1910-1969 *)
Definition under3 (cs : list string) : res (list (R * R)) :=
  let '(tot, mx, f, t) := fold_left longest1 pairs4 (0, -1, None, None) in
  let s := tot / 2 in
  let area := fold_left (fun a (p : nat * nat) => if known D p then a * (s - D (fst p) (snd p)) else a) [(0, 1); (0, 2); (1, 2)]%nat s in
  do r <- psqrt area;
  do h <- pdiv (r * 2) mx;
  mapM (fun c =>
    if String.eqb c (letter (at4 f)) then Ok (0, -6)
    else if String.eqb c (letter (at4 t)) then Ok (mx, -6)
    else do x <- psqrt (D (at4 (middle f t)) (at4 f) ^ 2 - h ^ 2); Ok (x, -6 + h)) cs.
(** 1974-1985 *)
Definition longest4 (st : R * option nat * option nat) (p : nat * nat) : R * option nat * option nat :=
  let '(mx, f, t) := st in if Rlt_dec mx (D (fst p) (snd p)) then (D (fst p) (snd p), Some (fst p), Some (snd p)) else st.
(** 1987-2021; [seen] is first_x, first_y, first_i *)
Fixpoint under4_wires (mx : R) (f t : option nat) (seen : option (R * R * nat)) (cs : list string) : res (list (R * R)) :=
  match cs with
  | [] => Ok []
  | c :: r =>
    do i <- of_opt EKey (rev_lookup c);
    if (negb (is_at t i) && negb (is_at f i))%bool then
      let a := D i (at4 f) in
      let b := D i (at4 t) in
      let s := (mx + b + a) / 2 in
      do q <- psqrt (s * (s - mx) * (s - b) * (s - a));
      do h <- pdiv (q * 2) mx;
      do x <- psqrt (a ^ 2 - h ^ 2);
      match seen with
      | None => do l <- under4_wires mx f t (Some (x, -6 + h, i)) r; Ok ((x, -6 + h) :: l)
      | Some (fx, fy, fi) =>
        let y := if Req_EM_T ((x - fx) ^ 2 + (-6 + h - fy) ^ 2) (D i fi ^ 2) then -6 + h else -6 - h in
        do l <- under4_wires mx f t seen r; Ok ((x, y) :: l)
      end
    else do l <- under4_wires mx f t seen r; Ok ((if is_at f i then (0, -6) else (mx, -6)) :: l)
  end.
Definition under4 (cs : list string) : res (list (R * R)) :=
  let '(mx, f, t) := fold_left longest4 indices4 (-100, None, None) in under4_wires mx f t None cs.
Definition or_row (cs : list string) (r : res (list (R * R))) : list (R * R) := match r with Ok l => l | Err _ => in_a_row cs end.
(** 1895-2026; None: no positions are set *)
Definition under_positions (cs : list string) : option (list (R * R)) :=
  match n_known with
  | 2%nat => Some (under2 cs)
  | 3%nat => Some (or_row cs (under3 cs))
  | 4%nat => Some (or_row cs (under4 cs))
  | _ => None
  end.
End Under.

(** ** Lines *)
Section Lines.
Variable num : string -> res R.
Variable objs : dict obj.

Definition fnum (o : obj) (k : string) : res (option R) := attempt (do s <- getitem o k; num s).
Definition get (k : string) : res obj := of_opt EKey (dget objs k).

(** the distances of a spacing object *)
Definition names5 : list string := ["A"; "B"; "C"; "N"; "E"].
Definition dist_name (i j : nat) : string := "distance_" ++ nth i names5 "" ++ nth j names5 "".
Definition read_spacing (prs : list (nat * nat)) (o : obj) : res spacing :=
  do l <- mapM (fun p : nat * nat => do d <- fnum o (dist_name (fst p) (snd p)); Ok (p, d)) prs;
  Ok (fun i j => match find (fun e : (nat * nat) * option R => Nat.eqb (fst (fst e)) i && Nat.eqb (snd (fst e)) j)%bool l with Some e => snd e | None => None end).

Definition place (ws : list wire) (pos : option (list (R * R))) : list wire :=
  match pos with None => ws | Some l => map (fun wp => set_xy (fst wp) (snd wp)) (combine ws l) end.

(** 1522-1550, 1775-1806: the conductors of the phases *)
Definition conductors (cfg : obj) : list (string * string) :=
  flat_map (fun ph => match attr cfg ("conductor_" ++ ph) with Some n => [(ph, n)] | None => [] end) ["A"; "B"; "C"; "N"].
(** 1553-1582 *)
Definition overhead_wire (ph : string) (c : obj) : res wire :=
  do d <- fnum c "diameter"; do g <- fnum c "geometric_mean_radius"; do r <- fnum c "resistance";
  do a <- fnum c "rating.summer.continuous"; do e <- fnum c "rating.summer.emergency";
  Ok (mkWire ph d g r a e (Some 0) None None None None).
(** 1810-1844 *)
Definition underground_wire (ph : string) (c : obj) : res wire :=
  do g <- fnum c "conductor_gmr"; do r <- fnum c "conductor_resistance"; do cg <- fnum c "neutral_gmr"; do cr <- fnum c "neutral_resistance";
  Ok (mkWire ph None g r None None (Some 0) cg cr None None).
Definition make_wires (f : string -> obj -> res wire) (l : list (string * string)) : res (list wire) :=
  mapM (fun pn : string * string => do c <- get (snd pn); f (fst pn) c) l.
(** new wires; they are the conductors now, the last one is [api_wire] *)
Definition add_wires (st : state) (cfg : obj) (ws : list wire) : state :=
  let k := length (heap st) in
  mkState (heap st ++ ws) (Some (cfg, seq k (length ws))) (conn2 st)
    (match ws with [] => api_wire st | _ => Some (k + length ws - 1)%nat end).

(** 1518-1593 *)
Definition overhead_conf (st : state) (o : obj) : res state :=
  match attr o "configuration" with
  | None => Ok st
  | Some c =>
    do cfg <- get c;
    do ws <- make_wires overhead_wire (conductors cfg);
    do ws <- match attr cfg "spacing" with
             | None => Ok ws
             | Some s => do so <- get s; do sp <- read_spacing pairs so; do pos <- compute_spacing sp (map w_phase ws) 30; Ok (place ws pos)
             end;
    Ok (add_wires st cfg ws)
  end.
(** 1771-2033 *)
Definition underground_conf (st : state) (o : obj) : res state :=
  match attr o "configuration" with
  | None => Ok st
  | Some c =>
    do cfg <- get c;
    do ws <- make_wires underground_wire (conductors cfg);
    do ws <- match attr cfg "spacing" with
             | None => Ok ws
             | Some s => do so <- get s; do sp <- read_spacing pairs4 so; Ok (place ws (under_positions (distances sp) (map w_phase ws)))
             end;
    Ok (add_wires st cfg ws)
  end.
(** 1594-1609, 1727-1736, 2035-2050: are all entries of the impedance matrix given? *)
Definition direct (keys : list string) (cfg : obj) : bool := forallb (fun k => match attr cfg k with Some _ => true | None => false end) keys.
Definition keys3 : list string := ["z11"; "z12"; "z13"; "z21"; "z22"; "z23"; "z31"; "z32"; "z33"].
Definition keys2 : list string := ["z11"; "z12"; "z21"; "z22"].

(** 1499-1516: name, length, ends *)
Definition finish_line (ty : option string) (o : obj) (len : option R) (z : cmat) (ws : list nat) : line :=
  mkLine ty (attr o "name") len (attr o "from") (attr o "to") z ws.
Definition length_m (o : obj) : res (option R) := do l <- fnum o "length"; Ok (scale 0.3048 l).
(** 1610-1615, 2051-2056 *)
Definition matrix3 (ws : list wire) : res cmat :=
  do m <- compute_matrix (map plain ws) 60 100 true; Ok (map (map (cscale mile)) m).
(** 1618-1637 *)
Definition metric_oh (w : wire) : wire :=
  mkWire (w_phase w) (scale inch (w_diam w)) (scale feet (w_gmr w)) (scale mile (w_res w)) (w_amp w) (w_emerg w) (w_ins w) (w_cgmr w) (w_cres w) (w_x w) (w_y w).
(** 2060-2087 *)
Definition metric_ug (w : wire) : wire :=
  mkWire (w_phase w) (w_diam w) (scale feet (w_gmr w)) (scale mile (w_res w)) (w_amp w) (w_emerg w) (w_ins w) (scale feet (w_cgmr w)) (scale mile (w_cres w)) (w_x w) (w_y w).
(** 1594-1637 and 2035-2087; UnboundLocalError if no line had a configuration before *)
Definition matrix_and_units (ty : string) (metric : wire -> wire) (o : obj) (len : option R) (st : state) : res (state * line) :=
  do cc <- of_opt EName (cur st);
  let '(cfg, is_) := cc in
  if direct keys3 cfg then Err EType
  else
    do z <- matrix3 (map (load_w (heap st)) is_);
    Ok (mkState (update_all (heap st) is_ metric) (cur st) (conn2 st) (match is_ with [] => api_wire st | _ => Some (last is_ 0%nat) end),
        finish_line (Some ty) o len z is_).
(** 1494-1637 *)
Definition conv_overhead (st : state) (o : obj) : res (state * line) :=
  do len <- length_m o; do st <- overhead_conf st o; matrix_and_units "overhead" metric_oh o len st.
(** 1747-2087 *)
Definition conv_underground (st : state) (o : obj) : res (state * line) :=
  do len <- length_m o; do st <- underground_conf st o; matrix_and_units "underground" metric_ug o len st.

(** ** Triplex lines: 1639-1745 *)
(** 1666-1692: the wires and the names of their conductors; [conn2] is used for the neutral, too *)
Definition triplex_conductors (cfg : obj) (c2 : option string) : res (list (string * string) * option string) :=
  let one := match attr cfg "conductor_1" with Some n => [("A", n)] | None => [] end in
  let c2' := match attr cfg "conductor_2" with Some n => Some n | None => c2 end in
  let two := match attr cfg "conductor_2" with Some n => [("B", n)] | None => [] end in
  do three <- match attr cfg "conductor_N" with Some _ => do n <- of_opt EName c2'; Ok [("N", n)] | None => Ok [] end;
  Ok (one ++ two ++ three, c2').
Definition set_ins (x : R) (w : wire) : wire := mkWire (w_phase w) (w_diam w) (w_gmr w) (w_res w) (w_amp w) (w_emerg w) (Some x) (w_cgmr w) (w_cres w) (w_x w) (w_y w).
Definition set_diam (x : R) (w : wire) : wire := mkWire (w_phase w) (Some x) (w_gmr w) (w_res w) (w_amp w) (w_emerg w) (w_ins w) (w_cgmr w) (w_cres w) (w_x w) (w_y w).
(** 1694-1704: only the last wire *)
Definition last_wire (f : R -> wire -> wire) (cfg : obj) (k : string) (st : state) : res state :=
  do x <- fnum cfg k;
  match x with
  | None => Ok st
  | Some x => do i <- of_opt EName (api_wire st); Ok (mkState (update (heap st) i (f (x * inch))) (cur st) (conn2 st) (api_wire st))
  end.
(** 1706-1724 *)
Definition triplex_data (len : option R) (c : obj) (w : wire) : res wire :=
  do g <- fnum c "geometric_mean_radius";
  do r <- match len with Some _ => fnum c "resistance" | None => Ok None end;
  let r' := match len with Some l => scale mile (scale l r) | None => None end in
  Ok (mkWire (w_phase w) (w_diam w) (or_else (scale feet g) (w_gmr w)) (or_else r' (w_res w)) (w_amp w) (w_emerg w) (w_ins w) (w_cgmr w) (w_cres w) (w_x w) (w_y w)).
Definition triplex_one (len : option R) (h : list wire) (e : nat * string) : res (list wire) :=
  do c <- get (snd e);
  do w <- triplex_data len c (load_w h (fst e));
  Ok (update h (fst e) (fun _ => w)).
(** 1661-1726 *)
Definition triplex_conf (st : state) (o : obj) (len : option R) : res state :=
  match attr o "configuration" with
  | None => Ok st
  | Some c =>
    do cfg <- get c;
    do cc <- triplex_conductors cfg (conn2 st);
    let '(l, c2) := cc in
    let st := add_wires (mkState (heap st) (cur st) c2 (api_wire st)) cfg (map (fun pn => new_wire (fst pn)) l) in
    do st <- last_wire set_ins cfg "insulation_thickness" st;
    do st <- last_wire set_diam cfg "diameter" st;
    do h <- foldM (triplex_one len) (combine (match cur st with Some (_, is_) => is_ | None => [] end) (map snd l)) (heap st);
    Ok (mkState h (cur st) (conn2 st) (api_wire st))
  end.
Definition conv_triplex_line (st : state) (o : obj) : res (state * line) :=
  do len <- length_m o;
  do st <- triplex_conf st o len;
  do cc <- of_opt EName (cur st);
  let '(cfg, is_) := cc in
  if direct keys2 cfg then Err EType
  else
    do z <- compute_secondary_matrix (map (load_w (heap st)) is_) 60 100;
    Ok (st, finish_line None o len z is_).

(** The loop over the objects, as far as lines are concerned *)
Definition conv_line (acc : state * list line) (o : obj) : res (state * list line) :=
  let '(st, ls) := acc in
  let add r := do x <- r; Ok (fst x, ls ++ [snd x]) in
  if String.eqb (o_cls o) "overhead_line" then add (conv_overhead st o)
  else if String.eqb (o_cls o) "triplex_line" then add (conv_triplex_line st o)
  else if String.eqb (o_cls o) "underground_line" then add (conv_underground st o)
  else Ok acc.
Definition state0 : state := mkState [] None None None.
Definition conv_lines (l : list obj) : res (state * list line) := foldM conv_line l (state0, []).
End Lines.
