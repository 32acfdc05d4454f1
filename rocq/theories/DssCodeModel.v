(** Wire data, cables, line geometries and line codes of the OpenDSS writer.
    Models ditto/writers/opendss/write.py 2803-2864 (write_lines: choice between geometries and line codes),
    3095-3178 (write_wiredata), 3276-3313 (write_linegeometry), 3385-3502 (write_linecodes), 3570-3863
    (parse_line, parse_cable, parse_wire, parse_line_geometry).

    Simplifications:
    - Floats are rationals; the ten to the minus three of the units is exact.
    - wires is a list (the default of the attribute); the matrices are lists of rows of complex numbers (re, im).
    - The written files are the tables of definitions [all_wires], [all_cables], [all_geometries] and, for the line
      codes, one table per group of lines; a value in a table stands for its text.
    - Two dictionaries of the same parser have their keys in the same order: they are compared as lists.
    - No two lines share a wire object. *)
From Verif Require Import Base CsvModel DssNameModel.
From Coq Require Import QArith.
Local Open Scope string_scope.
Local Open Scope nat_scope.
Local Open Scope list_scope.

Record wire := mkWire {
  w_ph : option string; w_class : option string; w_X : option Q; w_Y : option Q; w_gmr : option Q; w_diam : option Q;
  w_amp : option Q; w_emerg : option Q; w_res : option Q; w_ins : option Q;
  w_cgmr : option Q; w_cres : option Q; w_cdiam : option Q; w_cout : option Q; w_cn : option Q }.   (* concentric neutral: gmr, resistance, diameter, outside diameter, nstrand *)

Record line := mkLine {
  l_type : option string; l_class : option string; l_wires : list wire; l_fault : option Q;
  l_Z : list (list (Q * Q)); l_C : list (list (Q * Q));
  l_switching : bool;                            (* is_switch or is_breaker or is_fuse or is_recloser *)
  l_feeder : option string; l_sub : option string }.

Definition set_wclass (w : wire) (c : option string) : wire :=
  mkWire (w_ph w) c (w_X w) (w_Y w) (w_gmr w) (w_diam w) (w_amp w) (w_emerg w) (w_res w) (w_ins w) (w_cgmr w) (w_cres w) (w_cdiam w) (w_cout w) (w_cn w).
Definition set_lclass (l : line) (c : option string) : line :=
  mkLine (l_type l) c (l_wires l) (l_fault l) (l_Z l) (l_C l) (l_switching l) (l_feeder l) (l_sub l).
Definition set_lwires (l : line) (ws : list wire) : line :=
  mkLine (l_type l) (l_class l) ws (l_fault l) (l_Z l) (l_C l) (l_switching l) (l_feeder l) (l_sub l).

Inductive dval := DStr (s : string) | DInt (n : nat) | DNum (q : Q) | DMat (m : list (list Q)).
Notation data := (list (string * dval)).

Fixpoint list_eqb {A} (f : A -> A -> bool) (a b : list A) : bool :=
  match a, b with
  | [], [] => true
  | x :: a', y :: b' => f x y && list_eqb f a' b'
  | _, _ => false
  end.
Definition dval_eqb (a b : dval) : bool :=
  match a, b with
  | DStr x, DStr y => String.eqb x y
  | DInt x, DInt y => Nat.eqb x y
  | DNum x, DNum y => Qeq_bool x y
  | DMat x, DMat y => list_eqb (list_eqb Qeq_bool) x y
  | _, _ => false
  end.
Definition item_eqb (a b : string * dval) : bool := String.eqb (fst a) (fst b) && dval_eqb (snd a) (snd b).
Definition data_eqb : data -> data -> bool := list_eqb item_eqb.

Definition entry (k : string) (v : option Q) : data := match v with Some q => [(k, DNum q)] | None => [] end.

(** Lines 3779-3812 [parse_wire] *)
Definition parse_wire (w : wire) : data :=
  match w_gmr w with Some q => [("GMRac", DNum q); ("GMRunits", DStr "m")] | None => [] end ++
  match w_diam w with Some q => [("Diam", DNum q); ("Radunits", DStr "m")] | None => [] end ++
  entry "normamps" (w_amp w) ++ entry "emergamps" (w_emerg w) ++ entry "Rac" (w_res w).

(** Lines 3697-3777 [parse_cable] *)
Definition parse_cable (w : wire) : data :=
  match w_ins w with
  | Some t => ("InsLayer", DNum t) :: match w_diam w with Some q => [("DiaIns", DNum (q + 2 * t)%Q)] | None => [] end
  | None => []
  end ++
  entry "k" (w_cn w) ++ entry "DiaStrand" (w_cdiam w) ++ entry "Rstrand" (w_cres w) ++ entry "Diam" (w_diam w) ++
  entry "DiaCable" (w_cout w) ++ entry "Rac" (w_res w) ++ entry "GmrStrand" (w_cgmr w) ++ entry "GMRac" (w_gmr w) ++
  [("Runits", DStr "m"); ("Radunits", DStr "m"); ("GMRunits", DStr "m")].

Definition is_phase (p : option string) : bool := match p with Some x => smem x ["A"; "B"; "C"] | None => false end.
Definition phase_wires (ws : list wire) : list wire := filter (fun w => is_phase (w_ph w)) ws.

Definition known (x : option Q) : bool := match x with Some _ => true | None => false end.
Definition underground (l : line) : bool := match l_type l with Some t => String.eqb t "underground" | None => false end.

(** Lines 2810-2857: is the data sufficient for a line geometry?  (use_linecodes is the negation) *)
Definition wire_known (under : bool) (w : wire) : bool :=
  known (w_X w) && known (w_Y w) && known (w_gmr w) && known (w_diam w) && known (w_amp w) &&
  (negb under || known (w_cgmr w) && known (w_cres w) && known (w_cdiam w) && known (w_cout w) && known (w_cn w)).
Definition use_geometry (l : line) : bool :=
  match l_wires l with [] => false | ws => forallb (wire_known (underground l)) ws end.

(** Lines 3119-3140 (also 3149-3173 and 3292-3313): the name of a definition; the table and the counter. *)
Section Naming.
Context {D : Type}.
Variable eqb : D -> D -> bool.
Definition last_match (t : dict D) (x : D) : option string :=
  fold_left (fun r (kv : string * D) => if eqb x (snd kv) then Some (fst kv) else r) t None.
Definition give_name (prefix : string) (t : dict D) (cnt : nat) (c : option string) (x : D) : dict D * nat * string :=
  match c with
  | Some c =>
    match dget t c with
    | None => (dset t c x, cnt, c)
    | Some y => if eqb y x then (t, cnt, c)
                else let c' := (c ++ "_" ++ str_of cnt)%string in (dset t c' x, S cnt, c')
    end
  | None =>
    match last_match t x with
    | Some k => (t, cnt, k)
    | None => let c' := (prefix ++ "_" ++ str_of cnt)%string in (dset t c' x, S cnt, c')
    end
  end.
End Naming.

(** Lines 3116-3173 for one wire; the state is [all_wires], [all_cables], [cnt]. *)
Definition wstate : Type := dict data * dict data * nat.
Definition name_wire (under : bool) (st : wstate) (w : wire) : wstate * wire :=
  let '(ws, cs, cnt) := st in
  if under then
    let '(cs', cnt', c) := give_name data_eqb "CNCable" cs cnt (w_class w) (parse_cable w) in ((ws, cs', cnt'), set_wclass w (Some c))
  else
    match parse_wire w with
    | [] => (st, w)
    | x => let '(ws', cnt', c) := give_name data_eqb "Wire" ws cnt (w_class w) x in ((ws', cs, cnt'), set_wclass w (Some c))
    end.
Fixpoint name_wires (under : bool) (st : wstate) (ws : list wire) : wstate * list wire :=
  match ws with
  | [] => (st, [])
  | w :: t => let '(st1, w') := name_wire under st w in let '(st2, t') := name_wires under st1 t in (st2, w' :: t')
  end.
(** Lines 3104-3173 [write_wiredata] *)
Fixpoint write_wiredata (st : wstate) (ls : list line) : wstate * list line :=
  match ls with
  | [] => (st, [])
  | l :: t => let '(st1, ws) := name_wires (underground l) st (l_wires l) in
              let '(st2, t') := write_wiredata st1 t in (st2, set_lwires l ws :: t')
  end.

(** Lines 3814-3863 [parse_line_geometry] *)
Record geometry := mkGeom { g_nconds : nat; g_nphases : nat; g_conds : list data; g_reduce : string }.
Definition geom_eqb (a b : geometry) : bool :=
  Nat.eqb (g_nconds a) (g_nconds b) && Nat.eqb (g_nphases a) (g_nphases b) && list_eqb data_eqb (g_conds a) (g_conds b) && String.eqb (g_reduce a) (g_reduce b).
Definition conductor (ws cs : dict data) (i : nat) (w : wire) : res data :=
  do ref <- (match w_class w with
             | Some c => if dmem ws c then Ok ("Wire", DStr c) else if dmem cs c then Ok ("CNCable", DStr c) else Err EValue
             | None => Err EValue
             end);
  Ok (("cond", DInt (S i)) :: ref :: entry "X" (w_X w) ++ entry "H" (w_Y w) ++ entry "Normamps" (w_amp w) ++ entry "Emergamps" (w_emerg w)).
Definition parse_line_geometry (ws cs : dict data) (l : line) : res geometry :=
  do conds <- mapM (fun iw : nat * wire => conductor ws cs (fst iw) (snd iw)) (combine (seq 0 (length (l_wires l))) (l_wires l));
  let np := length (phase_wires (l_wires l)) in
  Ok (mkGeom (length (l_wires l)) np conds (if Nat.eqb np (length (l_wires l)) then "n" else "y")).

(** Lines 3287-3313 [write_linegeometry]; the parsed line is never empty. *)
Fixpoint write_linegeometry (ws cs : dict data) (t : dict geometry) (cpt : nat) (ls : list line) : res (dict geometry * list line) :=
  match ls with
  | [] => Ok (t, [])
  | l :: r =>
    do g <- parse_line_geometry ws cs l;
    let '(t', cpt', c) := give_name geom_eqb "Geometry" t cpt (l_class l) g in
    do out <- write_linegeometry ws cs t' cpt' r;
    Ok (fst out, set_lclass l (Some c) :: snd out)
  end.

(** Lines 2862-2866, first half: wire data and geometries. *)
Definition catalogue (ls : list line) : res (dict data * dict data * dict geometry * list line) :=
  let '(ws, cs, _, ls1) := write_wiredata ([], [], 1) (filter use_geometry ls) in
  do out <- write_linegeometry ws cs [] 1 ls1;
  Ok (ws, cs, fst out, snd out).

(** ** Line codes *)

(** [convert_from_meters(x, "km", inverse=True)] of each entry *)
Definition per_km (m : list (list Q)) : list (list Q) := map (map (fun x => x * 1000)%Q) m.
Definition re_mat (m : list (list (Q * Q))) : list (list Q) := map (map fst) m.
Definition im_mat (m : list (list (Q * Q))) : list (list Q) := map (map snd) m.
Definition diagonal (n : nat) (q : Q) : list (list Q) := map (fun i => map (fun j => if Nat.eqb i j then q else 0%Q) (seq 0 n)) (seq 0 n).

(** Lines 3570-3695 [parse_line] *)
Definition parse_line (l : line) : data :=
  let np := length (phase_wires (l_wires l)) in
  [("units", DStr "km"); ("nphases", DInt np)] ++ entry "Faultrate" (l_fault l) ++
  match l_Z l with
  | [] => if l_switching l then [("Rmatrix", DMat (per_km (diagonal np (1 # 100000000)))); ("Xmatrix", DMat (per_km (diagonal np (1 # 100000000))))] else []
  | z => [("Rmatrix", DMat (per_km (re_mat z))); ("Xmatrix", DMat (per_km (im_mat z)))]
  end ++
  match l_C l with [] => [] | c => [("Cmatrix", DMat (per_km (re_mat c)))] end ++
  match l_wires l with w :: _ => entry "normamps" (w_amp w) ++ entry "emergamps" (w_emerg w) | [] => [] end.

(** Lines 3410-3427: the group (file) of an object. *)
Definition group (sepf seps : bool) (fee sub : option string) : string * string :=
  (match sub with Some s => if seps then s else "DEFAULT" | None => "DEFAULT" end,
   match fee with Some f => if sepf then f else "DEFAULT" | None => "DEFAULT" end).
Definition group_key (g : string * string) : string := (fst g ++ "_" ++ snd g)%string.

(** Lines 3441-3497 for one line: [all_linecodes], the group's table [txt], the counter and the new nameclass. *)
Definition find_sub (a : dict data) (np : string) (cnt : nat) : option nat :=
  find (fun j => dmem a (np ++ "_" ++ str_of j)%string) (seq 0 cnt).
Definition code_name (l : line) (cnt : nat) : string :=
  (str_of (length (phase_wires (l_wires l))) ++ "P_" ++
   match l_type l with Some t => if String.eqb t "overhead" then "OH_" else if String.eqb t "underground" then "UG_" else "" | None => "" end ++
   "Code" ++ str_of cnt)%string.
Definition name_code (a txt : dict data) (cnt : nat) (l : line) : dict data * dict data * nat * string :=
  let x := parse_line l in
  match l_class l with
  | Some c =>
    let np := (c ++ "_" ++ str_of (length (phase_wires (l_wires l))))%string in
    match dget a np with
    | None => (dset a np x, dset txt np x, cnt, np)
    | Some y =>
      if dmem txt np then
        if data_eqb y x then (a, txt, cnt, np)
        else match find_sub a np cnt with
             | Some j => let c' := (np ++ "_" ++ str_of j)%string in (a, if dmem txt c' then txt else dset txt c' x, cnt, c')
             | None => let c' := (np ++ "_" ++ str_of cnt)%string in (dset a c' x, dset txt c' x, S cnt, c')
             end
      else (a, dset txt np x, cnt, np)
    end
  | None =>
    match last_match data_eqb a x with
    | Some k => (a, txt, cnt, k)
    | None => let c' := code_name l cnt in (dset a c' x, dset txt c' x, S cnt, c')
    end
  end.

(** Lines 3402-3498 [write_linecodes]; the parsed line is never empty. *)
Section Codes.
Variables sepf seps : bool.
Definition key_of (l : line) : string := group_key (group sepf seps (l_feeder l) (l_sub l)).
Definition txt_of (m : dict (dict data)) (k : string) : dict data := match dget m k with Some t => t | None => [] end.
Fixpoint write_linecodes (a : dict data) (m : dict (dict data)) (cnt : nat) (ls : list line) : dict data * dict (dict data) * list line :=
  match ls with
  | [] => (a, m, [])
  | l :: r =>
    let k := key_of l in
    let '(a', txt', cnt', c) := name_code a (txt_of m k) cnt l in
    let '(a2, m2, r') := write_linecodes a' (dset m k txt') cnt' r in
    (a2, m2, set_lclass l (Some c) :: r')
  end.
End Codes.
