(** The lines of the OpenDSS reader.
    Models ditto/readers/opendss/read.py 762-1531 (parse_lines).

    Simplifications: those of DssRdLoadModel (dictionaries of texts and lists of texts, no warnings), but floats are exact
    rationals. The keys of a class are the name of the class as it is asked for, a dot and the name of the object
    (_dss_class_to_dict, 2855-2856); names without "ine." do not occur. Matrices of different shapes, which numpy would
    broadcast or refuse, give none; an absent matrix is the empty one. The variables this_line_wireData and
    this_line_wireData_code keep their values from one wire, and from one line, to the next: [wvars] (None: not assigned yet).
    The calls of the logger as a function (1220, 1313, 1341, 1472-1510) raise TypeError. *)
From Verif Require Import Base CsvModel TextModel DssNameModel UnitsModel MatrixModel DssRdLoadModel DssRdTransModel.
From Coq Require Import QArith Qcanon.
Local Open Scope string_scope.
Local Open Scope nat_scope.
Local Open Scope list_scope.

Inductive lkind := KFuse | KRecloser | KBreaker | KSwitch.
Record rwire := mkRwire {
  rw_class : option string; rw_fuse : bool; rw_switch : option bool; rw_open : option bool; rw_breaker : bool; rw_recloser : bool;
  rw_node : option string; rw_amp : option Q; rw_emamp : option Q; rw_X : option Q; rw_Y : option Q; rw_diam : option Q; rw_gmr : option Q; rw_ohms : option Q;
  rw_cn : option (option Q * option Q * option Q * option Q * option Q * Z) }.
Record rline := mkRline {
  rn_name : string; rn_feeder : string; rn_class : option string; rn_length : option Q; rn_from : option string; rn_to : option string;
  rn_kind : option lkind; rn_fault : option Q; rn_Z : list (list (Q * Q)); rn_C : list (list Q); rn_type : option string; rn_wires : list rwire }.
Record wvars := mkWv { wv_code : option (option string); wv_data : option (option data) }.

Definition kind_is (k : lkind) (o : option lkind) : bool :=
  match k, o with KFuse, Some KFuse | KRecloser, Some KRecloser | KBreaker, Some KBreaker | KSwitch, Some KSwitch => true | _, _ => false end.
Fixpoint find_data (k : string) (l : list (string * data)) : option data :=
  match l with [] => None | (n, d) :: r => if String.eqb n k then Some d else find_data k r end.
(** [w in s] *)
Definition within (w s : string) : bool := match cut_at w s with Some _ => true | None => false end.
(** [s.split(c)] is CsvModel.split_on; the letters of a text *)
Fixpoint letters (s : string) : list string := match s with "" => [] | String c t => String c "" :: letters t end.

Section Lines.
Variable int_ : string -> option Z.
Variable num : string -> option Q.
Variable source_name : string.
Variables fuses reclosers linecodes geometries wiredata cndata : list (string * data).

Definition qfloat (d : data) (k : string) : option Q := match text_of d k with Some s => num s | None => None end.
Definition is_yes (v : pval) : bool := match v with PText s => String.eqb s "Yes" | PList _ => false end.
Definition meters (q : option Q) (u : string) : option Q := convert_to_meters q (PStr u) KwAbsent.
Definition per_meter (q : option Q) (u : string) : option Q := convert_to_meters q (PStr u) (KwBool true).

(** 779-788: the lines that fuses and reclosers watch *)
Definition watched (d : data) : res string :=
  do v <- of_opt EKey (d "MonitoredObj");
  match v with PList _ => Err EAttr | PText s => of_opt EIndex (nth_error (split_on "." (lower s)) 1) end.
Definition watched_all (l : list (string * data)) : res (list string) := mapM (fun x => watched (snd x)) l.

(** 823-838 *)
Definition code_of (d : data) : res (option string * option data) :=
  match d "linecode" with
  | None => Ok (None, None)
  | Some (PList _) => Err EAttr
  | Some (PText c) => Ok (Some c, find_data ("linecode." ++ lower c) linecodes)
  end.
(** 840-858 *)
Definition unit_of (d : data) (code : option data) : res string :=
  let v := match d "units" with Some v => v | None => match match code with Some c => c "units" | None => None end with Some v => v | None => PText "km" end end in
  match v with
  | PList _ => Err EAttr
  | PText u => Ok (if existsb (String.eqb (lower u)) ["ft"; "mi"; "m"; "km"; "kft"; "cm"; "in"] then u else "km")
  end.
(** 867-891: the bus, and the phases; no phases when one of them is not a number *)
Definition end_of (d : data) (k : string) : option string * list Z :=
  match text_of d k with
  | None => (None, [])
  | Some s =>
    match split_on "." s with
    | b :: n :: ns => (Some b, match mapM (fun x => of_opt EValue (int_ x)) (n :: ns) with Ok zs => zs | Err _ => [] end)
    | _ => (Some (strip s), [1; 2; 3]%Z)
    end
  end.
(** 893-898 *)
Definition same_list (a b : list Z) : bool := if list_eq_dec Z.eq_dec a b then true else false.
Definition check_ends (d : data) : res unit :=
  if same_list (snd (end_of d "bus1")) (snd (end_of d "bus2")) then Ok tt
  else do _ <- of_opt EKey (d "bus1"); do _ <- of_opt EKey (d "bus2"); Ok tt.
(** 908-917 *)
Definition kind_of (fs rs : list string) (n : string) (d : data) : option lkind :=
  if smem n fs then Some KFuse
  else if smem n rs || within "recloser" n then Some KRecloser
  else if within "breaker" n then Some KBreaker
  else match d "Switch" with Some v => if is_yes v then Some KSwitch else None | None => None end.
(** 920-929 *)
Definition fault_of (d : data) (code : option data) : option Q :=
  match d "faultrate" with
  | Some _ => qfloat d "faultrate"
  | None => match code with Some c => qfloat c "faultrate" | None => None end
  end.
(** 945-965, 967-987, 1017-1043: a row of numbers or a matrix; None when something fails *)
Definition row_of (u : string) (l : list string) : option (list Q) :=
  match mapM (fun x => match num x with Some q => of_opt EType (per_meter (Some q) u) | None => Err EValue end) l with Ok r => Some r | Err _ => None end.
Definition matrix_of (u : string) (v : pval) : option (list (list Q)) :=
  let flat l := match row_of u l with Some r => Some [r] | None => None end in
  match v with
  | PText s => flat (letters s)
  | PList [s] =>
    if within "|" s then
      match mapM (fun r => of_opt EValue (row_of u (map strip (split_on " " (strip r))))) (split_on "|" s) with
      | Ok rows => match symmetrize (map (map Q2Qc) rows) with Ok (Some m) => Some (map (map this) m) | _ => None end
      | Err _ => None
      end
    else flat [s]
  | PList l => flat l
  end.
Fixpoint zip_with {A B C} (f : A -> B -> C) (a : list A) (b : list B) : option (list C) :=
  match a, b with
  | [], [] => Some []
  | x :: a', y :: b' => option_map (cons (f x y)) (zip_with f a' b')
  | _, _ => None
  end.
Fixpoint all_some {A} (l : list (option A)) : option (list A) :=
  match l with [] => Some [] | Some x :: r => option_map (cons x) (all_some r) | None :: _ => None end.
(** 988-996 *)
Definition complex_of (r x : list (list Q)) : option (list (list (Q * Q))) := match zip_with (zip_with pair) r x with Some l => all_some l | None => None end.
(** 933-998 *)
Definition from_both {A} (d : data) (code : option data) (ks : list string) (f : data -> A) : res (option A) :=
  if forallb (present d) ks then Ok (Some (f d))
  else match code with
       | None => Err EType
       | Some c => Ok (if forallb (present c) ks then Some (f c) else None)
       end.
Definition imped_of (u : string) (d : data) (code : option data) : res (list (list (Q * Q))) :=
  do o <- from_both d code ["rmatrix"; "xmatrix"] (fun x => (x "rmatrix", x "xmatrix"));
  Ok (match o with
      | Some (Some r, Some x) => match matrix_of u r, matrix_of u x with Some a, Some b => match complex_of a b with Some z => z | None => [] end | _, _ => [] end
      | _ => []
      end).
(** 1010-1053 *)
Definition cap_of (u : string) (d : data) (code : option data) : res (list (list Q)) :=
  do o <- from_both d code ["cmatrix"] (fun x => x "cmatrix");
  Ok (match o with Some (Some c) => match matrix_of u c with Some m => m | None => [] end | _ => [] end).
(** 1055-1089 *)
Definition geometry_of (d : data) : option data :=
  match text_of d "geometry" with Some g => if String.eqb g "" then None else find_data ("linegeometry." ++ lower g) geometries | None => None end.
Definition conductors (d : data) (geo : option data) : res Z :=
  let n := match int_of int_ d "phases" with Some z => z | None => 3%Z end in
  match geo with
  | Some g => match g "nconds" with
              | None => Ok n
              | Some (PText s) => of_opt EValue (int_ s)
              | Some (PList _) => Err EType
              end
  | None => Ok n
  end.
(** 1103-1153; [d] is the data of the line, or of the last concentric neutral after a cable (1470), whose name then also
    replaces [full]: like [full] it has a dot, which no watched name has *)
Definition plain_wire (fs : list string) (full : string) (kind : option lkind) (phases : list Z) (d : data) (p : nat) : res rwire :=
  do op <- (if kind_is KSwitch kind then do v <- of_opt EKey (d "enabled"); Ok (Some (negb (is_yes v))) else Ok None);
  Ok (mkRwire (Some "") (smem full fs) (Some (kind_is KSwitch kind)) op (kind_is KBreaker kind) (kind_is KRecloser kind)
        (match nth_error phases p with Some z => r_phase_int z | None => Some "N" end) (qfloat d "normamps") (qfloat d "emergamps") None None None None None None).
(** 1158-1172 *)
Definition geo_class (g : data) (p : nat) : option string :=
  match g "wires" with
  | Some (PList (s :: _)) => nth_error (split_on " " s) p
  | Some (PText (String c _)) => if Nat.eqb p 0 then Some (if Ascii.eqb c " " then "" else String c "") else if Ascii.eqb c " " && Nat.eqb p 1 then Some "" else None
  | _ => None
  end.
Definition geo_unit (g : data) (p : nat) : res string :=
  do v <- of_opt EKey (g "units");
  match v with PList l => of_opt EIndex (nth_error l p) | PText s => Ok s end.
(** 1191-1234 *)
Definition geo_at (g : data) (k u : string) (p : nat) : res (option Q) :=
  match g k with
  | None => Ok None
  | Some (PList l) => Ok (meters (match nth_error l p with Some s => num s | None => None end) u)
  | Some (PText s) => do q <- of_opt EValue (num s); Ok (meters (Some q) u)
  end.
(** 1236-1268 *)
Definition geo_code (v : wvars) (g : data) (p : nat) : res (option string) :=
  do c <- match g "wires" with
          | None => of_opt EName (wv_code v)
          | Some w =>
            do c <- match w with
                    | PList [s] => if within " " s then do x <- of_opt EIndex (nth_error (split_on " " s) p); Ok (Some (lower x)) else Ok (if Nat.eqb p 0 then Some (lower s) else None)
                    | PList l => Ok (option_map lower (nth_error l p))
                    | PText s => Ok (Some s)
                    end;
            Ok (match c with Some _ => c | None => match g "wire" with Some (PText s) => Some s | _ => None end end)
          end;
  Ok (match c with Some s => if String.eqb s "" then None else c | None => None end).
(** 1270-1298: the new wire data, whether it is that of a cable, and the type of the line *)
Fixpoint cable_scan (c : string) (l : list (string * data)) (st : option (option data) * bool * option string) : option (option data) * bool * option string * bool :=
  match l with
  | [] => (st, true)
  | (n, _) :: r =>
    match nth_error (split_on "." n) 1 with
    | None => (st, false)
    | Some m => if String.eqb c m then
                  match find_data ("CNData." ++ m) cndata with
                  | Some x => cable_scan c r (Some (Some x), true, Some "underground")
                  | None => (fst (fst st), true, snd st, false)
                  end
                else cable_scan c r st
    end
  end.
Definition wire_lookup (v : option (option data)) (ty : option string) (code : option string) : option (option data) * bool * option string :=
  match code with
  | None => (Some None, false, ty)
  | Some c =>
    let '(st, fine) := cable_scan c cndata (v, false, ty) in
    if fine && negb (snd (fst st)) then
      match find_data ("wiredata." ++ c) wiredata with
      | Some x => (Some (Some x), false, Some "overhead")
      | None => st
      end
    else st
  end.
(** 1336-1337 *)
Definition no_amps (o : option Q) : option Q := match o with Some q => if Qeq_bool q (-1) || Qeq_bool q 0 then None else o | None => None end.
Definition or_else {A} (a b : option A) : option A := match a with Some _ => a | None => b end.
(** 1301-1427: diameter, radius, the two ampacities and the resistance *)
Definition text_must (d : data) (k : string) (e : exn) : res string := do v <- of_opt e (d k); match v with PText s => Ok s | PList _ => Ok "" end.
Definition wire_values (w : data) (length : option Q) (a e : option Q) : res (option Q * option Q * option Q * option Q * option Q) :=
  do ru <- text_must w "radunits" EType;
  do gu <- text_must w "GMRunits" EType;
  do r <- match length, qfloat w "Rac" with
          | Some len, Some rac => do u <- text_must w "Runits" EName; do x <- of_opt EType (per_meter (Some rac) u); Ok (Some (x * len)%Q)
          | _, _ => Ok None
          end;
  Ok (meters (qfloat w "diam") ru, meters (qfloat w "GMRac") gu, no_amps (or_else (qfloat w "normamps") a), no_amps (or_else (qfloat w "emergamps") e), r).
(** 1428-1449 *)
Definition amps_again (d : data) (k : string) (o : option Q) : option Q := no_amps (match o with Some _ => o | None => qfloat d k end).
(** 1455-1523: the values of each concentric neutral in turn; the last one stays *)
Definition cn_values (d : data) : res (option Q * option Q * option Q * option Q * option Q * Z) :=
  let get k u := match qfloat d k with Some q => Ok (meters (Some q) u) | None => Err EType end in
  do gu <- text_must d "GMRunits" EType; do g <- get "GmrStrand" gu;
  do ru <- text_must d "Runits" EType; do r <- get "Rstrand" ru;
  do du <- text_must d "radunits" EType; do a <- get "DiaStrand" du; do b <- get "DiaCable" du; do c <- get "InsLayer" du;
  do kv <- of_opt EKey (d "k"); do k <- match kv with PText s => of_opt EValue (int_ s) | PList _ => Err EType end;
  Ok (g, r, a, b, c, k).
Definition cn_step (st : data * option (option Q * option Q * option Q * option Q * option Q * Z)) (x : string * data) :
  res (data * option (option Q * option Q * option Q * option Q * option Q * Z)) := do c <- cn_values (snd x); Ok (snd x, Some c).

(** One wire of a line with a geometry (1155-1523): the variables, the data, the type of the line and the wire *)
Definition geo_wire (kind : option lkind) (length : option Q) (g : data) (st : wvars * data * option string) (w : rwire) (p : nat) : res (wvars * data * option string * rwire) :=
  let '(v, d, ty) := st in
  do u <- geo_unit g p;
  do x <- geo_at g "x" u p;
  do y <- geo_at g "h" u p;
  do c <- geo_code v g p;
  let '(wd, cable, ty') := wire_lookup (wv_data v) ty c in
  do cur <- of_opt EName wd;
  do vals <- match cur with
             | Some t => wire_values t length (rw_amp w) (rw_emamp w)
             | None => Ok (None, None, rw_amp w, rw_emamp w, None)
             end;
  let '(diam, gmr, a, e, r) := vals in
  do cn <- (if cable then foldM cn_step cndata (d, None) else Ok (d, None));
  Ok (mkWv (Some c) wd, fst cn, ty',
      mkRwire (or_else (geo_class g p) (rw_class w)) (rw_fuse w) (if kind_is KSwitch kind then Some true else None) (rw_open w) (rw_breaker w) (rw_recloser w)
        (rw_node w) (amps_again d "normamps" a) (amps_again d "emergamps" e) x y diam gmr r (snd cn)).
(** 1091-1524 *)
Definition wire_step (fs : list string) (full : string) (kind : option lkind) (length : option Q) (geo : option data) (phases : list Z) (st : wvars * data * option string * list rwire) (p : nat) :
  res (wvars * data * option string * list rwire) :=
  let '(v, d, ty, ws) := st in
  do w <- plain_wire fs full kind phases d p;
  match geo with
  | None => Ok (v, d, ty, ws ++ [w])
  | Some g => do s <- geo_wire kind length g (v, d, ty) w p; let '(v', d', ty', w') := s in Ok (v', d', ty', ws ++ [w'])
  end.

(** 800-1527; a length that cannot be read stays 0 *)
Definition parse_line (fs rs : list string) (v : wvars) (full : string) (d : data) : res (wvars * option rline) :=
  do sw <- of_opt EKey (d "Switch");
  do on <- (if is_yes sw then Ok true else do e <- of_opt EKey (d "enabled"); Ok (is_yes e));
  if negb on then Ok (v, None) else
  do n0 <- of_opt EName (second_piece "ine." full);
  let n := lower n0 in
  do code <- code_of d;
  do u <- unit_of d (snd code);
  let len := match qfloat d "length" with Some q => meters (Some q) u | None => Some 0%Q end in
  let '(from, phases) := end_of d "bus1" in
  do _ <- check_ends d;
  let kind := kind_of fs rs n d in
  do z <- imped_of u d (snd code);
  do c <- cap_of u d (snd code);
  let geo := geometry_of d in
  do k <- conductors d geo;
  do st <- foldM (wire_step fs full kind len geo phases) (seq 0 (Z.to_nat k)) (v, d, None, []);
  let '(v', _, ty, ws) := st in
  Ok (v', Some (mkRline n source_name (fst code) len from (fst (end_of d "bus2")) kind (fault_of d (snd code)) z c ty ws)).
Fixpoint parse_all_lines (fs rs : list string) (v : wvars) (ls : list (string * data)) : res (list rline) :=
  match ls with
  | [] => Ok []
  | (full, d) :: r => do x <- parse_line fs rs v full d; do l <- parse_all_lines fs rs (fst x) r; Ok (match snd x with Some y => y :: l | None => l end)
  end.
Definition parse_lines (ls : list (string * data)) : res (list rline) :=
  do fs <- watched_all fuses;
  do rs <- watched_all reclosers;
  parse_all_lines fs rs (mkWv None None) ls.
End Lines.
