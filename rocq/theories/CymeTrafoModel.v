From Coq Require Import List String Ascii Bool Arith ZArith Reals.
From Verif Require Import Base CymeMapModel CymeParseModel CymeLoadModel CymeSrcModel.
Import ListNotations.
Local Open Scope string_scope.
Local Open Scope nat_scope.
Local Open Scope list_scope.

(** The transformers of a CYME network.
    Models ditto/readers/cyme/read.py 4576-4979 (parse_transformers) from the tables that parser_helper yields: the
    settings of the network file, with the type of each, and the transformers and grounding transformers of the
    equipment file (read in 4307-4574, see CymeParseModel.v).

    Simplifications:
    - Real numbers instead of floats; [num] is [float] of a text and never yields NaN or an infinity, [int_] is [int].
    - The transformers are the list of those made, in order, each with the regulator made for it; the lists of
      [self.section_duplicates] are left out, and so are [Position] objects that are not added to a transformer.
    - [api_transformer["from_element_connection_index"] = ...] (lines 4618-4631) raises TypeError, which is swallowed.
    - The attributes ltc (always 1) and center_bandwidth (read by no other code) of the regulator and its variable
      [taps], which is read but not used, are left out but for the errors they cause. *)
Record winding := mkWinding {
  w_power : option R; w_voltage : option R; w_connection : option string; w_resistance : option R; w_phases : list (string * option Z)
}.
Record transformer := mkTrafo {
  t_name : string; t_feeder : string; t_from : option string; t_to : option string; t_from_index : option Z; t_to_index : option Z;
  t_positions : list (R * R); t_reactances : list R; t_windings : list winding
}.
Record ltc := mkLtc {
  g_name : string; g_feeder : string; g_transformer : string; g_high : Z; g_low : Z; g_pt : Z; g_ct : Z; g_setpoint : R; g_bandwidth : R
}.

(** ** Complex numbers and 3 x 3 arrays, lines 4744-4775 *)
Definition cx : Type := R * R.
Definition cmul (x y : cx) : cx := (fst x * fst y - snd x * snd y, fst x * snd y + snd x * fst y)%R.
Definition array : Type := nat -> nat -> cx.
(** [*] of two arrays *)
Definition times (x y : array) : array := fun i j => cmul (x i j) (y i j).
Definition c1 : cx := (1, 0)%R.
Definition ca : cx := (- (1 / 2), sqrt 3 / 2)%R.                       (* exp(2 pi j / 3) *)
Definition T : array := fun i j =>
  match i, j with 1, 1 | 2, 2 => cmul ca ca | 1, 2 | 2, 1 => ca | _, _ => c1 end.
(** [np.linalg.inv(T)]; that it is the inverse is C120_inverse *)
Definition third (x : cx) : cx := (fst x / 3, snd x / 3)%R.
Definition T_inv : array := fun i j =>
  match i, j with 1, 1 | 2, 2 => third ca | 1, 2 | 2, 1 => third (cmul ca ca) | _, _ => third c1 end.
Definition diagonal (z0 z1 : cx) : array := fun i j => if Nat.eqb i j then match i with 0 => z0 | _ => z1 end else (0, 0)%R.
Definition sequence (z xr : R) : cx := if Req_EM_T xr 0 then (0, 0)%R else (z / sqrt (1 + xr * xr), z / sqrt (1 + 1 / (xr * xr)))%R.
Definition percent (z1 z0 xr xr0 : R) : cx := times (times T (diagonal (sequence z0 xr0) (sequence z1 xr))) T_inv 0 0.

(** [int] of a float *)
Definition trunc (x : R) : Z := if Rle_dec 0 x then Int_part x else (- Int_part (- x))%Z.

Section Transformers.
Variable num : string -> option R.
Variable int_ : string -> option Z.
(** section_phase_mapping, section_feeder_mapping, self.transformers and self.grounding_transformers *)
Variable section_phase : list (string * record).
Variable section_feeder : list (string * string).
Variable equipment : list (string * record).
Variable grounding : list (string * record).

Definition float_of (d : record) (k : string) : res R := do t <- of_opt EKey (dget d k); of_opt EValue (num t).
(** [float(d[k]) * 10 ** 3] under [try] *)
Definition kilo (d : record) (k : string) : option R := match float_of d k with Ok x => Some (x * 1000)%R | Err _ => None end.
Definition tap (d : record) (k : string) : option Z := match dget d k with Some t => int_ t | None => None end.

(** Lines 4649-4722 *)
Definition three_winding (d : record) (ps : list string) (which : string) : winding :=
  mkWinding (kilo d (which ++ "ratedcapacity")%string) (kilo d (which ++ "basevoltage")%string) None None
    (map (fun p => (p, tap d (which ++ "fixedtapsetting")%string)) ps).
(** Lines 4777-4824 *)
Definition regulator (feeder name : string) (d q : record) : res (option ltc) :=
  match dget q "isltc" with
  | Some t =>
    if String.eqb t "" then Ok None else
    do _ <- float_of q "taps";
    do lower <- float_of q "lowerbandwidth";
    do upper <- float_of q "upperbandwidth";
    do buck <- float_of d "maxbuck";
    do boost <- float_of d "maxboost";
    do setpoint <- float_of d "setpoint";
    do ct <- float_of d "ct";
    do pt <- float_of d "pt";
    Ok (Some (mkLtc (match dget d "sectionid" with Some s => "Reg_" ++ s | None => "" end)%string feeder name
                    (trunc buck) (trunc boost) (trunc pt) (trunc ct) setpoint (upper + lower)))
  | None => Ok None
  end.
(** Lines 4832-4896 *)
Definition two_winding (q : record) (ps : list string) (r : R) (which : Z) (voltage : string) : winding :=
  mkWinding (kilo q "kva") (kilo q voltage)
    (match dget q "conn" with Some t => match transformer_connection_mapping (VStr t) which with Ok (Some c) => Some c | _ => None end | None => None end)
    (Some r) (map (fun p => (p, None)) ps).
(** Lines 4909-4970 *)
Definition grounding_winding (q : record) (ps : list string) : winding :=
  mkWinding (kilo q "ratedcapacity") (kilo q "ratedvoltage")
    (match dget q "conn" with Some t => match connection_configuration_mapping (VStr t) with Ok (Some c) => Some c | _ => None end | None => None end)
    None (map (fun p => (p, None)) ps).

(** Lines 4576-4977: one setting *)
Definition one_transformer (e : string * record) : res (transformer * option ltc) :=
  let sid := lower (strip_star (fst e)) in
  let d := snd e in
  let name := match dget d "sectionid" with Some s => ("Trans_" ++ s)%string | None => "" end in
  do feeder <- of_opt EKey (dget section_feeder sid);
  do s <- of_opt EValue (dget section_phase sid);
  do t <- of_opt EValue (dget s "phase");
  let ps := letters t in
  let positions := match (do x <- float_of d "coordx"; do y <- float_of d "coordy"; Ok (x, y)) with Ok xy => [xy] | Err _ => [] end in
  do type <- of_opt EKey (dget d "type");
  let make xs ws := mkTrafo name feeder (dget s "fromnodeid") (dget s "tonodeid") None None positions xs ws in
  if smem type ["three_winding_transformer"; "three_winding_auto_transformer"] then
    Ok (make [] (map (three_winding d ps) ["primary"; "secondary"; "tertiary"]), None)
  else if String.eqb type "transformer" then
    do i <- of_opt EKey (dget d "eqid");
    do q <- match dget equipment i with Some q => Ok q | None => of_opt EKey (dget equipment "DEFAULT") end;
    do z1 <- float_of q "z1";
    do z0 <- float_of q "z0";
    do xr <- float_of q "xr";
    do xr0 <- float_of q "xr0";
    let z := percent z1 z0 xr xr0 in
    let r := (fst z / 2)%R in
    do g <- regulator feeder name d q;
    Ok (make [snd z] [two_winding q ps r 0 "kvllprim"; two_winding q ps r 1 "kvllsec"], g)
  else if String.eqb type "grounding_transformer" then
    do i <- of_opt EKey (dget d "equipmentid");
    let q := match dget grounding i with Some q => q | None => [] end in
    Ok (make [] [grounding_winding q ps; grounding_winding q ps], None)
  else Ok (make [] [], None).
Definition parse_transformers (settings : list (string * record)) : res (list (transformer * option ltc)) := mapM one_transformer settings.
End Transformers.
