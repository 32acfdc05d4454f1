From Coq Require Import List String Ascii Bool Arith Reals.
From Verif Require Import Base CymeMapModel CymeParseModel.
Import ListNotations.
Local Open Scope string_scope.
Local Open Scope nat_scope.
Local Open Scope list_scope.

(** The sources of a CYME network.
    Models ditto/readers/cyme/read.py 1015-1262 (parse_sources) from the three tables that parser_helper yields:
    the sources, the source equivalents and the substations (read in 1037-1083, modelled by CymeParseModel.v).

    Simplifications:
    - Real numbers instead of floats; [num] is [float] of a text and never yields NaN or an infinity.
    - [PowerSource(model)] adds a source to the model: the sources are the list of those made, in order.
    - Traits: phases is a list of Instance(Unicode), which a list of texts is not unless it is empty, and phase_angle
      is a Float, which a text is not; both assignments raise TraitError, which the reader swallows.
    - After an exception that is not swallowed the sources made before it are not part of the result. *)
Record source := mkSource {
  s_name : string; s_nominal : option R; s_phases : list string; s_bus : bool; s_power : option R;
  s_angle : R; s_positive : R * R; s_zero : R * R; s_element : string
}.

Section Sources.
Variable num : string -> option R.
(** self.section_phase_mapping *)
Variable sections : list (string * record).

(** The variables _from and phases, None: not bound yet (_to and sectionID are never used). *)
Definition vars := option (string * list string).
Definition letters (s : string) : list string := map (fun c => String c "") (list_ascii_of_string s).
(** Lines 1088-1100 and 1178-1189 *)
Definition find_section (node : option string) (v : vars) (d : record) : res vars :=
  do f <- of_opt EKey (dget d "fromnodeid");
  do n <- of_opt EKey node;
  do v1 <- (if String.eqb f n then do _ <- of_opt EKey (dget d "tonodeid"); do p <- of_opt EKey (dget d "phase"); Ok (Some (f, letters p)) else Ok v);
  do t <- of_opt EKey (dget d "tonodeid");
  if String.eqb t n then do p <- of_opt EKey (dget d "phase"); Ok (Some (t, letters p)) else Ok v1.
Definition find_sections (node : option string) (v : vars) : res vars := foldM (find_section node) (map snd sections) v.

(** [float(d[k])] *)
Definition float_of (d : record) (k : string) : res R := do t <- of_opt EKey (dget d k); of_opt EValue (num t).
(** A value that is assigned under [try]. *)
Definition attempt (r : res R) : option R := match r with Ok x => Some x | Err _ => None end.
(** Lines 1137-1161 and 1230-1250; the second attempt at the zero sequence, 1253-1259, fails on texts *)
Definition impedance (d : record) (r x r' x' : string) : res (R * R) :=
  if dmem d r then do a <- float_of d r; do b <- float_of d x; Ok (a, b)
  else do a <- float_of d r'; do b <- float_of d x'; Ok (a, b).
Definition positive (d : record) := impedance d "positivesequenceresistance" "positivesequencereactance" "firstlevelr1" "firstlevelx1".
Definition zero (d : record) := impedance d "zerosequenceresistance" "zerosequencereactance" "firstlevelr0" "firstlevelx0".
(** The assignment of the phases. *)
Definition kept_phases (ps : list string) : list string := match ps with [] => ps | _ => [] end.
(** [10 ** 3 * x] *)
Definition kilo (r : res R) : res R := do x <- r; Ok (1000 * x)%R.

(** Lines 1085-1166: one source equivalent *)
Definition equivalent_step (st : list source * vars) (d : record) : res (list source * vars) :=
  let '(made, v) := st in
  do m <- of_opt EKey (dget d "loadmodelname");
  if String.eqb (lower m) "default" then
    do v' <- find_sections (dget d "nodeid") v;
    do '(from, phases) <- of_opt EName v';                                                  (* 1106 *)
    do p <- positive d;
    do z <- zero d;
    Ok (made ++ [mkSource (from ++ "_src")%string (attempt (kilo (float_of d "voltage"))) (kept_phases phases) true
                          (attempt (kilo (float_of d "mva"))) 0%R p z from], v')
  else Ok st.

(** Lines 1168-1264: one source *)
Definition source_step (equivalents subs : list (string * record)) (st : list source * vars) (e : string * record) : res (list source * vars) :=
  let '(made, v) := st in
  let '(sid, d) := e in
  let eq := match dget d "nodeid" with Some n => dget equivalents n | None => None end in   (* 1170-1173 *)
  match dget subs sid with
  | None => Ok st
  | Some sub =>
    do v' <- find_sections (dget d "nodeid") v;
    do '(from, phases) <- of_opt EName v';                                                  (* 1194 *)
    let nominal := if dmem d "desiredvoltage" then attempt (kilo (float_of d "desiredvoltage"))
                   else match eq with Some q => attempt (kilo (float_of q "voltage")) | None => None end in
    do q <- of_opt EType eq;                                                                (* 1230 *)
    do p <- positive q;
    do z <- zero q;
    Ok (made ++ [mkSource (from ++ "_src")%string nominal (kept_phases phases) true (attempt (kilo (float_of sub "mva"))) 0%R p z from], v')
  end.

(** Lines 1084-1264 *)
Definition parse_sources (sources equivalents subs : list (string * record)) : res (list source) :=
  match sources with
  | [] => do '(made, _) <- foldM equivalent_step (map snd equivalents) ([], None); Ok made
  | _ => do '(made, _) <- foldM (source_step equivalents subs) sources ([], None); Ok made
  end.
End Sources.
