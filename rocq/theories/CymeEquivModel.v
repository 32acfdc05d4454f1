From Coq Require Import List String Ascii Bool Arith ZArith Reals.
From Verif Require Import Base CymeMapModel CymeParseModel CymeLoadModel.
Import ListNotations.
Local Open Scope string_scope.
Local Open Scope nat_scope.
Local Open Scope list_scope.

(** The network equivalents of a CYME network: parts of the network that CYME has reduced.
    Models ditto/readers/cyme/read.py 5385-5559 (parse_network_equivalent) from the settings that the loop of lines
    5351-5383 yields (see CymeParseModel.v).

    Simplifications:
    - Real numbers instead of floats; [num] is [float] of a text and never yields NaN or an infinity.
    - The lines and loads are the list of those made, in order, for each setting.
    - [api_line.position = ...] (line 5420) sets an attribute that no other code reads; the attribute positions stays
      empty.  The shares of constant current, power and impedance of the loads are constants (0, 1, 0) and left out. *)
Record line := mkLine {
  n_name : string; n_from : string; n_to : string; n_from_index : option Z; n_to_index : option Z; n_feeder : string; n_class : option string;
  n_wires : list string; n_matrix : list (list (R * R)); n_length : R
}.
Record load := mkLoad { o_name : string; o_element : string; o_feeder : string; o_phases : list (string * option (R * R)) }.

Section Equivalents.
Variable num : string -> option R.
Variable int_ : string -> option Z.
(** section_phase_mapping and section_feeder_mapping *)
Variable section_phase : list (string * record).
Variable section_feeder : list (string * string).

Definition float_of (d : record) (k : string) : res R := do t <- of_opt EKey (dget d k); of_opt EValue (num t).
Definition int_of (d : record) (k : string) : option Z := match dget d k with Some t => int_ t | None => None end.
(** Lines 5434-5440 *)
Definition nonzero (d : record) (k : string) : res bool := do x <- float_of d k; Ok (if Req_EM_T x 0 then false else true).
Definition phases_of (d : record) : res (list string) :=
  do a <- nonzero d "zraa"; do b <- nonzero d "zrbb"; do c <- nonzero d "zrcc";
  Ok ((if a then ["A"] else []) ++ (if b then ["B"] else []) ++ (if c then ["C"] else [])).
(** Lines 5448-5457 *)
Definition entry (d : record) (p q : string) : res (R * R) :=
  do r <- float_of d ("zr" ++ lower p ++ lower q)%string; do x <- float_of d ("zx" ++ lower p ++ lower q)%string; Ok (r, x).
Definition matrix_of (d : record) (ps : list string) : res (list (list (R * R))) := mapM (fun p => mapM (entry d p) ps) ps.
(** Line 5460 *)
Definition length_of (d : record) : res R :=
  do a <- float_of d "totallengtha"; do b <- float_of d "totallengthb"; do c <- float_of d "totallengthc"; Ok (Rmax (Rmax a b) c).
(** Lines 5464-5468 and 5511-5515: the sums over the phases *)
Definition totals (d : record) (kw kvar : string) (ps : list string) : res (R * R) :=
  foldM (fun s p => do a <- float_of d (kw ++ lower p)%string; do b <- float_of d (kvar ++ lower p)%string; Ok (fst s + a, snd s + b)%R) ps (0, 0)%R.
(** Lines 5480-5506 and 5527-5554 *)
Definition phase_load (d : record) (kw kvar p : string) : string * option (R * R) :=
  (p, match float_of d (kw ++ lower p)%string, float_of d (kvar ++ lower p)%string with Ok a, Ok b => Some (1000 * a, 1000 * b)%R | _, _ => None end).
Definition make_load (sid suffix node feeder : string) (d : record) (kw kvar : string) (ps : list string) (t : R * R) : list load :=
  if Rlt_dec 0 (fst t) then if Rlt_dec 0 (snd t) then [mkLoad (sid ++ suffix)%string node feeder (map (phase_load d kw kvar) ps)] else [] else [].

(** Lines 5385-5555: one setting *)
Definition one_equivalent (e : string * record) : res (line * list load) :=
  let sid := lower (strip_star (fst e)) in
  let d := snd e in
  do s <- of_opt EKey (dget section_phase sid);
  do from <- of_opt EKey (dget s "fromnodeid");
  do to <- of_opt EKey (dget s "tonodeid");
  do feeder <- of_opt EKey (dget section_feeder sid);
  do ps <- phases_of d;
  do m <- matrix_of d ps;
  do len <- length_of d;
  do t1 <- totals d "loadfromkw" "loadfromkvar" ps;
  let l1 := make_load sid "_ne_from_load" from feeder d "loadfromkw" "loadfromkvar" ps t1 in
  do t2 <- totals d "loadtokw" "loadfromkvar" ps;                                            (* 5515 *)
  let l2 := make_load sid "_ne_to_load" to feeder d "loadtokw" "loadtokvar" ps t2 in
  Ok (mkLine (sid ++ "_ne_line")%string from to (int_of s "fromnodeindex") (int_of s "tonodeindex") feeder (dget d "eqid") ps m len, l1 ++ l2).
Definition is_equivalent (e : string * record) : bool := match dget (snd e) "type" with Some t => String.eqb t "network_equivalent" | None => false end.
Definition parse_network_equivalent (settings : list (string * record)) : res (list (line * list load)) :=
  mapM one_equivalent (filter is_equivalent settings).
End Equivalents.
