(** Specification vocabulary for the definitions of wires, geometries and line codes. *)
From Verif Require Import Base CsvModel DssCodeModel.
From Coq Require Import QArith.
Local Open Scope string_scope.
Local Open Scope nat_scope.
Local Open Scope list_scope.

(** The definition [d] gives the number [q] for [k]. *)
Definition says (d : list (string * dval)) (k : string) (q : Q) : Prop := exists q', In (k, DNum q') d /\ (q' == q)%Q.
(** It gives exactly the number in [v], if there is one. *)
Definition states (d : list (string * dval)) (k : string) (v : option Q) : Prop := forall q, says d k q <-> exists q', v = Some q' /\ (q' == q)%Q.

(** [d] is the definition of the bare wire [w], in meters. *)
Definition describes_wire (d : list (string * dval)) (w : wire) : Prop :=
  states d "GMRac" (w_gmr w) /\ states d "Diam" (w_diam w) /\ states d "normamps" (w_amp w) /\ states d "emergamps" (w_emerg w) /\ states d "Rac" (w_res w) /\
  (w_gmr w <> None -> In ("GMRunits", DStr "m") d) /\ (w_diam w <> None -> In ("Radunits", DStr "m") d).

(** [d] is the definition of the cable [w], in meters. *)
Definition describes_cable (d : list (string * dval)) (w : wire) : Prop :=
  states d "GMRac" (w_gmr w) /\ states d "Diam" (w_diam w) /\ states d "Rac" (w_res w) /\ states d "k" (w_cn w) /\ states d "DiaStrand" (w_cdiam w) /\
  states d "Rstrand" (w_cres w) /\ states d "DiaCable" (w_cout w) /\ states d "GmrStrand" (w_cgmr w) /\ states d "InsLayer" (w_ins w) /\
  (forall a b, w_diam w = Some a -> w_ins w = Some b -> says d "DiaIns" (a + 2 * b)%Q) /\
  In ("Runits", DStr "m") d /\ In ("Radunits", DStr "m") d /\ In ("GMRunits", DStr "m") d.

(** How many wires have one of the phases A, B, C. *)
Definition phases_in (ws : list wire) (n : nat) : Prop :=
  exists ks, NoDup ks /\ length ks = n /\ forall k, In k ks <-> exists w p, nth_error ws k = Some w /\ w_ph w = Some p /\ In p ["A"; "B"; "C"].

(** A numbered variant of [c]. *)
Definition variant (c : string) (k : nat) : string := (c ++ "_" ++ str_of k)%string.

(** No given name is a numbered variant of another one or of the prefixes. *)
Definition clean (prefixes given : list string) : Prop := forall c k, In c (prefixes ++ given) -> ~ In (variant c k) given.

(** The names given to the wires of the lines of one kind. *)
Definition wire_classes (under : bool) (ls : list line) : list string :=
  flat_map (fun l => if Bool.eqb (underground l) under then flat_map (fun w => match w_class w with Some c => [c] | None => [] end) (l_wires l) else []) ls.
Definition line_classes (ls : list line) : list string := flat_map (fun l => match l_class l with Some c => [c] | None => [] end) ls.

(** The wires have all data that geometries need. *)
Definition enough (l : line) : Prop :=
  l_wires l <> [] /\ forall w, In w (l_wires l) ->
    w_X w <> None /\ w_Y w <> None /\ w_gmr w <> None /\ w_diam w <> None /\ w_amp w <> None /\
    (l_type l = Some "underground" -> w_cgmr w <> None /\ w_cres w <> None /\ w_cdiam w <> None /\ w_cout w <> None /\ w_cn w <> None).

(** The conductor [d] of a geometry stands for the wire [w] at place [j] and refers to the definition [c] of kind [kind]. *)
Definition places (d : list (string * dval)) (j : nat) (w : wire) (kind c : string) : Prop :=
  In ("cond", DInt (S j)) d /\ In (kind, DStr c) d /\ (forall kind' c', In (kind', DStr c') d -> kind' = kind /\ c' = c) /\
  states d "X" (w_X w) /\ states d "H" (w_Y w) /\ states d "Normamps" (w_amp w) /\ states d "Emergamps" (w_emerg w).

(** The geometry [g] stands for the line [l]. *)
Definition geometry_of (ws cs : dict (list (string * dval))) (g : geometry) (l : line) : Prop :=
  g_nconds g = length (l_wires l) /\ phases_in (l_wires l) (g_nphases g) /\
  (g_reduce g = "n" <-> g_nphases g = g_nconds g) /\ (g_reduce g = "y" <-> g_nphases g <> g_nconds g) /\
  length (g_conds g) = length (l_wires l) /\
  forall j w d, nth_error (l_wires l) j = Some w -> nth_error (g_conds g) j = Some d ->
    exists c def, (l_type l = Some "underground" /\ places d j w "CNCable" c /\ dget cs c = Some def /\ describes_cable def w) \/
                  (l_type l <> Some "underground" /\ places d j w "Wire" c /\ dget ws c = Some def /\ describes_wire def w).

(** Equal data of two wires and of two cables; a name is used consistently. *)
Definition oeq (a b : option Q) : Prop := match a, b with Some x, Some y => (x == y)%Q | None, None => True | _, _ => False end.
Definition alike_wire (w w' : wire) : Prop := oeq (w_gmr w) (w_gmr w') /\ oeq (w_diam w) (w_diam w') /\ oeq (w_amp w) (w_amp w') /\ oeq (w_emerg w) (w_emerg w') /\ oeq (w_res w) (w_res w').
Definition alike_cable (w w' : wire) : Prop :=
  oeq (w_gmr w) (w_gmr w') /\ oeq (w_diam w) (w_diam w') /\ oeq (w_res w) (w_res w') /\ oeq (w_ins w) (w_ins w') /\ oeq (w_cgmr w) (w_cgmr w') /\
  oeq (w_cres w) (w_cres w') /\ oeq (w_cdiam w) (w_cdiam w') /\ oeq (w_cout w) (w_cout w') /\ oeq (w_cn w) (w_cn w').
Definition consistent_names (ls : list line) : Prop :=
  (forall l w, In l ls -> In w (l_wires l) -> w_class w <> None) /\
  (forall l1 l2 w1 w2, In l1 ls -> In l2 ls -> In w1 (l_wires l1) -> In w2 (l_wires l2) -> w_class w1 = w_class w2 ->
     (l_type l1 <> Some "underground" -> l_type l2 <> Some "underground" -> alike_wire w1 w2) /\
     (l_type l1 = Some "underground" -> l_type l2 = Some "underground" -> alike_cable w1 w2)).
