(** What the wires of lines with a geometry should become. *)
From Verif Require Import Base CsvModel DssTextModel DssTextSpec DssLoadSpec DssRdLoadModel DssRdLoadSpec DssRdLineModel DssRdLineSpec.
From Verif Require Import UnitsSpec.
From Coq Require Import QArith.
Local Open Scope string_scope.
Local Open Scope nat_scope.
Local Open Scope list_scope.

(** The number [q] of the property [k], in the unit of the property [ku], which is worth [f] metres. *)
Definition measured num (d : data) (k ku : string) (q f : Q) : Prop := qnumber num d k q /\ exists u, d ku = Some (PText u) /\ unit_worth u f.
(** One value for all wires, or one for each wire. *)
Definition at_place (v : pval) (p : nat) (s : string) : Prop := match v with PList l => nth_error l p = Some s | PText t => s = t end.
Definition placed num (g : data) (k : string) (p : nat) (q f : Q) : Prop :=
  (exists v s, g k = Some v /\ at_place v p s /\ num s = Some q) /\ exists v u, g "units" = Some v /\ at_place v p u /\ unit_worth u f.
(** A rating: 0 and -1 stand for none. *)
Definition rates num (d : data) (k : string) (q : Q) : Prop := qnumber num d k q /\ ~ (q == 0)%Q /\ ~ (q == - (1))%Q.
(** The rating of the wire data comes before that of the line. *)
Definition rating num (t d : data) (k : string) (o : option Q) : Prop :=
  (exists q, rates num t k q /\ o = Some q) \/
  ((forall q, ~ rates num t k q) /\ match o with Some q => rates num d k q | None => forall q, ~ rates num d k q end).

(** The line [d] has the geometry [g] with the wires [ws]. *)
Record geometry (int_ : string -> option Z) num (geometries : list (string * data)) (d g : data) (ws : list string) : Prop := {
  ge_found : exists n, d "geometry" = Some (PText n) /\ n <> "" /\ In (("linegeometry." ++ lower n)%string, g) geometries;
  ge_once : NoDup (map fst geometries);
  ge_count : whole int_ g "nconds" (Z.of_nat (length ws));
  ge_wires : exists s, g "wires" = Some (PList [s]) /\ pieces (Ascii.eqb " ") s = ws;
  ge_names : Forall (fun w => w <> "") ws;
  ge_places : forall p, p < length ws -> (exists q f, placed num g "x" p q f) /\ exists q f, placed num g "h" p q f }.
(** The data that a wire needs. *)
Record wire_data num (t : data) : Prop := {
  wd_diam : exists q f, measured num t "diam" "radunits" q f;
  wd_gmr : exists q f, measured num t "GMRac" "GMRunits" q f;
  wd_ohms : exists q f, measured num t "Rac" "Runits" q f }.
(** [w] is a bare wire with the data [t]. *)
Definition names_cables (cndata : list (string * data)) : Prop := NoDup (map fst cndata) /\ forall x, In x cndata -> exists m, fst x = ("CNData." ++ m)%string /\ ~ has "." m.
Definition bare (wiredata cndata : list (string * data)) (w : string) (t : data) : Prop :=
  In (("wiredata." ++ lower w)%string, t) wiredata /\ (forall x, In x cndata -> fst x <> ("CNData." ++ lower w)%string).
Definition cable (cndata : list (string * data)) (w : string) (t : data) : Prop := In (("CNData." ++ lower w)%string, t) cndata.
Definition unknown (wiredata cndata : list (string * data)) (w : string) : Prop :=
  (forall x, In x wiredata -> fst x <> ("wiredata." ++ lower w)%string) /\ (forall x, In x cndata -> fst x <> ("CNData." ++ lower w)%string).

(** The size, resistance and place of the wire [w] at place [p]. *)
Record sized num (g t : data) (len : option Q) (p : nat) (w : rwire) : Prop := {
  rg_X : forall q f, placed num g "x" p q f -> exists x, rw_X w = Some x /\ (x == q * f)%Q;
  rg_Y : forall q f, placed num g "h" p q f -> exists x, rw_Y w = Some x /\ (x == q * f)%Q;
  rg_diam : forall q f, measured num t "diam" "radunits" q f -> exists x, rw_diam w = Some x /\ (x == q * f)%Q;
  rg_gmr : forall q f, measured num t "GMRac" "GMRunits" q f -> exists x, rw_gmr w = Some x /\ (x == q * f)%Q;
  rg_ohms : forall q f l, measured num t "Rac" "Runits" q f -> len = Some l -> exists x, rw_ohms w = Some x /\ (x * f == q * l)%Q }.
Record reads_geo num (d g t : data) (zs : list Z) (kind : option lkind) (len : option Q) (c : string) (p : nat) (w : rwire) : Prop := {
  rg_class : rw_class w = Some c;
  rg_sized : sized num g t len p w;
  rg_phase : (exists z, nth_error zs p = Some z /\ phase_no z (rw_node w)) \/ (length zs <= p /\ rw_node w = Some "N");
  rg_amp : rating num t d "normamps" (rw_amp w);
  rg_emerg : rating num t d "emergamps" (rw_emamp w);
  rg_switch : rw_switch w = Some true <-> kind = Some KSwitch;
  rg_open : (kind = Some KSwitch -> rw_open w = Some (negb (enabled d))) /\ (kind <> Some KSwitch -> rw_open w = None);
  rg_breaker : rw_breaker w = true <-> kind = Some KBreaker;
  rg_recloser : rw_recloser w = true <-> kind = Some KRecloser;
  rg_cn : rw_cn w = None }.
(** The lines [l] and [l'] only differ in their types and wires. *)
Definition same_line (l l' : rline) : Prop :=
  rn_name l' = rn_name l /\ rn_feeder l' = rn_feeder l /\ rn_class l' = rn_class l /\ rn_length l' = rn_length l /\ rn_from l' = rn_from l /\ rn_to l' = rn_to l /\ rn_kind l' = rn_kind l /\ rn_fault l' = rn_fault l /\ rn_Z l' = rn_Z l /\ rn_C l' = rn_C l.

(** Concentric neutrals *)
Record strands (int_ : string -> option Z) num (t : data) : Prop := {
  sn_gmr : exists q f, measured num t "GmrStrand" "GMRunits" q f;
  sn_ohms : exists q f, measured num t "Rstrand" "Runits" q f;
  sn_strand : exists q f, measured num t "DiaStrand" "radunits" q f;
  sn_cable : exists q f, measured num t "DiaCable" "radunits" q f;
  sn_layer : exists q f, measured num t "InsLayer" "radunits" q f;
  sn_count : exists z, whole int_ t "k" z }.
Definition is_meters num (t : data) (k ku : string) (o : option Q) : Prop := forall q f, measured num t k ku q f -> exists x, o = Some x /\ (x == q * f)%Q.
(** The concentric neutral of the cable [t]: all but its resistance. *)
Definition neutral_of (int_ : string -> option Z) num (t : data) (w : rwire) : Prop :=
  exists g r a b c k, rw_cn w = Some (g, r, a, b, c, k) /\ is_meters num t "GmrStrand" "GMRunits" g /\ is_meters num t "DiaStrand" "radunits" a /\ is_meters num t "DiaCable" "radunits" b /\
    is_meters num t "InsLayer" "radunits" c /\ (forall z, whole int_ t "k" z -> k = z) /\ is_meters num t "Rstrand" "Runits" r.
