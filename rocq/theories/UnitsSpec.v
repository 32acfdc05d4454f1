(** Specification of the length units, independent of the model. *)
From Coq Require Import QArith Qabs String Ascii List.
Import ListNotations.
From Verif Require Import UnitsModel.
Local Open Scope string_scope.
Local Open Scope Q_scope.

(** Documented multipliers (docstring of convert_to_meters, lines 104-122). *)
Definition metre_table : list (string * Q) :=
  [ ("mi", 1609 + 34 / 100); ("km", 1000); ("kft", 304 + 8 / 10); ("m", 1);
    ("ft", 3048 / 10000); ("in", 254 / 10000); ("cm", 1 / 100) ].

(** The international definitions of the same units in metres. *)
Definition international_table : list (string * Q) :=
  [ ("mi", 1609344 / 1000); ("km", 1000); ("kft", 3048 / 10); ("m", 1);
    ("ft", 3048 / 10000); ("in", 254 / 10000); ("cm", 1 / 100) ].

(** Two characters that are equal up to ASCII letter case. *)
Definition ci_char (a b : ascii) : Prop :=
  a = b \/
  (65 <= nat_of_ascii a <= 90 /\ nat_of_ascii b = nat_of_ascii a + 32)%nat \/
  (65 <= nat_of_ascii b <= 90 /\ nat_of_ascii a = nat_of_ascii b + 32)%nat.

(** Two strings that are equal up to ASCII letter case. *)
Fixpoint ci_string (s t : string) : Prop :=
  match s, t with
  | EmptyString, EmptyString => True
  | String a s', String b t' => ci_char a b /\ ci_string s' t'
  | _, _ => False
  end.

(** [s] is a spelling of the unit worth [f] metres. *)
Definition unit_worth (s : string) (f : Q) : Prop :=
  exists u, In (u, f) metre_table /\ ci_string s u.

(** [r] is within relative distance [eps] of [q]. *)
Definition rel_close (eps q r : Q) : Prop := Qabs (r - q) <= eps * Qabs q.

(** A returned number: [o] is a number equal to [r]. *)
Definition returns (o : option Q) (r : Q) : Prop := exists x, o = Some x /\ x == r.

(** The Synergi documentation table (length_units.py 16-50) in metres, per metre for Per_LUL. *)
Definition inch : Q := 254 / 10000.
Definition foot : Q := 3048 / 10000.
Definition kilofoot : Q := 3048 / 10.
Definition mile : Q := 160934 / 100.

(** [synergi_worth s t f]: under unit system [s] a value of kind [t] is worth [f] metres
    (per metre for Per_LUL).  One line per line of the documentation table. *)
Inductive synergi_worth : string -> synergi_type -> Q -> Prop :=
| sw_sul2 : synergi_worth "english2" SUL inch
| sw_sul1 : synergi_worth "english1" SUL inch
| sw_sul  : synergi_worth "english" SUL inch
| sw_sulm : synergi_worth "metric" SUL (1 / 1000)
| sw_mul2 : synergi_worth "english2" MUL foot
| sw_mul1 : synergi_worth "english1" MUL foot
| sw_mul  : synergi_worth "english" MUL foot
| sw_mulm : synergi_worth "metric" MUL 1
| sw_lul2 : synergi_worth "english2" LUL mile
| sw_lul1 : synergi_worth "english1" LUL kilofoot
| sw_lul  : synergi_worth "english" LUL kilofoot
| sw_lulm : synergi_worth "metric" LUL 1000
| sw_per2 : synergi_worth "english2" Per_LUL (1 / mile)
| sw_per1 : synergi_worth "english1" Per_LUL (1 / kilofoot)
| sw_per  : synergi_worth "english" Per_LUL (1 / kilofoot)
| sw_perm : synergi_worth "metric" Per_LUL (1 / 1000).
