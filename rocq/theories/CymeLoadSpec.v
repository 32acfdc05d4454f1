From Coq Require Import List String Ascii Bool Arith ZArith Reals.
From Verif Require Import Base CymeMapSpec CymeParseModel CymeParseSpec CymeLoadModel.
Import ListNotations.
Local Open Scope string_scope.
Local Open Scope nat_scope.
Local Open Scope list_scope.

(** ** What the customer loads of a section say *)

(** The apparent power that is given, or that of the transformer. *)
Definition apparent (kva : option R) (v1 : R) (s : R) : Prop := (v1 <> 0%R /\ s = v1) \/ (v1 = 0%R /\ match kva with Some k => s = k | None => s = 0%R end).
(** A power factor as a fraction or in percent. *)
Definition factor (v : R) (pf : R) : Prop := ((0 < v <= 1)%R /\ pf = v) \/ ((1 < v <= 100)%R /\ pf = (v / 100)%R).
(** The active and reactive power in kW and kvar for a value type and two values. *)
Inductive power (kva : option R) : Z -> R -> R -> R -> R -> Prop :=
| power_none : forall z, power kva z 0 0 0 0
| power_pq : forall v1 v2, power kva 0 v1 v2 v1 v2
| power_sf : forall v1 v2 s p q, ~ (v1 = 0 /\ v2 = 0)%R -> apparent kva v1 s -> (-100 <= v2 <= 100)%R -> p = (s * v2 / 100)%R -> (0 <= q)%R -> (p * p + q * q = s * s)%R ->
    power kva 1 v1 v2 p q
| power_pf : forall v1 v2 pf q, factor v2 pf -> (0 <= q * v1)%R -> (pf * pf * (v1 * v1 + q * q) = v1 * v1)%R -> power kva 2 v1 v2 v1 q.

(** A customer load: the power of its transformer, its power, its phases, its customers and the shares of its class. *)
Record row := mkRow { r_kva : option R; r_p : R; r_q : R; r_phases : list string; r_users : R; r_shares : list R }.

Section Spec.
Variable num : string -> option R.
Variable int_ : string -> option Z.
Variable loads : list (string * record).
Variable classes : list (string * record).
Variable section_phase : list (string * record).
Variable section_feeder : list (string * string).

Definition number (d : record) (k : string) (x : R) : Prop := exists t, dget d k = Some t /\ num t = Some x.
(** The shares of a class: six numbers in percent, or no class. *)
Definition class_says (d : record) (shares : list R) : Prop :=
  (exists t c, dget d "loadtype" = Some t /\ dget classes t = Some c /\
     Forall2 (fun k x => number c k (100 * x)) ["constantcurrentip"; "constantcurrentiq"; "constantpowerpp"; "constantpowerpq"; "constantimpedancezp"; "constantimpedancezq"] shares) \/
  ((forall t, dget d "loadtype" = Some t -> dget classes t = None) /\ shares = []).
Definition row_says (d : record) (r : row) : Prop :=
  match r_kva r with Some k => number d "connectedkva" k | None => dget d "connectedkva" = None end /\
  (exists t z v1 v2, dget d "valuetype" = Some t /\ int_ t = Some z /\ number d "value1" v1 /\ number d "value2" v2 /\ power (r_kva r) z v1 v2 (r_p r) (r_q r)) /\
  (exists s, dget d "loadphase" = Some s /\ s <> "" /\ r_phases r = map (fun c => String c "") (list_ascii_of_string s)) /\
  number d "numberofcustomer" (r_users r) /\ class_says d (r_shares r).

(** ** The customer loads of a file: groups of adjacent rows of one section *)
Definition bare (id : string) : Prop := (forall t, id <> String "*" t) /\ (forall t, id <> (t ++ "*")%string).
Record group := mkGroup { g_id : string; g_rows : list row }.
(** The rows of a section with the id [id] have the keys [id], [id*], [id**], ... *)
Fixpoint group_rows (id : string) (k : nat) (rs : list row) (l : list (string * record)) : Prop :=
  match rs, l with
  | [], [] => True
  | r :: rs', x :: l' => fst x = (id ++ stars k)%string /\ row_says (snd x) r /\ group_rows id (S k) rs' l'
  | _, _ => False
  end.
Definition group_says (g : group) (l : list (string * record)) : Prop := bare (g_id g) /\ g_rows g <> [] /\ group_rows (g_id g) 0 (g_rows g) l.

(** Of a section with one row the power must not be negative altogether; of one with several rows only those with
    active power count. *)
Definition counts (single : bool) (r : row) : Prop := (0 <= r_p r \/ 0 <= r_q r)%R /\ (single = false -> r_p r <> 0%R).
Inductive counted (single : bool) : list row -> list row -> Prop :=
| counted_nil : counted single [] []
| counted_in : forall r l m, counts single r -> counted single l m -> counted single (r :: l) (r :: m)
| counted_out : forall r l m, ~ counts single r -> counted single l m -> counted single (r :: l) m.
Definition of_group (g : group) (us : list row) : Prop := counted (Nat.eqb (length (g_rows g)) 1) (g_rows g) us.

(** The power of the transformers of all rows, in VA. *)
Definition total (us : list row) : option R :=
  fold_left (fun a r => match r_kva r with Some k => Some (match a with Some x => x | None => 0 end + k * 1000)%R | None => a end) us None.
Definition connection_says (sid : string) (c : option string) : Prop :=
  (exists d t z a n r, dget loads sid = Some d /\ dget d "connection" = Some t /\ In (z, a, n, r) connection_table /\ spelt a n t /\ c = Some r) \/
  ((forall d t z a n r, dget loads sid = Some d -> dget d "connection" = Some t -> In (z, a, n, r) connection_table -> ~ spelt a n t) /\ c = None).
(** The load of a section: the row that begins it and the others. *)
Definition load_says (g : group) (u : row) (us : list row) (l : load) : Prop :=
  let sid := lower (g_id g) in
  l_name l = ("Load_" ++ sid ++ "_" ++ String.concat "_" (flat_map r_phases (u :: us)))%string /\
  l_kva l = total (u :: us) /\ connection_says sid (l_connection l) /\
  (forall n, l_element l = Some n <-> exists d, dget section_phase sid = Some d /\ dget d "fromnodeid" = Some n) /\
  dget section_feeder sid = Some (l_feeder l) /\
  l_users l = r_users (last us u) /\
  l_phases l = flat_map (fun r => map (fun ph => mkPhaseLoad ph (Some (1000 * r_p r / INR (length (r_phases r)), 1000 * r_q r / INR (length (r_phases r)))%R) (r_shares u)) (r_phases r)) (u :: us).

Inductive loads_of : list group -> list (group * load) -> Prop :=
| loads_nil : loads_of [] []
| loads_none : forall g gs ls, of_group g [] -> loads_of gs ls -> loads_of (g :: gs) ls
| loads_one : forall g u us l gs ls, of_group g (u :: us) -> load_says g u us l -> loads_of gs ls -> loads_of (g :: gs) ((g, l) :: ls).
End Spec.

(** ** Load files *)
Inductive kind := Loads | Customers | Classes.
Definition header_of (k : kind) : string := match k with Loads => "[LOADS]" | Customers => "[CUSTOMER LOADS]" | Classes => "[CUSTOMER CLASS]" end.
Definition columns_of (k : kind) : list string :=
  match k with
  | Loads => ["sectionid"; "devicenumber"; "loadtype"; "connection"]
  | Customers => ["sectionid"; "devicenumber"; "loadtype"; "customernumber"; "customertype"; "loadmodelid"; "valuetype"; "loadphase"; "value1"; "value2";
                  "connectedkva"; "numberofcustomer"]
  | Classes => ["id"; "constantpower"; "constantcurrent"; "constantimpedance"; "powerfactor"; "constantimpedancezp"; "constantimpedancezq";
                "constantcurrentip"; "constantcurrentiq"; "constantpowerpp"; "constantpowerpq"]
  end.
(** A file: parts with a header, a format, rows and a short line each, and other lines between them; the last part may end with the file. *)
Inductive load_file : list string -> list (kind * list string * list string) -> Prop :=
| file_end : load_file [] []
| file_line : forall l rest ps, (forall k, substr_in (header_of k) l = false) -> load_file rest ps -> load_file (l :: rest) ps
| file_part : forall k header f names body b rest ps,
    (forall k', substr_in (header_of k') header = true <-> k' = k) -> substr_in "format" (lower f) = true -> format_line f names ->
    Forall (fun l => 2 < String.length l) body -> String.length b <= 2 -> load_file rest ps ->
    load_file (header :: f :: body ++ b :: rest) ((k, names, body) :: ps)
| file_last : forall k header f names body,
    (forall k', substr_in (header_of k') header = true <-> k' = k) -> substr_in "format" (lower f) = true -> format_line f names ->
    Forall (fun l => 2 < String.length l) body -> body <> [] -> load_file (header :: f :: body) [(k, names, body)].
