(** What the lines that OpenDSS reports should become. *)
From Verif Require Import Base CsvModel DssTextModel DssTextSpec DssLoadSpec DssRdLoadModel DssRdLoadSpec DssRdLineModel.
From Verif Require Import UnitsSpec MatrixSpec.
From Verif Require GlmSpec.
From Coq Require Import QArith.
Local Open Scope string_scope.
Local Open Scope nat_scope.
Local Open Scope list_scope.

Definition qnumber (num : string -> option Q) (d : data) (k : string) (q : Q) : Prop := exists s, d k = Some (PText s) /\ num s = Some q.
Definition qstates num (d : data) (k : string) (o : option Q) : Prop := match o with Some q => qnumber num d k q | None => forall q, ~ qnumber num d k q end.
Definition yes (d : data) (k : string) : Prop := d k = Some (PText "Yes").
(** A line counts when it is enabled, or a switch, which is open when it is not enabled. *)
Definition counts (d : data) : bool := match d "Switch" with Some (PText s) => String.eqb s "Yes" | _ => false end || enabled d.

(** The unit of length: [f] metres; kilometres when it is unknown. *)
Definition unit_is (d : data) (f : Q) : Prop :=
  exists s, d "units" = Some (PText s) /\ (unit_worth s f \/ ((forall x, ~ unit_worth s x) /\ f = 1000%Q)).
(** The fuse or recloser [x] watches the line named [n]. *)
Definition watches (x : string * data) (n : string) : Prop :=
  exists s, snd x "MonitoredObj" = Some (PText s) /\ nth_error (pieces (Ascii.eqb ".") (lower s)) 1 = Some n.
(** Fuses come before reclosers, these before breakers and those before switches. *)
Inductive kinded (fuses reclosers : list (string * data)) (n : string) (d : data) : option lkind -> Prop :=
| kd_fuse x : In x fuses -> watches x n -> kinded fuses reclosers n d (Some KFuse)
| kd_recloser : (forall x, In x fuses -> ~ watches x n) -> (exists x, In x reclosers /\ watches x n) \/ has "recloser" n -> kinded fuses reclosers n d (Some KRecloser)
| kd_breaker : (forall x, In x fuses -> ~ watches x n) -> (forall x, In x reclosers -> ~ watches x n) -> ~ has "recloser" n -> has "breaker" n -> kinded fuses reclosers n d (Some KBreaker)
| kd_switch : (forall x, In x fuses -> ~ watches x n) -> (forall x, In x reclosers -> ~ watches x n) -> ~ has "recloser" n -> ~ has "breaker" n -> yes d "Switch" -> kinded fuses reclosers n d (Some KSwitch)
| kd_none : (forall x, In x fuses -> ~ watches x n) -> (forall x, In x reclosers -> ~ watches x n) -> ~ has "recloser" n -> ~ has "breaker" n -> ~ yes d "Switch" -> kinded fuses reclosers n d None.
Inductive phase_no : Z -> option string -> Prop :=
| pn_A : phase_no 1 (Some "A") | pn_B : phase_no 2 (Some "B") | pn_C : phase_no 3 (Some "C") | pn_other z : ~ (1 <= z <= 3)%Z -> phase_no z None.

(** A matrix as OpenDSS reports it: the numbers of the lower triangle, rows between bars, or one number. *)
Definition row_text (num : string -> option Q) (r : string) (qs : list Q) : Prop :=
  exists a ws b, GlmSpec.blank a /\ GlmSpec.blank b /\ ws <> [] /\ Forall GlmSpec.word ws /\ r = (a ++ String.concat " " ws ++ b)%string /\ Forall2 (fun w q => num w = Some q) ws qs.
Definition matrix_text num (v : pval) (m : list (list Q)) : Prop :=
  (exists s q, v = PList [s] /\ ~ has "|" s /\ num s = Some q /\ m = [[q]]) \/
  (exists s, v = PList [s] /\ has "|" s /\ Forall2 (row_text num) (pieces (Ascii.eqb "|") s) m /\ lower_triangular m).
(** The entry of the symmetric matrix with the lower triangle [m]. *)
Definition entry (m : list (list Q)) (i j : nat) (q : Q) : Prop := cell m (Nat.max i j) (Nat.min i j) q.
Definition matrix_per_metre (f : Q) (m : list (list Q)) (r : list (list Q)) : Prop :=
  dims r (length m) (length m) /\ forall i j q, entry m i j q -> exists x, cell r i j x /\ (x * f == q)%Q.
Definition impedance_per_metre (f : Q) (m m' : list (list Q)) (z : list (list (Q * Q))) : Prop :=
  dims z (length m) (length m) /\ forall i j q q', entry m i j q -> entry m' i j q' -> exists a b, cell z i j (a, b) /\ (a * f == q)%Q /\ (b * f == q')%Q.

(** What OpenDSS reports of the line [n] between the buses [b1] and [b2]. *)
Record reports_line (int_ : string -> option Z) num (geometries : list (string * data)) (full : string) (d : data) (n b1 b2 : string) (zs : list Z) (f : Q) (k : nat) (mr mx mc : list (list Q)) : Prop := {
  ri_name : full = ("Line." ++ n)%string;
  ri_plain : ~ has "ine." n;
  ri_code : d "linecode" = None \/ exists c, d "linecode" = Some (PText c);
  ri_unit : unit_is d f;
  ri_length : exists q, qnumber num d "length" q;
  ri_bus1 : exists t ns, d "bus1" = Some (PText t) /\ terminal t = (b1, ns) /\ ((ns = [] /\ TextModel.strip b1 = b1 /\ zs = [1; 2; 3]%Z) \/ (ns <> [] /\ Forall2 (fun m z => int_ m = Some z) ns zs));
  ri_bus2 : exists t ns, d "bus2" = Some (PText t) /\ terminal t = (b2, ns) /\ (ns = [] -> TextModel.strip b2 = b2);
  ri_phases : whole int_ d "phases" (Z.of_nat k);
  ri_fault : d "faultrate" <> None;
  ri_r : exists v, d "rmatrix" = Some v /\ matrix_text num v mr;
  ri_x : exists v, d "xmatrix" = Some v /\ matrix_text num v mx;
  ri_c : exists v, d "cmatrix" = Some v /\ matrix_text num v mc;
  ri_same : length mr = length mx;
  ri_geo : d "geometry" = None \/ exists g, d "geometry" = Some (PText g) /\ (g = "" \/ forall x, In x geometries -> fst x <> ("linegeometry." ++ lower g)%string) }.
Record reads_wire num (d : data) (zs : list Z) (kind : option lkind) (i : nat) (w : rwire) : Prop := {
  rx_phase : (exists z, nth_error zs i = Some z /\ phase_no z (rw_node w)) \/ (length zs <= i /\ rw_node w = Some "N");
  rx_amp : qstates num d "normamps" (rw_amp w);
  rx_emerg : qstates num d "emergamps" (rw_emamp w);
  rx_switch : rw_switch w = Some true <-> kind = Some KSwitch;
  rx_open : (kind = Some KSwitch -> rw_open w = Some (negb (enabled d))) /\ (kind <> Some KSwitch -> rw_open w = None);
  rx_breaker : rw_breaker w = true <-> kind = Some KBreaker;
  rx_recloser : rw_recloser w = true <-> kind = Some KRecloser }.
Record reads_line (int_ : string -> option Z) num source (fuses reclosers : list (string * data)) (d : data) (n b1 b2 : string) (zs : list Z) (f : Q) (k : nat) (mr mx mc : list (list Q)) (l : rline) : Prop := {
  rs_name : rn_name l = lower n;
  rs_feeder : rn_feeder l = source;
  rs_class : d "linecode" = option_map PText (rn_class l);
  rs_length : exists q x, qnumber num d "length" q /\ rn_length l = Some x /\ (x == q * f)%Q;
  rs_from : rn_from l = Some b1;
  rs_to : rn_to l = Some b2;
  rs_kind : kinded fuses reclosers (lower n) d (rn_kind l);
  rs_fault : qstates num d "faultrate" (rn_fault l);
  rs_Z : impedance_per_metre f mr mx (rn_Z l);
  rs_C : matrix_per_metre f mc (rn_C l);
  rs_count : length (rn_wires l) = k;
  rs_wires : forall i w, nth_error (rn_wires l) i = Some w -> reads_wire num d zs (rn_kind l) i w }.
(** A circuit whose fuses and reclosers watch elements. *)
Definition watching (l : list (string * data)) : Prop := forall x, In x l -> exists n, watches x n.
Definition good_line_report int_ num geometries (x : string * data) : Prop :=
  snd x "Switch" <> None /\ snd x "enabled" <> None /\
  (counts (snd x) = true -> exists n b1 b2 zs f k mr mx mc, reports_line int_ num geometries (fst x) (snd x) n b1 b2 zs f k mr mx mc).
Definition line_read_of int_ num source geometries fuses reclosers (x : string * data) (l : rline) : Prop :=
  exists n b1 b2 zs f k mr mx mc, reports_line int_ num geometries (fst x) (snd x) n b1 b2 zs f k mr mx mc /\ reads_line int_ num source fuses reclosers (snd x) n b1 b2 zs f k mr mx mc l.

(** *** What OpenDSS reports of a line that was written *)
Fixpoint phases_in_order (l : list (option string)) : list string :=
  match l with
  | [] => []
  | Some p :: r => if existsb (String.eqb p) ["N"; "N1"; "N2"] then phases_in_order r else p :: phases_in_order r
  | None :: r => phases_in_order r
  end.
Record engine_line (num : string -> option Q) (e : element) (d : data) : Prop := {
  el_switch : d "Switch" = Some (PText (match prop e "switch" with Some s => if String.eqb s "y" then "Yes" else "No" | None => "No" end));
  el_on : d "enabled" = Some (PText (match prop e "enabled" with Some s => if String.eqb s "n" then "No" else "Yes" | None => "Yes" end));
  el_bus1 : d "bus1" = option_map PText (prop e "bus1");
  el_bus2 : d "bus2" = option_map PText (prop e "bus2");
  el_phases : d "phases" = option_map PText (prop e "phases");
  el_units : d "units" = option_map PText (prop e "units");
  el_length : forall q, value num e "length" = Some q -> exists x, qnumber num d "length" x /\ (x == q)%Q }.
Record written_line int_ num geometries (l : dline) (e : element) (full : string) (d : data) (n b1 b2 : string) (zs : list Z) (f : Q) (k : nat) (mr mx mc : list (list Q)) : Prop := {
  wl_is : line_is num l e;
  wl_engine : engine_line num e d;
  wl_name : ln_name l = Some n;
  wl_reports : reports_line int_ num geometries full d n b1 b2 zs f k mr mx mc }.
(** No fuse and no recloser watches the line, and its name tells nothing. *)
Definition unremarkable (fuses reclosers : list (string * data)) (n : string) : Prop :=
  (forall x, In x fuses \/ In x reclosers -> ~ watches x (lower n)) /\ ~ has "recloser" (lower n) /\ ~ has "breaker" (lower n).
Definition all_open (l : dline) : Prop := ln_wires l <> [] /\ forall w, In w (ln_wires l) -> conductor w -> lw_open w = Some true.
(** [fs] are the names of the lines that the elements of [l] watch. *)
Definition watched_by (l : list (string * data)) (fs : list string) : Prop := forall m, In m fs <-> exists x, In x l /\ watches x m.
