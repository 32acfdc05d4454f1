(** Specification vocabulary for the metrics. *)
From Verif Require Import Base StoreModel NetworkModel NetworkSpec CenterTapModel CenterTapSpec MetricsModel.
From Coq Require Import QArith.
Local Open Scope string_scope.
Local Open Scope nat_scope.
Local Open Scope list_scope.

(** [q] is the sum, over the elements of the list, of the [x] with [P a x]; an element without such an [x] adds nothing. *)
Inductive sums {A} (P : A -> Q -> Prop) : list A -> Q -> Prop :=
| sums_nil q : (q == 0)%Q -> sums P [] q
| sums_in a x l q q' : P a x -> sums P l q -> (q' == x + q)%Q -> sums P (a :: l) q'
| sums_out a l q : (forall x, ~ P a x) -> sums P l q -> sums P (a :: l) q.

(** [n] objects satisfy [P]. *)
Definition number {A} (P : A -> Prop) : list A -> Q -> Prop := sums (fun o x => P o /\ x = 1%Q).

(** The report gives the value [v] for [k]. *)
Definition shows (r : dict value) (k : string) (v : Q) : Prop := exists q, dget r k = Some (Num q) /\ (q == v)%Q.

(** ** Kinds of objects *)
Definition a_regulator (o : mobj) : Prop := mb_body o = Regulator.
Definition a_capacitor (o : mobj) : Prop := mb_body o = Capacitor.
Definition a_line (P : mline -> Prop) (o : mobj) : Prop := exists l, mb_body o = Line l /\ P l.
Definition a_fuse := a_line (fun l => ml_fuse l = true).
Definition a_switch := a_line (fun l => ml_switch l = true).
Definition a_recloser := a_line (fun l => ml_recloser l = true).
Definition a_breaker := a_line (fun l => ml_breaker l = true).
Definition a_sectionalizer := a_line (fun l => ml_sectionalizer l = true).
(** A line whose ends are in different feeders. *)
Definition a_link (feeder_name : string -> option (option string)) := a_line (fun l =>
  exists x y f g, ml_from l = Some x /\ ml_to l = Some y /\ feeder_name x = Some (Some f) /\ feeder_name y = Some (Some g) /\ f <> g).
(** A transformer between different voltages. *)
Definition a_step (n : option nat) (o : mobj) : Prop := exists t w w' r v v',
  mb_body o = Transformer t /\ mt_windings t = Some (w :: w' :: r) /\ wd_volt w = Some v /\ wd_volt w' = Some v' /\ ~ (v == v')%Q /\
  (n = None \/ wd_phases w = n).
(** What is counted under which key. *)
Inductive kind (feeder_name : string -> option (option string)) : string -> (mobj -> Prop) -> Prop :=
| k_reg : kind feeder_name "num_regulators" a_regulator
| k_cap : kind feeder_name "num_capacitors" a_capacitor
| k_fuse : kind feeder_name "num_fuses" a_fuse
| k_switch : kind feeder_name "num_switches" a_switch
| k_rec : kind feeder_name "num_reclosers" a_recloser
| k_break : kind feeder_name "num_breakers" a_breaker
| k_sect : kind feeder_name "num_sectionalizers" a_sectionalizer
| k_link : kind feeder_name "num_links_adjacent_feeders" (a_link feeder_name)
| k_dist : kind feeder_name "num_distribution_transformers" (a_step None)
| k_1ph : kind feeder_name "num_1ph_transformers" (a_step (Some 1))
| k_3ph : kind feeder_name "num_3ph_transformers" (a_step (Some 3)).

(** The object is in the feeder [f]: by its name, or else by its connecting element, or else by its from element. *)
Definition mapped (m : dict string) (x : option string) (f : string) : Prop := exists k, x = Some k /\ dget m k = Some f.
Definition belongs (m : dict string) (o : mobj) (f : string) : Prop :=
  exists name, mb_name o = Some name /\
    (mapped m name f \/
     (forall g, ~ mapped m name g) /\ (mapped m (mb_conn o) f \/ (forall g, ~ mapped m (mb_conn o) g) /\ mapped m (mb_from o) f)).

(** [l'] are the elements of [l] with [P], in order. *)
Inductive selects {A} (P : A -> Prop) : list A -> list A -> Prop :=
| sel_nil : selects P [] []
| sel_in a l l' : P a -> selects P l l' -> selects P (a :: l) (a :: l')
| sel_out a l l' : ~ P a -> selects P l l' -> selects P (a :: l) l'.

(** The metrics can be computed: lines have wires and a length, the first phase load of a load has powers, transformers
    have two windings and the first a power. *)
Definition countable (o : mobj) : Prop :=
  match mb_body o with
  | Line l => (exists ws, ml_wires l = Some ws) /\ exists x, ml_length l = Some x
  | Load l => mo_phases l = None \/ exists x r p q, mo_phases l = Some (x :: r) /\ pl_p x = Some p /\ pl_q x = Some q
  | Transformer t => exists w w' r p, mt_windings t = Some (w :: w' :: r) /\ wd_power w = Some p
  | _ => True
  end.

(** ** Lines *)
Definition low (LV : Q) (v : option Q) : Prop := exists x, v = Some x /\ (x * sqrt3 <= LV)%Q.
Definition medium (LV MV : Q) (v : option Q) : Prop := exists x, v = Some x /\ (LV < x * sqrt3)%Q /\ (x * sqrt3 < MV)%Q.
Definition an_abc (x : option string) : Prop := x = Some "A" \/ x = Some "B" \/ x = Some "C".
(** The line has [n] wires of phase A, B or C that are not dropped. *)
Definition has_phases (n : nat) (l : mline) : Prop :=
  exists ws, ml_wires l = Some ws /\ number (fun w => an_abc (w_phase w) /\ w_drop w = false) ws (inject_Z (Z.of_nat n)).
(** The same with the dropped wires. *)
Definition has_wires (n : nat) (l : mline) : Prop :=
  exists ws, ml_wires l = Some ws /\ number (fun w => an_abc (w_phase w)) ws (inject_Z (Z.of_nat n)).
Definition is_overhead (l : mline) : Prop := ml_type l = Some "overhead".
(** The length of a line with [P], unless it is negative. *)
Definition long (P : mline -> Prop) (o : mobj) (x : Q) : Prop :=
  exists l, mb_body o = Line l /\ P l /\ ml_length l = Some x /\ (0 <= x)%Q.
(** What is measured under which key. *)
Inductive measure (LV MV : Q) : string -> (mline -> Prop) -> Prop :=
| m_lv : measure LV MV "lv_len_mi" (fun l => low LV (ml_volt l))
| m_mv : measure LV MV "mv_len_mi" (fun l => medium LV MV (ml_volt l))
| m_lv1 : measure LV MV "lv_1ph_len_mi" (fun l => low LV (ml_volt l) /\ has_phases 1 l)
| m_lv2 : measure LV MV "lv_2ph_len_mi" (fun l => low LV (ml_volt l) /\ has_phases 2 l)
| m_lv3 : measure LV MV "lv_3ph_len_mi" (fun l => low LV (ml_volt l) /\ has_phases 3 l)
| m_mv1 : measure LV MV "mv_1ph_len_mi" (fun l => medium LV MV (ml_volt l) /\ has_phases 1 l)
| m_mv2 : measure LV MV "mv_2ph_len_mi" (fun l => medium LV MV (ml_volt l) /\ has_phases 2 l)
| m_mv3 : measure LV MV "mv_3ph_len_mi" (fun l => medium LV MV (ml_volt l) /\ has_phases 3 l)
| m_lvo1 : measure LV MV "lv_oh_1ph_len_mi" (fun l => low LV (ml_volt l) /\ has_phases 1 l /\ is_overhead l)
| m_lvo2 : measure LV MV "lv_oh_2ph_len_mi" (fun l => low LV (ml_volt l) /\ has_phases 2 l /\ is_overhead l)
| m_lvo3 : measure LV MV "lv_oh_3ph_len_mi" (fun l => low LV (ml_volt l) /\ has_phases 3 l /\ is_overhead l)
| m_mvo1 : measure LV MV "mv_oh_1ph_len_mi" (fun l => medium LV MV (ml_volt l) /\ has_phases 1 l /\ is_overhead l)
| m_mvo2 : measure LV MV "mv_oh_2ph_len_mi" (fun l => medium LV MV (ml_volt l) /\ has_phases 2 l /\ is_overhead l)
| m_mvo3 : measure LV MV "mv_oh_3ph_len_mi" (fun l => medium LV MV (ml_volt l) /\ has_phases 3 l /\ is_overhead l).

(** ** Loads *)
(** The power of a phase load that is not dropped. *)
Definition takes (f : pload -> option Q) (P : pload -> Prop) (x : pload) (q : Q) : Prop := pl_drop x = false /\ P x /\ f x = Some q.
Definition of_phase (X : string) (x : pload) : Prop := pl_phase x = Some X.
Definition any (x : pload) : Prop := True.
(** The load takes [q] altogether, in the phase loads with [P]. *)
Definition takes_all (f : pload -> option Q) (P : pload -> Prop) (o : mobj) (q : Q) : Prop :=
  exists l pls, mb_body o = Load l /\ mo_phases l = Some pls /\ sums (takes f P) pls q.
Definition low_load (LV : Q) (o : mobj) : Prop := exists l, mb_body o = Load l /\ low LV (mo_volt l).
(** The load at low voltage takes [q] in phase [X]. *)
Definition takes_low (LV : Q) (X : string) (o : mobj) (q : Q) : Prop := low_load LV o /\ takes_all pl_p (of_phase X) o q.
(** No phase load that is not dropped takes power. *)
Definition idle (pls : list pload) : Prop :=
  forall x, In x pls -> pl_drop x = false -> exists p q, pl_p x = Some p /\ pl_q x = Some q /\ (p == 0)%Q /\ (q == 0)%Q.
(** The demand of a load: what its phase loads take or, when they are idle, the power of its transformer. *)
Definition demands (o : mobj) (q : Q) : Prop :=
  exists l pls, mb_body o = Load l /\ mo_phases l = Some pls /\
    ((~ idle pls /\ sums (takes pl_p any) pls q) \/ (idle pls /\ mo_kva l = Some q)).
(** The part of it in phase [X]: idle phase loads share evenly. *)
Definition demands_in (X : string) (o : mobj) (q : Q) : Prop :=
  exists l pls, mb_body o = Load l /\ mo_phases l = Some pls /\
    ((~ idle pls /\ sums (takes pl_p (of_phase X)) pls q) \/
     (idle pls /\ exists k n m, mo_kva l = Some k /\ number (fun x => pl_drop x = false /\ of_phase X x) pls n /\
        number (fun x => pl_drop x = false) pls m /\ (q == k * n / m)%Q)).
(** Of each load some phase load is not dropped, and those are in phase A, B or C. *)
Definition phased_load (o : mobj) : Prop := forall l pls, mb_body o = Load l -> mo_phases l = Some pls ->
  (exists x, In x pls /\ pl_drop x = false) /\ forall x, In x pls -> pl_drop x = false -> an_abc (pl_phase x).
(** No power is negative. *)
Definition consumes (o : mobj) : Prop := forall l, mb_body o = Load l ->
  (forall k, mo_kva l = Some k -> (0 <= k)%Q) /\ forall pls x p, mo_phases l = Some pls -> In x pls -> pl_p x = Some p -> (0 <= p)%Q.
(** No phase load is dropped, and an idle load has no transformer power. *)
Definition plain (o : mobj) : Prop := forall l pls, mb_body o = Load l -> mo_phases l = Some pls ->
  (forall x, In x pls -> pl_drop x = false) /\ (idle pls -> mo_kva l = None).

(** ** Customers, loads by number of phases, and transformers *)
Definition serves (o : mobj) (q : Q) : Prop := exists l, mb_body o = Load l /\ mo_users l = Some q.
(** A load at a voltage with [V] that has [n] phase loads that are not dropped. *)
Definition a_load (V : option Q -> Prop) (n : nat) (o : mobj) : Prop :=
  exists l pls, mb_body o = Load l /\ V (mo_volt l) /\ mo_phases l = Some pls /\ number (fun x => pl_drop x = false) pls (inject_Z (Z.of_nat n)).
(** More power is drawn behind the transformer than any of its windings is rated for. *)
Definition overloaded (power_behind : option string -> option Q) (o : mobj) : Prop :=
  exists t ws p, mb_body o = Transformer t /\ mt_windings t = Some ws /\ power_behind (match mb_name o with Some x => x | None => None end) = Some p /\
    forall w r, In w ws -> wd_power w = Some r -> (r < p)%Q.
(** The rated power: of the first windings of the transformers between voltages, or of the transformers noted in the loads. *)
Definition rated (by_transformers : bool) (o : mobj) (q : Q) : Prop :=
  if by_transformers
  then a_step None o /\ exists t w r p, mb_body o = Transformer t /\ mt_windings t = Some (w :: r) /\ wd_power w = Some p /\ (q == p * micro)%Q
  else exists l k, mb_body o = Load l /\ mo_kva l = Some k /\ (q == k * micro)%Q.

(** The functions for single metrics compare the voltage itself, and do not look at [drop]. *)
Definition at_most (LV : Q) (v : option Q) : Prop := exists x, v = Some x /\ (x <= LV)%Q.
Definition amid (LV MV : Q) (v : option Q) : Prop := exists x, v = Some x /\ (LV < x <= MV)%Q.
Definition powers (f : pload -> option Q) (o : mobj) (q : Q) : Prop :=
  exists l pls, mb_body o = Load l /\ mo_phases l = Some pls /\ sums (fun x p => f x = Some p) pls q.
(** What the load takes in phase [X], if its voltage is at most [LV]. *)
Definition draws (LV : Q) (X : string) (o : mobj) (q : Q) : Prop :=
  exists l pls, mb_body o = Load l /\ at_most LV (mo_volt l) /\ mo_phases l = Some pls /\
    sums (fun x p => pl_phase x = Some X /\ pl_p x = Some p) pls q.

(** A quotient of two numbers of the report; [none] when the divisor is zero. *)
Definition quotient (r : dict value) (k a b : string) (none : option value) : Prop :=
  exists x y, shows r a x /\ shows r b y /\ ((y == 0)%Q -> dget r k = none) /\ (~ (y == 0)%Q -> shows r k (x / y)).

(** ** Loads and transformers *)
(** [ls] are the names of the elements with [P], in order. *)
Inductive picks (P : elem -> Prop) : list elem -> list (option string) -> Prop :=
| picks_nil : picks P [] []
| picks_in e l es ls : P e -> e_name e = Some l -> picks P es ls -> picks P (e :: es) (l :: ls)
| picks_out e es ls : ~ P e -> picks P es ls -> picks P (e :: es) ls.
(** [e] is a load and the first transformer above it bears the name [m]. *)
Definition behind (es : list elem) (d : digraph) (m : string) (e : elem) : Prop :=
  exists c t, e_cls e = "Load" /\ e_conn e = Some c /\ feeds es d c t /\ e_name t = Some (Some m).
