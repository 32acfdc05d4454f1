(** What the transformers of a Windmil file are to become. *)
From Coq Require Import Reals.
From Verif Require Import Base WmLineModel WmLineSpec WmTrafoModel.
Local Open Scope string_scope.
Local Open Scope list_scope.

(** An edge that names some equipment. *)
Definition equipped (e : xedge) : bool :=
  existsb (fun s => negb (String.eqb s "NONE")) (x_equipment e).

Fixpoint sum (l : list R) : R := match l with [] => 0%R | x :: t => (x + sum t)%R end.

(** Winding number [i]: voltage in volts, between phases if there are several. *)
Definition winding_ok (e : xedge) (k : xrow) (i : nat) (w : winding) : Prop :=
  (exists kv, nth_error (x_kv e) i = Some (Ok kv)
     /\ (length (letters (x_phases e)) = 1 -> g_voltage w = (1000 * kv)%R)
     /\ (length (letters (x_phases e)) <> 1 -> g_voltage w = (1732 * kv)%R))
  /\ nth_error (x_conn e) i = Some (g_conn w)
  /\ (exists kva, k_cell k "Single Phase Rated kVA- Zps" = Ok kva /\ g_power w = (1000 * kva)%R)
  /\ (g_type w = 0%Z <-> i = 0)
  /\ g_phases w = letters (x_phases e).

(** The transformer of an edge, of a kind [k] of its equipment: its windings
    together have the resistance, and it has the reactance, that make up the
    impedance of the kind in the ratio X/R of the kind. *)
Definition trafo_ok (rows : list xrow) (pos : string -> option (R * R)) (e : xedge) (t : transformer) : Prop :=
  t_from t = x_from e /\ t_to t = x_to e
  /\ named (x_feeder e) (t_feeder t) /\ named (x_substation e) (t_substation t)
  /\ (forall x, x_to e = "node_" ++ x -> (forall a b, x <> a ++ "node_" ++ b) -> t_name t = "tr_" ++ x)%string
  /\ pos (x_to e) = Some (t_pos t) /\ x_center e = Ok (t_center t)
  /\ exists k, In k rows /\ In (k_id k) (x_equipment e) /\ k_id k <> "NONE"
       /\ t_pad t = k_pad k
       /\ (exists a b c, k_cell k "Single Phase Base kVA- Zps" = Ok a
             /\ k_cell k "Single Phase Base kVA- Zpt" = Ok b
             /\ k_cell k "Single Phase Base kVA- Zst" = Ok c /\ t_kva t = (a + b + c)%R
             /\ exists l, k_cell k "No-Load Loss- Zps" = Ok l /\ (t_noload t * a = l)%R)
       /\ (exists z ratio x, k_cell k "Percent Impedance- Zps" = Ok z
             /\ k_cell k "X/R Ratio- Phase A" = Ok ratio
             /\ t_reactances t = [x]
             /\ (sum (map g_resistance (t_windings t)) ^ 2 + x ^ 2 = z ^ 2)%R
             /\ (x = Rabs ratio * sum (map g_resistance (t_windings t)))%R
             /\ (0 <= sum (map g_resistance (t_windings t)))%R)
       /\ (x_tertiary e = TNaN -> length (t_windings t) = 2)
       /\ (x_tertiary e <> TNaN -> length (t_windings t) = 3)
       /\ (forall w w', In w (t_windings t) -> In w' (t_windings t) -> g_resistance w = g_resistance w')
       /\ forall i w, nth_error (t_windings t) i = Some w -> winding_ok e k i w.
