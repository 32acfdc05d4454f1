(** What the loads of a Windmil file are to become. *)
From Coq Require Import QArith.
From Verif Require Import Base WmLineModel WmLineSpec WmLoadModel.
Local Open Scope string_scope.
Local Open Scope list_scope.

(** The fractions of a load mix, and its connection; a load without a mix is of
    constant power. *)
Definition mix_ok (mixes : list mix) (name : string) (z i p : Q) (zip : bool) (conn : string) : Prop :=
  (squeeze name = "NONE" /\ z = 0%Q /\ i = 0%Q /\ p = 1%Q /\ zip = false /\ conn = "Y")
  \/ (squeeze name <> "NONE" /\ zip = true
      /\ exists ms1 m ms2, mixes = ms1 ++ m :: ms2 /\ m_id m = name
           /\ Forall (fun m' => m_id m' <> name) ms1
           /\ m_z m = Ok z /\ m_i m = Ok i /\ m_p m = Ok p
           /\ (m_conn m = "W" /\ conn = "Y" \/ m_conn m <> "W" /\ conn = "D")).

(** One phase of a load: the numbers of the file for this phase. *)
Definition phase_ok (c : consumer) (z i p : Q) (zip : bool) (ph : string) (w : phase_load) : Prop :=
  p_phase w = ph
  /\ nth_error (c_kw c) (place ph) = Some (Ok (p_p w))
  /\ nth_error (c_kvar c) (place ph) = Some (Ok (p_q w))
  /\ p_zip w = zip /\ p_model w = (if zip then 8 else 1)%Z
  /\ p_power w = (p * 100, p * 100)%Q /\ p_current w = (i * 100, i * 100)%Q
  /\ p_impedance w = (z * 100, z * 100)%Q.

(** A load at a node, whose first outgoing edge has a feeder and a substation. *)
Definition load_ok (mixes : list mix) (nc : node * consumer) (l : load) : Prop :=
  let (n, c) := nc in
  d_element l = n_name n
  /\ ((forall a b, c_name c <> a ++ "node" ++ b)%string -> d_name l = c_name c)
  /\ (exists f s rest, n_out n = (f, s) :: rest /\ named f (d_feeder l) /\ named s (d_substation l))
  /\ d_pos l = match n_pos n with Some q => [q] | None => [] end
  /\ exists z i p zip, mix_ok mixes (c_mix c) z i p zip (d_conn l)
       /\ Forall2 (phase_ok c z i p zip) (letters (c_phases c)) (d_phases l).

(** The enabled loads at nodes with an outgoing edge, in order. *)
Definition served (ns : list node) : list (node * consumer) :=
  flat_map (fun n => match n_out n with
                     | [] => []
                     | _ => map (pair n) (filter c_enabled (match n_loads n with Some cs => cs | None => [] end))
                     end) ns.
