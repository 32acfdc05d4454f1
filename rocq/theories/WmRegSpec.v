(** What the regulators of a Windmil file are to become. *)
From Coq Require Import QArith.
From Verif Require Import Base WmLineModel WmRegModel.
Local Open Scope string_scope.
Local Open Scope list_scope.

(** An edge that names some equipment. *)
Definition equipped (e : redge) : bool :=
  existsb (fun s => negb (String.eqb s "NONE")) (e_equipment e).

(** The number of the file for a phase: of three, the one of its letter. *)
Definition place (p : string) : nat :=
  if String.eqb p "A" then 0 else if String.eqb p "B" then 1 else 2.

(** Phases that start at A and leave none out. *)
Definition leading (phases : string) : Prop := In phases ["A"; "AB"; "ABC"].

(** The regulator and its transformer. *)
Definition reg_ok (rows : list rrow) (pos : string -> option (Q * Q)) (e : redge)
  (rt : regulator * transformer) : Prop :=
  let (r, t) := rt in
  r_name r = e_name e /\ r_from r = e_from e /\ r_to r = e_to e
  /\ r_feeder r = e_feeder e /\ r_substation r = e_substation e /\ pos (e_to e) = Some (r_pos r)
  /\ t_name t = r_transformer r /\ r_transformer r = ("xfmr_" ++ e_name e)%string
  /\ t_from t = e_from e /\ t_to t = e_to e /\ t_pos t = r_pos r
  /\ t_feeder t = e_feeder e /\ t_substation t = e_substation e
  /\ exists k, In k rows /\ In (k_id k) (e_equipment e) /\ k_id k <> "NONE"
       /\ k_bandwidth k = Ok (r_bandwidth r)
       /\ (exists v rest amp, e_kv e = KList (Ok v :: rest) /\ k_ampacity k = Ok amp
             /\ (t_kva t == 3 * v * amp)%Q
             /\ forall w, In w (t_windings t) ->
                  (g_power w == 1000 * v * amp)%Q
                  /\ (length (letters (e_phases e)) = 1%nat -> (g_voltage w == 1000 * v)%Q)
                  /\ (length (letters (e_phases e)) <> 1%nat -> (g_voltage w == 1732 * v)%Q))
       /\ (exists w1 w2, t_windings t = [w1; w2] /\ g_type w1 = 0%Z /\ g_type w2 = 2%Z
             /\ nth_error (e_conn e) 0 = Some (g_conn w1) /\ nth_error (e_conn e) 1 = Some (g_conn w2)
             /\ g_phases w1 = g_phases w2)
       /\ (leading (e_phases e) -> length (e_ldcr e) = 3%nat -> length (e_ldcx e) = 3%nat ->
           length (e_low e) = 3%nat -> length (e_high e) = 3%nat -> length (e_vset e) = 3%nat ->
           forall w, In w (t_windings t) ->
             Forall2 (fun p pw => p_phase pw = p
                        /\ nth_error (e_ldcr e) (place p) = Some (Ok (p_r pw))
                        /\ nth_error (e_ldcx e) (place p) = Some (Ok (p_x pw)))
                     (letters (e_phases e)) (g_phases w)).
