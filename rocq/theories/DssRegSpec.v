(** Specification vocabulary for the regulators of the OpenDSS script. *)
From Verif Require Import Base CsvModel DssTextModel DssTransModel DssRegModel DssNameSpec DssTextSpec DssLoadSpec DssTransSpec.
From Coq Require Import QArith.
Local Open Scope string_scope.
Local Open Scope nat_scope.
Local Open Scope list_scope.

(** A compensator setting that some phase winding of a transformer of this name has. *)
Definition setting_of (f : phase_winding -> option Q) (ts : list transformer) (n : string) (q : Q) : Prop :=
  exists t w p, In t ts /\ tr_name t = Some n /\ In w (tr_windings t) /\ In p (wd_phases w) /\ f p = Some q.
Definition compensates (num : string -> option Q) (f : phase_winding -> option Q) (ts : list transformer) (n : string) (e : element) (k : string) : Prop :=
  ((forall q, ~ setting_of f ts n q) /\ prop e k = None) \/ exists q, setting_of f ts n q /\ gives num e k (Some q).

(** The control: its voltage is the set point, in percent of 120 V, or else the band center; its band is given at 100 V. *)
Record control_of (num : string -> option Q) (ts : list transformer) (r : regulator) (e : element) : Prop := {
  co_class : e_class e = "RegControl";
  co_name : rg_name r = Some (e_name e);
  co_trans : prop e "transformer" = Some (match rg_trans r with Some t => t | None => "trans_" ++ e_name e end)%string;
  co_winding : prop e "winding" = Some (match rg_winding r with Some w => show_int w | None => "2" end);
  co_ct : gives num e "ctprim" (rg_ct r);
  co_delay : gives num e "delay" (rg_delay r);
  co_pt : gives num e "ptratio" (rg_pt r);
  co_band : gives num e "band" (match rg_band r with Some b => Some (b * 120 / 100)%Q | None => None end);
  co_vreg : gives num e "vreg" (match rg_set r with Some s => Some (s / 100 * 120)%Q | None => rg_center r end);
  co_phase : match rg_phase r with Some p => exists n, at_node p n /\ prop e "ptphase" = Some n | None => prop e "ptphase" = None end;
  co_vlimit : gives num e "vlimit" (rg_vlimit r);
  co_x : compensates num pw_x ts (e_name e) e "x";
  co_r : compensates num pw_r ts (e_name e) e "r";
  co_only : only e ["transformer"; "winding"; "ctprim"; "delay"; "ptratio"; "band"; "vreg"; "ptphase"; "vlimit"; "x"; "r"] }.

(** The transformer that is created for a regulator without one; its emergency rating is in volt-amperes. *)
Inductive conn_is : string -> string -> Prop := conn_Y : conn_is "Y" "Wye" | conn_D : conn_is "D" "Delta" | conn_Z : conn_is "Z" "Zigzag".
Fixpoint known_conns (l : list (option string)) : list string :=
  match l with
  | [] => []
  | Some c :: r => if existsb (String.eqb c) ["Y"; "D"; "Z"] then c :: known_conns r else known_conns r
  | None :: r => known_conns r
  end.
(** The property lists these numbers. *)
Definition numbers (num : string -> option Q) (e : element) (k : string) (l : list Q) : Prop :=
  exists v, prop e k = Some v /\ Forall2 (fun q s => exists y, num s = Some y /\ (y == q)%Q) l (items v).
Record created_is (num : string -> option Q) (r : regulator) (e : element) : Prop := {
  tc_class : e_class e = "Transformer";
  tc_name : exists n, rg_name r = Some n /\ e_name e = ("trans_" ++ n)%string;
  tc_windings : prop e "windings" = Some (str_of (length (rg_windings r)));
  tc_first : exists w, nth_error (rg_windings r) 0 = Some w /\ prop e "phases" = Some (str_of (length (wd_phases w))) /\ gives num e "emerghkva" (wd_emerg w) /\
    match rg_from r, rg_to r with
    | Some a, Some b => exists v t1 t2 y z ns, prop e "buses" = Some v /\ items v = [t1; t2] /\ terminal t1 = (y, ns) /\ kept a y /\ terminal t2 = (z, ns) /\ kept b z /\
        Forall2 (fun p n => exists x, pw_phase p = Some x /\ at_node x n) (wd_phases w) ns
    | _, _ => prop e "buses" = None
    end;
  tc_conns : match known_conns (map wd_conn (rg_windings r)) with
             | [] => prop e "conns" = None
             | l => exists v, prop e "conns" = Some v /\ Forall2 conn_is l (items v)
             end;
  tc_kvs : exists vs, Forall2 (fun w v => wd_v w = Some v) (rg_windings r) vs /\ numbers num e "kvs" (map (fun v => v / 1000)%Q vs);
  tc_kvas : numbers num e "kvas" (map (fun v => v / 1000)%Q (given (map wd_va (rg_windings r))));
  tc_xhl : gives num e "xhl" (nth_error (rg_reac r) 0);
  tc_xlt : gives num e "xlt" (nth_error (rg_reac r) 1);
  tc_xht : gives num e "xht" (nth_error (rg_reac r) 2);
  tc_only : only e ["phases"; "windings"; "buses"; "conns"; "kvs"; "kvas"; "emerghkva"; "xhl"; "xlt"; "xht"] }.

Definition good_reg (r : regulator) : Prop :=
  (exists n, rg_name r = Some n /\ token n) /\ rg_noload r = None /\
  (forall p, rg_phase r = Some p -> exists n, at_node p n) /\
  match rg_trans r with
  | Some t => token t
  | None =>
    (exists w p ps, nth_error (rg_windings r) 0 = Some w /\ wd_phases w = p :: ps /\ forall q, In q (wd_phases w) -> exists x n, pw_phase q = Some x /\ at_node x n) /\
    (forall w, In w (rg_windings r) -> wd_v w <> None) /\ given (map wd_va (rg_windings r)) <> []
  end.
Inductive creations (num : string -> option Q) : list regulator -> list element -> Prop :=
| cr_nil : creations num [] []
| cr_old r rs es : rg_trans r <> None -> creations num rs es -> creations num (r :: rs) es
| cr_new r rs e es : rg_trans r = None -> created_is num r e -> creations num rs es -> creations num (r :: rs) (e :: es).
