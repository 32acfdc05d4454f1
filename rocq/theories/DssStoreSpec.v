(** Specification vocabulary for the storage units of the OpenDSS script. *)
From Verif Require Import Base CsvModel DssTextModel DssStoreModel DssNameSpec DssTextSpec DssLoadSpec.
From Coq Require Import QArith Qabs.
Local Open Scope string_scope.
Local Open Scope nat_scope.
Local Open Scope list_scope.

(** Square roots of squares are exact. *)
Definition exact_root (root : Q -> Q) : Prop := forall x r, (0 < r)%Q -> (r * r == x)%Q -> (root x == r)%Q.

(** The voltage: its own, or that of its bus. *)
Definition voltage_of (parent : string -> option (option Q)) (s : storage) (v : option Q) : Prop :=
  match so_kv s with
  | Some x => v = Some x
  | None => match so_bus s with Some b => parent b = Some v | None => v = None end
  end.
Definition phases_of (s : storage) : list phase_storage := match so_phases s with Some l => l | None => [] end.
Definition known (f : phase_storage -> option Q) (s : storage) : Prop := forall p, In p (phases_of s) -> f p <> None.
Definition power (f : phase_storage -> option Q) (s : storage) : Q := sum (given (map f (phases_of s))).

Record storage_is (num : string -> option Q) (parent : string -> option (option Q)) (s : storage) (e : element) : Prop := {
  si_class : e_class e = "Storage";
  si_name : so_name s = Some (e_name e);
  si_phases : match so_phases s with
              | Some ps => exists v n, so_kv s = Some v /\ prop e "phases" = Some (str_of n) /\ (((v < 300)%Q /\ n = 1) \/ ((300 <= v)%Q /\ n = length ps))
              | None => prop e "phases" = None
              end;
  si_kw : so_phases s <> None -> known ps_p s -> gives num e "kw" (Some (power ps_p s / 1000)%Q);
  si_no_kw : so_phases s = None \/ ~ known ps_p s -> prop e "kw" = None /\ prop e "pf" = None;
  si_pf : so_phases s <> None -> known ps_p s -> known ps_q s -> ~ (power ps_p s == 0)%Q -> ~ (power ps_q s == 0)%Q ->
    exists f, value num e "pf" = Some f /\
      forall r, (0 < r)%Q -> (r * r == power ps_p s * power ps_p s + power ps_q s * power ps_q s)%Q -> (f * r == power ps_p s)%Q;
  si_no_pf : ~ known ps_q s \/ (power ps_p s == 0)%Q \/ (power ps_q s == 0)%Q -> prop e "pf" = None;
  si_bus : exists ns, Forall2 (fun p n => exists x, ps_phase p = Some x /\ at_node x n) (phases_of s) ns /\ connects e "bus1" (so_bus s) ns;
  si_kv : exists v, voltage_of parent s v /\ gives num e "kv" (match v with Some x => Some (x / 1000)%Q | None => None end) /\
    gives num e "kva" (match v, so_active s with
                       | Some _, Some a => Some (a / (match so_pf s with Some f => Qabs f | None => 1 end) / 1000)%Q
                       | _, _ => None end);
  si_rated : gives num e "kwrated" (match so_rated s with Some x => Some (x / 1000)%Q | None => None end);
  si_kwh : gives num e "kwhrated" (match so_kwh s with Some x => Some (x / 1000)%Q | None => None end);
  si_stored : gives num e "kwhstored" (match so_stored s with Some x => Some (x / 1000)%Q | None => None end);
  si_state : prop e "state" = Some (match so_state s with Some x => x | None => "IDLING" end);
  si_reserve : gives num e "%reserve" (match so_reserve s with Some x => Some (x / 1000)%Q | None => None end);
  si_dis : gives num e "%discharge" (so_dis s);
  si_cha : gives num e "%charge" (so_cha s);
  si_effc : gives num e "%effcharge" (so_effc s);
  si_effd : gives num e "%effdischarge" (so_effd s);
  si_r : gives num e "%r" (so_r s);
  si_x : gives num e "%x" (so_x s);
  si_model : prop e "model" = option_map show_int (so_model s);
  si_only : only e ["phases"; "kw"; "pf"; "bus1"; "kv"; "kva"; "kwrated"; "kwhrated"; "kwhstored"; "state"; "%reserve"; "%discharge"; "%charge";
                    "%effcharge"; "%effdischarge"; "%r"; "%x"; "model"] }.

(** A storage unit that can be written without quotes. *)
Definition good_storage (parent : string -> option (option Q)) (s : storage) : Prop :=
  (exists n, so_name s = Some n /\ token n) /\ so_bus s <> Some "" /\
  (so_phases s <> None -> so_kv s <> None) /\ (exists v, voltage_of parent s v) /\
  (forall p, In p (phases_of s) -> exists x n, ps_phase p = Some x /\ at_node x n) /\
  (forall x, so_state s = Some x -> token x) /\
  (so_active s <> None -> forall f, so_pf s = Some f -> ~ (f == 0)%Q).

(** Equal values, or none on both sides. *)
Definition same (a b : option Q) : Prop := match a, b with Some x, Some y => (x == y)%Q | None, None => True | _, _ => False end.
Definition thousandth (a b : option Q) : Prop := same (option_map (fun x => x / 1000)%Q a) b.
