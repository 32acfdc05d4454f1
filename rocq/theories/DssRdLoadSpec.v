(** What the loads that OpenDSS reports should become. *)
From Verif Require Import Base CsvModel DssTextModel DssTextSpec DssLoadSpec DssNodeSpec DssRdLoadModel.
From Coq Require Import Reals QArith Qreals.
Local Open Scope string_scope.
Local Open Scope nat_scope.
Local Open Scope list_scope.

Definition number (num : string -> option R) (d : data) (k : string) (r : R) : Prop := exists s, d k = Some (PText s) /\ num s = Some r.
Definition whole (int_ : string -> option Z) (d : data) (k : string) (z : Z) : Prop := exists s, d k = Some (PText s) /\ int_ s = Some z.
(** the number of a property, None when it has none *)
Definition states num (d : data) (k : string) (o : option R) : Prop := match o with Some r => number num d k r | None => forall r, ~ number num d k r end.
Definition enabled (d : data) : bool := match d "enabled" with Some (PText s) => String.eqb s "Yes" | _ => false end.

(** [pf] is the power factor of a load of [kw] and [kvar]; negative when the signs differ *)
Definition power_factor (kw kvar pf : R) : Prop := kw <> 0%R /\ (pf * pf * (kw * kw + kvar * kvar) = kw * kw)%R /\ (0 <= pf * (kw * kvar))%R.
(** A load with [n] phases is connected to its first [n] nodes; a delta load has more nodes than phases when it stands between two phases. *)
Definition on_phases (conn : string) (n : nat) (ns ps : list string) : Prop :=
  (n <> 0 /\ n <= length ns /\ (conn = "delta" \/ n = length ns) /\ exists qs, Forall2 node_letter ns qs /\ ps = firstn n qs) \/
  (ns = [] /\ n = 3 /\ ps = ["A"; "B"; "C"]).
Fixpoint has (w s : string) : Prop := match s with "" => w = "" | String c t => String.prefix w s = true \/ has w t end.
Definition shares num (d : data) (model : Z) (o : option (list R)) : Prop :=
  (model <> 8%Z /\ o = None) \/
  (model = 8%Z /\ exists s rest z i p zq iq pq cut, d "ZIPV" = Some (PList (s :: rest)) /\ Forall2 (fun w r => num w = Some r) (words s) [z; i; p; zq; iq; pq; cut] /\
     o = Some [z * 100; i * 100; p * 100; zq * 100; iq * 100; pq * 100]%R).

(** What OpenDSS reports of a load named [n] at bus [b] with phases [ps]. *)
Record reports (int_ : string -> option Z) num (full : string) (d : data) (n b conn : string) (ps : list string) (kw kvar : R) : Prop := {
  re_name : full = ("Load." ++ n)%string;
  re_plain : ~ has "oad." n;
  re_conn : exists s, d "conn" = Some (PText s) /\ lower s = conn /\ (conn = "wye" \/ conn = "delta");
  re_bus : exists t ns k, d "bus1" = Some (PText t) /\ terminal t = (b, ns) /\ whole int_ d "phases" (Z.of_nat k) /\ on_phases conn k ns ps;
  re_kw : number num d "kW" kw;
  re_kvar : number num d "kvar" kvar;
  re_kva : exists x, number num d "kVA" x;
  re_pf : exists f, number num d "pf" f /\ power_factor kw kvar f;
  re_model : exists z o, whole int_ d "model" z /\ shares num d z o }.
Record reads_load (int_ : string -> option Z) num source (d : data) (n b conn : string) (ps : list string) (kw kvar : R) (l : rload) : Prop := {
  rd_name : rl_name l = ("load_" ++ lower n)%string;
  rd_feeder : rl_feeder l = source;
  rd_bus : rl_bus l = Some b;
  rd_conn : rl_conn l = Some (if String.eqb conn "delta" then "D" else "Y");
  rd_kv : exists v, states num d "kV" v /\ rl_kv l = option_map (fun x => x * 1000)%R v;
  rd_users : states num d "NumCust" (rl_users l);
  rd_vmin : states num d "Vminpu" (rl_vmin l);
  rd_vmax : states num d "Vmaxpu" (rl_vmax l);
  rd_phases : map rp_phase (rl_phases l) = map Some ps;
  rd_power : forall x, In x (rl_phases l) -> (rp_p x * INR (length ps) = kw * 1000)%R /\ exists q, rp_q x = Num q /\ (q * INR (length ps) = kvar * 1000)%R;
  rd_model : forall x, In x (rl_phases l) -> whole int_ d "model" (rp_model x) /\ shares num d (rp_model x) (rp_shares x) /\ (rp_zip x = true <-> rp_shares x <> None) }.
Definition good_report int_ num (x : string * data) : Prop := snd x "enabled" <> None /\ (enabled (snd x) = true -> exists n b conn ps kw kvar, reports int_ num (fst x) (snd x) n b conn ps kw kvar).
Definition read_of int_ num source (x : string * data) (l : rload) : Prop :=
  exists n b conn ps kw kvar, reports int_ num (fst x) (snd x) n b conn ps kw kvar /\ reads_load int_ num source (snd x) n b conn ps kw kvar l.

(** ** What OpenDSS reports of an element that was written *)
Definition reads_ints (int_ : string -> option Z) : Prop := (forall z, int_ (show_int z) = Some z) /\ forall n, int_ (str_of n) = Some (Z.of_nat n).
Definition real_of (num : string -> option Q) (s : string) : option R := option_map Q2R (num s).
Definition defaults (e : element) (k v : string) : string := match prop e k with Some s => s | None => v end.
(** Text is reported as it was written, numbers have the values that were written; the power factor follows from the powers. *)
Record engine (num : string -> option R) (e : element) (d : data) : Prop := {
  en_on : d "enabled" = Some (PText "Yes");
  en_bus : d "bus1" = option_map PText (prop e "bus1");
  en_conn : d "conn" = Some (PText (defaults e "conn" "wye"));
  en_phases : d "phases" = Some (PText (defaults e "phases" "3"));
  en_model : d "model" = Some (PText (defaults e "model" "1"));
  en_kv : forall s r, prop e "kv" = Some s -> num s = Some r -> number num d "kV" r;
  en_vmin : forall s r, prop e "vminpu" = Some s -> num s = Some r -> number num d "Vminpu" r;
  en_vmax : forall s r, prop e "vmaxpu" = Some s -> num s = Some r -> number num d "Vmaxpu" r;
  en_kw : forall s r, prop e "kw" = Some s -> num s = Some r -> number num d "kW" r;
  en_kvar : forall s r, prop e "kvar" = Some s -> num s = Some r -> number num d "kvar" r;
  en_kva : exists x, number num d "kVA" x;
  en_pf : forall kw kvar, number num d "kW" kw -> number num d "kvar" kvar -> kw <> 0%R -> exists f, number num d "pf" f /\ power_factor kw kvar f }.
Definition total (l : list R) : R := fold_right Rplus 0%R l.
Definition equal_to (o : option Q) (r : option R) : Prop := forall q, o = Some q -> r = Some (Q2R q).
