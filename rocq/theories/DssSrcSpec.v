(** What power sources should become in an OpenDSS script and in a model. *)
From Verif Require Import Base CsvModel TextModel DssNameSpec DssTextSpec DssLoadSpec DssRdLoadModel DssRdLoadSpec DssRdCapSpec DssSrcModel.
From Coq Require Import Reals QArith Qreals.
Local Open Scope string_scope.
Local Open Scope nat_scope.
Local Open Scope list_scope.

(** ** Writing *)
Definition circuit_is (num : string -> option Q) (s : source) (b : string) (e : element) : Prop :=
  e_class e = "Circuit" /\ e_name e = "Full_Network" /\ connects e "bus1" (Some b) [] /\ gives num e "pu" (so_pu s) /\
  gives num e "basekv" (option_map (fun v => v / 1000)%Q (so_kv s)) /\
  gives num e "R1" (option_map fst (so_z1 s)) /\ gives num e "X1" (option_map snd (so_z1 s)) /\
  gives num e "R0" (option_map fst (so_z0 s)) /\ gives num e "X0" (option_map snd (so_z0 s)) /\
  only e ["bus1"; "pu"; "basekv"; "r1"; "x1"; "r0"; "x0"].
(** the bus: that of the source, or the name without "_src" at its end *)
Definition at_source (s : source) (b : string) : Prop :=
  match so_conn s with Some c => b = c | None => exists n, so_name s = Some n /\ (n = b ++ "_src" \/ n = b)%string /\ ~ has "_src" b end.

(** ** Reading *)
Definition source_at (d : data) (b : string) : Prop := exists t ns, d "bus1" = Some (PText t) /\ terminal t = (b, ns).
(** a real and an imaginary part, as one list or as two numbers *)
Definition impedance (num : string -> option R) (d : data) (kz kr kx : string) (z : option (R * R)) : Prop :=
  (forall a b r x, d kz = Some (PList [a; b]) -> num a = Some r -> num b = Some x -> z = Some (r, x)) /\
  (forall a b r x, (forall l, d kz <> Some (PList l)) -> d kr = Some (PText a) -> d kx = Some (PText b) -> a <> "" -> b <> "" -> num a = Some r -> num b = Some x -> z = Some (r, x)) /\
  (d kz = None -> d kr = None -> z = None).
Definition times (f : R) (o v : option R) : Prop := v = option_map (fun x => x * f)%R o.
Record reads_source (num : string -> option R) (x : string * data) (b : string) (r : rsource) : Prop := {
  rso_name : rs_name r = fst x;
  rso_bus : rs_conn r = Some b;
  rso_kv : exists v, states num (snd x) "basekv" v /\ times 1000 v (rs_kv r);
  rso_pu : exists v, states num (snd x) "pu" v /\ rs_pu r = match v with Some p => Some p | None => Some 1%R end;
  rso_rated : exists v, states num (snd x) "baseMVA" v /\ times 1000000 v (rs_rated r);
  rso_emergency : exists v, states num (snd x) "MVAsc3" v /\ times 1000000 v (rs_emergency r);
  rso_angle : exists v, states num (snd x) "angle" v /\ rs_angle r = match v with Some a => Some a | None => Some 0%R end;
  rso_z1 : impedance num (snd x) "Z1" "R1" "X1" (rs_z1 r);
  rso_z0 : impedance num (snd x) "Z0" "R0" "X0" (rs_z0 r) }.
Definition meta_of (b : string) (r : rsource) (m : rmeta) : Prop := rm_name m = (b ++ "_src")%string /\ rm_head m = b /\ rm_sub m = b /\ rm_kv m = rs_kv r.
Definition good_source_report (x : string * data) : Prop := snd x "enabled" <> None /\ (enabled (snd x) = true -> exists b, source_at (snd x) b).
Definition source_read_of num (x : string * data) (rm : rsource * rmeta) : Prop := exists b, source_at (snd x) b /\ reads_source num x b (fst rm) /\ meta_of b (fst rm) (snd rm).
(** the attribute source_name: that of the last source *)
Definition last_name (ms : list rmeta) : string := List.last (map rm_name ms) "Sourcebus".

(** *** Coordinates *)
Definition empty_row (r : string) : Prop := strip r = "".
Definition row_at (num : string -> option R) (delim : ascii) (r b : string) (x y : R) : Prop :=
  ~ empty_row r /\ exists n xs ys, pieces (Ascii.eqb delim) r = [n; xs; ys] /\ b = lower (strip n) /\ num (strip xs) = Some x /\ num (strip ys) = Some y.
Definition rows_ok num delim (coordinates : option (list string)) : Prop :=
  forall rows r, coordinates = Some rows -> In r rows -> empty_row r \/ exists b x y, row_at num delim r b x y.

(** ** What OpenDSS reports of the source of a circuit that was written *)
Record engine_source (num : string -> option R) (e : element) (d : data) : Prop := {
  es_on : d "enabled" = Some (PText "Yes");
  es_bus : same_text e d "bus1" "bus1";
  es_kv : passed num e d "basekv" "basekv";
  es_pu : passed num e d "pu" "pu";
  es_z1 : forall s t r x, prop e "R1" = Some s -> prop e "X1" = Some t -> num s = Some r -> num t = Some x -> exists a b, d "Z1" = Some (PList [a; b]) /\ num a = Some r /\ num b = Some x;
  es_z0 : forall s t r x, prop e "R0" = Some s -> prop e "X0" = Some t -> num s = Some r -> num t = Some x -> exists a b, d "Z0" = Some (PList [a; b]) /\ num a = Some r /\ num b = Some x }.
