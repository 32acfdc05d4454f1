From Coq Require Import List String Ascii Bool Arith ZArith Reals.
From Verif Require Import Base CymeMapSpec CymeParseModel CymeParseSpec CymeLoadSpec CymeTrafoModel.
Import ListNotations.
Local Open Scope string_scope.
Local Open Scope nat_scope.
Local Open Scope list_scope.

(** The impedance with the modulus [z] (a percentage) and the ratio [k] of reactance to resistance; nothing for the ratio 0. *)
Definition impedance (z k : R) (r x : R) : Prop :=
  (k = 0 /\ r = 0 /\ x = 0)%R \/ (k <> 0 /\ r * r + x * x = z * z /\ x = Rabs k * r /\ 0 <= r * z)%R.
(** Rounded towards zero. *)
Definition truncated (x : R) (z : Z) : Prop := ((0 <= x -> IZR z <= x < IZR z + 1) /\ (x < 0 -> IZR z - 1 < x <= IZR z))%R.
(** Product of 3 x 3 matrices. *)
Definition cplus (x y : cx) : cx := (fst x + fst y, snd x + snd y)%R.
Definition product (x y : array) (i j : nat) : cx := cplus (cplus (cmul (x i 0) (y 0 j)) (cmul (x i 1) (y 1 j))) (cmul (x i 2) (y 2 j)).

Section Spec.
Variable num : string -> option R.
Variable int_ : string -> option Z.
Variable section_phase : list (string * CymeParseModel.record).
Variable section_feeder : list (string * string).
Variable equipment : list (string * CymeParseModel.record).
Variable grounding : list (string * CymeParseModel.record).
Notation record := CymeParseModel.record.

Definition thousands (d : record) (k : string) (o : option R) : Prop := forall x, o = Some x <-> exists y, number num d k y /\ x = (y * 1000)%R.
(** A winding with the same tap on each phase. *)
Definition on_phases (t : string) (o : option Z) (ps : list (string * option Z)) : Prop := ps = map (fun a => (String a "", o)) (list_ascii_of_string t).
Definition three_says (d : record) (t which : string) (w : winding) : Prop :=
  thousands d (which ++ "ratedcapacity")%string (w_power w) /\ thousands d (which ++ "basevoltage")%string (w_voltage w) /\
  exists o, (forall z, o = Some z <-> exists u, dget d (which ++ "fixedtapsetting")%string = Some u /\ int_ u = Some z) /\ on_phases t o (w_phases w).
(** The connections of the two windings. *)
Definition pair_says (q : record) (a b : option string) : Prop :=
  (exists u z c n x y, dget q "conn" = Some u /\ In (z, c, n, (x, y)) pair_table /\ spelt c n u /\ a = Some x /\ b = Some y) \/
  ((forall u z c n r, dget q "conn" = Some u -> In (z, c, n, r) pair_table -> ~ spelt c n u) /\ a = None /\ b = None).
Definition two_says (q : record) (t : string) (xs : list R) (ws : list winding) : Prop :=
  exists z0 k0 r0 x0 w1 w2, number num q "z0" z0 /\ number num q "xr0" k0 /\ impedance z0 k0 r0 x0 /\ xs = [(x0 / 3)%R] /\ ws = [w1; w2] /\
    w_resistance w1 = Some (r0 / 6)%R /\ w_resistance w2 = Some (r0 / 6)%R /\
    thousands q "kva" (w_power w1) /\ thousands q "kva" (w_power w2) /\ thousands q "kvllprim" (w_voltage w1) /\ thousands q "kvllsec" (w_voltage w2) /\
    pair_says q (w_connection w1) (w_connection w2) /\ on_phases t None (w_phases w1) /\ on_phases t None (w_phases w2).
Definition connection_says (q : record) (c : option string) : Prop :=
  (exists t z a n r, dget q "conn" = Some t /\ In (z, a, n, r) connection_table /\ spelt a n t /\ c = Some r) \/
  ((forall t z a n r, dget q "conn" = Some t -> In (z, a, n, r) connection_table -> ~ spelt a n t) /\ c = None).
Definition grounding_says (q : record) (t : string) (w : winding) : Prop :=
  thousands q "ratedcapacity" (w_power w) /\ thousands q "ratedvoltage" (w_voltage w) /\ connection_says q (w_connection w) /\ on_phases t None (w_phases w).

(** The equipment of a transformer: that with its id, else the default one. *)
Definition data_of (d q : record) : Prop := exists i, dget d "eqid" = Some i /\ (dget equipment i = Some q \/ (dget equipment i = None /\ dget equipment "DEFAULT" = Some q)).
Definition ground_of (d q : record) : Prop := exists i, dget d "equipmentid" = Some i /\ (dget grounding i = Some q \/ (dget grounding i = None /\ q = [])).
Definition three_type (u : string) : Prop := u = "three_winding_transformer" \/ u = "three_winding_auto_transformer".
Inductive windings_say (d : record) (u t : string) (xs : list R) (ws : list winding) : Prop :=
| windings_three w1 w2 w3 : three_type u -> ws = [w1; w2; w3] -> xs = [] -> three_says d t "primary" w1 -> three_says d t "secondary" w2 -> three_says d t "tertiary" w3 -> windings_say d u t xs ws
| windings_two q : u = "transformer" -> data_of d q -> two_says q t xs ws -> windings_say d u t xs ws
| windings_ground q w1 w2 : u = "grounding_transformer" -> ground_of d q -> xs = [] -> ws = [w1; w2] -> grounding_says q t w1 -> grounding_says q t w2 -> windings_say d u t xs ws
| windings_other : ~ three_type u -> u <> "transformer" -> u <> "grounding_transformer" -> xs = [] -> ws = [] -> windings_say d u t xs ws.
Definition positions_say (d : record) (l : list (R * R)) : Prop :=
  (exists x y, number num d "coordx" x /\ number num d "coordy" y /\ l = [(x, y)]) \/ ((forall x y, ~ (number num d "coordx" x /\ number num d "coordy" y)) /\ l = []).

(** The regulator of a transformer with a load tap changer. *)
Definition ltc_says (id : string) (d q : record) (g : ltc) : Prop :=
  exists s lo up buck boost pt ct, dget d "sectionid" = Some s /\ g_name g = ("Reg_" ++ s)%string /\ g_transformer g = ("Trans_" ++ s)%string /\ dget section_feeder (lower id) = Some (g_feeder g) /\
    number num q "lowerbandwidth" lo /\ number num q "upperbandwidth" up /\ g_bandwidth g = (lo + up)%R /\ number num d "setpoint" (g_setpoint g) /\
    number num d "maxbuck" buck /\ truncated buck (g_high g) /\ number num d "maxboost" boost /\ truncated boost (g_low g) /\
    number num d "pt" pt /\ truncated pt (g_pt g) /\ number num d "ct" ct /\ truncated ct (g_ct g).
(** The cell isltc holds some text. *)
Definition marked (q : record) : Prop := exists t, dget q "isltc" = Some t /\ t <> "".
Definition regulator_says (id : string) (d : record) (u : string) (o : option ltc) : Prop :=
  (exists q g, u = "transformer" /\ data_of d q /\ marked q /\ o = Some g /\ ltc_says id d q g) \/
  ((u = "transformer" -> forall q, data_of d q -> ~ marked q) /\ o = None).
Definition transformer_says (e : string * record) (r : transformer * option ltc) : Prop :=
  exists id k s t u n, fst e = (id ++ stars k)%string /\ bare id /\ dget section_phase (lower id) = Some s /\ dget s "phase" = Some t /\ dget (snd e) "type" = Some u /\
    dget (snd e) "sectionid" = Some n /\ t_name (fst r) = ("Trans_" ++ n)%string /\ dget section_feeder (lower id) = Some (t_feeder (fst r)) /\ t_from (fst r) = dget s "fromnodeid" /\ t_to (fst r) = dget s "tonodeid" /\
    positions_say (snd e) (t_positions (fst r)) /\ windings_say (snd e) u t (t_reactances (fst r)) (t_windings (fst r)) /\ regulator_says id (snd e) u (snd r).

(** Settings that can be read. *)
Definition placed (e : string * record) : Prop :=
  exists id k s t f u n, fst e = (id ++ stars k)%string /\ bare id /\ dget section_phase (lower id) = Some s /\ dget s "phase" = Some t /\ dget section_feeder (lower id) = Some f /\ dget (snd e) "type" = Some u /\ dget (snd e) "sectionid" = Some n.
Definition readable (d : record) : Prop :=
  (dget d "type" = Some "transformer" -> exists q, data_of d q /\ (forall k, In k ["z1"; "z0"; "xr"; "xr0"] -> exists x, number num q k x) /\
     (marked q -> (forall k, In k ["taps"; "lowerbandwidth"; "upperbandwidth"] -> exists x, number num q k x) /\ (forall k, In k ["maxbuck"; "maxboost"; "setpoint"; "ct"; "pt"] -> exists x, number num d k x))) /\
  (dget d "type" = Some "grounding_transformer" -> exists i, dget d "equipmentid" = Some i).
End Spec.
