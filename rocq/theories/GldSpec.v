(** What the objects of a GLM file mean, independent of the reader. *)
From Verif Require Import Base CsvModel TextModel GlmModel GldModel.
From Coq Require Import QArith Qcanon.
Local Open Scope list_scope.
Local Open Scope string_scope.
Local Open Scope Qc_scope.

Section Attributes.
Variable num : string -> res Qc.
Variable cnum : string -> res C.
Definition lacks (o : obj) (k : string) : Prop := dget (o_props o) k = None.
(** the attribute of an object, its value as a number, as a complex number *)
Definition says (o : obj) (k v : string) : Prop := dget (o_props o) k = Some v.
Definition reads (o : obj) (k : string) (x : Qc) : Prop := exists s, says o k s /\ num s = Ok x.
Definition creads (o : obj) (k : string) (z : C) : Prop := exists s, says o k s /\ cnum s = Ok z.
Definition maybe {A} (P : A -> Prop) (o : obj) (k : string) (v : option A) : Prop := match v with Some x => P x | None => lacks o k end.
Definition text (o : obj) (k : string) (v : option string) : Prop := maybe (says o k) o k v.
Definition number (o : obj) (k : string) (v : option Qc) : Prop := maybe (reads o k) o k v.

(** ** Loads: the power that is drawn *)
Definition cadd (a b : C) : C := (fst a + fst b, snd a + snd b).
Definition times (a b : C) : C := (fst a * fst b - snd a * snd b, fst a * snd b + snd a * fst b).
Definition conj (a : C) : C := (fst a, - snd a).
Definition czero : C := (Q2Qc 0, Q2Qc 0).
(** the power at a voltage and a current *)
Definition power (v i : C) : C := times v (conj i).
(** an impedance at a voltage draws the current of Ohm's law *)
Definition impedance_power (v z s : C) : Prop := exists i, v = times z i /\ s = power v i.

(** a part that is not used: not given, or zero *)
Definition unused (o : obj) (k : string) : Prop := lacks o k \/ creads o k czero.
(** [draws scheds o ph s m]: phase [ph] of the load [o] draws the power [s], and [m] is the OpenDSS number of the model *)
Inductive draws (scheds : dict string) (o : obj) (ph : string) : C -> option Z -> Prop :=
| draws_power : forall s, creads o ("constant_power_" ++ ph) s -> fst s <> Q2Qc 0 -> draws scheds o ph s (Some 1%Z)
| draws_impedance : forall v z s, unused o ("constant_power_" ++ ph) -> creads o ("constant_impedance_" ++ ph) z -> creads o ("voltage_" ++ ph) v ->
    fst z <> Q2Qc 0 -> impedance_power v z s -> draws scheds o ph s (Some 2%Z)
| draws_current : forall v i, unused o ("constant_power_" ++ ph) -> unused o ("constant_impedance_" ++ ph) ->
    creads o ("constant_current_" ++ ph) i -> creads o ("voltage_" ++ ph) v -> fst i <> Q2Qc 0 -> draws scheds o ph (power v i) (Some 5%Z)
| draws_base : forall x, unused o ("constant_power_" ++ ph) -> unused o ("constant_impedance_" ++ ph) -> unused o ("constant_current_" ++ ph) ->
    number o ("base_power_" ++ ph) (Some x) -> draws scheds o ph (x, Q2Qc 0) None
| draws_scheduled : forall b n f v x y, unused o ("constant_power_" ++ ph) -> unused o ("constant_impedance_" ++ ph) -> unused o ("constant_current_" ++ ph) ->
    says o ("base_power_" ++ ph) b -> num b = Err EValue -> (b = n ++ "*" ++ f \/ b = f ++ "*" ++ n) ->
    (forall a c, n <> a ++ "*" ++ c) -> (forall a c, f <> a ++ "*" ++ c) ->
    dget scheds n = Some v -> dget scheds f = None -> num v = Ok x -> num f = Ok y -> draws scheds o ph (x * y, Q2Qc 0) None
| draws_nothing : unused o ("constant_power_" ++ ph) -> unused o ("constant_impedance_" ++ ph) -> unused o ("constant_current_" ++ ph) ->
    lacks o ("base_power_" ++ ph) -> draws scheds o ph czero None.
(** the power of everything that the object gives for a phase *)
Definition part (used : C -> C -> Prop) (o : obj) (k : string) (s : C) : Prop :=
  (unused o k /\ s = czero) \/ exists a, creads o k a /\ a <> czero /\ used a s.
Definition total (o : obj) (ph : string) (v s : C) : Prop :=
  exists s1 s2 s3, part (fun a s => s = a) o ("constant_power_" ++ ph) s1 /\ part (fun z s => impedance_power v z s) o ("constant_impedance_" ++ ph) s2 /\
    part (fun i s => s = power v i) o ("constant_current_" ++ ph) s3 /\ s = cadd s1 (cadd s2 s3).
(** the fractions of a ZIP load are given *)
Definition zip_given (o : obj) (ph : string) (cf cp pf pp zf zp : Qc) : Prop :=
  reads o ("current_fraction_" ++ ph) cf /\ reads o ("current_pf_" ++ ph) cp /\ reads o ("power_fraction_" ++ ph) pf /\ reads o ("power_pf_" ++ ph) pp /\
  reads o ("impedance_fraction_" ++ ph) zf /\ reads o ("impedance_pf_" ++ ph) zp.
Definition zip_readable (o : obj) (ph : string) : Prop :=
  forall k, In k ["current_fraction_"; "current_pf_"; "power_fraction_"; "power_pf_"; "impedance_fraction_"; "impedance_pf_"] ->
  exists v, number o (k ++ ph) v.

(** ** Phases *)
Definition chars (s : string) : list string := map (fun c => String c "") (list_ascii_of_string s).
Definition is_abc (c : string) : Prop := c = "A" \/ c = "B" \/ c = "C".
(** quotes around a text *)
Definition quoted (q s : string) : Prop := q = s \/ q = """" ++ s ++ """".
Definition plain (s : string) : Prop := forall c, In c (list_ascii_of_string s) -> c <> """"%char.
End Attributes.

(** the phases A, B, C of a text *)
Definition abc_phases (s : string) : list string := filter (fun c => if in_dec string_dec c ["A"; "B"; "C"] then true else false) (chars s).
(** everything but the neutral and the secondary *)
Definition live_phases (s : string) : list string := filter (fun c => if in_dec string_dec c ["N"; "S"] then false else true) (chars s).
(** at most one of the three parts of a load is used *)
Definition one_part (cnum : string -> res C) (o : obj) (ph : string) : Prop :=
  let u k := unused cnum o (k ++ ph) in
  (u "constant_power_" /\ u "constant_impedance_") \/ (u "constant_power_" /\ u "constant_current_") \/ (u "constant_impedance_" /\ u "constant_current_").
(** the parts that are used have an active component *)
Definition active (cnum : string -> res C) (o : obj) (ph : string) : Prop :=
  forall k a, In k ["constant_power_"; "constant_impedance_"; "constant_current_"] -> creads cnum o (k ++ ph) a -> a <> czero -> fst a <> Q2Qc 0.

(** ** Transformers *)
Inductive connects : string -> option string -> option string -> Prop :=
| wye_wye : connects "WYE_WYE" (Some "Y") (Some "Y")
| delta_delta : connects "DELTA_DELTA" (Some "D") (Some "D")
| delta_wye : connects "DELTA_GWYE" (Some "D") (Some "Y")
| single_phase : connects "SINGLE_PHASE" None None.
(** the resistance and reactance of a configuration: given each, or as one impedance *)
Definition impedance_of (num : string -> res Qc) (cnum : string -> res C) (cfg : obj) (r x : Qc) : Prop :=
  (reads num cfg "resistance" r /\ reads num cfg "reactance" x) \/
  ((exists r0, number num cfg "resistance" r0) /\ lacks cfg "reactance" /\ creads cnum cfg "impedance" (r, x)).
(** only the rating of the whole transformer is given *)
Definition rated (num : string -> res Qc) (cfg : obj) (p : Qc) : Prop :=
  reads num cfg "power_rating" p /\ lacks cfg "powerA_rating" /\ lacks cfg "powerB_rating" /\ lacks cfg "powerC_rating".

(** ** Fuses and switches: everything but the neutral *)
Definition line_phases (s : string) : list string := filter (fun c => if string_dec c "N" then false else true) (chars s).

(** ** Regulators: a setting per phase A, B, C *)
Definition setting {A} (parse : string -> res A) (cfg : obj) (key : string) (val : string -> option A) : Prop :=
  forall ph, (is_abc ph /\ match val ph with Some x => exists s, says cfg (key ++ ph) s /\ parse s = Ok x | None => lacks cfg (key ++ ph) end) \/ (~ is_abc ph /\ val ph = None).
(** the phases that have a value but are not listed *)
Definition extra {A} (val : string -> option A) (l : list string) : list string :=
  filter (fun ph => if in_dec string_dec ph l then false else match val ph with Some _ => true | None => false end) ["A"; "B"; "C"].
