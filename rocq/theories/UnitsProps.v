(** Property theorems on length units: C01, C02, C03, C53. *)
From Coq Require Import QArith Qabs.
From Verif Require Import Base UnitsModel UnitsSpec UnitsProofs.
Local Open Scope string_scope.
Local Open Scope Q_scope.

(** C01: the value. *)
Theorem C01_to_meters_value :
  forall (s : string) (f q : Q) (inverse : bool),
    unit_worth s f ->
    returns (convert_to_meters (Some q) (PStr s) (KwBool inverse))
            (if inverse then q / f else q * f).
Proof. exact (fun s f q i H => to_meters_value s f q (KwBool i) H). Qed.
Print Assumptions C01_to_meters_value.

(** C01: a flag that is missing or not a bool means "not inverse". *)
Theorem C01_to_meters_value_no_flag :
  forall (s : string) (f q : Q),
    unit_worth s f ->
    returns (convert_to_meters (Some q) (PStr s) KwAbsent) (q * f) /\
    returns (convert_to_meters (Some q) (PStr s) KwNotBool) (q * f).
Proof.
  exact (fun s f q H => conj (to_meters_value s f q KwAbsent H) (to_meters_value s f q KwNotBool H)).
Qed.
Print Assumptions C01_to_meters_value_no_flag.

(** C01: None exactly for missing quantities and missing, non-string or unknown units. *)
Theorem C01_to_meters_none :
  forall (q : option Q) (u : pyunit) (k : kw_inverse),
    convert_to_meters q u k = None <->
    q = None \/ u = PNone \/ u = POther \/
    (exists s, u = PStr s /\ forall f, ~ unit_worth s f).
Proof. exact to_meters_none_iff. Qed.
Print Assumptions C01_to_meters_none.

(** C01: the documented multipliers agree with the international definitions up to 2.5e-6. *)
Theorem C01_table_accuracy :
  forall u f, In (u, f) metre_table ->
  exists g, In (u, g) international_table /\ rel_close (25 # 10000000) g f.
Proof. exact metre_table_accuracy. Qed.
Print Assumptions C01_table_accuracy.

(** Non-vacuity: "KFT" is a spelling of a supported unit, "furlong" is not. *)
Example C01_hypotheses_met :
  unit_worth "KFT" (304 + 8/10) /\ (forall f, ~ unit_worth "furlong" f) /\
  returns (convert_to_meters (Some 2) (PStr "KFT") (KwBool false)) (6096 / 10).
Proof. exact units_example. Qed.

(** C02: reader to metres, writer or reader back, any spelling and both flags. *)
Theorem C02_round_trip_close :
  forall (s : string) (f q : Q) (k : kw_inverse),
    unit_worth s f ->
    (exists r, convert_from_meters (convert_to_meters (Some q) (PStr s) k) (PStr s) k = Some r
               /\ rel_close (1 # 100000) q r) /\
    (exists r, w_convert_from_meters (convert_to_meters (Some q) (PStr s) k) (PStr s) k = Some r
               /\ rel_close (1 # 100000) q r).
Proof. exact round_trip_close_both. Qed.
Print Assumptions C02_round_trip_close.

(** C02: the round trip is exact precisely for km, m and cm. *)
Theorem C02_round_trip_exact_iff :
  forall (s : string) (f q : Q) (k : kw_inverse),
    unit_worth s f -> ~ q == 0 ->
    (returns (convert_from_meters (convert_to_meters (Some q) (PStr s) k) (PStr s) k) q
     <-> ci_string s "km" \/ ci_string s "m" \/ ci_string s "cm") /\
    (returns (w_convert_from_meters (convert_to_meters (Some q) (PStr s) k) (PStr s) k) q
     <-> ci_string s "km" \/ ci_string s "m" \/ ci_string s "cm").
Proof. exact round_trip_exact_both. Qed.
Print Assumptions C02_round_trip_exact_iff.

Example C02_hypotheses_met :
  unit_worth "Mi" (1609 + 34/100) /\ ~ (7#2) == 0 /\ ci_string "Km" "km".
Proof. exact units_example2. Qed.

(** C03: value, None cases, linearity, and error of going back. *)
Theorem C03_unit_conversion_value :
  forall (q : Q) (a b : string) (f g : Q),
    In (a, f) metre_table -> In (b, g) metre_table ->
    exists r, unit_conversion (Some q) (PStr a) (PStr b) = Some r
              /\ rel_close (1 # 100000) (q * (f / g)) r.
Proof. exact unit_conversion_close. Qed.
Print Assumptions C03_unit_conversion_value.

Theorem C03_unit_conversion_none :
  forall (q : option Q) (a b : pyunit),
    unit_conversion q a b = None <->
    q = None \/ (forall s f, a = PStr s -> ~ In (s, f) metre_table)
             \/ (forall s f, b = PStr s -> ~ In (s, f) metre_table).
Proof. exact unit_conversion_none_iff. Qed.
Print Assumptions C03_unit_conversion_none.

Theorem C03_unit_conversion_linear :
  forall (a b : pyunit) (x y kx ky z rx ry : Q),
    unit_conversion (Some x) a b = Some rx ->
    unit_conversion (Some y) a b = Some ry ->
    kx * x + ky * y == z ->
    returns (unit_conversion (Some z) a b) (kx * rx + ky * ry).
Proof. exact unit_conversion_linear. Qed.
Print Assumptions C03_unit_conversion_linear.

Theorem C03_unit_conversion_back :
  forall (q : Q) (a b : string) (f g : Q),
    In (a, f) metre_table -> In (b, g) metre_table ->
    exists r, unit_conversion (unit_conversion (Some q) (PStr a) (PStr b)) (PStr b) (PStr a) = Some r
              /\ rel_close (1 # 10000) q r.
Proof. exact unit_conversion_back. Qed.
Print Assumptions C03_unit_conversion_back.

Example C03_hypotheses_met :
  In ("mi", 1609 + 34/100) metre_table /\ In ("ft", 3048/10000) metre_table /\
  unit_conversion (Some 1) (PStr "Mi") (PStr "ft") = None /\
  (exists r, unit_conversion (Some 1) (PStr "mi") (PStr "ft") = Some r).
Proof. exact units_example3. Qed.

(** C53: which calls of the Synergi conversion succeed, and with which value.  [per] is
    the reading of the documentation table; the Per_LUL factor of kft is within 1e-5. *)
Theorem C53_synergi_value :
  forall (v : Q) (a : synergi_arg) (u : pyunit) (r : Q),
    convert_length_unit v a u = Ok r ->
    exists t s factor,
      a = SType t /\ u = PStr s /\ synergi_worth s t factor /\
      (exists c, r == v * (c * factor) /\ - (1#100000) <= c - 1 <= (1#100000) /\
                 ((t <> Per_LUL \/ s = "metric" \/ s = "english2") -> c == 1)).
Proof. exact synergi_value. Qed.
Print Assumptions C53_synergi_value.

Theorem C53_synergi_total :
  forall (v : Q) (t : synergi_type) (s : string),
    In s ["english"; "english1"; "english2"; "metric"] ->
    exists r, convert_length_unit v (SType t) (PStr s) = Ok r.
Proof. exact synergi_total. Qed.
Print Assumptions C53_synergi_total.

Theorem C53_synergi_rejects :
  forall (v : Q) (a : synergi_arg) (u : pyunit),
    (a = SNotType \/ u = PNone \/ u = POther \/
     exists s, u = PStr s /\
       forall w, In w ["english"; "english1"; "english2"; "metric"] -> ~ ci_string s w) ->
    convert_length_unit v a u = Err EValue.
Proof. exact synergi_rejects. Qed.
Print Assumptions C53_synergi_rejects.

(** C53 is false as stated for letter case: an accepted spelling such as "Metric" raises KeyError. *)
Theorem C53_synergi_letter_case_refuted :
  forall (v : Q) (t : synergi_type) (s w : string),
    In w ["english"; "english1"; "english2"; "metric"] ->
    ci_string s w -> s <> w ->
    convert_length_unit v (SType t) (PStr s) = Err EKey.
Proof. exact synergi_letter_case. Qed.
Print Assumptions C53_synergi_letter_case_refuted.

Example C53_hypotheses_met :
  ci_string "Metric" "metric" /\ "Metric" <> "metric" /\
  synergi_worth "metric" LUL 1000 /\
  convert_length_unit 3 (SType LUL) (PStr "metric") = Ok (3 * 1000).
Proof. exact synergi_example. Qed.
