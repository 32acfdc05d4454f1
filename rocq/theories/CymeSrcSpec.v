From Coq Require Import List String Ascii Bool Arith Reals.
From Verif Require Import Base CymeMapModel CymeParseModel CymeSrcModel.
Import ListNotations.
Local Open Scope string_scope.
Local Open Scope nat_scope.
Local Open Scope list_scope.

(** A section with its ends and its phases. *)
Definition whole (d : record) : Prop := exists f t p, dget d "fromnodeid" = Some f /\ dget d "tonodeid" = Some t /\ dget d "phase" = Some p.
(** A node at the end of some section. *)
Definition touched (sections : list (string * record)) (n : string) : Prop :=
  exists k d, In (k, d) sections /\ (dget d "fromnodeid" = Some n \/ dget d "tonodeid" = Some n).
Section Spec.
Variable num : string -> option R.
(** The cell [k] is the number [x]. *)
Definition number_in (d : record) (k : string) (x : R) : Prop := exists t, dget d k = Some t /\ num t = Some x.
(** [o] is the number of the cell [k] in thousands, if there is one. *)
Definition thousands (d : record) (k : string) (o : option R) : Prop :=
  (exists x, number_in d k x /\ o = Some (1000 * x)%R) \/ ((forall x, ~ number_in d k x) /\ o = None).
(** The impedance of the two columns, or of the other two if the first one is missing. *)
Definition impedance_is (d : record) (r x r' x' : string) (z : R * R) : Prop :=
  (dget d r <> None /\ number_in d r (fst z) /\ number_in d x (snd z)) \/ (dget d r = None /\ number_in d r' (fst z) /\ number_in d x' (snd z)).
Definition positive_is (d : record) := impedance_is d "positivesequenceresistance" "positivesequencereactance" "firstlevelr1" "firstlevelx1".
Definition zero_is (d : record) := impedance_is d "zerosequenceresistance" "zerosequencereactance" "firstlevelr0" "firstlevelx0".
(** A source at the node [n] with the impedances of [d]. *)
Definition source_at (n : string) (d : record) (s : source) : Prop :=
  s_name s = (n ++ "_src")%string /\ s_element s = n /\ s_bus s = true /\ positive_is d (s_positive s) /\ zero_is d (s_zero s).

(** The source equivalents that are used. *)
Definition is_default (d : record) : Prop := exists m, dget d "loadmodelname" = Some m /\ lower m = "default".
Definition from_equivalent (d : record) (s : source) : Prop :=
  exists n, dget d "nodeid" = Some n /\ source_at n d s /\ thousands d "voltage" (s_nominal s).
Definition usable (sections : list (string * record)) (d : record) : Prop :=
  exists m, dget d "loadmodelname" = Some m /\
    (lower m = "default" -> exists n p z, dget d "nodeid" = Some n /\ touched sections n /\ positive_is d p /\ zero_is d z).

(** A source of a substation. *)
Definition from_source (equivalents subs : list (string * record)) (e : string * record) (s : source) : Prop :=
  exists n q sub, dget (snd e) "nodeid" = Some n /\ dget equivalents n = Some q /\ dget subs (fst e) = Some sub /\ source_at n q s /\
    thousands sub "mva" (s_power s) /\
    ((dget (snd e) "desiredvoltage" <> None /\ thousands (snd e) "desiredvoltage" (s_nominal s)) \/
     (dget (snd e) "desiredvoltage" = None /\ thousands q "voltage" (s_nominal s))).
Definition fed (sections equivalents : list (string * record)) (e : string * record) : Prop :=
  exists n q p z, dget (snd e) "nodeid" = Some n /\ dget equivalents n = Some q /\ touched sections n /\ positive_is q p /\ zero_is q z.
Definition substation_of (subs : list (string * record)) (e : string * record) : Prop := dget subs (fst e) <> None.
(** The elements of [l] with the property [P], in order. *)
Inductive those {A} (P : A -> Prop) : list A -> list A -> Prop :=
| those_nil : those P [] []
| those_in x l r : P x -> those P l r -> those P (x :: l) (x :: r)
| those_out x l r : ~ P x -> those P l r -> those P (x :: l) r.
End Spec.
