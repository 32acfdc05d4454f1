From Coq Require Import List String Ascii Bool Arith ZArith Reals.
From Verif Require Import Base CymeMapSpec CymeParseModel CymeParseSpec CymeLoadSpec CymeEquivModel.
Import ListNotations.
Local Open Scope string_scope.
Local Open Scope nat_scope.
Local Open Scope list_scope.

Section Spec.
Variable num : string -> option R.
Variable int_ : string -> option Z.
Variable section_phase : list (string * CymeParseModel.record).
Variable section_feeder : list (string * string).
Notation record := CymeParseModel.record.

Definition letter (p l : string) : Prop := In (p, l) [("A", "a"); ("B", "b"); ("C", "c")].
(** The phases with a resistance of their own, in order. *)
Definition phases_say (d : record) (ps : list string) : Prop :=
  exists a b c : bool, ps = (if a then ["A"] else []) ++ (if b then ["B"] else []) ++ (if c then ["C"] else []) /\
    Forall (fun kf => exists x, number num d (fst kf) x /\ (snd kf = true <-> x <> 0%R)) [("zraa", a); ("zrbb", b); ("zrcc", c)].
(** The impedances of each pair of phases. *)
Definition matrix_says (d : record) (ps : list string) (m : list (list (R * R))) : Prop :=
  Forall2 (fun p row => Forall2 (fun q z => exists l l', letter p l /\ letter q l' /\ number num d ("zr" ++ l ++ l')%string (fst z) /\ number num d ("zx" ++ l ++ l')%string (snd z)) ps row) ps m.
(** The greatest of the three lengths. *)
Definition length_says (d : record) (x : R) : Prop :=
  exists a b c, number num d "totallengtha" a /\ number num d "totallengthb" b /\ number num d "totallengthc" c /\ In x [a; b; c] /\ (a <= x /\ b <= x /\ c <= x)%R.
(** The power of some phases. *)
Inductive sum (d : record) (cell : string) : list string -> R -> Prop :=
| sum_nil : sum d cell [] 0
| sum_cons p l x ps s : letter p l -> number num d (cell ++ l)%string x -> sum d cell ps s -> sum d cell (p :: ps) (x + s).
(** The load at one end with the powers of the cells [kw] and [kvar] in W and var; it is made if there is active power, and
    reactive power in the cells [test]. *)
Definition load_says (d : record) (ps : list string) (name node feeder kw kvar test : string) (ls : list load) : Prop :=
  exists p q, sum d kw ps p /\ sum d test ps q /\
    ((0 < p /\ 0 < q)%R -> exists o, ls = [o] /\ o_name o = name /\ o_element o = node /\ o_feeder o = feeder /\
        Forall2 (fun ph pl => exists l x y, letter ph l /\ number num d (kw ++ l)%string x /\ number num d (kvar ++ l)%string y /\ pl = (ph, Some (1000 * x, 1000 * y)%R)) ps (o_phases o)) /\
    (~ (0 < p /\ 0 < q)%R -> ls = []).
Definition index_says (s : record) (k : string) (o : option Z) : Prop := forall z, o = Some z <-> exists t, dget s k = Some t /\ int_ t = Some z.
Definition equivalent_says (e : string * record) (r : line * list load) : Prop :=
  exists id k s ps l1 l2, fst e = (id ++ stars k)%string /\ bare id /\ dget section_phase (lower id) = Some s /\
    n_name (fst r) = (lower id ++ "_ne_line")%string /\ dget s "fromnodeid" = Some (n_from (fst r)) /\ dget s "tonodeid" = Some (n_to (fst r)) /\
    index_says s "fromnodeindex" (n_from_index (fst r)) /\ index_says s "tonodeindex" (n_to_index (fst r)) /\ dget section_feeder (lower id) = Some (n_feeder (fst r)) /\ n_class (fst r) = dget (snd e) "eqid" /\
    phases_say (snd e) ps /\ n_wires (fst r) = ps /\ matrix_says (snd e) ps (n_matrix (fst r)) /\ length_says (snd e) (n_length (fst r)) /\ snd r = l1 ++ l2 /\
    load_says (snd e) ps (lower id ++ "_ne_from_load")%string (n_from (fst r)) (n_feeder (fst r)) "loadfromkw" "loadfromkvar" "loadfromkvar" l1 /\
    load_says (snd e) ps (lower id ++ "_ne_to_load")%string (n_to (fst r)) (n_feeder (fst r)) "loadtokw" "loadtokvar" "loadfromkvar" l2.

(** The settings of the network equivalents, and settings that can be read. *)
Definition equivalent (e : string * record) : Prop := dget (snd e) "type" = Some "network_equivalent".
Inductive equivalents : list (string * record) -> list (string * record) -> Prop :=
| equivalents_nil : equivalents [] []
| equivalents_in e l m : equivalent e -> equivalents l m -> equivalents (e :: l) (e :: m)
| equivalents_out e l m : ~ equivalent e -> equivalents l m -> equivalents (e :: l) m.
Definition placed (e : string * record) : Prop :=
  exists id k s f t n, fst e = (id ++ stars k)%string /\ bare id /\ dget section_phase (lower id) = Some s /\ dget s "fromnodeid" = Some f /\ dget s "tonodeid" = Some t /\ dget section_feeder (lower id) = Some n.
Definition readable (d : record) : Prop :=
  (forall l l', In l ["a"; "b"; "c"] -> In l' ["a"; "b"; "c"] -> exists r x, number num d ("zr" ++ l ++ l')%string r /\ number num d ("zx" ++ l ++ l')%string x) /\
  (forall l k, In l ["a"; "b"; "c"] -> In k ["totallength"; "loadfromkw"; "loadfromkvar"; "loadtokw"; "loadtokvar"] -> exists x, number num d (k ++ l)%string x).
End Spec.
