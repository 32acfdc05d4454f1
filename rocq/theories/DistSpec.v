From Coq Require Import List String Ascii Bool Arith ZArith QArith.
From Verif Require Import Base DistModel.
Import ListNotations.
Local Open Scope string_scope.
Local Open Scope nat_scope.
Local Open Scope list_scope.

(** The length of an edge: one if it has none; an edge of unknown length does not count. *)
Inductive counts : len -> Q -> Prop := counts_absent : counts Absent 1 | counts_len q : counts (Len q) q.
Definition joined (g : net) (a b : string) (w : Q) : Prop := exists x y l, In (x, y, l) (n_edges g) /\ counts l w /\ ((x = a /\ y = b) \/ (x = b /\ y = a)).
Inductive walk (g : net) (s : string) : string -> Q -> Prop :=
| walk_here : walk g s s 0
| walk_on u v q w : walk g s u q -> joined g u v w -> walk g s v (q + w).
(** The length of a shortest way. *)
Definition least (g : net) (s v : string) (q : Q) : Prop := (exists q', walk g s v q' /\ (q' == q)%Q) /\ forall q', walk g s v q' -> (q <= q')%Q.
Definition closed (g : net) : Prop := forall x y l, In (x, y, l) (n_edges g) -> In x (n_nodes g) /\ In y (n_nodes g).
Definition no_negative (g : net) : Prop := forall x y q, In (x, y, Len q) (n_edges g) -> (0 <= q)%Q.

(** The consecutive pairs of a way. *)
Fixpoint steps (p : list string) : list (string * string) :=
  match p with a :: ((b :: _) as r) => (a, b) :: steps r | _ => [] end.
(** Two nodes are joined by one edge at most. *)
Definition ends (x y a b : string) : Prop := (x = a /\ y = b) \/ (x = b /\ y = a).
Definition single (g : net) : Prop := forall x y l x' y' l', In (x, y, l) (n_edges g) -> In (x', y', l') (n_edges g) -> ends x y x' y' -> l = l'.

(** Where the objects of a kind stand. *)
Definition regulator_site (o : obj) (n : string) : Prop := o_kind o = KRegulator /\ o_from o = Some n.
Definition capacitor_site (o : obj) (n : string) : Prop := o_kind o = KCapacitor /\ o_conn o = Some n.
Definition recloser_site (o : obj) (n : string) : Prop := o_kind o = KLine /\ o_recloser o = Some true /\ o_from o = Some n.
(** [sited P g os ns]: [ns] are the nodes, of the network, where the objects of [os] stand, one for each object. *)
Inductive sited (P : obj -> string -> Prop) (g : net) : list obj -> list string -> Prop :=
| sited_nil : sited P g [] []
| sited_in o n os ns : P o n -> In n (n_nodes g) -> sited P g os ns -> sited P g (o :: os) (n :: ns)
| sited_out o os ns : (forall n, P o n -> ~ In n (n_nodes g)) -> sited P g os ns -> sited P g (o :: os) ns.

(** The average, in metres, of the distances to the sites: none if there is no site. *)
Definition averages (P : obj -> string -> Prop) (g : net) (s : string) (os : list obj) (r : res (option Q)) : Prop :=
  forall ns, sited P g os ns -> (forall n, In n ns -> exists q, walk g s n q) ->
  (ns = [] -> r = Ok None) /\
  (ns <> [] -> exists ds q, Forall2 (least g s) ns ds /\ r = Ok (Some q) /\ (q * inject_Z (Z.of_nat (length ns)) == fold_right Qplus 0 ds)%Q).

(** [v] is a furthest node, [m] metres away. *)
Definition furthest_at (g : net) (s v : string) (m : Q) : Prop :=
  In v (n_nodes g) /\ least g s v m /\ forall u q, In u (n_nodes g) -> least g s u q -> (q <= m)%Q.
Definition reached (g : net) (s : string) : Prop := forall v, In v (n_nodes g) -> exists q, walk g s v q.
