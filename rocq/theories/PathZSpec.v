From Coq Require Import Reals.
From Verif Require Import Base MatrixModel MatrixSpec ImpedModel ImpedSpec PathZModel.
Local Open Scope string_scope.
Local Open Scope nat_scope.
Local Open Scope list_scope.

Definition goes (o : zobj) (a b : string) : Prop := z_line o = true /\ z_from o = Some a /\ z_to o = Some b.
(** [o] is the last line from [a] to [b]. *)
Definition last_line (objs : list zobj) (a b : string) (o : zobj) : Prop :=
  exists l r, objs = l ++ o :: r /\ goes o a b /\ forall o', In o' r -> ~ goes o' a b.
(** The line used between [a] and [b]: one in this direction comes first. *)
Definition used (objs : list zobj) (a b : string) (o : zobj) : Prop :=
  last_line objs a b o \/ ((forall o', In o' objs -> ~ goes o' a b) /\ last_line objs b a o).
(** The lines along a way; what is between two nodes without being a line is left out. *)
Inductive along (objs : list zobj) : list string -> list zobj -> Prop :=
| along_nil : along objs [] []
| along_one a : along objs [a] []
| along_line a b r o os : used objs a b o -> along objs (b :: r) os -> along objs (a :: b :: r) (o :: os)
| along_skip a b r os : (forall o, In o objs -> ~ goes o a b /\ ~ goes o b a) -> along objs (b :: r) os -> along objs (a :: b :: r) os.

(** The positive-sequence impedance: the positive-sequence voltage of a unit current. *)
Inductive positive : cmat -> C -> Prop :=
| positive_one z : positive [[z]] z
| positive_two ra rb z : length ra = 2 -> length rb = 2 -> cadd z z = csub (row2 ra c1 (copp c1)) (row2 rb c1 (copp c1)) -> positive [ra; rb] z
| positive_three ra rb rc z : length ra = 3 -> length rb = 3 -> length rc = 3 ->
    cadd z (cadd z z) = cadd (row3 ra c1 alpha2 alpha) (cadd (cmul alpha (row3 rb c1 alpha2 alpha)) (cmul alpha2 (row3 rc c1 alpha2 alpha))) ->
    positive [ra; rb; rc] z.
(** The impedances of lines, in order; a line without a matrix has none. *)
Inductive impeding : list zobj -> list C -> Prop :=
| imp_nil : impeding [] []
| imp_none o os zs : z_matrix o = None \/ z_matrix o = Some [] -> impeding os zs -> impeding (o :: os) zs
| imp_some o m z os zs : z_matrix o = Some m -> positive m z -> impeding os zs -> impeding (o :: os) (z :: zs).
Definition names_differ (objs : list zobj) : Prop := NoDup (map z_name objs).
(** A matrix without neutral. *)
Definition reduced (o : zobj) : Prop := match z_matrix o with None => True | Some m => m = [] \/ exists n, 1 <= n <= 3 /\ dims m n n end.
