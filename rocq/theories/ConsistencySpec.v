(** Specification vocabulary for the consistency checks: closed links, routes, loops. *)
From Coq Require Import QArith Qcanon.
From Verif Require Import Base StoreModel NetworkModel NetworkSpec ConsistencyModel.
Local Open Scope string_scope.
Local Open Scope nat_scope.
Local Open Scope list_scope.

(** The objects of a model as the network sees them. *)
Definition objs (m : list cobj) : list elem := map c_e m.

(** Linked, and no open switch between them. *)
Definition closed_link (es : list elem) (u v : string) : Prop := linked es u v /\ ~ open_pair es u v.

(** The model's network can be built and its open switches removed: attached objects are named,
    switch wires are lists, no two open switches join the same two nodes. *)
Definition buildable (m : list cobj) : Prop :=
  all_named (objs m) /\ (forall i, In i (objs m) -> ~ wires_none i) /\
  (forall pre i mid j post u v, objs m = pre ++ i :: mid ++ j :: post ->
     taken_as_open i u v -> ~ taken_as_open j u v /\ ~ taken_as_open j v u).

(** [c] is a power source connected to the bus [s]. *)
Definition source_at (c : cobj) (s : string) : Prop := e_cls (c_e c) = "PowerSource" /\ e_conn (c_e c) = Some s.
Definition is_load (c : cobj) : Prop := e_cls (c_e c) = "Load".

(** Load [c] is attached to a node that the bus [s] reaches over closed links. *)
Definition fed (m : list cobj) (s : string) (c : cobj) : Prop :=
  exists x, e_conn (c_e c) = Some x /\ reach (closed_link (objs m)) s x.

(** Source [c] feeds load [l]. *)
Definition feeds (m : list cobj) (c l : cobj) : Prop := exists s, source_at c s /\ fed m s l.

(** Exactly one, and at least two, of the positions of [l] hold an element with [P]. *)
Definition exactly_one {A} (P : A -> Prop) (l : list A) : Prop :=
  exists l1 x l2, l = l1 ++ x :: l2 /\ P x /\ forall y, In y (l1 ++ l2) -> ~ P y.
Definition at_least_two {A} (P : A -> Prop) (l : list A) : Prop :=
  exists l1 x l2 y l3, l = l1 ++ x :: l2 ++ y :: l3 /\ P x /\ P y.

(** Consecutive elements are related. *)
Fixpoint steps (R : string -> string -> Prop) (p : list string) : Prop :=
  match p with
  | a :: ((b :: _) as t) => R a b /\ steps R t
  | _ => True
  end.

(** [p] leads from [s] to [t]. *)
Definition route (R : string -> string -> Prop) (s t : string) (p : list string) : Prop :=
  exists q, p = s :: q /\ last p s = t /\ steps R p.

(** ... without visiting a node twice. *)
Definition simple_route R s t p : Prop := route R s t p /\ NoDup p.

(** ... with as few hops as possible. *)
Definition shortest_route R s t p : Prop :=
  route R s t p /\ forall p', route R s t p' -> length p <= length p'.

(** A node linked to itself or a circle of at least three nodes. *)
Definition loop (R : string -> string -> Prop) : Prop :=
  (exists x, R x x) \/
  exists x p, 2 <= length p /\ NoDup (x :: p) /\ steps R (x :: p) /\ R (last p x) x.

(** Object [i] joins [u] and [v]. *)
Definition joins (i : elem) (u v : string) : Prop := spans i u v \/ spans i v u \/ hangs i u v \/ hangs i v u.

(** No two objects join the same two nodes. *)
Definition one_per_link (m : list cobj) : Prop :=
  forall l1 c l2 c' l3 u v, m = l1 ++ c :: l2 ++ c' :: l3 -> joins (c_e c) u v -> ~ joins (c_e c') u v.

(** The objects, open switches included, form a radial network. *)
Definition radial (m : list cobj) : Prop := ~ loop (linked (objs m)).

(** [cs] are the objects passed on the route [p]. *)
Inductive along (m : list cobj) : list string -> list cobj -> Prop :=
| along_end a : along m [a] []
| along_hop a b p c cs : In c m -> joins (c_e c) a b -> along m (b :: p) cs -> along m (a :: b :: p) (c :: cs).

(** The elements of a list that satisfy [P], in order. *)
Inductive picks {A} (P : A -> Prop) : list A -> list A -> Prop :=
| picks_nil : picks P [] []
| picks_yes x l k : P x -> picks P l k -> picks P (x :: l) (x :: k)
| picks_no x l k : ~ P x -> picks P l k -> picks P (x :: l) k.

Definition is_transformer (c : cobj) : Prop := e_cls (c_e c) = "PowerTransformer".
Definition distribution (c : cobj) : Prop := is_transformer c /\ c_sub c <> Some (Some true).

(** A line whose wires have these phases; the phases other than N. *)
Definition line_with (c : cobj) (ws : list (option string)) : Prop :=
  e_cls (c_e c) = "Line" /\ c_wires c = Some (Some ws).
Definition conductors (ws : list (option string)) : list (option string) :=
  filter (fun p => negb (okey_eqb p (Some "N"))) ws.

(** The number of conductors of the lines does not increase, starting from at most [k]. *)
Inductive narrowing : nat -> list cobj -> Prop :=
| narrow_nil k : narrowing k []
| narrow_line k c ws cs : line_with c ws -> length (conductors ws) <= k ->
    narrowing (length (conductors ws)) cs -> narrowing k (c :: cs)
| narrow_other k c cs : (forall ws, ~ line_with c ws) -> narrowing k cs -> narrowing k (c :: cs).

(** [y] is the node above the topmost object below the transformer that is no transformer itself
    (as a rule: the node right below the transformer); None if there is no such object. *)
Definition low_end (p : list string) (up down : list cobj) (y : option string) : Prop :=
  (exists skip d rest x, down = skip ++ d :: rest /\ Forall is_transformer skip /\ ~ is_transformer d /\
     y = Some x /\ nth_error p (S (length up) + length skip) = Some x) \/
  (Forall is_transformer down /\ y = None).

(** What check_transformer_phase_path accepts for a load with the route [p] over the objects [cs]. *)
Definition accepts_route (needs : bool) (p : list string) (cs : list cobj) : Prop :=
  (picks distribution cs [] /\ needs = false /\ narrowing 3 cs) \/
  (exists up t down h l ws hp lp,
     cs = up ++ t :: down /\ distribution t /\ picks distribution up [] /\ picks distribution down [] /\
     low_end p up down (e_to (c_e t)) /\
     c_windings t = Some (Some (h :: l :: ws)) /\ wd_phases h = Some hp /\ wd_phases l = Some lp /\
     (forall d w, In d down -> line_with d w -> forall x, In x (conductors w) <-> In x lp) /\
     (forall d w, In d up -> line_with d w -> incl hp (conductors w)) /\
     narrowing 3 up) \/
  (exists t u, picks distribution cs [t; u]).

(** The sum of [f] over the elements that satisfy [P]. *)
Inductive sum_of {A} (P : A -> Prop) (f : A -> Qc -> Prop) : list A -> Qc -> Prop :=
| sum_nil : sum_of P f [] 0%Qc
| sum_yes x l a b : P x -> f x a -> sum_of P f l b -> sum_of P f (x :: l) (a + b)%Qc
| sum_no x l b : ~ P x -> sum_of P f l b -> sum_of P f (x :: l) b.

(** The active power of a load in kW. *)
Definition kilowatts (c : cobj) (q : Qc) : Prop :=
  exists ps, c_loads c = Some (Some (map Some ps)) /\ q = fold_right (fun a b => a / qc 1000 + b)%Qc 0%Qc ps.

(** Transformer [t] is the only distribution transformer between the bus [s] and the load [l]. *)
Definition serves (m : list cobj) (s : string) (t l : cobj) : Prop :=
  is_load l /\ exists x p cs, e_conn (c_e l) = Some x /\ simple_route (closed_link (objs m)) s x p /\
    along m p cs /\ picks distribution cs [t].

(** The load of a transformer in kW. *)
Definition served_kw (m : list cobj) (s : string) (t : cobj) (q : Qc) : Prop :=
  sum_of (serves m s t) kilowatts m q.

(** The least standard size above [q]. *)
Definition next_size (q sz : Qc) : Prop :=
  In sz (map qc [15; 25; 50; 75; 100; 300; 500; 1000; 2000; 3000; 5000]%Z) /\ (q < sz)%Qc /\
  forall z, In z (map qc [15; 25; 50; 75; 100; 300; 500; 1000; 2000; 3000; 5000]%Z) -> (q < z)%Qc -> (sz <= z)%Qc.

(** The object with all windings rated [r]. *)
Definition rerated (c : cobj) (r : Qc) (c' : cobj) : Prop :=
  exists ws, c_windings c = Some (Some ws) /\
    c' = mkC (c_e c) (c_sub c) (c_wires c) (Some (Some (map (fun w => mkWinding (Some r) (wd_phases w)) ws))) (c_loads c).

(** No two objects have the same name. *)
Definition distinct_names (m : list cobj) : Prop :=
  forall l1 c l2 c' l3 x, m = l1 ++ c :: l2 ++ c' :: l3 -> e_name (c_e c) = Some x -> e_name (c_e c') <> Some x.

(** Exactly one simple route from the bus [s] to the load [c]. *)
Definition unique_route (m : list cobj) (s : string) (c : cobj) : Prop :=
  exists x p, e_name (c_e c) = Some (Some x) /\ simple_route (closed_link (objs m)) s x p /\
    forall p', simple_route (closed_link (objs m)) s x p' -> p' = p.

(** A named, connected load other than the bus [s]. *)
Definition proper_load (s : string) (c : cobj) : Prop :=
  exists k x, e_conn (c_e c) = Some k /\ e_name (c_e c) = Some (Some x) /\ x <> s.

(** What check_matched_phases accepts: two windings with the same phases; or three, the two low ones with
    the same two phases in the same order and at most two on the high side. *)
Definition accepted (t : cobj) : Prop :=
  (exists h l hp lp, c_windings t = Some (Some [h; l]) /\ wd_phases h = Some hp /\ wd_phases l = Some lp /\
     forall p, In p hp <-> In p lp) \/
  (exists h l l2 hp lp, c_windings t = Some (Some [h; l; l2]) /\ wd_phases h = Some hp /\
     wd_phases l = Some lp /\ wd_phases l2 = Some lp /\ length lp = 2 /\ length hp <= 2).

(** The attributes the checks read are there; the object connects two nodes. *)
Definition readable (c : cobj) : Prop :=
  e_conn (c_e c) = None /\ (is_transformer c -> c_sub c <> None) /\
  (distribution c -> exists h l ws, c_windings c = Some (Some (h :: l :: ws)) /\ wd_phases h <> None /\ wd_phases l <> None) /\
  (e_cls (c_e c) = "Line" -> exists ws, c_wires c = Some (Some ws)).

(** The rating of the first winding. *)
Definition rating (c : cobj) (r : Qc) : Prop := exists w ws, c_windings c = Some (Some (w :: ws)) /\ wd_rated w = Some r.
