From Coq Require Import List String Ascii Bool Arith ZArith QArith.
From Verif Require Import Base.
Import ListNotations.
Local Open Scope string_scope.
Local Open Scope nat_scope.
Local Open Scope list_scope.

(** Distances from the substation.
    Models ditto/metrics/network_analysis.py 2177-2313 (average_regulator_sub_distance, average_capacitor_sub_distance,
    average_recloser_sub_distance, furtherest_node_miles, furtherest_node_miles_clever).

    Simplifications:
    - A network is its nodes and its edges, each with its attribute [length]; the graph with these attributes is made by
      network/network.py 44-97 and 240-320.  Rational lengths.
    - nx.shortest_path_length with a weight, a function of the library, is modelled by its value: [best] takes the least
      total over the walks with up to as many edges as there are nodes.  As in networkx, an edge without the attribute
      has the length 1 and one with the length None is not there.
    - nx.shortest_path without a weight is a parameter, [route].
    - The objects are reduced to the attributes that are read; NaN is [None]. *)
Inductive len := Absent | Null | Len (q : Q).
Definition wedge := (string * string * len)%type.
Record net := mkNet { n_nodes : list string; n_edges : list wedge }.
Definition cost (l : len) : option Q := match l with Absent => Some 1%Q | Null => None | Len q => Some q end.

(** The neighbours with the cost of the edge. *)
Definition ends_at (v : string) (e : wedge) : list (string * Q) :=
  match cost (snd e) with
  | Some w => (if String.eqb (snd (fst e)) v then [(fst (fst e), w)] else []) ++ (if String.eqb (fst (fst e)) v then [(snd (fst e), w)] else [])
  | None => []
  end.
Definition qmin (a b : option Q) : option Q :=
  match a, b with Some x, Some y => if Qle_bool x y then a else b | Some _, None => a | None, _ => b end.
Fixpoint best (g : net) (s : string) (k : nat) (v : string) : option Q :=
  match k with
  | 0 => if String.eqb s v then Some 0%Q else None
  | S k => fold_left qmin (map (fun uw => match best g s k (fst uw) with Some q => Some (q + snd uw)%Q | None => None end) (flat_map (ends_at v) (n_edges g))) (best g s k v)
  end.
(** [nx.shortest_path_length(net, src, v, weight="length")] *)
Definition distance (g : net) (s v : string) : res Q :=
  if smem s (n_nodes g) then match best g s (length (n_nodes g)) v with Some q => Ok q | None => Err ENetworkX end else Err ENodeNotFound.

Definition add_node (g : net) (n : string) : net := if smem n (n_nodes g) then g else mkNet (n_nodes g ++ [n]) (n_edges g).
Definition same (a b : string) (e : wedge) : bool :=
  (String.eqb (fst (fst e)) a && String.eqb (snd (fst e)) b) || (String.eqb (fst (fst e)) b && String.eqb (snd (fst e)) a).
(** [G[n1][n2]["length"]] *)
Definition length_of (g : net) (a b : string) : res len :=
  match find (same a b) (n_edges g) with Some (_, Absent) => Err EKey | Some (_, l) => Ok l | None => Err EKey end.
Fixpoint put (es : list wedge) (a b : string) (l : len) : list wedge :=
  match es with [] => [(a, b, l)] | e :: r => if same a b e then (fst e, l) :: r else e :: put r a b l end.
Definition add_edge (g : net) (a b : string) (l : len) : net :=
  let g := add_node (add_node g a) b in mkNet (n_nodes g) (put (n_edges g) a b l).

Section Metrics.
(** self.G.graph and nx.shortest_path *)
Variable big : net.
Variable route : net -> string -> string -> res (list string).

(** Lines 2190-2194, 2222-2226, 2254-2258, 2290-2294 *)
Fixpoint add_route (g : net) (p : list string) : res net :=
  match p with
  | a :: ((b :: _) as r) => do l <- length_of big a b; add_route (add_edge g a b l) r
  | _ => Ok g
  end.
Definition prepare (g : net) (s : string) : res net :=
  if smem s (n_nodes g) then Ok g
  else match n_nodes g with
       | [] => Err EIndex
       | n :: _ => do p <- route big s n; add_route g p
       end.

Inductive kind := KRegulator | KCapacitor | KLine | KOther.
Record obj := mkObj { o_kind : kind; o_from : option string; o_conn : option string; o_recloser : option bool }.
Definition place (f : obj -> option (option string)) (g : net) (o : obj) : list string :=
  match f o with Some (Some n) => if smem n (n_nodes g) then [n] else [] | _ => [] end.
Definition regulator_at (o : obj) : option (option string) := match o_kind o with KRegulator => Some (o_from o) | _ => None end.
Definition capacitor_at (o : obj) : option (option string) := match o_kind o with KCapacitor => Some (o_conn o) | _ => None end.
Definition recloser_at (o : obj) : option (option string) := match o_kind o, o_recloser o with KLine, Some true => Some (o_from o) | _, _ => None end.

Definition total (l : list Q) : Q := fold_right Qplus 0%Q l.
(** Lines 2195-2207, 2227-2239, 2259-2272 *)
Definition average (at_ : obj -> option (option string)) (objs : list obj) (g : net) (s : string) : res (option Q) :=
  do g <- prepare g s;
  do ds <- mapM (distance g s) (flat_map (place at_ g) objs);
  match ds with [] => Ok None | _ => Ok (Some (total ds / inject_Z (Z.of_nat (length ds)))%Q) end.
Definition average_regulator := average regulator_at.
Definition average_capacitor := average capacitor_at.
Definition average_recloser := average recloser_at.

Definition miles : Q := 621371 # 1000000000.
(** [np.max]; without values: ValueError *)
Fixpoint largest (l : list Q) : res Q :=
  match l with
  | [] => Err EValue
  | [x] => Ok x
  | x :: r => do m <- largest r; Ok (if Qle_bool x m then m else x)
  end.
(** Lines 2274-2297 *)
Definition furthest (g : net) (s : string) : res Q :=
  do g <- prepare g s;
  do ds <- mapM (distance g s) (n_nodes g);
  do m <- largest ds;
  Ok (m * miles)%Q.
(** Lines 2299-2313; a loop counts twice. *)
Definition degree (g : net) (v : string) : nat :=
  length (flat_map (fun e : wedge => (if String.eqb (fst (fst e)) v then [tt] else []) ++ (if String.eqb (snd (fst e)) v then [tt] else [])) (n_edges g)).
Definition furthest_clever (s : string) : res Q :=
  do ds <- mapM (distance big s) (filter (fun v => Nat.eqb (degree big v) 1) (n_nodes big));
  do m <- largest ds;
  Ok (m * miles)%Q.
End Metrics.
