From Coq Require Import List String Ascii Bool Arith.
From Verif Require Import Base TextModel CymeMapModel CymeParseModel.
Import ListNotations.
Local Open Scope string_scope.
Local Open Scope nat_scope.
Local Open Scope list_scope.

(** The nodes, head nodes and connections of a CYME network file.
    Models ditto/readers/cyme/read.py 973-994 (parse_subnetwork_connections), 996-1013 (parse_head_nodes) and
    1333-1440 (parse_nodes), on top of the model of parser_helper.

    Simplifications:
    - [num] is [float] of a text; the numbers are of any type.
    - A node is its name, its positions (longitude and latitude; the elevation is 0 always) and its nominal voltage.
      A position that is made but not reached because a number cannot be read stays in the model without a node;
      it is left out.
    - [model[...]] of the connections is the list of names that the model knows. *)

(** Lines 210-291, the entries used here and for the loads. *)
Definition cyme_headers : list (string * list header) :=
  [("node", [HStr "[NODE]"]); ("node_connector", [HStr "[NODE CONNECTOR]"]); ("headnodes", [HStr "[HEADNODES]"]);
   ("subnetwork_connections", [HStr "[SUBNETWORK CONNECTIONS]"]);
   ("customer_loads", [HStr "[CUSTOMER LOADS]"]); ("customer_class", [HStr "[CUSTOMER CLASS]"]); ("loads", [HStr "[LOADS]"])].

(** [for line in self.content: d.update(self.parser_helper(line, [obj], attrs, mapp, ...))] *)
Definition read_object (obj : string) (attrs : list string) (mapping : columns) (add : list string) (content : list string) :=
  read_all (S (length content)) cyme_headers [obj] attrs mapping [] add [] content.

(** Lines 1000-1013: name and head node of every feeder. *)
Definition parse_head_nodes (content : list string) : res (list (string * string)) :=
  do recs <- read_object "headnodes" ["nodeid"; "networkid"] [("nodeid", 0); ("networkid", 1)] [] content;
  mapM (fun x => do n <- of_opt EKey (dget (snd x) "networkid");
                 do h <- of_opt EKey (dget (snd x) "nodeid");
                 Ok (lower (strip n), lower (strip h))) recs.

(** Lines 977-994: the nodes that are marked as connections of the substation. *)
Definition parse_subnetwork_connections (names : list string) (content : list string) : res (list string) :=
  do recs <- read_object "subnetwork_connections" ["nodeid"] [("nodeid", 1)] [] content;
  mapM (fun x => do n <- of_opt EKey (dget (snd x) "nodeid"); if smem n names then Ok n else Err EKey) recs.

Section Nodes.
Variable V : Type.
Variable num : string -> option V.

Record node := mkNode { nd_name : string; nd_positions : list (V * V); nd_voltage : option V }.

(** [float(d[x]), float(d[y])]; None is an exception. *)
Definition place (d : record) (x y : string) : option (V * V) :=
  match dget d x with
  | Some tx => match num tx with
               | Some vx => match dget d y with
                            | Some ty => match num ty with Some vy => Some (vx, vy) | None => None end
                            | None => None
                            end
               | None => None
               end
  | None => None
  end.

(** Lines 1412-1421; the boolean says whether the loop came to its end. *)
Fixpoint connected (fuel : nat) (conns : list (string * record)) (id : string) : list (V * V) * bool :=
  match fuel with
  | O => ([], false)
  | S k => match dget conns id with
           | None => ([], true)
           | Some d => match place d "coordx" "coordy" with
                       | Some p => let (l, ok) := connected k conns (id ++ "*") in (p :: l, ok)
                       | None => ([], false)
                       end
           end
  end.

(** Lines 1398-1429: what is appended before an exception stays. *)
Definition positions_of (conns : list (string * record)) (id : string) (d : record) : list (V * V) :=
  if dmem d "coordx" then match place d "coordx" "coordy" with Some p => [p] | None => [] end
  else if dmem d "coordx1" then
    match place d "coordx1" "coordy1" with
    | Some p =>
      let (l, ok) := connected (S (length conns)) conns id in
      if ok then match place d "coordx2" "coordy2" with Some q => p :: l ++ [q] | None => p :: l end
      else p :: l
    | None => []
    end
  else [].

(** Lines 1387-1438 *)
Definition make_node (conns : list (string * record)) (x : string * record) : node :=
  mkNode (fst x) (positions_of conns (fst x) (snd x))
    (match dget (snd x) "ratedvoltage" with Some t => num t | None => None end).

Definition node_columns : columns :=
  [("nodeid", 0); ("ratedvoltage", 48); ("coordx", 2); ("coordy", 3); ("coordx1", 2); ("coordy1", 3); ("coordx2", 4); ("coordy2", 5)].

(** Lines 1333-1440 *)
Definition parse_nodes (content : list string) : res (list node) :=
  do nodes <- read_object "node" ["nodeid"; "coordx"; "coordy"; "ratedvoltage"] node_columns
                ["nodeid"; "coordx1"; "coordy1"; "coordx2"; "coordy2"; "ratedvoltage"] content;
  do conns <- read_object "node_connector" ["nodeid"; "coordx"; "coordy"] node_columns [] content;
  Ok (map (make_node conns) nodes).
End Nodes.
Arguments mkNode {V}. Arguments nd_name {V}. Arguments nd_positions {V}. Arguments nd_voltage {V}.
