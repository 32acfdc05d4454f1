(** The nodes of the OpenDSS reader.
    Models ditto/readers/opendss/read.py 520-759 (parse_nodes).

    Simplifications:
    - The circuit is what OpenDSS reports about its lines, transformers and loads: the texts of their terminals and of
      their numbers of phases. Terminals of other elements are kept in [c_others], which nothing reads.
    - [int_] and [num] are Python's int and float of a text; floats are rationals. The delimiter is one character.
    - [phases += ...] works in place on a list that nothing else holds. The list of all names, which only decides about
      warnings, and the Position objects that are not attached to a node are left out.
    - A text is no value for a coordinate (TraitError). *)
From Verif Require Import Base CsvModel TextModel DssNameModel.
From Coq Require Import QArith.
Local Open Scope string_scope.
Local Open Scope nat_scope.
Local Open Scope list_scope.

Record cline := mkCline { cl_bus1 : string; cl_bus2 : string; cl_phases : string }.
Record ctrafo := mkCtrafo { ct_buses : list string; ct_phases : string }.
Record cload := mkCload { co_bus1 : string; co_phases : string }.
Record circuit := mkCircuit { c_lines : list cline; c_trafos : list ctrafo; c_loads : list cload; c_others : list string }.

Inductive coord := CNone | CText (s : string) | CNum (q : Q).
(** An entry of [buses]: "positions", and "phases" if it is there *)
Record bus := mkBus { b_pos : option (coord * coord); b_phases : option (option (list Z)) }.
Definition buses := list (option string * bus).
Record rnode := mkRnode { rn_name : option string; rn_pos : list (option Q * option Q); rn_phases : list (option string); rn_feeder : string }.

Definition same_name (a b : option string) : bool := match a, b with Some x, Some y => String.eqb x y | None, None => true | _, _ => false end.
Fixpoint bget (bs : buses) (k : option string) : option bus := match bs with [] => None | (k', b) :: t => if same_name k' k then Some b else bget t k end.
Fixpoint bput (bs : buses) (k : option string) (b : bus) : buses :=
  match bs with [] => [(k, b)] | (k', b') :: t => if same_name k' k then (k', b) :: t else (k', b') :: bput t k b end.

(** [np.unique(l).tolist()] *)
Fixpoint zins (z : Z) (l : list Z) : list Z :=
  match l with [] => [z] | h :: t => if Z.ltb z h then z :: h :: t else if Z.eqb z h then h :: t else h :: zins z t end.
Definition zunique (l : list Z) : list Z := fold_right zins [] l.

Section Nodes.
Variable int_ : string -> option Z.
Variable num : string -> option Q.
Variable delim : ascii.
Variable source_name : string.

(** 546-573 *)
Definition cast (x y : string) : coord * coord :=
  match num x with
  | None => (CText x, CText y)
  | Some a => (CNum a, match num y with Some b => CNum b | None => CText y end)
  end.
Definition read_row (line : string) : option string * (coord * coord) :=
  match map strip (split_on delim line) with
  | [n; x; y] => (Some (lower n), cast x y)
  | _ => (None, (CNone, CNone))
  end.
(** 575-583 *)
Definition row_step (bs : buses) (line : string) : buses :=
  if String.eqb (strip line) "" then bs
  else let '(n, p) := read_row line in bput bs n (mkBus (Some p) (match bget bs n with Some b => b_phases b | None => None end)).

(** The name and the nodes of a terminal; None when it has no nodes and the element has not three phases. *)
Definition bus_of (text phases : string) : res (option (string * list Z)) :=
  match split_on "." text with
  | b :: n :: ns => do zs <- mapM (fun x => of_opt EValue (int_ x)) (n :: ns); Ok (Some (strip b, zs))
  | _ => Ok (if String.eqb phases "3" then Some (strip text, [1; 2; 3]%Z) else None)
  end.
(** 592-607, 615-632 *)
Definition line_end (text phases : string) : res (string * list Z) :=
  do t <- bus_of text phases;
  do bz <- of_opt EValue t;
  if forallb (fun z => existsb (Z.eqb z) [1; 2; 3]%Z) (snd bz) then Ok bz else Err EValue.
(** 634-644, 646-657, 681-697, 717-727 *)
Definition touch (bs : buses) (name : option string) (phs : option (list Z)) : res buses :=
  match name, bget bs name with
  | Some _, None => Ok (bput bs name (mkBus None (Some phs)))
  | None, None => Err EKey
  | _, Some b =>
    match b_phases b with
    | None => Ok (bput bs name (mkBus (b_pos b) (Some phs)))
    | Some None => Err EType
    | Some (Some l) => do l' <- of_opt EType phs; Ok (bput bs name (mkBus (b_pos b) (Some (Some (zunique (l ++ l'))))))
    end
  end.
(** 589-657 *)
Definition line_step (bs : buses) (l : cline) : res buses :=
  do a <- line_end (cl_bus1 l) (cl_phases l);
  do b <- line_end (cl_bus2 l) (cl_phases l);
  do bs <- touch bs (Some (fst a)) (Some (snd a));
  touch bs (Some (fst b)) (Some (snd b)).
(** 667-697 and 703-727 *)
Definition end_step (phases : string) (bs : buses) (text : string) : res buses :=
  do t <- bus_of text phases;
  match t with Some (b, zs) => touch bs (Some b) (Some zs) | None => touch bs None None end.
Definition trafo_step (bs : buses) (t : ctrafo) : res buses := foldM (end_step (ct_phases t)) (ct_buses t) bs.
Definition load_step (bs : buses) (l : cload) : res buses := end_step (co_phases l) bs (co_bus1 l).

(** 732-757 *)
Definition trait_value (c : coord) : option (option Q) := match c with CNone => Some None | CText _ => None | CNum q => Some (Some q) end.
Definition make_node (kb : option string * bus) : rnode :=
  mkRnode (fst kb)
    (match b_pos (snd kb) with
     | Some (x, y) => match trait_value x, trait_value y with Some a, Some b => [(a, b)] | _, _ => [] end
     | None => []
     end)
    (match b_phases (snd kb) with Some (Some l) => map r_phase_int l | _ => [] end)
    source_name.
(** 534-759; [coordinates]: the rows of the file, None when it cannot be opened *)
Definition parse_nodes (coordinates : option (list string)) (c : circuit) : res (list rnode) :=
  let bs := fold_left row_step (match coordinates with Some l => l | None => [] end) [] in
  do bs <- foldM line_step (c_lines c) bs;
  do bs <- foldM trafo_step (c_trafos c) bs;
  do bs <- foldM load_step (c_loads c) bs;
  Ok (map make_node bs).
End Nodes.
