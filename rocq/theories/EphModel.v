(** The buses, switches and sources that the ePhasor writer puts into its tables.
    Models ditto/writers/ephasor/write.py lines 138-181 ([switch]), 883-967 ([source]) and
    969-1079 ([bus]).
    Simplifications: real numbers instead of floating point numbers; the comparisons of
    [is_switch] and [is_open] with 1 are booleans; a table is the list of its rows.  For the
    buses the columns are kept apart, because they are filled at different places; pandas
    refuses columns of different lengths. *)
From Coq Require Import Reals ZArith.
From Verif Require Import Base.
Local Open Scope string_scope.
Local Open Scope list_scope.

(** [a + "_" + b] where [a] may be None. *)
Definition join (a : option string) (b : string) : res string :=
  match a with Some s => Ok (s ++ "_" ++ b)%string | None => Err EType end.

(** ** Buses *)

Record enode := mkEnode { en_name : option string; en_voltage : option R; en_phases : list (option string) }.
Record columns := mkColumns
  { c_bus : list string; c_base : list (option R); c_volt : list (option R); c_type : list string; c_angle : list Z }.

Definition letter (p : string) : bool := String.eqb p "a" || String.eqb p "b" || String.eqb p "c".

(** write.py 1005-1012 *)
Definition to_ground (v : option R) : option R := option_map (fun x => (x / sqrt 3)%R) v.

(** write.py 999-1028: one phase of a node; the columns and the phases seen. *)
Definition add_phase (n : enode) (s : columns * list string) (ph : option string) : res (columns * list string) :=
  match ph with
  | None => Ok s
  | Some p =>
      let p := lower p in
      if letter p then
        do b <- join (en_name n) p;
        do nm <- of_opt EAttr (en_name n);
        let c := fst s in
        Ok (mkColumns (c_bus c ++ [b]) (c_base c ++ [to_ground (en_voltage n)]) (c_volt c ++ [to_ground (en_voltage n)])
              (c_type c ++ [if String.eqb (lower nm) "sourcebus" then "SLACK" else "PQ"]) (c_angle c),
            p :: snd s)
      else Ok s
  end.

(** write.py 1030-1035 *)
Definition angles (seen : list string) : list Z :=
  (if smem "a" seen then [0%Z] else []) ++ (if smem "b" seen then [120%Z] else []) ++ (if smem "c" seen then [(-120)%Z] else []).

(** write.py 996-1047 *)
Definition add_node (c : columns) (n : enode) : res columns :=
  do s <- foldM (add_phase n) (en_phases n) (c, []);
  let c := fst s in
  Ok (mkColumns (c_bus c) (c_base c) (c_volt c) (c_type c) (c_angle c ++ angles (snd s))).

Record brow := mkBrow { b_bus : string; b_base : option R; b_volt : option R; b_angle : Z; b_type : string }.

(** [pd.DataFrame] of the columns. *)
Fixpoint frame (bus : list string) (base volt : list (option R)) (ang : list Z) (ty : list string) : res (list brow) :=
  match bus, base, volt, ang, ty with
  | [], [], [], [], [] => Ok []
  | b :: bus, v :: base, w :: volt, a :: ang, t :: ty => do r <- frame bus base volt ang ty; Ok (mkBrow b v w a t :: r)
  | _, _, _, _, _ => Err EValue
  end.

(** write.py 969-1079 *)
Definition bus (nodes : list enode) : res (list brow) :=
  do c <- foldM add_node nodes (mkColumns [] [] [] [] []);
  frame (c_bus c) (c_base c) (c_volt c) (c_angle c) (c_type c).

(** ** Switches *)

Record ewire := mkEwire { ew_phase : option string; ew_open : bool }.
Record eline := mkEline
  { el_name : option string; el_from : option string; el_to : option string; el_switch : bool; el_wires : option (list ewire) }.
Record srow := mkSrow { s_from : string; s_to : string; s_name : string; s_status : string }.

(** write.py 157-178 *)
Definition switch_wire (l : eline) (rows : list srow) (w : ewire) : res (list srow) :=
  match ew_phase w with
  | None => Ok rows
  | Some p =>
      if String.eqb p "N" then Ok rows
      else
        do f <- join (el_from l) (lower p); do t <- join (el_to l) (lower p); do n <- join (el_name l) (lower p);
        Ok (rows ++ [mkSrow f t n (if ew_open w then "0" else "1")])
  end.

(** write.py 146-178 *)
Definition switch_line (rows : list srow) (l : eline) : res (list srow) :=
  if el_switch l then
    match el_from l, el_to l, el_wires l with
    | Some _, Some _, Some ws => foldM (switch_wire l) ws rows
    | _, _, _ => Ok rows
    end
  else Ok rows.
Definition switch (lines : list eline) : res (list srow) := foldM switch_line lines [].

(** ** Sources *)

Record esource := mkEsource
  { es_name : option string; es_element : option string; es_voltage : option R; es_angle : option R; es_power : option R;
    es_phases : list (option string) }.
Record prow := mkProw
  { p_a : option string; p_b : option string; p_c : option string; p_id : option string; p_kv : R; p_angle : option R;
    p_scl1 : option R; p_scl3 : option R }.

(** write.py 940-945 *)
Definition source_phase (s : esource) (r : prow) (ph : option string) : res prow :=
  do p <- of_opt EAttr ph;
  let p := lower p in
  if letter p then
    do b <- join (es_element s) p;
    Ok (if String.eqb p "a" then mkProw (Some b) (p_b r) (p_c r) (p_id r) (p_kv r) (p_angle r) (p_scl1 r) (p_scl3 r)
        else if String.eqb p "b" then mkProw (p_a r) (Some b) (p_c r) (p_id r) (p_kv r) (p_angle r) (p_scl1 r) (p_scl3 r)
        else mkProw (p_a r) (p_b r) (Some b) (p_id r) (p_kv r) (p_angle r) (p_scl1 r) (p_scl3 r))
  else Ok r.

(** write.py 909-945 *)
Definition source_row (s : esource) : res prow :=
  do v <- of_opt EType (es_voltage s);
  let mva := option_map (fun x => (x / 1000000)%R) (es_power s) in
  foldM (source_phase s) (es_phases s) (mkProw None None None (es_name s) (v / 1000)%R (es_angle s) mva mva).
Definition source (ss : list esource) : res (list prow) := mapM source_row ss.
