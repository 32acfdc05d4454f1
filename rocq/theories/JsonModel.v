(** The JSON writer and reader.  Models ditto/writers/json/write.py 94-261 and
    ditto/readers/json/read.py 134-460.

    Simplifications:
    - A DiTTo object is its class name and its [_trait_values] dictionary; objects are trees: the
      identity of nested objects and their own registration in the model list are left out.
    - Floats are opaque tokens; the JSON text is the tree it denotes.  json_tricks stores
      numbers, strings, booleans, null, lists and dictionaries faithfully; numpy.float64 is written
      as a float; a complex number that the writer does not split itself is read back as a complex
      number; dictionary keys are sorted ([sort_keys=True]).
    - A value of any other type is [SOpaque] with the name of its type. *)
From Verif Require Import Base NetworkModel.
Local Open Scope string_scope.
Local Open Scope list_scope.

Inductive scal :=
| SNone | SBool (b : bool) | SInt (z : Z) | SFloat (x : Z) | SText (s : string)
| SNpFloat (x : Z) | SCplx (re im : Z) | SOpaque (t : string).

(** Python values: a scalar, a Unicode trait with its default value, a list, a DiTTo object. *)
Inductive pv :=
| PVal (s : scal)
| PUni (s : scal)
| PList (l : list pv)
| PObj (c : string) (l : list (string * pv)).

Inductive json :=
| JLeaf (s : scal)
| JList (l : list json)
| JDict (l : list (string * json)).

(** [str(type(v)).split("'")[1]]; of an object only whether it is a ditto class matters. *)
Definition scal_type (s : scal) : string :=
  match s with
  | SNone => "NoneType" | SBool _ => "bool" | SInt _ => "int" | SFloat _ => "float" | SText _ => "str"
  | SNpFloat _ => "numpy.float64" | SCplx _ _ => "complex" | SOpaque t => t
  end.
Definition type_name (v : pv) : string :=
  match v with
  | PVal s => scal_type s
  | PUni _ => "ditto.models.base.Unicode"
  | PList _ => "list"
  | PObj c _ => "ditto.models." ++ c
  end.

(** A value placed in the dump as it is. *)
Fixpoint raw (v : pv) : json :=
  match v with
  | PVal s => JLeaf s
  | PUni _ => JLeaf (SOpaque "ditto.models.base.Unicode")
  | PList l => JList (map raw l)
  | PObj c _ => JLeaf (SOpaque ("ditto.models." ++ c))
  end.

(** [{"class": c, "value": j}] *)
Definition entry (c : string) (j : json) : json := JDict [("class", JLeaf (SText c)); ("value", j)].
Definition complex_entry (re im : Z) : json := entry "complex" (JList [JLeaf (SFloat re); JLeaf (SFloat im)]).
Definition typed (v : pv) : json := entry (type_name v) (raw v).

(** write.py 122-157: one element of a matrix attribute. *)
Definition write_matrix_item (v : pv) : json :=
  match v with
  | PVal (SCplx a b) => complex_entry a b                                          (* 126-129 *)
  | PList l => entry "list" (JList (map (fun vv =>                                 (* 130-151 *)
      match vv with PVal (SCplx a b) => complex_entry a b | _ => typed vv end) l))
  | _ => typed v                                                                   (* 152-155 *)
  end.

(** A dictionary that starts with "class" and gets one typed entry per trait (169-187 ...). *)
Definition write_part (c : string) (l : list (string * pv)) : json :=
  JDict (fold_left (fun d p => dset d (fst p) (typed (snd p))) l [("class", JLeaf (SText c))]).

(** 203-232: a winding. *)
Definition write_winding (l : list (string * pv)) : res json :=
  let d := fold_left (fun d (p : string * pv) =>
             if String.eqb (fst p) "phase_windings" then d else dset d (fst p) (typed (snd p)))
             l [("class", JLeaf (SText "Winding"))] in
  match dget l "phase_windings" with
  | Some (PList ps) =>
    do js <- mapM (fun p => match p with
                            | PObj _ a => Ok (write_part "PhaseWinding" a)
                            | _ => Err EAttr
                            end) ps;
    Ok (JDict (dset d "phase_windings" (entry "list" (JList js))))
  | Some _ => Err EType
  | None => Ok (JDict (dset d "phase_windings" (entry "list" (JList []))))   (* the default: an empty list *)
  end.

(** 161-242: one element of another list; other kinds of elements are left out. *)
Definition write_item (v : pv) : res (list json) :=
  match v with
  | PVal (SCplx a b) => Ok [complex_entry a b]
  | PUni s => Ok [entry "Unicode" (JLeaf s)]
  | PObj c l =>
    if smem c ["Position"; "Wire"; "PhaseCapacitor"; "PhaseLoad"] then Ok [write_part c l]
    else if String.eqb c "Winding" then do j <- write_winding l; Ok [j]
    else Ok []
  | _ => Ok []
  end.

Definition matrix_attr (k : string) : bool := smem k ["capacitance_matrix"; "impedance_matrix"; "reactances"].

(** 121-256: the entry of one trait.  Iterating over a scalar matrix: TypeError (a str would be
    taken letter by letter; not modelled). *)
Definition write_trait (k : string) (v : pv) : res json :=
  if matrix_attr k then
    match v with
    | PList l => Ok (entry "list" (JList (map write_matrix_item l)))
    | _ => Err EType
    end
  else match v with
       | PList l => do js <- mapM write_item l; Ok (entry "list" (JList (concat js)))
       | PVal (SCplx a b) => Ok (complex_entry a b)
       | _ => Ok (typed v)
       end.

(** 102-256: one object.  Line 104 compares a string with classes and never skips. *)
Definition write_object (o : string * list (string * pv)) : res json :=
  let (c, l) := o in
  let nm := match dget l "name" with Some v => raw v | None => JLeaf SNone end in  (* 115-119 *)
  do d <- foldM (fun d (p : string * pv) => do j <- write_trait (fst p) (snd p); Ok (dset d (fst p) j)) l
            [("class", JLeaf (SText c)); ("name", entry "str" nm)];
  Ok (JDict d).

(** write.py 88-261 [Writer.write] up to the text of the file; the time stamp is left out. *)
Definition write_model (m : list (string * list (string * pv))) : res json :=
  do js <- mapM write_object m;
  Ok (JDict [("model", JList js); ("metadata", JDict [("model_size", JLeaf (SInt (Z.of_nat (length m))))])]).

(** ** The file: json_tricks.dumps(sort_keys=True) and json_tricks.load *)

Fixpoint insert_key (p : string * json) (l : list (string * json)) : list (string * json) :=
  match l with
  | [] => [p]
  | q :: t => if str_leb (fst p) (fst q) then p :: q :: t else q :: insert_key p t
  end.
Definition sort_keys (l : list (string * json)) : list (string * json) := fold_right insert_key [] l.

Definition leaf_back (s : scal) : scal := match s with SNpFloat x => SFloat x | _ => s end.

Fixpoint reload (j : json) : json :=
  match j with
  | JLeaf s => JLeaf (leaf_back s)
  | JList l => JList (map reload l)
  | JDict l => JDict (sort_keys (map (fun p => (fst p, reload (snd p))) l))
  end.

(** ** Reader *)

(** [j[k]]: KeyError; TypeError if [j] is no dictionary. *)
Definition jget (j : json) (k : string) : res json :=
  match j with JDict l => of_opt EKey (dget l k) | _ => Err EType end.
Definition jlist (j : json) : res (list json) := match j with JList l => Ok l | _ => Err EType end.
Definition jitems (j : json) : res (list (string * json)) := match j with JDict l => Ok l | _ => Err EAttr end.
Definition jclass (j : json) : res string :=
  do c <- jget j "class"; match c with JLeaf (SText s) => Ok s | _ => Err EType end.

(** Lines 34-60 [class_mapping], the DiTTo classes. *)
Definition object_classes : list string :=
  ["PowerSource"; "Photovoltaic"; "Node"; "Line"; "Winding"; "PowerTransformer"; "Regulator"; "Position"; "Wire";
   "PhaseWinding"; "Load"; "PhaseLoad"; "Capacitor"; "PhaseCapacitor"; "Feeder_metadata"; "Storage"; "PhaseStorage"].
(** Lines 140-157. *)
Definition ditto_classes : list string :=
  ["PowerSource"; "Photovoltaic"; "Node"; "Line"; "Winding"; "PowerTransformer"; "Position"; "Wire"; "PhaseWinding";
   "Load"; "PhaseLoad"; "Capacitor"; "PhaseCapacitor"; "Feeder_metadata"; "Regulator"; "Storage"].
Definition second_level : list string :=
  ["Winding"; "PhaseWinding"; "Wire"; "PhaseCapacitor"; "Position"; "PhaseLoad"].

(** [class_mapping[t](value)] for a type that is no DiTTo class.  Casts between different types
    are modelled only as far as the writer produces them ([str(None)]); other ones are errors here. *)
Definition cast (t : string) (j : json) : res pv :=
  if String.eqb t "int" then match j with JLeaf (SInt z) => Ok (PVal (SInt z)) | _ => Err EType end
  else if String.eqb t "float" then match j with JLeaf (SFloat x) => Ok (PVal (SFloat x)) | _ => Err EType end
  else if String.eqb t "str" || String.eqb t "unicode" then
    match j with
    | JLeaf (SText s) => Ok (PVal (SText s))
    | JLeaf SNone => Ok (PVal (SText "None"))
    | _ => Err EType
    end
  else if String.eqb t "bool" then match j with JLeaf (SBool b) => Ok (PVal (SBool b)) | _ => Err EType end
  else if String.eqb t "numpy.float64" then match j with JLeaf (SFloat x) => Ok (PVal (SNpFloat x)) | _ => Err EType end
  else if String.eqb t "Unicode" then match j with JLeaf s => Ok (PUni s) | _ => Err EType end
  else if smem t object_classes then Err EAttr
  else Err EKey.

(** [complex(v[0], v[1])] *)
Definition to_complex (j : json) : res pv :=
  do l <- jlist j;
  match l with
  | JLeaf (SFloat a) :: JLeaf (SFloat b) :: _ => Ok (PVal (SCplx a b))
  | _ => Err EType
  end.

(** A complex number or a standard type; None is left out ([Ok None]). *)
Definition read_scalar (j : json) : res (option pv) :=
  do t <- jclass j;
  if String.eqb t "complex" then do v <- jget j "value"; do x <- to_complex v; Ok (Some x)
  else if String.eqb t "NoneType" then Ok None
  else do v <- jget j "value"; do x <- cast t v; Ok (Some x).

Fixpoint read_seq (f : json -> res (option pv)) (l : list json) : res (list pv) :=
  match l with
  | [] => Ok []
  | j :: t => do x <- f j; do r <- read_seq f t; Ok (match x with Some v => v :: r | None => r end)
  end.

(** [setattr] on a new object of class [c] for each entry but "class"; [dflt c] are the traits of
    the class at their defaults. *)
Definition read_props (dflt : string -> list (string * pv)) (f : json -> res (option pv)) (c : string) (j : json)
  : res (list (string * pv)) :=
  do l <- jitems j;
  foldM (fun d (p : string * json) =>
           if String.eqb (fst p) "class" then Ok d
           else do x <- f (snd p);
                Ok (match x with Some v => dset d (fst p) v | None => d end)) l (dflt c).

Section Read.
Variable dflt : string -> list (string * pv).

(** Lines 263-342: an element of a list inside an element. *)
Definition read_deep (j : json) : res (option pv) :=
  do t <- jclass j;
  if smem t ditto_classes then do l <- read_props dflt read_scalar t j; Ok (Some (PObj t l))
  else read_scalar j.

(** Lines 244-375: the properties of an element. *)
Definition read_nested_prop (j : json) : res (option pv) :=
  do t <- jclass j;
  if String.eqb t "list" then do v <- jget j "value"; do l <- jlist v; do r <- read_seq read_deep l; Ok (Some (PList r))
  else read_scalar j.

(** Lines 219-429: an element of a list attribute.  Types named "ditto.…" (line 417) occur only
    if a matrix holds DiTTo objects, which the writer cannot write; not modelled. *)
Definition read_item (j : json) : res (option pv) :=
  do t <- jclass j;
  if smem t ditto_classes then do l <- read_props dflt read_nested_prop t j; Ok (Some (PObj t l))
  else if String.eqb t "list" then
    do v <- jget j "value"; do l <- jlist v; do r <- read_seq read_scalar l; Ok (Some (PList r))
  else if String.eqb t "complex" then read_scalar j
  else if substr_in "ditto." t then Err ENotImpl
  else read_scalar j.

(** Lines 198-460: an attribute. *)
Definition read_attr (j : json) : res (option pv) :=
  do t <- jclass j;
  if String.eqb t "list" then do v <- jget j "value"; do l <- jlist v; do r <- read_seq read_item l; Ok (Some (PList r))
  else read_scalar j.

(** Lines 169-460: an object; [None] for second-level objects. *)
Definition read_object (j : json) : res (option (string * list (string * pv))) :=
  do c <- jclass j;
  if smem c second_level then Ok None
  else if smem c object_classes then do l <- read_props dflt read_attr c j; Ok (Some (c, l))
  else if smem c ["Unicode"; "int"; "float"; "str"; "bool"; "unicode"; "numpy.float64"] then Err EType
  else Err EValue.

(** read.py 134-460 [Reader.parse]: the first-level objects in the order of their creation. *)
Definition read_model (j : json) : res (list (string * list (string * pv))) :=
  do l <- jitems j;
  do m <- of_opt EValue (dget l "model");
  do js <- jlist m;
  foldM (fun acc o => do x <- read_object o; Ok (match x with Some y => acc ++ [y] | None => acc end)) js [].
End Read.
