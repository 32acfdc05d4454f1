(** Specification vocabulary for the CSV reader. *)
From Verif Require Import Base CsvModel.
Local Open Scope string_scope.
Local Open Scope list_scope.

(** A column: class, list elements to go through, attribute. *)
Record path := mkPath { p_class : string; p_steps : list (string * nat); p_attr : string }.

(** The header text: Class.list[i]. ... .attr *)
Definition layer (x : string * nat) : string := (fst x ++ "[" ++ str_of (snd x) ++ "]")%string.
Definition key (c : string) (s : list (string * nat)) : string := fold_left (fun t x => t ++ "." ++ layer x)%string s c.
Definition render (p : path) : string := (key (p_class p) (p_steps p) ++ "." ++ p_attr p)%string.

(** [c] does not occur in [s]. *)
Fixpoint free (c : ascii) (s : string) : Prop := match s with EmptyString => True | String a t => a <> c /\ free c t end.
Definition wf_node (c : string) (s : list (string * nat)) : Prop :=
  free "." c /\ forall l i, In (l, i) s -> free "." l /\ free "[" l.
Definition wf_path (p : path) : Prop := wf_node (p_class p) (p_steps p) /\ free "." (p_attr p).

(** Reading the objects: class, attribute, list, and going through list elements by position. *)
Definition cls (h : cheap) (r : nat) : option string := option_map o_class (nth_error h r).
Definition att (h : cheap) (r : nat) (a : string) : option cell :=
  match nth_error h r with Some o => dget (o_attrs o) a | None => None end.
Definition lst (h : cheap) (r : nat) (l : string) : list nat :=
  match nth_error h r with Some o => match dget (o_lists o) l with Some x => x | None => [] end | None => [] end.
Fixpoint nav (h : cheap) (r : nat) (s : list (string * nat)) : option nat :=
  match s with
  | [] => Some r
  | (l, i) :: t => match nth_error (lst h r l) i with Some q => nav h q t | None => None end
  end.

Section Typing.
Variable known : string -> bool.
Variable elem : string -> string -> res string.
Variable accept : string -> string -> cell -> res cell.

(** The class of the element reached from class [c] through [s], if the schema allows the way. *)
Inductive typed : string -> list (string * nat) -> string -> Prop :=
| typed_nil c : known c = true -> typed c [] c
| typed_cons c s k l i k' : typed c s k -> elem k l = Ok k' -> known k' = true -> typed c (s ++ [(l, i)]) k'.

(** The value given to [setattr]: names are lowered (text only). *)
Definition given (a : string) (v : cell) : option cell :=
  if String.eqb a "name" then match v with CStr s => Some (CStr (lower s)) | _ => None end else Some v.

(** The cell can be stored: class way and value are acceptable. *)
Definition storable (p : path) (v : cell) : Prop :=
  exists k g w, typed (p_class p) (p_steps p) k /\ given (p_attr p) v = Some g /\ accept k (p_attr p) g = Ok w.

(** [v] is the last entry for [p]. *)
Definition last_entry (E : list (path * cell)) (p : path) (v : cell) : Prop :=
  exists b a, E = b ++ (p, v) :: a /\ forall w, ~ In (p, w) a.

(** What a row adds to the objects [h] for its non-empty cells [E]. *)
Record row_result (E : list (path * cell)) (h h' : cheap) (roots : string -> option nat) : Prop := mkRow {
  (* nothing that was there before changes *)
  rr_old : exists new, h' = h ++ new;
  (* one object per class named in a non-empty column *)
  rr_roots : forall c, roots c <> None <-> exists p v, In (p, v) E /\ p_class p = c;
  (* the object of every non-empty column is there ... *)
  rr_there : forall p v, In (p, v) E -> exists r o, roots (p_class p) = Some r /\ nav h' r (p_steps p) = Some o;
  (* ... is new, belongs to this place only, and has the class of the schema *)
  rr_new : forall c r s o, roots c = Some r -> nav h' r s = Some o -> length h <= o /\ exists k, cls h' o = Some k /\ typed c s k;
  rr_one : forall c r s c' r' s' o, roots c = Some r -> roots c' = Some r' -> nav h' r s = Some o -> nav h' r' s' = Some o -> c = c' /\ s = s';
  (* every new object is reached *)
  rr_all : forall o, length h <= o < length h' -> exists c r s, roots c = Some r /\ nav h' r s = Some o;
  (* lists are just long enough *)
  rr_len : forall c r s o l i, roots c = Some r -> nav h' r s = Some o ->
    (i < length (lst h' o l) <-> exists p v j t, In (p, v) E /\ p_class p = c /\ p_steps p = s ++ (l, j) :: t /\ i <= j);
  (* attributes: the last entry for the place, nothing else *)
  rr_set : forall c r s o a v, roots c = Some r -> nav h' r s = Some o -> last_entry E (mkPath c s a) v ->
    exists k g w, cls h' o = Some k /\ given a v = Some g /\ accept k a g = Ok w /\ att h' o a = Some w;
  rr_unset : forall c r s o a, roots c = Some r -> nav h' r s = Some o -> (forall v, ~ In (mkPath c s a, v) E) -> att h' o a = None
}.
End Typing.

(** The non-empty cells of a row. *)
Definition nonempty (row : list (path * cell)) : list (path * cell) :=
  filter (fun e => match snd e with CEmpty => false | _ => true end) row.

(** Row after row: each row adds its own new objects. *)
Inductive rows_result known elem accept (cols : list path) : list (list cell) -> cheap -> cheap -> Prop :=
| rows_done h : rows_result known elem accept cols [] h h
| rows_next row rows h h1 h2 roots : row_result known elem accept (nonempty (combine cols row)) h h1 roots ->
    rows_result known elem accept cols rows h1 h2 -> rows_result known elem accept cols (row :: rows) h h2.
