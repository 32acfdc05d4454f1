(** Opening and closing switches from the text of a DSS file.
    Models ditto/modify/system_structure.py 1080-1115 (open_close_switches).

    Simplifications:
    - The file is given as the list of its lines, as readlines returns it; ASCII text only.
    - Of the objects, the wires' is_open are kept, by position.
    - The trait is_open stores 1 and 0 as True and False (traitlets' Bool).
    - An exception leaves the changes made before it: the result is the state and the exception. *)
From Verif Require Import Base StoreModel NetworkModel CsvModel TextModel.
Local Open Scope string_scope.
Local Open Scope nat_scope.
Local Open Scope list_scope.

(** is_open of the wires of an object; outer None: no attribute wires; inner None: wires is None. *)
Definition wires := option (option (list (option bool))).

(** [l[k]] *)
Definition item {A} (l : list A) (k : nat) : res A := of_opt EIndex (nth_error l k).

(** Lines 1090-1098: the name and the assignments of a line. *)
Definition parse_line (line : string) : res (string * list (string * string)) :=
  let raw := split_on " " line in
  do r1 <- item raw 1;
  do r2 <- item (split_on "." r1) 1;
  let name := lower (strip r2) in
  do ks <- mapM (fun x => item (split_on "=" x) 0) (skipn 2 raw);
  do vs <- mapM (fun x => item (split_on "=" x) 1) (skipn 2 raw);
  Ok (name, fold_left (fun d kv => dset d (lower (strip (fst kv))) (strip (snd kv))) (combine ks vs) []).

(** Lines 1104-1115: any exception is swallowed. *)
Definition set_open (es : list elem) (ws : list wires) (name : string) (b : bool) : list wires :=
  match lookup es (Some name) with
  | None => ws
  | Some p =>
    (fix go ws p := match ws, p with
       | [], _ => []
       | w :: t, O => (match w with Some (Some l) => Some (Some (map (fun _ => Some b) l)) | _ => w end) :: t
       | w :: t, S k => w :: go t k
       end) ws p
  end.

(** Lines 1099-1115 *)
Definition apply_line (es : list elem) (ws : list wires) (name : string) (data : list (string * string)) : list wires :=
  match dget data "switch" with
  | Some v =>
    if String.eqb v "y" || String.eqb v "yes" || String.eqb v "true" then
      set_open es ws name (match dget data "r1" with Some r => String.eqb r "1e11" | None => false end)
    else ws
  | None => ws
  end.

(** Lines 1089-1115 *)
Fixpoint open_close_switches (es : list elem) (lines : list string) (ws : list wires) : list wires * option exn :=
  match lines with
  | [] => (ws, None)
  | l :: r =>
    match parse_line l with
    | Err e => (ws, Some e)
    | Ok (name, data) => open_close_switches es r (apply_line es ws name data)
    end
  end.
