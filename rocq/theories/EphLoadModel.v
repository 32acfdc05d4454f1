(** The rows of the loads in the table of the ePhasor writer.
    Models ditto/writers/ephasor/write.py lines 1123-1156 (which row of the table a load is
    written to, and the column "ID"); all the other columns of a load are written to the same row.
    Simplifications: ASCII names; all loads have names; the values of the other columns are left out. *)
From Verif Require Import Base.
Local Open Scope string_scope.
Local Open Scope list_scope.

(** [s[0:-1]] and [s[-1]]; None for the empty string. *)
Fixpoint split_last (s : string) : option (string * ascii) :=
  match s with
  | "" => None
  | String c t => match split_last t with Some (r, d) => Some (String c r, d) | None => Some ("", c) end
  end.

(** [s[5:]] *)
Fixpoint drop (n : nat) (s : string) : string :=
  match n, s with S k, String _ t => drop k t | _, _ => s end.

(** write.py 1141-1144, 1152-1155 *)
Definition id_text (n : string) : string := if String.eqb (substring 0 5 n) "load_" then drop 5 n else n.

Fixpoint set_nth {A} (k : nat) (x : A) (l : list A) : res (list A) :=
  match k, l with
  | O, _ :: r => Ok (x :: r)
  | S k, y :: r => do r' <- set_nth k x r; Ok (y :: r')
  | _, [] => Err EIndex
  end.

(** The column "ID", [index + 1], [load_dict], and the rows of the loads so far. *)
Record alloc := mkAlloc { a_ids : list (option string); a_next : nat; a_dict : dict nat; a_rows : list nat }.

(** A new row: [None] is appended to the columns, the index goes up by one. *)
Definition new_row (s : alloc) (key : string) (d : dict nat) : res alloc :=
  do ids <- set_nth (a_next s) (Some (id_text key)) (a_ids s ++ [None]);
  Ok (mkAlloc ids (S (a_next s)) d (a_rows s ++ [a_next s])).

(** write.py 1128-1155 *)
Definition place_load (s : alloc) (name : string) : res alloc :=
  match split_last name with
  | None => Err EIndex
  | Some (stem, c) =>
      if smem (lower (String c "")) ["a"; "b"; "c"] then
        match dget (a_dict s) stem with
        | None => new_row s stem (dset (a_dict s) stem (a_next s))
        | Some i => Ok (mkAlloc (a_ids s) (S i) (a_dict s) (a_rows s ++ [i]))
        end
      else new_row s name (a_dict s)
  end.

Definition place_loads (names : list string) : res (list (option string) * list nat) :=
  do s <- foldM place_load names (mkAlloc [] 0 [] []); Ok (a_ids s, a_rows s).
