(** The load shapes of the OpenDSS writer.
    Models ditto/writers/opendss/write.py 1605-1832 (write_timeseries).

    Simplifications:
    - Every data file exists and [points] is the number of its rows; the scaled copy of a data file (1735-1737) is not
      written.  [show] is what [format] writes for a float.
    - Objects are grouped and texts collected as in DssFileModel.
    - [has_timeseries] is left out. *)
From Verif Require Import Base CsvModel DssCodeModel DssFileModel DssTextModel.
From Coq Require Import QArith.
Local Open Scope string_scope.
Local Open Scope nat_scope.
Local Open Scope list_scope.

(** A Timeseries object: feeder, substation, label and location as the loads see it, and the rest. *)
Record tseries := mkShape { sh_of : series; sh_scale : option Q; sh_interval : option Q; sh_kvar : option string }.

(** What the writer keeps (__init__, lines 92-110). *)
Record shapes := mkShapes {
  w_data : dict (dict string);      (* self.timeseries_datasets *)
  w_fmt : dict string;              (* self.timeseries_format *)
  w_iter : option nat;              (* self.timeseries_iternumber *)
  w_solve : option string }.        (* self.timeseries_solve_format *)
Definition shapes0 : shapes := mkShapes [] [] None None.

Section Shapes.
Variable show : Q -> string.
Variable points : string -> nat.
Variable remove_loadshapes : bool.
Variables sepf seps : bool.
Variable file : string.
Variable order : list string -> list string.

Definition shape_key (i : tseries) : string := group_key (group sepf seps (ts_fee (sh_of i)) (ts_sub (sh_of i))).
(** Lines 1671-1679 *)
Definition shape_format (n : nat) : string := if Nat.eqb n 24 || Nat.eqb n (24 * 60) || Nat.eqb n (24 * 60 * 60) then "daily" else "yearly".
Definition solve_format (s : option string) (n : nat) : option string :=
  if Nat.eqb n 24 || Nat.eqb n (24 * 60) || Nat.eqb n (24 * 60 * 60) then match s with None => Some "daily" | Some _ => s end else Some "yearly".
(** Lines 1692-1698 *)
Definition shape_text (i : tseries) (label loc : string) : string :=
  ("New Loadshape." ++ label ++ " npts= " ++ str_of (points loc) ++ " interval=" ++ show (match sh_interval i with Some q => q | None => 1%Q end) ++
   " mult = (file=" ++ loc ++ ")" ++ match sh_kvar i with Some k => k | None => "" end ++ String "010" (String "010" ""))%string.

(** One round of the loop 1616-1772; the state is what the writer keeps, the variable [filename] and the two maps.  The
    format of the scaled series (1757-1763) has no argument interv.  Without a location or a label the message (1771)
    uses the [filename] of the round before. *)
Definition shape_step (st : shapes * option string * (dict (list string) * dict string)) (i : tseries)
  : res (shapes * option string * (dict (list string) * dict string)) :=
  let '(w, name, maps) := st in
  let k := shape_key i in
  let skip := collect1 sepf seps maps (mkObj (ts_sub (sh_of i)) (ts_fee (sh_of i)) None) in
  let d := match dget (w_data w) k with Some d => d | None => [] end in
  let data := dset (w_data w) k d in
  match ts_loc (sh_of i), ts_label (sh_of i) with
  | Some loc, Some label =>
    let plain := match sh_scale i with None => true | Some q => Qeq_bool q 1 end in
    let filename := if plain then label else (label ++ "_scaled")%string in
    if dmem d loc && dmem (snd maps) k then Ok (mkShapes data (w_fmt w) (w_iter w) (w_solve w), Some filename, skip)
    else
      let n := points loc in
      let iter := match w_iter w with None => n | Some m => Nat.min m n end in
      let fmt := dset (w_fmt w) filename (shape_format n) in
      let solve := solve_format (w_solve w) n in
      if remove_loadshapes then Ok (mkShapes data fmt (Some iter) solve, Some filename, skip)
      else if plain then
        Ok (mkShapes (dset data k (dset d loc filename)) fmt (Some iter) solve, Some filename,
            collect1 sepf seps maps (mkObj (ts_sub (sh_of i)) (ts_fee (sh_of i)) (Some (shape_text i filename loc))))
      else Err EKey
  | _, _ => match name with None => Err EName | Some _ => Ok (mkShapes data (w_fmt w) (w_iter w) (w_solve w), name, skip) end
  end.

(** Lines 1605-1832 *)
Definition write_timeseries (w : shapes) (o : out) (ts : list tseries) : res (shapes * out) :=
  do st <- foldM shape_step ts (w, None, ([], []));
  let '(w', _, maps) := st in
  do o' <- emit sepf seps file order (fst maps) (snd maps) o;
  Ok (w', o').
End Shapes.
