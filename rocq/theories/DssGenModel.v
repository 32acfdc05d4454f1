(** The generators and the feeders of the OpenDSS reader.
    Models ditto/readers/opendss/read.py 2761-2853 (parse_generators) and 311-334 (parse_feeder_metadata).

    Simplifications: those of DssRdLoadModel (dictionaries of texts and lists of texts, floats are reals, no warnings); the
    properties of a generator other than its phases are texts. The file of the feeders is the list of its lines, with
    their ends; [strip] cuts white space at both ends. *)
From Verif Require Import Base CsvModel TextModel DssNameModel DssRdLoadModel DssRdCapModel.
From Coq Require Import Reals.
Local Open Scope string_scope.
Local Open Scope nat_scope.
Local Open Scope list_scope.

Record rgen := mkRgen { rg_name : string; rg_feeder : string; rg_bus : option string; rg_kv : option R; rg_on : option string; rg_pf : option R; rg_rated : option R;
  rg_phases : list (option string); rg_vmin : option R; rg_vmax : option R; rg_model : option Z }.

Section Gens.
Variable int_ : string -> option Z.
Variable num : string -> option R.
Variable source_name : string.

(** 2791-2799 *)
Definition gen_bus (d : data) : option string :=
  match text_of d "bus1" with
  | None => None
  | Some s => match split_on "." s with b :: _ :: _ => Some b | _ => Some s end
  end.
(** 2826-2831: over the characters of a text *)
Definition gen_phases (d : data) : list (option string) :=
  match d "phases" with Some (PText s) => map r_phase_str (chars s) | Some (PList l) => map r_phase_str l | None => [] end.
(** 2775-2851 for one generator *)
Definition parse_gen (x : string * data) : rgen :=
  let d := snd x in
  mkRgen (match second_piece "enerator." (fst x) with Some n => lower n | None => "" end) source_name (gen_bus d)
    (option_map (fun v => v * 1000)%R (float_of num d "kv")) (text_of d "forceon") (float_of num d "pf") (option_map (fun v => v * 1000)%R (float_of num d "kVA"))
    (gen_phases d) (float_of num d "Vminpu") (float_of num d "Vmaxpu") (int_of int_ d "model").
(** 2761-2853 *)
Definition parse_gens (gens : list (string * data)) : list rgen := map parse_gen gens.
End Gens.

Record rfeeder := mkRfeeder { rf_name : string; rf_transformer : option string; rf_substation : option string }.
(** [s.replace(".", "")] *)
Fixpoint no_dots (s : string) : string := match s with "" => "" | String c t => if Ascii.eqb c "." then no_dots t else String c (no_dots t) end.
Record tables := mkTb { t_feeders : dict (list string); t_subs : dict string; t_trans : dict string }.
(** 317-326 *)
Definition feeder_step (tb : tables) (line : string) : res tables :=
  match map strip (split_on " " line) with
  | [node; sub; feed; sub_trans] =>
    let n := no_dots (lower node) in
    let s := no_dots (lower sub) in
    Ok (mkTb (dset (t_feeders tb) feed (match dget (t_feeders tb) feed with Some l => l ++ [n] | None => [n] end))
             (if dmem (t_subs tb) feed then t_subs tb else dset (t_subs tb) feed s)
             (if dmem (t_trans tb) feed then t_trans tb else dset (t_trans tb) feed s))
  | _ => Err EValue
  end.
(** 311-334 *)
Definition parse_feeders (lines : list string) : res (list rfeeder) :=
  do tb <- foldM feeder_step (skipn 1 lines) (mkTb [] [] []);
  Ok (map (fun f => mkRfeeder f (dget (t_trans tb) f) (dget (t_subs tb) f)) (dkeys (t_feeders tb))).
