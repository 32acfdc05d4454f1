(** The power sources of the OpenDSS writer and reader.
    Models ditto/writers/opendss/write.py 3870-3926 (the circuit of the master file, write_master_file) and
    ditto/readers/opendss/read.py 337-518 (parse_power_source).

    Simplifications: numbers that are written are rationals; those of DssRdLoadModel for the reader. Objects of other
    classes, and sources that are no source buses, are left out of the list of sources. A text is no value for a
    coordinate (TraitError, here EValue). *)
From Verif Require Import Base CsvModel TextModel DssNameModel DssTextModel DssRdLoadModel.
From Coq Require Import Reals QArith.
Local Open Scope string_scope.
Local Open Scope nat_scope.
Local Open Scope list_scope.

(** ** Writing *)
Record source := mkSource { so_name : option string; so_conn : option string; so_pu : option Q; so_kv : option Q; so_z1 : option (Q * Q); so_z0 : option (Q * Q) }.
Section Write.
Variable show : Q -> string.
(** 3875-3878: [name[:-4]] *)
Definition cleaned (n : string) : string :=
  if match cut_at "_src" n with Some _ => true | None => false end then substring 0 (String.length n - 4) n else n.
(** 3871-3924 for one source *)
Definition source_text (s : source) : res string :=
  do n <- of_opt EType (so_name s);
  Ok ("bus1=" ++ re_sub (match so_conn s with Some c => c | None => cleaned n end) ++ " pu=" ++ match so_pu s with Some p => show p | None => "None" end ++
      opt_text (fun v => " basekV=" ++ show (v / 1000)%Q) (so_kv s) ++
      opt_text (fun z => " R1=" ++ show (fst z) ++ " X1=" ++ show (snd z)) (so_z1 s) ++
      opt_text (fun z => " R0=" ++ show (fst z) ++ " X0=" ++ show (snd z)) (so_z0 s))%string.
(** 3870-3926 after "Clear" and an empty line *)
Definition circuit_text (l : list source) : res string :=
  do ts <- mapM source_text l;
  Ok ("New Circuit.Full_Network " ++ texts ts ++ String "010" (String "010" ""))%string.
End Write.

(** ** Reading *)
Record rsource := mkRsource {
  rs_name : string; rs_kv : option R; rs_pu : option R; rs_rated : option R; rs_emergency : option R; rs_z0 : option (R * R); rs_z1 : option (R * R);
  rs_angle : option R; rs_phases : list string; rs_pos : list (option R * option R); rs_conn : option string }.
Record rmeta := mkRmeta { rm_name : string; rm_head : string; rm_sub : string; rm_kv : option R }.
Inductive scoord := SNone | SText (s : string) | SNum (r : R).

Section Read.
Variable num : string -> option R.
Variable delim : ascii.

(** 398-439 *)
Definition z_of (d : data) (kz kr kx : string) : option (R * R) :=
  match d kz with
  | Some (PList [a; b]) => match num a, num b with Some r, Some x => Some (r, x) | _, _ => None end
  | Some (PList _) => None
  | _ =>
    match d kr, d kx with
    | Some (PText a), Some (PText b) =>
      if (String.eqb a "" || String.eqb b "")%bool then None
      else match num a, num b with Some r, Some x => Some (r, x) | _, _ => None end
    | _, _ => None
    end
  end.
(** 462-491: X and Y after a row *)
Definition xy_step (st : scoord * scoord) (line : string) : scoord * scoord :=
  if String.eqb (strip line) "" then st
  else match map strip (split_on delim line) with
       | [_; x; y] =>
         match num x with
         | None => (SText x, SText y)
         | Some a => (SNum a, match num y with Some b => SNum b | None => SText y end)
         end
       | _ => (SNone, SNone)
       end.
Definition trait_of (c : scoord) : res (option R) := match c with SNone => Ok None | SText _ => Err EValue | SNum r => Ok (Some r) end.
(** 451-496; [coordinates]: the rows of the file, None when it cannot be opened *)
Definition source_pos (coordinates : option (list string)) : res (list (option R * option R)) :=
  let xy := fold_left xy_step (match coordinates with Some l => l | None => [] end) (SNone, SNone) in
  do x <- trait_of (fst xy);
  do y <- trait_of (snd xy);
  Ok [(x, y)].
(** 498-502 *)
Definition source_bus (d : data) : option string :=
  match text_of d "bus1" with
  | None => None
  | Some s => match split_on "." s with b :: _ :: _ => Some b | _ => Some s end
  end.
Definition scaled (o : option R) (f : R) : option R := option_map (fun x => x * f)%R o.
Definition rstate := (string * list rsource * list rmeta)%type.
(** 347-516 for one source; the state is the attribute source_name and the objects of the model *)
Definition parse_source (coordinates : option (list string)) (st : rstate) (x : string * data) : res rstate :=
  let '(sn, srcs, metas) := st in
  let d := snd x in
  do en <- of_opt EKey (d "enabled");
  if match en with PText s => String.eqb s "Yes" | PList _ => false end then
    do pos <- source_pos coordinates;
    let kv := scaled (float_of num d "basekv") 1000 in
    let bus := source_bus d in
    let src := mkRsource (fst x) kv (match float_of num d "pu" with Some p => Some p | None => Some 1%R end)
      (scaled (float_of num d "baseMVA") 1000000) (scaled (float_of num d "MVAsc3") 1000000)
      (z_of d "Z0" "R0" "X0") (z_of d "Z1" "R1" "X1") (match float_of num d "angle" with Some a => Some a | None => Some 0%R end)
      ["A"; "B"; "C"] pos bus in
    Ok match bus with
       | Some b => ((b ++ "_src")%string, srcs ++ [src], metas ++ [mkRmeta (b ++ "_src") b b kv])
       | None => (sn, srcs ++ [src], metas)
       end
  else Ok st.
(** 345-518; "Sourcebus" is set before (226) *)
Definition parse_sources (coordinates : option (list string)) (l : list (string * data)) : res rstate :=
  foldM (parse_source coordinates) l ("Sourcebus", [], []).
End Read.
