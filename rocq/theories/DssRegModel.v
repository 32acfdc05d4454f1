(** The texts of the regulators of the OpenDSS writer.
    Models ditto/writers/opendss/write.py 2160-2447 (write_regulators).

    Simplifications:
    - As in DssTransModel: floats are rationals, windings and phase_windings are lists, the base voltages are left out.
    - [list(set)[0]] of a set with several elements is some element of it ([pick]).
    - connected_transformer is an attribute of every regulator (2171). *)
From Verif Require Import Base CsvModel DssNameModel DssTextModel DssTransModel.
From Coq Require Import QArith.
Local Open Scope string_scope.
Local Open Scope nat_scope.
Local Open Scope list_scope.

Record regulator := mkReg {
  rg_name : option string; rg_trans : option string; rg_from : option string; rg_to : option string; rg_windings : list winding; rg_reac : list Q;
  rg_winding : option Z; rg_ct : option Q; rg_noload : option Q; rg_delay : option Q; rg_pt : option Q; rg_band : option Q; rg_center : option Q;
  rg_phase : option string; rg_vlimit : option Q; rg_set : option Q }.

(** s[:-2] *)
Definition drop2 (s : string) : string := substring 0 (String.length s - 2) s.
(** Lines 2232-2246: key "=(" and the items, each followed by ", " *)
Definition listing (key : string) (l : list string) : string :=
  (drop2 (key ++ "=(" ++ texts (map (fun x => x ++ ", ") l)) ++ ")")%string.
(** Lines 2239-2240 *)
Definition conn_name (c : option string) : option string :=
  match c with Some "Y" => Some "Wye" | Some "D" => Some "Delta" | Some "Z" => Some "Zigzag" | _ => None end.

(** self.compensator[n][...] after write_transformers *)
Definition compensator (f : phase_winding -> option Q) (ts : list transformer) (n : string) : list Q :=
  fold_left (fun s t => match tr_name t with
    | Some m => if String.eqb m n then fold_left (fun s q => set_add q s) (settings f t) s else s
    | None => s
    end) ts [].

Section Reg.
Variable show : Q -> string.
Variable pick : list Q -> Q.

(** Lines 2185-2345: the transformer that is created for a regulator *)
Definition created_text (n : string) (r : regulator) : res string :=
  match rg_windings r with
  | [] => Err EIndex
  | w1 :: _ =>
    match wd_phases w1 with
    | [] => Err EType
    | p1 :: ps =>
      let phases := String.concat "." (map (fun p => show_opt (option_map show_int (map_phase (pw_phase p)))) (p1 :: ps)) in
      do kvs <- mapM (fun w => do v <- of_opt EType (wd_v w); Ok (show (milli v))) (rg_windings r);
      let conns := somes (map (fun w => conn_name (wd_conn w)) (rg_windings r)) in
      Ok ("New Transformer.trans_" ++ n ++ " phases=" ++ str_of (List.length (wd_phases w1)) ++ " windings=" ++ str_of (List.length (rg_windings r)) ++
          match rg_from r, rg_to r with
          | Some b1, Some b2 => " buses=(" ++ re_sub b1 ++ "." ++ phases ++ "," ++ re_sub b2 ++ "." ++ phases ++ ")"
          | _, _ => ""
          end ++
          (let c := listing " conns" conns in if String.eqb c " conns)" then "" else c) ++
          listing " kvs" kvs ++
          listing " kvas" (somes (map (fun w => option_map (fun v => show (milli v)) (wd_va w)) (rg_windings r))) ++
          opt_text (fun v => " EmerghKVA=" ++ show v) (wd_emerg w1) ++
          opt_text (fun v => " XHL=" ++ show v) (nth_error (rg_reac r) 0) ++
          opt_text (fun v => " XLT=" ++ show v) (nth_error (rg_reac r) 1) ++
          opt_text (fun v => " XHT=" ++ show v) (nth_error (rg_reac r) 2))%string
    end
  end.

(** Lines 2400-2437: len 1 or not, the first of the set; no set, nothing *)
Definition comp_text (key : string) (s : list Q) : string := match s with [] => "" | _ => (key ++ show (pick s))%string end.

(** Lines 2165-2440: the control and the created transformer.  The format of line 2362 has no argument nL. *)
Definition reg_text (xs rs : string -> list Q) (r : regulator) : res (option (string * string)) :=
  match rg_name r with
  | None => Ok None
  | Some n =>
    do created <- (match rg_trans r with Some _ => Ok "" | None => created_text n r end);
    match rg_noload r with
    | Some _ => Err EKey
    | None =>
      Ok (Some (
        ("New RegControl." ++ n ++
        " transformer=" ++ match rg_trans r with Some t => t | None => "trans_" ++ n end ++
        " winding=" ++ match rg_winding r with Some w => show_int w | None => "2" end ++
        opt_text (fun v => " CTprim=" ++ show v) (rg_ct r) ++
        opt_text (fun v => " delay=" ++ show v) (rg_delay r) ++
        opt_text (fun v => " ptratio=" ++ show v) (rg_pt r) ++
        opt_text (fun v => " band=" ++ show (v * (12 # 10))%Q) (rg_band r) ++
        opt_text (fun v => " vreg=" ++ show v) (rg_center r) ++
        opt_text (fun p => " Ptphase=" ++ show_phase p) (rg_phase r) ++
        opt_text (fun v => " vlimit=" ++ show v) (rg_vlimit r) ++
        opt_text (fun v => " vreg = " ++ show (v / 100 * 120)%Q) (rg_set r) ++
        comp_text " X=" (xs n) ++ comp_text " R=" (rs n) ++
        String "010" (String "010" ""))%string, created))
    end
  end.

(** The two texts of a group (2152-2163, 2439-2446): the rows of the created transformers are ended after every regulator. *)
Definition reg_step (xs rs : string -> list Q) (st : string * string) (r : regulator) : res (string * string) :=
  do o <- reg_text xs rs r;
  match o with
  | None => Ok st
  | Some (c, t) =>
    let tr := (snd st ++ t)%string in
    Ok ((fst st ++ c)%string, if String.eqb tr "" then tr else (tr ++ String "010" (String "010" ""))%string)
  end.
Definition reg_group (ts : list transformer) (l : list regulator) : res (string * string) :=
  foldM (reg_step (compensator pw_x ts) (compensator pw_r ts)) l ("", "").
End Reg.
