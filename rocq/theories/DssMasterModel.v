(** The output of the OpenDSS writer as a whole: the files of all sections and the master file.
    Models ditto/writers/opendss/write.py 146-245 (write), 301-406 (write_bus_coordinates), the files of 3095-3275
    (write_wiredata) and 3276-3384 (write_linegeometry), which are always in the base folder (2867-2870), and 3865-4003
    (write_master_file); the sections are those of DssFileModel.  The attribute files_to_redirect is the field
    [redirects]: it is set to [] when the writer is created (100) and not when it is used.

    The circuit and source lines of the master file are in DssSrcModel.  Not modelled: the voltage bases, the solve command,
    and the master files of single feeders except for what they redirect (4065-4075: the list in [fee_redirects]). *)
From Verif Require Import Base DssNameModel DssCodeModel DssFileModel.
Local Open Scope string_scope.
Local Open Scope nat_scope.
Local Open Scope list_scope.

(** For nodes the text is the line of the bus; [None] for a node without a name or coordinates.  For the lines of
    [n_codes] it is the definition of the line code. *)
Record network := mkNet { n_nodes : list obj; n_trans : list obj; n_regs : list obj; n_shapes : list obj; n_loads : list obj;
  n_wires : string; n_cables : string; n_geoms : string; n_codes : list obj; n_lines : list obj; n_caps : list obj;
  n_stores : list obj; n_pvs : list obj }.

Section Master.
Variables sepf seps : bool.
Variable order : list string -> list string.

Definition set_file (o : out) (p t : string) : out := mkOut (dset (files o) p t) (redirects o) (sub_redirects o) (fee_redirects o).
Definition redirect (o : out) (p : string) : out := mkOut (files o) (redirects o ++ [p]) (sub_redirects o) (fee_redirects o).

(** Lines 357-387: the feeders of a substation; the state is the output, all_substation_buses and substation_name. *)
Fixpoint bus_feeders (ftm : dict string) (s : string) (o : out) (acc : list string) (fs : list string) : res (out * list string * string) :=
  match fs with
  | [] => Ok (o, acc, s)
  | f :: r =>
    do txt <- of_opt EKey (dget ftm (group_key (s, f)));
    let f' := bus_name f in
    let s' := bus_name s in
    if String.eqb txt "" then bus_feeders ftm s' o acc r
    else bus_feeders ftm s' (if sepf then set_file o (path sepf seps "Buscoords.dss" s' f') txt else o) (acc ++ [txt]) r
  end.
(** Lines 388-396 *)
Definition bus_substation (ftm : dict string) (st : out * list string) (e : string * list string) : res (out * list string) :=
  let '(o, all) := st in
  do r <- bus_feeders ftm (fst e) o [] (order (snd e));
  let '(o', acc, s') := r in
  Ok (if seps then set_file o' (pjoin s' "Buscoords.dss") (String.concat (String "010" EmptyString) acc) else o', all ++ acc).
(** Lines 322-346 and 397-405 *)
Definition named (o : obj) : bool := match o_txt o with Some _ => true | None => false end.
Definition write_buses (o : out) (nodes : list obj) : res out :=
  let '(stm, ftm) := collect sepf seps (filter named nodes) in
  do r <- foldM (bus_substation ftm) stm (o, []);
  let '(o', all) := r in
  Ok (match all with
      | [] => o'
      | _ => redirect (set_file o' "Buscoords.dss" (String.concat "" all)) "Buscoords.dss"
      end).

(** Wire data, cable data and line geometries: one file in the base folder if there is something. *)
Definition write_base (file txt : string) (o : out) : out :=
  if String.eqb txt "" then o else redirect (set_file o file txt) file.

Definition write_sections (secs : list (string * list obj)) (o : out) : res out :=
  foldM (fun o (sec : string * list obj) => write_section sepf seps (fst sec) order o (snd sec)) secs o.

(** Lines 172-240; write_lines writes wire data, geometries and line codes first (2867-2871). *)
Definition sections1 (net : network) : list (string * list obj) :=
  [("Transformers.dss", n_trans net); ("Regulators.dss", n_regs net); ("LoadShapes.dss", n_shapes net); ("Loads.dss", n_loads net)].
Definition sections2 (net : network) : list (string * list obj) :=
  [("LineCodes.dss", n_codes net); ("Lines.dss", n_lines net); ("Capacitors.dss", n_caps net); ("Storage.dss", n_stores net); ("PVSystems.dss", n_pvs net)].
Definition write_network (o : out) (net : network) : res (out * (list string * bool)) :=
  do o <- write_buses o (n_nodes net);
  do o <- write_sections (sections1 net) o;
  let o := write_base "WireData.dss" (n_wires net) o in
  let o := write_base "CNData.dss" (n_cables net) o in
  let o := write_base "LineGeometry.dss" (n_geoms net) o in
  do o <- write_sections (sections2 net) o;
  let rest := snd (fold_left (fun st x => take1 x st) first_files ([], redirects o)) in
  Ok (mkOut (files o) rest (sub_redirects o) (fee_redirects o), master (redirects o)).
End Master.
