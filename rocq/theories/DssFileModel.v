(** The files of the OpenDSS writer: how the sections (transformers, regulators, load shapes, loads, line codes, lines,
    capacitors, storage, PV systems) are distributed over folders, and the master file.
    Models ditto/writers/opendss/write.py 408-456 and 940-1004 (write_transformers; the same code is in write_storages
    1006-1040 and 1181-1234, write_PVs 1236-1270 and 1508-1603, write_timeseries 1605-1645 and 1775-1832, write_loads
    1834-1872 and 2057-2114, write_regulators 2116-2160 and 2450-2530, write_capacitors 2532-2570 and 2721-2783,
    write_lines 2871-2900 and 3011-3069, write_linecodes 3402-3435 and 3502-3568), 146-245 (write) and 3865-4003
    (write_master_file, the master of the whole network).

    Simplifications:
    - What a section writes for one object is a text; [None] stands for an object it skips ([continue]), because it has
      no name or its load shape is written already.  Only the transformers are never skipped (451-456).
    - The control curves of write_PVs (1519-1556), the transformers that write_regulators appends to the file of the
      transformers (2489-2496) and the intermediate points of write_lines (3019, 3046-3053) are left out.
    - A file is identified by its path below output_path, as it is redirected; output folders are created as needed.
    - The order in which Python goes through a set of feeder names is a parameter. *)
From Verif Require Import Base DssNameModel DssCodeModel.
Local Open Scope string_scope.
Local Open Scope nat_scope.
Local Open Scope list_scope.

Record obj := mkObj { o_sub : option string; o_fee : option string; o_txt : option string }.

(** [os.path.join] of relative paths *)
Fixpoint ends_slash (s : string) : bool :=
  match s with EmptyString => false | String c EmptyString => Ascii.eqb c "/" | String _ t => ends_slash t end.
Definition pjoin (a b : string) : string :=
  if String.eqb a "" then b else if ends_slash a then (a ++ b)%string else (a ++ "/" ++ b)%string.

Record out := mkOut { files : dict string; redirects : list string; sub_redirects : dict (list string); fee_redirects : dict (list string) }.

Definition append_to (d : dict (list string)) (k x : string) : dict (list string) :=
  dset d k (match dget d k with Some l => l | None => [] end ++ [x]).

Section Files.
Variables sepf seps : bool.
Variable file : string.
Variable order : list string -> list string.

(** Lines 426-460: the sets of feeders per substation, the text per substation and feeder. *)
Definition collect1 (st : dict (list string) * dict string) (o : obj) : dict (list string) * dict string :=
  let '(stm, ftm) := st in
  let g := group sepf seps (o_fee o) (o_sub o) in
  let stm' := match dget stm (fst g) with
              | None => dset stm (fst g) [snd g]
              | Some fs => dset stm (fst g) (if smem (snd g) fs then fs else fs ++ [snd g])
              end in
  let txt := match dget ftm (group_key g) with Some t => t | None => "" end in
  match o_txt o with
  | None => (stm', ftm)
  | Some t => (stm', dset ftm (group_key g) (txt ++ t)%string)
  end.
Definition collect (objs : list obj) : dict (list string) * dict string := fold_left collect1 objs ([], []).

(** Lines 950-1002: one file. *)
Definition path (s f : string) : string :=
  let folder := if seps then s else "" in
  pjoin (if sepf then pjoin folder f else folder) file.
Definition put (o : out) (s f txt : string) : out :=
  mkOut (dset (files o) (path s f) txt)
        (redirects o ++ [path s f])
        (if seps then append_to (sub_redirects o) s (if sepf then pjoin f file else file) else sub_redirects o)
        (if sepf then append_to (fee_redirects o) (pjoin s f) file else fee_redirects o).

(** Lines 945-949: the name of the substation is assigned in the inner loop and looked up in its next round. *)
Fixpoint emit_feeders (ftm : dict string) (s : string) (o : out) (fs : list string) : res out :=
  match fs with
  | [] => Ok o
  | f :: r =>
    do txt <- of_opt EKey (dget ftm (group_key (s, f)));
    let f' := bus_name f in
    let s' := bus_name s in
    emit_feeders ftm s' (if String.eqb txt "" then o else put o s' f' txt) r
  end.
Definition emit (stm : dict (list string)) (ftm : dict string) (o : out) : res out :=
  foldM (fun o (e : string * list string) => emit_feeders ftm (fst e) o (order (snd e))) stm o.

Definition write_section (o : out) (objs : list obj) : res out :=
  let '(stm, ftm) := collect objs in emit stm ftm o.
End Files.

(** Lines 3935-3984: the names of the redirected files in the master file; [None] is the Buscoords line (3993-3998). *)
Fixpoint remove1 (x : string) (l : list string) : list string :=
  match l with [] => [] | y :: r => if String.eqb y x then r else y :: remove1 x r end.
Definition take1 (x : string) (st : list string * list string) : list string * list string :=
  let '(done, todo) := st in if smem x todo then (done ++ [x], remove1 x todo) else st.
(** [file[-len(b):] != b] *)
Definition suffix_is (b s : string) : bool := String.eqb (substring (String.length s - String.length b) (String.length b) s) b.
Definition first_files : list string := ["WireData.dss"; "CNData.dss"; "LineGeometry.dss"; "LineCodes.dss"; "Lines.dss"; "Transformers.dss"].
Definition master (todo : list string) : list string * bool :=
  let '(done, rest) := fold_left (fun st x => take1 x st) first_files ([], todo) in
  (done ++ filter (fun f => negb (suffix_is "Buscoords.dss" f)) rest, smem "Buscoords.dss" rest).
