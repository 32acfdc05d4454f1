(** The storage units of the OpenDSS writer and reader.
    Models ditto/writers/opendss/write.py 1006-1180 (write_storages) and ditto/readers/opendss/read.py 2603-2748
    (parse_storage).

    Simplifications:
    - Floats are rationals, products with a power of ten are exact, [show] is what [format] writes for a float and
      [root] is math.sqrt.
    - The base voltages (1081-1095) are left out.
    - [parent] is the nominal voltage of the object with a name: [None] when there is no such object.
    - The reader is given the properties of one element as they are written; what OpenDSS reports for the properties
      that are not written is left out, and the element is enabled. *)
From Verif Require Import Base CsvModel DssNameModel DssTextModel DssTransModel DssTextSpec.
From Coq Require Import QArith Qabs DecimalString.
Local Open Scope string_scope.
Local Open Scope nat_scope.
Local Open Scope list_scope.

Record phase_storage := mkPSt { ps_phase : option string; ps_p : option Q; ps_q : option Q }.
Record storage := mkSto {
  so_name : option string; so_bus : option string; so_kv : option Q; so_phases : option (list phase_storage);
  so_active : option Q; so_pf : option Q; so_rated : option Q; so_kwh : option Q; so_stored : option Q; so_state : option string;
  so_reserve : option Q; so_dis : option Q; so_cha : option Q; so_effc : option Q; so_effd : option Q;
  so_r : option Q; so_x : option Q; so_model : option Z }.

(** [sum([1 for x in l if x is None]) == 0], then the list of the values *)
Fixpoint all_some {A} (l : list (option A)) : option (list A) :=
  match l with
  | [] => Some []
  | Some x :: r => match all_some r with Some v => Some (x :: v) | None => None end
  | None :: _ => None
  end.
Definition total (l : list Q) : Q := fold_left Qplus l 0%Q.
Definition show_node (p : option string) : string := match map_phase p with Some z => show_int z | None => "None" end.

Section Storage.
Variable show : Q -> string.
Variable root : Q -> Q.
Variable parent : string -> option (option Q).

(** Lines 1053-1063 *)
Definition power_text (ps : list phase_storage) : string :=
  match all_some (map ps_p ps) with
  | None => ""
  | Some p =>
    (" kW=" ++ show (milli (total p)) ++
     match all_some (map ps_q ps) with
     | None => ""
     | Some q =>
       if Qeq_bool (total q) 0 || Qeq_bool (total p) 0 then ""
       else " pf=" ++ show (total p / root (total p * total p + total q * total q))
     end)%string
  end.

(** Lines 1048-1063: None < 300 is a TypeError. *)
Definition phases_text (s : storage) : res string :=
  match so_phases s with
  | None => Ok ""
  | Some ps =>
    do v <- of_opt EType (so_kv s);
    Ok ((if negb (Qle_bool 300 v) then " phases=1" else " phases=" ++ str_of (List.length ps)) ++ power_text ps)%string
  end.

(** Lines 1066-1071 *)
Definition store_kv (s : storage) : res (option Q) :=
  match so_bus s, so_kv s with Some b, None => of_opt EKey (parent b) | _, v => Ok v end.

(** Lines 1066-1079 *)
Definition store_bus (s : storage) : string :=
  opt_text (fun b => " bus1=" ++ re_sub b ++
    match so_phases s with Some ps => texts (map (fun p => "." ++ show_node (ps_phase p)) ps) | None => "" end)%string (so_bus s).

(** Lines 1096-1103: only written with a voltage; division by a power factor of zero fails. *)
Definition kva_text (kv : option Q) (s : storage) : res string :=
  match kv, so_active s with
  | Some _, Some a =>
    let pf := match so_pf s with Some f => Qabs f | None => 1%Q end in
    if Qeq_bool pf 0 then Err EZeroDiv else Ok (" kVA=" ++ show (milli (a / pf)))%string
  | _, _ => Ok ""
  end.

(** Lines 1042-1178 *)
Definition storage_text (s : storage) : res string :=
  do ph <- phases_text s;
  do kv <- store_kv s;
  do kva <- kva_text kv s;
  Ok (opt_text (fun n => "New Storage." ++ n) (so_name s) ++
      ph ++ store_bus s ++
      opt_text (fun v => " kV=" ++ show (milli v)) kv ++ kva ++
      opt_text (fun v => " kWRated=" ++ show (milli v)) (so_rated s) ++
      opt_text (fun v => " kWhRated=" ++ show (milli v)) (so_kwh s) ++
      opt_text (fun v => " kWhStored=" ++ show (milli v)) (so_stored s) ++
      match so_state s with Some x => " State=" ++ x | None => " State=IDLING" end ++
      opt_text (fun v => " %reserve=" ++ show (milli v)) (so_reserve s) ++
      opt_text (fun v => " %Discharge=" ++ show v) (so_dis s) ++
      opt_text (fun v => " %Charge=" ++ show v) (so_cha s) ++
      opt_text (fun v => " %EffCharge=" ++ show v) (so_effc s) ++
      opt_text (fun v => " %EffDischarge=" ++ show v) (so_effd s) ++
      opt_text (fun v => " %R=" ++ show v) (so_r s) ++
      opt_text (fun v => " %X=" ++ show v) (so_x s) ++
      opt_text (fun v => " model=" ++ show_int v) (so_model s) ++
      String "010" "")%string.
End Storage.

(** *** The reader *)
Section Reader.
Variable num : string -> option Q.      (* [float] of a text *)

Definition read_count (s : string) : option nat := option_map Nat.of_uint (NilEmpty.uint_of_string s).
Definition read_int (s : string) : option Z := option_map Z.of_int (NilEmpty.int_of_string s).
Definition num_prop (e : element) (k : string) : option Q := match prop e k with Some s => num s | None => None end.

(** Lines 2608-2748; the numbers of a phase are the number of the element over the count of its phases. The name is
    the key of the dictionary that _dss_class_to_dict("storage") returns, which begins with the class. *)
Definition parse_storage (e : element) : res storage :=
  do ns <- of_opt EKey (prop e "phases");
  do n <- of_opt EValue (read_count ns);
  let share k := option_map (fun x => x / inject_Z (Z.of_nat n))%Q (num_prop e k) in
  Ok (mkSto (Some ("storage." ++ e_name e)%string) (prop e "bus1") (option_map (fun v => v * 1000)%Q (num_prop e "kv"))
        (Some (repeat (mkPSt None (share "kw") (share "kvar")) n))
        None None (option_map (fun v => v * 1000)%Q (num_prop e "kwrated")) (num_prop e "kwhrated") (num_prop e "kwhstored") (prop e "state")
        (num_prop e "%reserve") (num_prop e "%discharge") (num_prop e "%charge") (num_prop e "%effcharge") (num_prop e "%effdischarge")
        (num_prop e "%r") (num_prop e "%x") (match prop e "model" with Some s => read_int s | None => None end)).
End Reader.
