(** What the command "convert" is to do. *)
From Verif Require Import Base ConvModel.
Local Open Scope string_scope.
Local Open Scope list_scope.

(** The reader gets argument [k] with value [v]. *)
Definition gets (c : config) (k : string) (v : value) : Prop := dget c k = Some v.

(** The arguments of the reader of a format without a configuration file. *)
Definition reads {Model RD WR} (W : world Model RD WR) (o : options) (c : config) : Prop :=
  (o_from o = "opendss" -> gets c "master_file" (VStr (abspath W (o_input o)))
     /\ gets c "buscoordinates_file" (VStr (beside W (o_input o) "buscoord.dss")))
  /\ (o_from o = "cyme" -> gets c "data_folder_path" (VStr (abspath W (o_input o)))
     /\ gets c "network_filename" (VStr "network.txt") /\ gets c "equipment_filename" (VStr "equipment.txt")
     /\ gets c "load_filename" (VStr "loads.txt"))
  /\ (In (o_from o) ["gridlabd"; "demo"; "synergi"] -> gets c "input_file" (VStr (abspath W (o_input o))))
  /\ (forall d, o_defaults o = Some d -> d <> "" -> gets c "default_values_file" (VStr d))
  /\ (o_defaults o = None -> gets c "default_values_file" VNone)
  /\ gets c "remove_opendss_default_values_flag" (VBool (o_remove o)).

(** The path of a JSON file. *)
Definition json_file (s : string) : Prop := exists p, s = (p ++ ".json")%string.

(** What there is to write of model [m]: the JSON file if asked for, then the output. *)
Definition to_write {Model RD WR} (W : world Model RD WR) (o : options) (m : Model) : list (event Model) :=
  match o_jsonize o with Some p => [Wrote "json" [("output_path", VStr p)] m] | None => [] end
  ++ [Wrote (o_to o) [("output_path", VStr (o_output o)); ("log_file", VStr (join W (o_output o) "out.log"))] m].

(** The model that the reader of the format makes of the input. *)
Definition model_of {Model RD WR} (W : world Model RD WR) (o : options) (m : Model) : Prop :=
  exists rd r c, dget (readers W) (o_from o) = Some rd /\ r_make rd c = Ok r /\ r_parse rd r = Ok m
    /\ (~ json_file (o_input o) -> reads W o c)
    /\ (forall kv rest, json_file (o_input o) -> load_json W (o_input o) = Ok (kv :: rest) -> c = kv :: rest).
