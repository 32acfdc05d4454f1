(** The commands "ditto convert" and "ditto metric".
    Models ditto/cli.py lines 33-38, 101-119, 160-189, ditto/converter.py lines
    37-252 and ditto/metric_computer.py lines 15-68.
    Simplifications: a reader is its constructor and its parse method, which gives
    the model it puts in the new Store or an exception; a writer is its constructor
    and its write method; what is written is recorded as an event; os.path and the
    loading of a configuration file are parameters; a format DEW, which is not
    registered, is left out; log messages and the time are left out. *)
From Verif Require Import Base.
Local Open Scope string_scope.
Local Open Scope list_scope.

(** A value of the keyword arguments of a reader. *)
Inductive value := VNone | VBool (b : bool) | VStr (s : string) | VOther (n : nat).
Definition config := @dict value.

(** [s.endswith(t)] *)
Fixpoint ends_with (t s : string) : bool :=
  String.eqb s t || match s with "" => false | String _ r => ends_with t r end.

Section World.
Context {Model RD WR : Type}.

Record reader := mkReader { r_make : config -> res RD; r_parse : RD -> res Model }.
Record writer := mkWriter { w_make : config -> res WR; w_write : WR -> Model -> res unit }.

(** What is seen from outside: a model written by the writer of a format, made with
    some arguments, or metrics exported to a file. *)
Inductive event := Wrote (format : string) (args : config) (m : Model) | Exported (path : string) (m : Model).

Inductive outcome := Done | Refused (option : string) | Failed (e : exn).

Record world := mkWorld {
  readers : @dict reader; writers : @dict writer;
  load_json : string -> res config; abspath : string -> string;
  beside : string -> string -> string;   (* os.path.join(os.path.dirname(path), name) *)
  join : string -> string -> string }.

Variable W : world.

(** The options of "convert". *)
Record options := mkOptions {
  o_input : string; o_output : string; o_from : string; o_to : string;
  o_jsonize : option string; o_defaults : option string; o_remove : bool;
  o_warehouse : option string }.

(** converter.py 54-58: a JSON file is taken for a configuration. *)
Definition initial_config (input : string) : res config :=
  if ends_with ".json" input then load_json W input else Ok [].

(** converter.py 116-162: the inputs of each format. *)
Definition format_inputs (from feeder : string) : res config :=
  if String.eqb from "opendss" then
    Ok [("master_file", VStr (abspath W feeder)); ("buscoordinates_file", VStr (beside W feeder "buscoord.dss"))]
  else if String.eqb from "cyme" then
    Ok [("data_folder_path", VStr (abspath W feeder)); ("network_filename", VStr "network.txt");
        ("equipment_filename", VStr "equipment.txt"); ("load_filename", VStr "loads.txt")]
  else if String.eqb from "gridlabd" then Ok [("input_file", VStr (abspath W feeder))]
  else if String.eqb from "demo" then Ok [("input_file", VStr (abspath W feeder))]
  else if String.eqb from "synergi" then
    Ok [("input_file", VStr (abspath W feeder)); ("warehouse", VStr "warehouse.mdb")]
  else Err ENotImpl.

(** [d.update(e)] *)
Definition update (d e : config) : config := fold_left (fun d kv => dset d (fst kv) (snd kv)) e d.

(** converter.py 106-185 [get_inputs]: the configuration, which it also stores. *)
Definition get_inputs (cfg : config) (from feeder : string) (defaults : option string) (remove : bool)
  : res config :=
  match cfg with
  | _ :: _ => Ok cfg
  | [] =>
    do i <- format_inputs from feeder;
    let i := dset i "default_values_file"
               (match defaults with Some s => if String.eqb s "" then VNone else VStr s | None => VNone end) in
    let i := dset i "remove_opendss_default_values_flag" (VBool remove) in
    Ok (update cfg i)
  end.

(** converter.py 207-214 [get_output]. *)
Definition get_output (dir : string) : config :=
  [("output_path", VStr dir); ("log_file", VStr (join W dir "out.log"))].

(** The rest of [convert]: [k] in case of success, else the failure with the events
    so far. *)
Definition or_fail {A} (ev : list event) (r : res A) (k : A -> list event * outcome) : list event * outcome :=
  match r with Ok a => k a | Err e => (ev, Failed e) end.

(** converter.py 232-252 [Converter.convert]. *)
Definition run (rd : reader) (wr : writer) (js : option (string * writer)) (cfg : config) (o : options)
  : list event * outcome :=
  or_fail [] (get_inputs cfg (o_from o) (o_input o) (o_defaults o) (o_remove o)) (fun inputs =>
  or_fail [] (r_make rd inputs) (fun r =>
  or_fail [] (w_make wr (get_output (o_output o))) (fun w =>
  or_fail [] (r_parse rd r) (fun m =>
  let last ev := or_fail ev (w_write wr w m) (fun _ => (ev ++ [Wrote (o_to o) (get_output (o_output o)) m], Done)) in
  match js with
  | Some (path, jw) =>
      or_fail [] (w_make jw [("output_path", VStr path)]) (fun j =>
      or_fail [] (w_write jw j m) (fun _ => last [Wrote "json" [("output_path", VStr path)] m]))
  | None => last []
  end)))).

(** cli.py 160-189 [convert]. *)
Definition convert (o : options) : list event * outcome :=
  match dget (readers W) (o_from o) with
  | None => ([], Refused "from")
  | Some rd =>
    match dget (writers W) (o_to o) with
    | None => ([], Refused "to")
    | Some wr =>
      or_fail [] (match o_jsonize o with
                  | Some p => do jw <- of_opt EKey (dget (writers W) "json"); Ok (Some (p, jw))
                  | None => Ok None
                  end) (fun js =>
      or_fail [] (initial_config (o_input o)) (fun cfg => run rd wr js cfg o))
    end
  end.

Definition lower_in (f : string) (l : list string) : bool := existsb (String.eqb (lower f)) l.

(** cli.py 101-119 [metric] and metric_computer.py 44-68 [compute]; [metrics] computes
    the metrics, by feeder or not. *)
Definition metric (metrics : bool -> Model -> res unit) (input from output : string) (to : option string)
  (by_feeder : bool) : list event * outcome :=
  match dget (readers W) from with
  | None => ([], Refused "from")
  | Some rd =>
    or_fail [] (initial_config input) (fun cfg =>
    or_fail [] (get_inputs cfg from input None false) (fun inputs =>
    or_fail [] (r_make rd inputs) (fun r =>
    or_fail [] (r_parse rd r) (fun m =>
    or_fail [] (metrics by_feeder m) (fun _ =>
    match to with
    | None => ([], Failed EAttr)
    | Some f =>
        if lower_in f ["json"] then ([Exported (join W output "metrics.json") m], Done)
        else if lower_in f ["xlsx"; "excel"; "xls"] then ([Exported (join W output "metrics.xlsx") m], Done)
        else ([], Done)
    end)))))
  end.
End World.
Arguments world : clear implicits.
Arguments reader : clear implicits.
Arguments writer : clear implicits.
Arguments event : clear implicits.
