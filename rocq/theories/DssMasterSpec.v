(** Specification vocabulary for the output of the OpenDSS writer. *)
From Verif Require Import Base DssNameModel DssFileModel DssFileSpec DssMasterModel.
Local Open Scope string_scope.
Local Open Scope nat_scope.
Local Open Scope list_scope.

Definition before {A} (a b : A) (l : list A) : Prop := exists l1 l2 l3, l = l1 ++ a :: l2 ++ b :: l3.

(** A file of bus coordinates. *)
Definition bus_file (p : string) : Prop := exists q, p = (q ++ "Buscoords.dss")%string.

(** The sections of a network: the name of the files and the objects. *)
Definition sections (net : network) : list (string * list obj) :=
  [("Transformers.dss", n_trans net); ("Regulators.dss", n_regs net); ("LoadShapes.dss", n_shapes net); ("Loads.dss", n_loads net);
   ("LineCodes.dss", n_codes net); ("Lines.dss", n_lines net); ("Capacitors.dss", n_caps net); ("Storage.dss", n_stores net); ("PVSystems.dss", n_pvs net)].
Definition base_texts (net : network) : list (string * string) :=
  [("WireData.dss", n_wires net); ("CNData.dss", n_cables net); ("LineGeometry.dss", n_geoms net)].

(** All sections can be written (C67). *)
Definition writable (sepf seps : bool) (net : network) : Prop :=
  forall file objs, In (file, objs) (sections net) -> something sepf seps objs /\ told_apart sepf seps file objs /\ plain_substations sepf seps objs.
(** And so can the nodes with a name and coordinates. *)
Definition writable_nodes (sepf seps : bool) (net : network) : Prop :=
  forall nodes, nodes = filter (fun o => match o_txt o with Some _ => true | None => false end) (n_nodes net) ->
  something sepf seps nodes /\ told_apart sepf seps "Buscoords.dss" nodes /\ plain_substations sepf seps nodes.

(** The files a network asks for, other than bus coordinates. *)
Definition asked (sepf seps : bool) (net : network) (p t : string) : Prop :=
  (exists file objs s f, In (file, objs) (sections net) /\ used sepf seps objs s f /\ p = place sepf seps file s f /\ content sepf seps s f objs t) \/
  (In (p, t) (base_texts net) /\ t <> "").

(** The lines of all nodes with a name and coordinates, feeder after feeder. *)
Definition all_buses (sepf seps : bool) (net : network) (t : string) : Prop :=
  let nodes := filter (fun o => match o_txt o with Some _ => true | None => false end) (n_nodes net) in
  exists L : list (string * string * string), NoDup L /\ (forall s f, In (s, f) (map fst L) <-> used sepf seps nodes s f) /\
    (forall s f u, In (s, f, u) L -> content sepf seps s f nodes u) /\ t = String.concat "" (map snd L).

(** The folder of a feeder, as the master files of feeders know it. *)
Definition folder (s f : string) : string := if String.eqb (bus_name s) "" then bus_name f else (bus_name s ++ "/" ++ bus_name f)%string.
