(** Specification vocabulary for the files of the OpenDSS writer. *)
From Verif Require Import Base DssNameModel DssFileModel.
Local Open Scope string_scope.
Local Open Scope nat_scope.
Local Open Scope list_scope.

(** The object belongs to this feeder of this substation, "DEFAULT" standing for a level that is not separated or not
    known for the object. *)
Definition home (sepf seps : bool) (o : obj) (s f : string) : Prop :=
  ((seps = true /\ o_sub o = Some s) \/ ((seps = false \/ o_sub o = None) /\ s = "DEFAULT")) /\
  ((sepf = true /\ o_fee o = Some f) \/ ((sepf = false \/ o_fee o = None) /\ f = "DEFAULT")).

(** Some object belongs there. *)
Definition used (sepf seps : bool) (objs : list obj) (s f : string) : Prop := exists o, In o objs /\ home sepf seps o s f.

(** The texts of the objects that belong there, in order. *)
Inductive content (sepf seps : bool) (s f : string) : list obj -> string -> Prop :=
| c_nil : content sepf seps s f [] ""
| c_here : forall o t r u, home sepf seps o s f -> o_txt o = Some t -> content sepf seps s f r u -> content sepf seps s f (o :: r) (t ++ u)
| c_skip : forall o r u, o_txt o = None -> content sepf seps s f r u -> content sepf seps s f (o :: r) u
| c_there : forall o r u, ~ home sepf seps o s f -> content sepf seps s f r u -> content sepf seps s f (o :: r) u.

(** The path of the file below the output folder: a folder per substation, a folder per feeder. *)
Definition place (sepf seps : bool) (file s f : string) : string :=
  String.concat "/" (filter (fun x => negb (String.eqb x "")) ((if seps then [bus_name s] else []) ++ (if sepf then [bus_name f] else [])) ++ [file]).

(** Every group has something to write. *)
Definition something (sepf seps : bool) (objs : list obj) : Prop :=
  forall s f, used sepf seps objs s f -> exists o t, In o objs /\ home sepf seps o s f /\ o_txt o = Some t /\ t <> "".
(** Groups are told apart by "substation_feeder" and by their folders. *)
Definition told_apart (sepf seps : bool) (file : string) (objs : list obj) : Prop :=
  forall s f s' f', used sepf seps objs s f -> used sepf seps objs s' f' ->
    (s ++ "_" ++ f)%string = (s' ++ "_" ++ f')%string \/ place sepf seps file s f = place sepf seps file s' f' -> s = s' /\ f = f'.
(** A substation with several feeders has a name that is written as it is. *)
Definition plain_substations (sepf seps : bool) (objs : list obj) : Prop :=
  forall s f f', used sepf seps objs s f -> used sepf seps objs s f' -> f <> f' -> bus_name s = s.
