(** Specification vocabulary for switch files. *)
From Verif Require Import Base StoreModel NetworkModel NetworkSpec CsvModel CsvSpec TextModel SwitchModel.
Local Open Scope string_scope.
Local Open Scope nat_scope.
Local Open Scope list_scope.

(** A line of the file: command, class and name of the object, assignments, line end. *)
Record dss := mkDss { d_cmd : string; d_class : string; d_name : string; d_props : list (string * string); d_end : string }.

Fixpoint render_props (l : list (string * string)) : string :=
  match l with [] => "" | (k, v) :: t => (" " ++ k ++ "=" ++ v ++ render_props t)%string end.
Definition render_dss (r : dss) : string := (d_cmd r ++ " " ++ d_class r ++ "." ++ d_name r ++ render_props (d_props r) ++ d_end r)%string.

(** No white space anywhere. *)
Fixpoint solid (s : string) : Prop := match s with EmptyString => True | String c t => is_space c = false /\ solid t end.
Definition newline : string := String "010"%char "".

Definition wf_dss (r : dss) : Prop :=
  solid (d_cmd r) /\ (solid (d_class r) /\ free "." (d_class r)) /\ (solid (d_name r) /\ free "." (d_name r)) /\
  (forall k v, In (k, v) (d_props r) -> (solid k /\ free "=" k) /\ (solid v /\ free "=" v)) /\
  (d_end r = "" \/ d_end r = newline).

(** The last assignment of the property [key], whatever the case, has the value [v]. *)
Definition says (r : dss) (key v : string) : Prop :=
  exists a k b, d_props r = a ++ (k, v) :: b /\ lower k = key /\ forall k' v', In (k', v') b -> lower k' <> key.
Definition switch_line (r : dss) : Prop := exists v, says r "switch" v /\ In v ["y"; "yes"; "true"].
(** The line is a switch for the object at [p]. *)
Definition switches (es : list elem) (r : dss) (p : nat) : Prop := switch_line r /\ bears es (lower (d_name r)) p.

(** All wires open, or all closed; an object without wires is unchanged. *)
Definition opened (b : bool) (w : wires) : wires := match w with Some (Some l) => Some (Some (map (fun _ => Some b) l)) | _ => w end.
