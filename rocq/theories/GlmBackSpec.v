(** What comes back when DiTTo reads a file of its own GridLAB-D writer. *)
From Verif Require Import Base.
From Verif Require GlmModel GlmSpec.
From Verif Require Import GlmWriteModel GlmWriteSpec.
Local Open Scope string_scope.
Local Open Scope list_scope.

(** keys and values that the reader takes as one word *)
Definition plain_key (k : string) : Prop := GlmSpec.word k /\ ~ GlmSpec.keyword k /\ GlmSpec.no_comment k.
Definition plain_value (v : string) : Prop := GlmSpec.word v /\ forall s, v <> (s ++ "}")%string.
Definition plain_file (bs : list block) : Prop := forall b k v, In b bs -> In (k, v) (snd b) -> plain_key k /\ plain_value v.
(** every object has a name, and no two have the same *)
Definition named_file (bs : list block) : Prop := (forall b, In b bs -> values b "name" <> []) /\ NoDup (flat_map (fun b => values b "name") bs).
(** the reader knows the classes and the properties of a file *)
Definition known_file (schema : string -> option (list string)) (bs : list block) : Prop :=
  forall b, In b bs -> exists ks, schema (fst b) = Some ks /\ In "name" ks /\ incl (keys b) ks.
Definition last_opt {A} (l : list A) : option A := match rev l with x :: _ => Some x | [] => None end.
(** the object that an object of the file should give *)
Definition same_object (b : block) (o : GlmModel.obj) : Prop :=
  GlmModel.o_cls o = fst b /\ forall k, dget (GlmModel.o_props o) k = last_opt (values b k).
(** no class has a brace in its name *)
Definition no_braces (schema : string -> option (list string)) : Prop := forall c, schema (c ++ "{")%string = None.
