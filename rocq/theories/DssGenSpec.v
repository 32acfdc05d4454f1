(** What the generators and feeders that OpenDSS reports should become. *)
From Verif Require Import Base CsvModel TextModel DssTextSpec DssRdLoadModel DssRdLoadSpec DssGenModel.
From Coq Require Import Reals.
Local Open Scope string_scope.
Local Open Scope nat_scope.
Local Open Scope list_scope.

Record reports_gen (full : string) (d : data) (n b : string) : Prop := {
  gr_name : full = ("generator." ++ n)%string;
  gr_plain : ~ has "enerator." n;
  gr_bus : exists t ns, d "bus1" = Some (PText t) /\ terminal t = (b, ns) }.
Record reads_gen (int_ : string -> option Z) num source (d : data) (n b : string) (g : rgen) : Prop := {
  gd_name : rg_name g = lower n;
  gd_feeder : rg_feeder g = source;
  gd_bus : rg_bus g = Some b;
  gd_kv : exists v, states num d "kv" v /\ rg_kv g = option_map (fun x => x * 1000)%R v;
  gd_rated : exists v, states num d "kVA" v /\ rg_rated g = option_map (fun x => x * 1000)%R v;
  gd_pf : states num d "pf" (rg_pf g);
  gd_vmin : states num d "Vminpu" (rg_vmin g);
  gd_vmax : states num d "Vmaxpu" (rg_vmax g);
  gd_model : match rg_model g with Some z => whole int_ d "model" z | None => forall z, ~ whole int_ d "model" z end }.

(** A line of the file of feeders: four words with one blank between them. *)
Fixpoint word (s : string) : Prop := match s with "" => True | String c t => is_space c = false /\ word t end.
Definition says (line node sub feed trans : string) : Prop :=
  word node /\ word sub /\ word feed /\ word trans /\ (line = node ++ " " ++ sub ++ " " ++ feed ++ " " ++ trans \/ line = node ++ " " ++ sub ++ " " ++ feed ++ " " ++ trans ++ String "010" "")%string.
Record row := mkRow { w_node : string; w_sub : string; w_feed : string; w_trans : string }.
Definition row_of (line : string) (r : row) : Prop := says line (w_node r) (w_sub r) (w_feed r) (w_trans r).
(** the first row of a feeder *)
Inductive first_row (f : string) : list row -> row -> Prop :=
| fr_here r l : w_feed r = f -> first_row f (r :: l) r
| fr_later q l r : w_feed q <> f -> first_row f l r -> first_row f (q :: l) r.
(** [s] without its dots *)
Inductive undotted : string -> string -> Prop :=
| ud_nil : undotted "" ""
| ud_dot s t : undotted s t -> undotted (String "." s) t
| ud_other c s t : c <> "."%char -> undotted s t -> undotted (String c s) (String c t).
(** the feeders in the order in which they come first *)
Inductive in_order : list row -> list string -> Prop :=
| io_nil : in_order [] []
| io_old l fs r : in_order l fs -> In (w_feed r) fs -> in_order (l ++ [r]) fs
| io_new l fs r : in_order l fs -> ~ In (w_feed r) fs -> in_order (l ++ [r]) (fs ++ [w_feed r]).
