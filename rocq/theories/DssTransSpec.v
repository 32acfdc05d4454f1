(** Specification vocabulary for the transformers of the OpenDSS script. *)
From Verif Require Import Base CsvModel DssTextModel DssTransModel DssNameSpec DssTextSpec DssLoadSpec.
From Coq Require Import QArith.
Local Open Scope string_scope.
Local Open Scope nat_scope.
Local Open Scope list_scope.

(** The properties of a transformer belong to the winding that was last chosen with "wdg", at first to winding 1. *)
Fixpoint of_winding (w cur : string) (l : list (string * string)) : list (string * string) :=
  match l with
  | [] => []
  | (k, v) :: r =>
    if String.eqb (lower k) "wdg" then of_winding w v r
    else if String.eqb cur w then (k, v) :: of_winding w cur r else of_winding w cur r
  end.
Definition winding_of (e : element) (n : nat) : element := mkElement (e_class e) (e_name e) (of_winding (str_of n) "1" (e_props e)).

(** The nodes of the given phases; a delta with one phase goes on to the next node. *)
Definition spread (conn : option string) (ph : list (option string)) (ns : list string) : Prop :=
  exists ms, Forall2 at_node (given ph) ms /\
    ((conn = Some "D" /\ length ph = 1 /\ (exists m n, ms = [m] /\ next_node m n /\ ns = [m; n])) \/
     ((conn <> Some "D" \/ length ph <> 1 \/ ms = [] \/ ms = ["0"]) /\ ns = ms)).
(** No nodes are named when all three phases are there; a grounded winding ends at node 0. *)
Definition two_nodes_are (w : winding) (ns : list string) : Prop :=
  exists ms, ns = ms ++ (if wd_ground w then ["0"] else []) /\
    ((length (wd_phases w) = 3 /\ ms = []) \/ (length (wd_phases w) <> 3 /\ spread (wd_conn w) (map pw_phase (wd_phases w)) ms)).

Definition connection (c : option string) : option string :=
  match c with Some x => if String.eqb x "Y" then Some "wye" else if String.eqb x "D" then Some "delta" else None | None => None end.
Definition thousandth (o : option Q) : option Q := match o with Some v => Some (v / 1000)%Q | None => None end.
Definition first_tap (taps : bool) (w : winding) : option Q :=
  if taps then match wd_phases w with p :: _ => pw_tap p | [] => None end else None.

(** A winding: its connection, terminal, ratings, resistance and tap. *)
Record winding_is (num : string -> option Q) (taps : bool) (w : winding) (b : option string) (ns : list string) (e : element) : Prop := {
  wi_conn : prop e "conn" = connection (wd_conn w);
  wi_bus : connects e "bus" b ns;
  wi_kv : gives num e "kv" (thousandth (wd_v w));
  wi_kva : gives num e "kva" (thousandth (wd_va w));
  wi_emerg : gives num e "emerghkva" (thousandth (wd_emerg w));
  wi_tap : gives num e "tap" (first_tap taps w) }.

Record header_is (num : string -> option Q) (t : transformer) (e : element) : Prop := {
  hi_class : e_class e = "Transformer";
  hi_name : tr_name t = Some (e_name e);
  hi_windings : prop e "windings" = Some (str_of (length (tr_windings t)));
  hi_wdg : forall k v, In (k, v) (e_props e) -> lower k = "wdg" -> exists n, v = str_of n /\ 1 <= n <= length (tr_windings t);
  hi_loss : gives num e "%loadloss" (tr_loss t);
  hi_noload : gives num e "%noloadloss" (tr_noload t);
  hi_norm : gives num e "normhkva" (tr_norm t);
  hi_only : only e ["phases"; "windings"; "wdg"; "conn"; "bus"; "kv"; "kva"; "emerghkva"; "%r"; "tap"; "%loadloss"; "%noloadloss"; "normhkva"; "xhl"; "xlt"; "xht"] }.

(** A transformer of two windings. *)
Record two_is (num : string -> option Q) (taps : bool) (t : transformer) (e : element) : Prop := {
  ti_header : header_is num t e;
  ti_windings : exists w1 w2 ns1 ns2, tr_windings t = [w1; w2] /\ two_nodes_are w1 ns1 /\ two_nodes_are w2 ns2 /\
    winding_is num taps w1 (tr_from t) ns1 (winding_of e 1) /\ gives num (winding_of e 1) "%r" (wd_res w1) /\
    winding_is num taps w2 (tr_to t) ns2 (winding_of e 2) /\ gives num (winding_of e 2) "%r" (wd_res w2) /\
    prop e "phases" = Some (str_of (length (wd_phases w1)));
  ti_xhl : gives num e "xhl" (match tr_reac t with Some [x] => Some x | _ => None end);
  ti_others : prop e "xlt" = None /\ prop e "xht" = None }.

(** A center tap transformer: the primary at its phase, the two halves of the secondary at nodes 1 and 2. *)
Inductive primary_at : winding -> list string -> Prop :=
| pa_wye w p r x n : wd_phases w = p :: r -> wd_conn w <> Some "D" -> pw_phase p = Some x -> at_node x n -> primary_at w [n]
| pa_delta w p q r x y n m : wd_phases w = p :: q :: r -> wd_conn w = Some "D" -> pw_phase p = Some x -> pw_phase q = Some y -> at_node x n -> at_node y m ->
    primary_at w [n; m].
Record center_is (num : string -> option Q) (taps : bool) (t : transformer) (e : element) : Prop := {
  mi_header : header_is num t e;
  mi_windings : exists w1 w2 w3 ns, tr_windings t = [w1; w2; w3] /\ primary_at w1 ns /\
    winding_is num taps w1 (tr_from t) ns (winding_of e 1) /\
    winding_is num taps w2 (tr_to t) ["1"; "0"] (winding_of e 2) /\
    winding_is num taps w3 (tr_to t) ["0"; "2"] (winding_of e 3) /\
    (wd_res w1 <> None -> gives num (winding_of e 1) "%r" (wd_res w1)) /\
    (wd_res w2 <> None -> gives num (winding_of e 2) "%r" (wd_res w2)) /\
    (wd_res w3 <> None -> gives num (winding_of e 3) "%r" (wd_res w3)) /\
    prop e "phases" = Some (str_of (match wd_conn w1 with Some "D" => length (wd_phases w1) - 1 | _ => length (wd_phases w1) end));
  mi_reac : match tr_reac t with
            | Some [a; b; c] => gives num e "xhl" (Some a) /\ gives num e "xlt" (Some b) /\ gives num e "xht" (Some c)
            | Some _ => prop e "xhl" = None /\ prop e "xlt" = None /\ prop e "xht" = None
            | None => prop e "xhl" = Some "2.040000" /\ prop e "xlt" = Some "1.360000" /\ prop e "xht" = Some "2.040000"
            end }.

Definition phased (w : winding) : Prop := forall p x, In p (wd_phases w) -> pw_phase p = Some x -> exists n, at_node x n.
Definition tapped (taps : bool) (w : winding) : Prop := taps = true -> wd_phases w <> [].
Definition named_trans (t : transformer) : Prop :=
  (exists n, tr_name t = Some n /\ token n) /\ (exists b, tr_from t = Some b /\ b <> "") /\ exists b, tr_to t = Some b /\ b <> "".
Definition good_two (taps : bool) (t : transformer) : Prop :=
  named_trans t /\ length (tr_windings t) = 2 /\ Forall phased (tr_windings t) /\ Forall (tapped taps) (tr_windings t).
Definition good_center (taps : bool) (t : transformer) : Prop :=
  named_trans t /\ tr_center t = true /\ Forall (tapped taps) (tr_windings t) /\
  exists w1 w2 w3 ns, tr_windings t = [w1; w2; w3] /\ primary_at w1 ns.
Definition trans_is (num : string -> option Q) (taps : bool) (t : transformer) (e : element) : Prop :=
  (length (tr_windings t) = 2 /\ two_is num taps t e) \/ (length (tr_windings t) = 3 /\ center_is num taps t e).

(** OpenDSS connects conductor [i] of a terminal to the node given for it, else to node [i]; the conductors of a terminal with [n]
    phases are numbered from 1 to [n], those after it are neutral. *)
Definition conductor_node (v : string) (i : nat) : string := nth (i - 1) (snd (terminal v)) (str_of i).
