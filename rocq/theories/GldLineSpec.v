(** What a GLM file says about its lines, independent of the reader's loop. *)
From Coq Require Import Reals.
From Verif Require Import Base TextModel GlmModel GldModel MatrixModel MatrixSpec ImpedModel ImpedSpec SpacingModel SpacingSpec GldLineModel.
Local Open Scope string_scope.
Local Open Scope list_scope.
Local Open Scope R_scope.

Section Spec.
Variable num : string -> res R.
Variable objs : dict obj.

(** float() raises ValueError, never AttributeError *)
Definition floats : Prop := forall s, num s <> Err EAttr.

(** property [k] of [o], in another unit *)
Definition told (o : obj) (k : string) (unit : R) (v : option R) : Prop :=
  (attr o k = None /\ v = None) \/ (exists s x, attr o k = Some s /\ num s = Ok x /\ v = Some (x * unit)).
(** the object that property [k] of [o] names *)
Definition refers (o : obj) (k : string) (o' : obj) : Prop := exists n, attr o k = Some n /\ dget objs n = Some o'.
Definition has (o : obj) (k : string) : bool := match attr o k with Some _ => true | None => false end.

(** name, ends and length in metres *)
Definition header_of (ty : option string) (o : obj) (l : line) : Prop :=
  l_type l = ty /\ l_name l = attr o "name" /\ l_from l = attr o "from" /\ l_to l = attr o "to" /\ told o "length" 0.3048 (l_len l).

(** the wires of a line *)
Definition wires_of (h : list wire) (l : line) : list wire := map (load_w h) (l_wires l).
Definition phases_of (cfg : obj) : list string := filter (fun p => has cfg ("conductor_" ++ p)) ["A"; "B"; "C"; "N"].

(** a bare conductor: inches, feet and ohms per mile become metres and ohms per metre *)
Definition bare (c : obj) (w : wire) : Prop :=
  told c "diameter" (/ 39.3701) (w_diam w) /\ told c "geometric_mean_radius" (/ 3.28084) (w_gmr w) /\
  told c "resistance" (/ 1609.34) (w_res w) /\ told c "rating.summer.continuous" 1 (w_amp w) /\ told c "rating.summer.emergency" 1 (w_emerg w).
(** a cable with concentric neutral *)
Definition concentric (c : obj) (w : wire) : Prop :=
  told c "conductor_gmr" (/ 3.28084) (w_gmr w) /\ told c "conductor_resistance" (/ 1609.34) (w_res w) /\
  told c "neutral_gmr" (/ 3.28084) (w_cgmr w) /\ told c "neutral_resistance" (/ 1609.34) (w_cres w).
Definition own_conductors (data : obj -> wire -> Prop) (cfg : obj) (ws : list wire) : Prop :=
  map w_phase ws = phases_of cfg /\ Forall (fun w => exists c, refers cfg ("conductor_" ++ w_phase w) c /\ data c w) ws.

(** Carson's matrix of wires with resistances in ohms per mile, reduced if there is a neutral (60 Hz, 100 ohm-metres) *)
Definition carson (ws : list ImpedModel.wire) (m : cmat) : Prop :=
  let neutral := exists w, In w ws /\ ImpedModel.w_phase w = Some "N" in
  (~ neutral -> dims m 3 3 /\ forall a b z, (a < 3)%nat -> (b < 3)%nat -> (cell m a b z <-> prim 60 100 ws a b z)) /\
  (neutral -> forall zf, (forall a b, (a < 4)%nat -> (b < 4)%nat -> prim 60 100 ws a b (zf a b)) ->
     grounded_reduction c0 cadd cmul zf [0%nat; 1%nat; 2%nat] [3%nat] m).
(** the wire with its gmr in feet and its resistance per mile; positions as they are *)
Definition per_mile (w : wire) (r : ImpedModel.wire) : Prop :=
  ImpedModel.w_phase r = Some (w_phase w) /\ w_res w = option_map (fun x => x * / 1609.34) (ImpedModel.w_res r) /\
  w_gmr w = option_map (fun x => x * / 3.28084) (ImpedModel.w_gmr r) /\ ImpedModel.w_x r = w_x w /\ ImpedModel.w_y r = w_y w.
(** the matrix of a line is per metre *)
Definition carson_per_metre (ws : list wire) (z : cmat) : Prop :=
  exists rs m, Forall2 per_mile ws rs /\ carson rs m /\ z = map (map (fun c : C => (fst c * / 1609.34, snd c * / 1609.34))) m.

(** ** Positions *)
(** the spacing object tells the distances of a drawing, to the first [cols] of the conductors A, B, C, N and the earth *)
Definition describes (cols : nat) (so : obj) (present : nat -> bool) (earth : bool) (P : nat -> R * R) : Prop :=
  forall i j a b, (i < j < cols)%nat -> nth_error ["A"; "B"; "C"; "N"; "E"] i = Some a -> nth_error ["A"; "B"; "C"; "N"; "E"] j = Some b ->
    told so ("distance_" ++ a ++ b) 1 (spacing_of present earth P i j).
Definition position (w : wire) (q : R * R) : Prop := w_x w = Some (fst q) /\ w_y w = Some (snd q).
(** a drawing of at least two conductors above the ground that are not all at one point *)
Definition drawing (present : nat -> bool) (P : nat -> R * R) : Prop :=
  (2 <= how_many present)%nat /\ (forall i, (i < 4)%nat -> present i = true -> 0 <= snd (P i)) /\
  (exists i j, (i < 4)%nat /\ (j < 4)%nat /\ present i = true /\ present j = true /\ P i <> P j).
(** two wires are as far from each other as drawn, in some unit; there are no positions without a spacing *)
Definition laid_out (cols : nat) (unit : R) (kind : (nat -> bool) -> Prop) (cfg : obj) (ws : list wire) : Prop :=
  (attr cfg "spacing" = None -> Forall (fun w => w_x w = None /\ w_y w = None) ws) /\
  forall so present earth P, refers cfg "spacing" so -> describes cols so present earth P -> drawing present P -> kind present ->
    (forall w, In w ws -> exists p, drawn present P (w_phase w) p) ->
    forall w w' p p', In w ws -> In w' ws -> drawn present P (w_phase w) p -> drawn present P (w_phase w') p' ->
      exists q q', position w q /\ position w' q' /\ pdist q q' = pdist p p' * unit.
(** three conductors are A, B and C *)
Definition no_third_neutral (present : nat -> bool) : Prop := how_many present = 3%nat -> present 3%nat = false.

Definition overhead_of (h : list wire) (o : obj) (l : line) : Prop :=
  exists cfg, refers o "configuration" cfg /\ header_of (Some "overhead") o l /\
    own_conductors bare cfg (wires_of h l) /\ laid_out 5 foot (fun _ => True) cfg (wires_of h l) /\ carson_per_metre (wires_of h l) (l_z l).
Definition underground_of (h : list wire) (o : obj) (l : line) : Prop :=
  exists cfg, refers o "configuration" cfg /\ header_of (Some "underground") o l /\
    own_conductors concentric cfg (wires_of h l) /\ laid_out 4 1 no_third_neutral cfg (wires_of h l) /\ carson_per_metre (wires_of h l) (l_z l).

(** ** Triplex lines *)
(** a conductor of a triplex line of length [len] metres: its whole resistance *)
Definition twisted (len : option R) (c : obj) (w : wire) : Prop :=
  told c "geometric_mean_radius" (/ 3.28084) (w_gmr w) /\
  match len with Some l => told c "resistance" (l / 1609.34) (w_res w) | None => w_res w = None end.
Definition triplex_key (ph : string) : string := if String.eqb ph "A" then "conductor_1" else if String.eqb ph "B" then "conductor_2" else "conductor_N".
Definition triplex_phases (cfg : obj) : list string := filter (fun p => has cfg (triplex_key p)) ["A"; "B"; "N"].
(** conductor at position [i] (A, B, N = 0, 1, 2) *)
Definition wire_at (ws : list wire) (i : nat) : option wire := find (fun w => String.eqb (w_phase w) (nth i ["A"; "B"; "N"] "")) ws.
(** the impedances of the conductors per metre; [d12] and [d1n] are the distances between them *)
Definition twisted_impedance (ws : list wire) (d : option (R * R)) (i j : nat) : C :=
  match wire_at ws i, wire_at ws j with
  | Some w, Some w' =>
    if Nat.eqb i j then cscale (/ 1609.34) (self_impedance 60 100 (plain w))
    else match d with
         | Some (d12, d1n) => cscale (/ 1609.34) (158836 / 100000000 * 60, reactance 60 100 (if (Nat.eqb i 2 || Nat.eqb j 2)%bool then d1n else d12))
         | None => c0
         end
  | _, _ => c0
  end.
(** what the code takes for the distances between the conductors: those of the last wire *)
Definition between (ws : list wire) : option (R * R) :=
  match rev ws with
  | w :: _ => match w_diam w, w_ins w with Some d, Some t => Some ((d + 2 * t) / 12, (d + t) / 12) | _, _ => None end
  | [] => None
  end.
(** the neutral has the data of the second conductor *)
Definition triplex_of (h : list wire) (o : obj) (l : line) : Prop :=
  exists cfg, refers o "configuration" cfg /\ header_of None o l /\
    map w_phase (wires_of h l) = triplex_phases cfg /\
    Forall (fun w => w_phase w <> "N" -> exists c, refers cfg (triplex_key (w_phase w)) c /\ twisted (l_len l) c w) (wires_of h l) /\
    (has cfg "conductor_2" = true -> Forall (fun w => w_phase w = "N" -> exists c, refers cfg "conductor_2" c /\ twisted (l_len l) c w) (wires_of h l)) /\
    (forall w, nth_error (rev (wires_of h l)) 0 = Some w ->
      told cfg "diameter" (/ 39.3701) (w_diam w) /\ (has cfg "insulation_thickness" = true -> told cfg "insulation_thickness" (/ 39.3701) (w_ins w))) /\
    grounded_reduction c0 cadd cmul (twisted_impedance (wires_of h l) (between (wires_of h l))) [0%nat; 1%nat] [2%nat] (l_z l).

(** the object [o] is read as line [l] *)
Definition read_as (h : list wire) (o : obj) (l : line) : Prop :=
  (o_cls o = "overhead_line" /\ overhead_of h o l) \/ (o_cls o = "triplex_line" /\ triplex_of h o l) \/ (o_cls o = "underground_line" /\ underground_of h o l).
Definition is_line (o : obj) : bool := smem (o_cls o) ["overhead_line"; "triplex_line"; "underground_line"].
(** a line with a configuration, one with conductors if it is a triplex line *)
Definition configured (o : obj) : Prop :=
  is_line o = true -> exists c, attr o "configuration" = Some c /\
    (o_cls o = "triplex_line" -> exists cfg, dget objs c = Some cfg /\ triplex_phases cfg <> []).

(** ** Lines that can be read *)
Definition legible (o : obj) (k : string) : Prop := forall s, attr o k = Some s -> exists x, num s = Ok x.
Definition value (o : obj) (k : string) (x : R) : Prop := exists s, attr o k = Some s /\ num s = Ok x.
Definition sound_gmr (c : obj) (k : string) : Prop := forall g, value c k g -> 0 < g.
(** a conductor with numbers; the neutral has a positive gmr and a resistance *)
Definition usable (keys : list string) (gmr res_ ph : string) (c : obj) : Prop :=
  (forall k, In k keys -> legible c k) /\ sound_gmr c gmr /\ (ph = "N" -> exists g r, value c gmr g /\ value c res_ r /\ 0 <= r).
Definition distinct (present : nat -> bool) (P : nat -> R * R) : Prop :=
  forall i j, (i < 4)%nat -> (j < 4)%nat -> i <> j -> present i = true -> present j = true -> P i <> P j.
Definition lacks (cfg : obj) (keys : list string) : Prop := exists k, In k keys /\ has cfg k = false.
Definition readable_line (cols : nat) (kind : (nat -> bool) -> Prop) (keys : list string) (gmr res_ : string) (o : obj) : Prop :=
  legible o "length" /\ exists cfg, refers o "configuration" cfg /\
    lacks cfg ["z11"; "z12"; "z13"; "z21"; "z22"; "z23"; "z31"; "z32"; "z33"] /\
    (forall ph, In ph (phases_of cfg) -> exists c, refers cfg ("conductor_" ++ ph) c /\ usable keys gmr res_ ph c) /\
    (attr cfg "spacing" = None \/ exists so present earth P, refers cfg "spacing" so /\ describes cols so present earth P /\ drawing present P /\ kind present /\
       distinct present P /\ forall ph, In ph (phases_of cfg) -> exists p, drawn present P ph p).
Definition readable_overhead : obj -> Prop :=
  readable_line 5 (fun _ => True) ["diameter"; "geometric_mean_radius"; "resistance"; "rating.summer.continuous"; "rating.summer.emergency"] "geometric_mean_radius" "resistance".
Definition readable_underground : obj -> Prop :=
  readable_line 4 no_third_neutral ["conductor_gmr"; "conductor_resistance"; "neutral_gmr"; "neutral_resistance"] "conductor_gmr" "conductor_resistance".
(** a triplex line with both conductors and a neutral *)
Definition readable_triplex (o : obj) : Prop :=
  (exists len, value o "length" len /\ 0 <= len) /\ exists cfg, refers o "configuration" cfg /\ lacks cfg ["z11"; "z12"; "z21"; "z22"] /\
    has cfg "conductor_N" = true /\
    (forall k, In k ["conductor_1"; "conductor_2"] -> exists c g r, refers cfg k c /\ value c "geometric_mean_radius" g /\ 0 < g /\ value c "resistance" r /\ 0 <= r) /\
    legible cfg "diameter" /\ (forall d, value cfg "diameter" d -> 0 < d) /\
    legible cfg "insulation_thickness" /\ (forall t, value cfg "insulation_thickness" t -> 0 <= t).
Definition readable (o : obj) : Prop :=
  (o_cls o = "overhead_line" -> readable_overhead o) /\ (o_cls o = "triplex_line" -> readable_triplex o) /\ (o_cls o = "underground_line" -> readable_underground o).
End Spec.
