(** What a user expects of specified states, starting values and reported values
    of connections. *)
From Coq Require Import QArith Qabs.
From Verif Require Import Base UnitsModel StateModel.
Open Scope string_scope.
Open Scope list_scope.

(** The unit a property is entered and reported in. *)
Definition entry_unit (units : string -> string) (k : string) : string := if String.eqb k "Td_bp" then units "T" else units k.
(** The SI value a specification stands for: the design value if it is active in
    offdesign mode, what the user typed otherwise. *)
Definition wanted (units : string -> string) (c : conn) (k : string) (v : Q) : Prop :=
  match dget k (n_off c) with
  | Some w => w = Some v
  | None => k_set (n_c c k) = true /\ exists u, k_val (n_c c k) = Some u /\ convert_to_SI k u (entry_unit units k) = Ok v
  end.
(** A property is specified. *)
Definition wants (c : conn) (k : string) : Prop := k_set (n_c c k) = true \/ In k (keys (n_off c)).
(** Pressure and enthalpy have the specified temperature, vapour content or
    difference to the boiling temperature. *)
Definition has_property (f : fluid) (p h : Q) (k : string) (v : Q) : Prop :=
  (k = "T" -> exists T, f_Tph f p h = Ok T /\ T == v) /\
  (k = "x" -> exists h', f_hpQ f p v = Ok h' /\ h' == h) /\
  (k = "Td_bp" -> exists T Ts, f_Tph f p h = Ok T /\ f_Tsat f p = Ok Ts /\ T - Ts == v).
Definition satisfied (c : conn) (k : string) (v : Q) : Prop :=
  exists p h, k_SI (n_c c "p") = Some p /\ k_SI (n_c c "h") = Some h /\ has_property (n_fluid c) p h k v.
(** The property functions are inverse to each other where they are defined. *)
Definition consistent (f : fluid) : Prop :=
  (forall p T h, f_hpT f p T = Ok h -> exists T', f_Tph f p h = Ok T' /\ T' == T) /\
  (forall T p x h, f_psat f T = Ok p -> f_hpQ f p x = Ok h -> exists T', f_Tph f p h = Ok T' /\ T' == T).
(** A specification is left to the solver as an equation, or both pressure and
    enthalpy are fixed and have the property. *)
Definition accounted (c : conn) (k : string) (v : Q) : Prop :=
  In k (n_eqs c) \/ (k_var (n_c c "p") = false /\ k_var (n_c c "h") = false /\ satisfied c k v).
(** No reference sets the property unless the user specified it anyway. *)
Definition unreferenced (c : conn) (k : string) : Prop := r_set (n_r c k) = false \/ wants c k.
(** The labels of the connections are distinct, and so are the names of their
    offdesign values. *)
Definition labelled (net : dict conn) : Prop := NoDup (keys net) /\ forall l c, dget l net = Some c -> NoDup (keys (n_off c)).
(** Starting value in SI proposed for pressure and enthalpy: the mean of what the
    two components propose, what one of them proposes, 1 bar and 1 MJ/kg. *)
Definition proposed (generic s t : Q) (v : Q) : Prop :=
  (~ s == 0 /\ ~ t == 0 /\ v == (s + t) / 2) \/ (~ s == 0 /\ t == 0 /\ v == s) \/
  (s == 0 /\ ~ t == 0 /\ v == t) \/ (s == 0 /\ t == 0 /\ v == generic).
Definition generic (k : string) (v : Q) : Prop := (k = "p" /\ v = 100000%Q) \/ (k = "h" /\ v = 1000000%Q).
(** Equality of floats, nan included. *)
Definition same (a b : num) : Prop :=
  match a, b with Some x, Some y => x == y | None, None => True | _, _ => False end.
(** How many properties of a list fulfil a condition. *)
Definition count (P : string -> bool) (l : list string) : nat := length (filter P l).
(** Nothing else determines the starting value of a property: no reference, and for
    the enthalpy no temperature, vapour content, boiling point difference or phase. *)
Definition undisturbed (c : conn) (k : string) : Prop :=
  (n_good c = true \/ r_set (n_r c k) = false) /\
  (k = "h" -> (n_good c = true \/ (~ wants c "T" /\ ~ wants c "x")) /\ ~ wants c "Td_bp" /\ n_state c = None).
(** Superheated or gaseous, subcooled or liquid as specified. *)
Definition vapour_wanted (units : string -> string) (c : conn) : Prop :=
  n_state c = Some "g" \/ exists d, wanted units c "Td_bp" d /\ 0 < d.
Definition liquid_wanted (units : string -> string) (c : conn) : Prop :=
  n_state c <> Some "g" /\ ~ (exists d, wanted units c "Td_bp" d /\ 0 < d) /\
  (n_state c = Some "l" \/ exists d, wanted units c "Td_bp" d /\ d < 0).
(** The enthalpy found again from the temperature agrees with the enthalpy, up to
    1e-3 absolute or relative. *)
Definition close (hT h : Q) : Prop := Qabs (hT - h) <= 1 # 1000 \/ (~ h == 0 /\ Qabs ((hT - h) / h) <= 1 # 1000).
(** The derived properties of a connection are those of its pressure, enthalpy and
    mass flow. *)
Definition derived (c : conn) (p h T : Q) : Prop :=
  k_SI (n_c c "T") = Some T /\
  exists v s, f_vph (n_fluid c) p h = Ok v /\ f_sph (n_fluid c) p h = Ok s /\
    k_SI (n_c c "vol") = Some v /\ k_SI (n_c c "s") = Some s /\
    k_SI (n_c c "v") = match k_SI (n_c c "m") with Some m => Some (v * m)%Q | None => None end.
(** A value is shown in the unit it is entered in; nan is shown as nan. *)
Definition shown (units : string -> string) (c : conn) (k : string) : Prop :=
  match k_SI (n_c c k) with
  | Some s => exists q, convert_from_SI k s (entry_unit units k) = Ok q /\ k_val (n_c c k) = Some q
  | None => k_val (n_c c k) = None
  end.
(** The result of a property function, nan if it has none. *)
Definition result_of {A : Type} (r : res A) (v : option A) : Prop := match r with Ok x => v = Some x | Err _ => v = None end.
