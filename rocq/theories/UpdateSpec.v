(** Vocabulary of the statements about the end of a Newton iteration. *)
From Verif Require Import UpdateModel.
Open Scope nat_scope.
Open Scope list_scope.

(** Only unknowns differ between two states (component variables not at all):
    mass flows, pressures, enthalpies and mass fractions that are not unknown are
    the same, and no fluid is added to or removed from a container. *)
Record only_unknowns_changed (X : unknowns) (s s' : vstate) : Prop := {
  ch_m : forall a, x_m X a = false -> v_m s' a = v_m s a;
  ch_p : forall c, x_p X c = false -> v_p s' c = v_p s c;
  ch_h : forall c, x_h X c = false -> v_h s' c = v_h s c;
  ch_f : forall a f, ~ In f (x_f X a) -> dget f (v_f s' a) = dget f (v_f s a);
  ch_k : forall a, keys (v_f s' a) = keys (v_f s a);
  ch_c : forall a, v_c s' a = v_c s a
}.

Definition between (lo x hi : Q) : Prop := (lo <= x)%Q /\ (x <= hi)%Q.
Arguments between (lo x hi)%Q.

(** Fluid containers: no fluid twice, unknown fluids are in the container and
    listed once. *)
Definition wf_fluids (X : unknowns) (s : vstate) : Prop :=
  forall a, NoDup (keys (v_f s a)) /\ NoDup (x_f X a) /\ incl (x_f X a) (keys (v_f s a)).

(** No negative mass fraction. *)
Definition nonneg (s : vstate) : Prop := forall a f q, dget f (v_f s a) = Some q -> (0 <= q)%Q.

(** Sum of the fractions, defined independently of the model. *)
Fixpoint sum_of (d : dict Q) : Q := match d with [] => 0%Q | (_, q) :: d' => (q + sum_of d')%Q end.
(** Sum of the fractions that are not unknown. *)
Fixpoint sum_fixed (X : unknowns) (a : nat) (d : dict Q) : Q :=
  match d with
  | [] => 0%Q
  | (f, q) :: d' => if smem f (x_f X a) then sum_fixed X a d' else (q + sum_fixed X a d')%Q
  end.

(** The value that an entry refers to. *)
Definition value (x : uvar) (s : vstate) : option Q :=
  match x with
  | UM a => Some (v_m s a)
  | UP c => Some (v_p s c)
  | UH c => Some (v_h s c)
  | UF a f => dget f (v_f s a)
  | UC a => Some (v_c s a)
  end.

(** The increment list covers the column of an entry, and its fluid exists. *)
Definition in_reach (inc : list Q) (s : vstate) (e : uvar * nat) : Prop :=
  snd e < length inc /\ value (fst e) s <> None.

(** [y] is the value nearest to [x] in a range. *)
Definition nearest (lo hi x y : Q) : Prop :=
  ((lo <= x)%Q -> (x <= hi)%Q -> y == x)%Q /\ ((x < lo)%Q -> y == lo)%Q /\ ((hi < x)%Q -> y == hi)%Q.
Arguments nearest (lo hi x y)%Q.
(** Lowest enthalpy of a pure fluid: 0.1 K above the minimum temperature, five per
    cent above it if the fluid has no properties there. *)
Definition lowest (w : wrapper) (p h : Q) : Prop :=
  w_hpT w p (w_Tmin w + (1 # 10)) = Ok h \/
  (w_hpT w p (w_Tmin w + (1 # 10)) = Err ValueError /\ w_hpT w p (w_Tmin w * (105 # 100)) = Ok h).
(** Highest enthalpy: at the highest temperature reached from the maximum in steps of
    one per cent where the fluid has properties. *)
Fixpoint reduced (n : nat) (T : Q) : Q := match n with O => T | S n' => reduced n' (T * (99 # 100)) end.
Definition highest (w : wrapper) (p h : Q) : Prop :=
  exists n, w_hpT w p (reduced n (w_Tmax w)) = Ok h /\ forall m, m < n -> w_hpT w p (reduced m (w_Tmax w)) = Err ValueError.
(** A fluid of a connection that counts: its fraction is above the precision. *)
Definition counts (c : conn) (s : vstate) (w : wrapper) : Prop :=
  exists f q, In (f, w) (k_wrap c) /\ dget f (v_f s (k_fl c)) = Some q /\ (ERR < q)%Q.
(** The highest of the minimum temperatures and the lowest of the maximum
    temperatures of the fluids that count. *)
Definition T_lower (c : conn) (s : vstate) (T : Q) : Prop :=
  (exists w, counts c s w /\ w_Tmin w = T) /\ forall w, counts c s w -> (w_Tmin w <= T)%Q.
Definition T_upper (c : conn) (s : vstate) (T : Q) : Prop :=
  (exists w, counts c s w /\ w_Tmax w = T) /\ forall w, counts c s w -> (T <= w_Tmax w)%Q.
