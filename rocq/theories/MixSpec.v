(** Vocabulary of the statements about mixtures. *)
From Coq Require Import QArith.
From Verif Require Import Base MixModel.
Open Scope Q_scope.

(** Sum over the entries of a dictionary *)
Definition sumd {V : Type} (d : dict V) (g : string -> V -> Q) : Q :=
  fold_right (fun e acc => g (fst e) (snd e) + acc) 0 d.
(** Amount of a fluid and of the mixture per mass *)
Definition amount (e : entry) : Q := e_frac e / w_M (e_wr e).
Definition moles (fd : fluids) : Q := sumd fd (fun _ e => amount e).
(** A composition: every fluid once, molar masses positive, fractions nonnegative
    with sum one *)
Definition valid (fd : fluids) : Prop :=
  NoDup (keys fd) /\ (forall k e, dget k fd = Some e -> 0 < w_M (e_wr e) /\ 0 <= e_frac e)
  /\ sumd fd (fun _ e => e_frac e) == 1.
(** The value of a dictionary, zero if missing *)
Definition value (k : string) (d : dict Q) : Q := match dget k d with Some x => x | None => 0 end.
(** Water condenses: below the critical temperature and beyond saturation, beside
    other fluids *)
Definition condenses (p T : Q) (fd : fluids) (water : string) (ew : entry) : Prop :=
  dget water fd = Some ew /\ e_frac ew < 1 /\ w_below (e_wr ew) T = true
  /\ 0 < w_psat (e_wr ew) T /\ w_psat (e_wr ew) T * moles fd < p * amount ew.
(** Sum over the fluids with a fraction above the precision other than one *)
Definition sum_others (fd : fluids) (water : string) (g : string -> entry -> Q) : Q :=
  sumd fd (fun k e => if larger (e_frac e) && negb (String.eqb k water) then g k e else 0).
(** Enthalpy linear in the temperature *)
Definition linear_h (fd : fluids) (cp b : string -> Q) : Prop :=
  forall k e, dget k fd = Some e -> 0 < cp k /\ forall p T, w_hpT (e_wr e) p T == cp k * T + b k.
(** Two compositions with the same fractions *)
Definition same_composition (fd fd' : fluids) : Prop :=
  keys fd = keys fd' /\ forall k e, dget k fd = Some e ->
    exists e', dget k fd' = Some e' /\ e_wr e' = e_wr e /\ e_frac e' == e_frac e.
(** The composition under other names *)
Definition renamed (r : string -> string) (fd : fluids) : fluids := map (fun e => (r (fst e), snd e)) fd.
