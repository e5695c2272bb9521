(** Plants that witness the refuted statements and instantiate the others. *)
From Coq Require Import Reals List String Bool Arith Permutation Lra.
From Verif Require Import Base EqnModel JacModel PlantModel EqnSpec PlantSpec.
Import ListNotations.
Open Scope R_scope.
Open Scope string_scope.

Definition allvar : qty -> bool := fun q => match q with QF _ _ => false | _ => true end.

(** Source 0 and recirculated stream 2 are mixed to 1, 1 passes the cycle closer and becomes 3,
    3 is split into 2 and the sink 4. *)
Definition w (n k : nat) : conn := Conn n n k ["water"].
Definition loop : plant :=
  [PSource (w 0 0); PMerge [w 0 0; w 2 3] (w 1 1); PCloser (w 1 1) (w 3 3);
   PSplitter (w 3 3) [w 2 3; w 4 3]; PSink (w 4 3)].
Definition loop_env (a b : R) : env := fun q =>
  match q with
  | QM 0 => a | QM 1 => a + 1 | QM 2 => 1 | QM 3 => b + 1 | QM 4 => b
  | QF _ _ => 1
  | _ => 5
  end.

(** Two sources with different fluids at the two inlets of a drum. *)
Definition d (n k : nat) : conn := Conn n n k ["water"; "NH3"].
Definition drum_plant : plant :=
  [PSource (d 0 0); PSource (d 1 1); PDrum (d 0 0) (d 1 1) (d 2 0) (d 3 0);
   PSink (d 2 0); PSink (d 3 0)].
Definition drum_env : env := fun q =>
  match q with
  | QM _ => 1
  | QH 0 | QH 1 => 1 | QH 2 => 0 | QH 3 => 2
  | QF 0 f => if String.eqb f "water" then 1 else 0
  | QF _ f => if String.eqb f "water" then 0 else 1
  | _ => 1
  end.

(** A fuel cell with eta = 0.45: cooling water 0 to 3, oxygen 1, hydrogen 2, product water 4. *)
Definition fc (n m : nat) : conn := Conn n m n ["H2O"].
Definition cell : reactor := Reactor 0 0 0 (-100) 16 1.
Definition cell_plant : plant :=
  [PSource (fc 0 0); PSource (fc 1 1); PSource (fc 2 2);
   PFuelCell cell (fc 0 0) (fc 1 1) (fc 2 2) (fc 3 0) (fc 4 4) (PVal (-45));
   PSink (fc 3 0); PSink (fc 4 4)].
Definition cell_env : env := fun q =>
  match q with
  | QM 0 => 1 | QM 1 => 8 | QM 2 => 1 | QM 4 => 9
  | QH 3 => 145
  | QH _ => 0
  | _ => 1
  end.

(** A Rankine cycle with condenser cooling: pump 0-1, boiler 1-2, turbine 2-3, condenser 3-4
    cooled by 5-6, closed by a cycle closer 4-0. *)
Definition r (n k : nat) : conn := Conn n k k ["water"].
Definition rankine : plant :=
  [PCloser (r 4 0) (r 0 0); PFlow (r 0 0) (r 1 0); PFlow (r 1 0) (r 2 0); PFlow (r 2 0) (r 3 0);
   PSource (r 5 5); PTwo (r 3 0) (r 5 5) (r 4 0) (r 6 5); PSink (r 6 5)].
Definition rankine_env : env := fun q =>
  match q with
  | QM 0 => 2 | QM _ => 14
  | QH 0 => 100 | QH 1 => 110 | QH 2 => 2500 | QH 3 => 1500 | QH 4 => 100
  | QH 5 => 50 | QH 6 => 250
  | _ => 1
  end.

(** A separator that takes water out of a mixture of ideal gases. *)
Definition separate : plant :=
  [PSource (d 0 0); PSeparator (d 0 0) [d 1 1; d 2 2] ["water"] (fun _ _ h => h); PSink (d 1 1); PSink (d 2 2)].
Definition separate_env : env := fun q =>
  match q with
  | QM 0 => 4 | QM 1 => 1 | QM 2 => 3
  | QH _ => 7
  | QF 0 f => if String.eqb f "water" then 1/4 else 3/4
  | QF 1 f => if String.eqb f "water" then 1 else 0
  | QF 2 f => if String.eqb f "water" then 0 else 1
  | _ => 1
  end.

Ltac perm :=
  repeat match goal with
  | |- Permutation [] [] => constructor
  | |- Permutation (?x :: ?l) ?r =>
      let rec go pre rest :=
        match rest with
        | x :: ?tl => apply (Permutation_cons_app pre tl x); cbn [app]
        | ?y :: ?tl => go (List.app pre [y]) tl
        end in
      let r' := eval cbn in r in change (Permutation (x :: l) r'); go (@nil conn) r'
  end.

Ltac zeros := repeat (constructor; [try (cbn; lra)|]); try constructor.

Lemma loop_wired : wired loop.
Proof. unfold wired, loop. cbn. perm. Qed.
Lemma loop_solved a b : solved allvar loop (loop_env a b).
Proof.
  unfold solved, loop. repeat constructor; try (cbn; lra).
  all: unfold merge_fluid_func; cbn; try lra.
Qed.
