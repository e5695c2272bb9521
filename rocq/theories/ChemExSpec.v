(** Vocabulary of the statements about chemical exergy. *)
From Coq Require Import QArith.
From Verif Require Import Base MixModel MixSpec ChemExModel.
Open Scope Q_scope.

(** The row of the first name of a fluid that is in the table *)
Definition listed (t : table) (e : entry) (r : row) : Prop :=
  exists pre k post, w_aliases (e_wr e) = pre ++ k :: post
  /\ (forall a, In a pre -> dget a t = None) /\ dget k t = Some r.
(** Values of the liquid and of the gas *)
Definition liquid_value (t : table) (e : entry) (y : Q) : Prop := exists r, listed t e r /\ r_liquid r = Num y.
Definition gas_value (t : table) (e : entry) (y : Q) : Prop := exists r, listed t e r /\ r_gas r = Num y.
(** Values of the gas for all fluids of a mixture *)
Definition gas_values (t : table) (fd : fluids) (g : string -> Q) : Prop :=
  forall k e, dget k fd = Some e -> 0 < e_frac e -> gas_value t e (g k).
(** Exergy of one mole of a gas in a mixture in which it has the fraction [x]:
    the value of the table and the exergy of mixing, in kJ / mol *)
Definition mixed (ln : Q -> Q) (Tamb g x : Q) : Q := g + (8314462618 # 1000000000000) * Tamb * ln x.
(** Sum over the fluids of a gas *)
Definition gas_sum (ln : Q -> Q) (Tamb : Q) (g : string -> Q) (xs : dict Q) : Q :=
  sumd xs (fun k x => if Qle_bool x 0 then 0 else x * mixed ln Tamb (g k) x).
(** Nothing condenses at ambient conditions *)
Definition stays_gas (names : list string) (pamb Tamb : Q) (fd : fluids) : Prop :=
  match water_in names fd with
  | None => True
  | Some w => exists ew, dget w fd = Some ew
      /\ (w_below (e_wr ew) Tamb = false \/ pamb * amount ew <= w_psat (e_wr ew) Tamb * moles fd)
  end.
(** Value of a row for the state of reference it names: 2 is the liquid, 3 the gas *)
Definition reference_value (r : row) (q : Q) : Prop :=
  exists i, r_ref r = Num i /\ ((i == 2 /\ r_liquid r = Num q) \/ (i == 3 /\ r_gas r = Num q)).
