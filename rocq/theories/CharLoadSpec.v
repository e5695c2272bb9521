(** What the characteristics of a component are expected to be. *)
From Coq Require Import String List Bool QArith.
From Verif Require Import Base CharModel CharLoadModel.
Import ListNotations.
Open Scope string_scope.

(** Entry of a data file. *)
Definition entry {A} (t : table A) (component parameter name : string) (a : A) : Prop :=
  exists t1 t2, dget component t = Some t1 /\ dget parameter t1 = Some t2 /\ dget name t2 = Some a.
(** No entry. *)
Definition no_entry {A} (t : table A) (component parameter name : string) : Prop := forall a, ~ entry t component parameter name a.

(** The sampling points fit. *)
Definition fits (d : ldata) : Prop := List.length (ld_x d) = List.length (ld_y d).
(** Every line of a file fits. *)
Definition all_fit (t : table ldata) : Prop := forall c p n d, entry t c p n d -> fits d.

(** Parameters that are lines. *)
Definition only_lines (ps : cparams) : Prop := Forall (fun p => snd (fst p) = KLine /\ (forall m, snd p <> Some (CMap m))) ps.
