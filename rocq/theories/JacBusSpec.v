(** When the containers of a component on a bus are different ones, and the states the statement
    is about. Source: see JacBusModel.v. *)
From Coq Require Import Reals List String Bool.
From Verif Require Import EqnModel JacModel EqnSpec JacSpec JacBusModel.
Import ListNotations.
Open Scope R_scope.

(** Ports of a combustion: different branches, different compositions, every fluid once, the
    fuels among the fluids *)
Definition good_ports (fuels : list string) (l : list conn) : Prop :=
  NoDup (map cm l) /\ NoDup (map cf l) /\ (forall c, In c l -> NoDup (ckeys c) /\ incl fuels (ckeys c)).
(** Different connections, branches and unknown parameters with a column *)
Definition distinct (isv : qty -> bool) (k : bkind) : Prop :=
  match k with
  | BFlow _ i o => cid i <> cid o
  | BHeat2 i1 o1 i2 o2 => NoDup [cid i1; cid o1; cid i2; cid o2] /\ cm i1 <> cm i2
  | BThermal _ fuels li lo => good_ports fuels (li ++ lo)
  | BPower _ fuels li lo _ _ Pw | BLoss _ fuels li lo _ _ _ Pw =>
      good_ports fuels (li ++ lo) /\ has_column isv Pw
  | BElPower _ Pw i0 o0 i1 o1 o2 => has_column isv Pw /\ NoDup [cid i0; cid o0; cid i1; cid o1; cid o2] /\ NoDup [cm i0; cm i1; cm o1; cm o2]
  end.
(** Fractions of combustion ports away from zero and one *)
Definition inner (e : env) (k : bkind) : Prop :=
  match k with
  | BThermal _ _ li lo | BPower _ _ li lo _ _ _ | BLoss _ _ li lo _ _ _ _ => inner_fractions e (li ++ lo)
  | _ => True
  end.
(** Unknowns: fractions of the streams of an electrolyzer are known *)
Definition streams_known (isv : qty -> bool) (k : bkind) : Prop :=
  match k with
  | BElPower _ _ _ _ i1 o1 o2 => forall c f, In c [i1; o1; o2] -> isv (QF (cf c) f) = false
  | _ => True
  end.
