(** A concrete bus for the statements about rows of busses. Source: see JacBusModel.v. *)
From Coq Require Import Reals List String Bool Lra.
From Verif Require Import EqnModel JacModel EqnSpec JacSpec JacWitness JacBusModel JacBusSpec.
Import ListNotations.
Open Scope R_scope.

(** Air, fuel and flue gas of an engine, its power an unknown, and a pump *)
Definition ba : conn := Conn 0 0 0 ["a"%string; "f"%string].
Definition bf : conn := Conn 1 1 1 ["f"%string].
Definition bg : conn := Conn 2 2 2 ["a"%string; "f"%string].
Definition engine_power : bkind :=
  BPower (fun _ => 50) ["f"%string] [ba; bf] [bg] (Some 2) (fun x => 2 + x) (PVar 0).
Definition pump : bkind := BFlow false (Conn 3 3 3 []) (Conn 4 3 3 []).
Definition demo_bus : list brow := [(engine_power, fun v => v); (pump, fun v => v * v)].
