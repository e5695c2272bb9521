(** Components and calculations used as witnesses and examples. *)
From Verif Require Import CellModel CellSpec.
Open Scope string_scope.
Open Scope list_scope.

Definition num (q : Q) : pv := PNum (Fin q).
(** No string is a number. *)
Definition no_numbers (s : string) : option pnum := None.
(** A pump calculation that finds efficiency 1/2, pressure ratio [pr] and power 100. *)
Definition pump_run (e : ending) (conv : bool) (pr : Q) : run :=
  {| r_end := e; r_converged := conv; r_sol := fun _ => num 0;
     r_calc := fun p => if String.eqb p "eta_s" then num (1 # 2) else if String.eqb p "pr" then num pr else num 100 |}.
(** The user specifies an efficiency of 4/5. *)
Definition pump_eta : list event := [Set_ [("eta_s", CV (num (4 # 5)))]].
(** A calculation with pressure ratio 5, then one with 10 that fails. *)
Definition pump_twice : list event :=
  [Set_ [("pr", CV (num 5))]; Run (pump_run Complete true 5); Set_ [("pr", CV (num 10))]].
(** A pipe with diameter 1/10, a length to be found, and known ambient temperature. *)
Definition pipe_events : list event := [Set_ [("D", CV (num (1 # 10))); ("L", CV (PStr "var")); ("Tamb", CV (num 10))]].
Definition pipe_run : run :=
  {| r_end := Complete; r_converged := true; r_sol := fun _ => num 25;
     r_calc := fun p => if String.eqb p "kA" then num 7 else num 3 |}.
