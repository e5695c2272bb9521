(** Objects used in the examples and refutations of BusProps.v. *)
From Coq Require Import QArith Qabs Lqa List.
From Verif Require Import BusModel BusSpec BusProofs.
Import ListNotations.
Open Scope Q_scope.

(** A turbine (containers 0, 1, 2) and a pump (0, 3, 4) on one bus. *)
Definition ex_env : env := fun k => match k with
  | 0%nat => 2 | 1%nat => 3000 | 2%nat => 2000 | 3%nat => 100 | 4%nat => 110 | _ => 0 end.
Definition ex_rows : list brow :=
  [{| b_comp := CFlow false 0 1 2; b_base := BaseComponent; b_char := char_of_number (9#10); b_pref := None |};
   {| b_comp := CFlow false 0 3 4; b_base := BaseBus; b_char := char_of_number (1#2); b_pref := Some 7 |}].
Definition ex_step (k : nat) : Q := match k with 0%nat => 1 # 10000 | _ => 1 # 10 end.
(** A rising efficiency characteristic for which a solution of
    P_bus = P_component / eta(P_bus / P_ref) exists, but the value used is not a
    solution (the search stops after twelve steps without a result). *)
Definition osc_row : brow :=
  {| b_comp := CFlow false 0 1 2; b_base := BaseBus;
     b_char := {| cl_x := [7#4; 9#4]; cl_y := [1#8; 1]; cl_extrapolate := false |};
     b_pref := Some 1 |}.
Definition osc_env : env := fun k => match k with 0%nat => 9 # 8 | 2%nat => 1 | _ => 0 end.
(** Heat of the water electrolyzer: the column of the outlet enthalpy is counted
    twice, the column of the inlet enthalpy is missing. *)
Definition el_rows : list brow :=
  [{| b_comp := CElectrolyzerQ 0 1 2; b_base := BaseComponent; b_char := char_of_number 1; b_pref := None |}].
(** Heat of the combustion engine with the two cooling water streams in the same
    mass flow branch: the column of the mass flow is counted twice. *)
Definition en_rows : list brow :=
  [{| b_comp := CEngineQ 0 1 2 0 3 4; b_base := BaseComponent; b_char := char_of_number 1; b_pref := None |}].
