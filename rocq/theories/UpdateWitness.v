(** Objects used in the examples and refutations of UpdateProps.v. *)
From Verif Require Import UpdateModel UpdateSpec UpdateProofs UpdateProofs2.
Open Scope nat_scope.
Open Scope list_scope.

(* One unknown of each kind; the mass flow of container 1 and the fluid N2 are specified. *)
Definition ex_s : vstate :=
  {| v_m := fun _ => 3%Q; v_p := fun _ => 100%Q; v_h := fun _ => 50%Q;
     v_f := fun _ => [("O2"%string, (3 # 10)%Q); ("N2"%string, (7 # 10)%Q)]; v_c := fun _ => 1%Q; v_fd := fun _ => [] |}.
Definition ex_vars := [(UM 0, 0); (UP 0, 1); (UP 1, 2); (UH 0, 3); (UF 0 "O2", 4); (UC 0, 5)].
Definition ex_after := update_variables {| c_min := fun _ => 0%Q; c_max := fun _ => 2%Q |} [-4; -90; -20; 7; -1; 8]%Q ex_vars ex_s.
(* A turbine with a mixture at its inlet and outlet, unknown values out of range. *)
Definition ex_w : wrapper :=
  {| w_pmin := 1%Q; w_pmax := 1000000%Q; w_Tmin := 200%Q; w_Tmax := 1000%Q;
     w_Tph := fun _ h => Ok h; w_hpT := fun _ T => Ok (1000 * T)%Q; w_hpQ := fun _ _ => Err ValueError |}.
Definition ex_c (i fl : nat) : conn :=
  {| k_id := i; k_m := 0; k_fl := fl; k_good := false; k_T := false; k_Td := false; k_Tdv := 0; k_state := None;
     k_wrap := [("O2"%string, ex_w); ("N2"%string, ex_w)]; k_hmix := fun _ T _ => Ok (1000 * T)%Q |}.
Definition ex_N (i : nat) : netpar :=
  {| m_lo := -5; m_hi := 5; p_lo := 10; p_hi := 200000; h_lo := 1000; h_hi := 2000000; iter := i |}.
Definition ex_X : unknowns :=
  {| x_m := fun _ => true; x_p := fun c => Nat.eqb c 1; x_h := fun _ => true; x_f := fun _ => ["O2"%string; "N2"%string] |}.
Definition ex_s2 : vstate :=
  {| v_m := fun _ => 30%Q; v_p := fun c => if Nat.eqb c 0 then 150000%Q else 900000%Q; v_h := fun _ => 3000000%Q;
     v_f := fun _ => [("O2"%string, (1 # 2)%Q); ("N2"%string, 1%Q)]; v_c := fun _ => 1%Q; v_fd := fun _ => [] |}.
Definition ex_checked := check_variable_bounds (ex_N 0) ex_X [ex_c 0 0; ex_c 1 0] [Turbine (ex_c 0 0) (ex_c 1 0)] ex_s2.
(* A fluid without properties below 205 K and above 985 K. *)
Definition ex_narrow : wrapper :=
  {| w_pmin := 1%Q; w_pmax := 1000000%Q; w_Tmin := 200%Q; w_Tmax := 1000%Q; w_Tph := fun _ h => Ok h;
     w_hpT := fun _ T => if (qle 205 T && qle T 985)%bool then Ok (1000 * T)%Q else Err ValueError; w_hpQ := fun _ _ => Err ValueError |}.
