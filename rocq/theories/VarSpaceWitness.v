(** Objects used in the examples and refutations of VarSpaceProps.v. *)
From Verif Require Import Base MassModel VarSpaceModel VarSpaceSpec VarSpaceProofs.
Open Scope nat_scope.
Open Scope string_scope.
Open Scope list_scope.

(* Two connections sharing the mass flow 0: the first has p and T specified,
   the second T and x with unknown pressure 3 and enthalpy 4; a third with
   variable composition; a component with one of two parameters variable. *)
Definition ex_heap (x : nat) : vcont :=
  {| v_set := Nat.eqb x 1; v_solved := false; v_var := true; v_jcol := Some 99 |}.
Definition ex_conns :=
  [ {| k_m := 0; k_p := 1; k_h := 2; k_T := true; k_x := false; k_Td := false; k_v := false; k_known := true; k_others := [] |};
    {| k_m := 0; k_p := 3; k_h := 4; k_T := true; k_x := true; k_Td := false; k_v := false; k_known := true; k_others := ["m_ref"] |};
    {| k_m := 5; k_p := 6; k_h := 7; k_T := true; k_x := false; k_Td := false; k_v := true; k_known := false; k_others := [] |} ].
Definition ex_state := {| vs_heap := ex_heap; vs_fcol := fun _ _ => None; vs_ccol := fun _ _ => None;
  vs_dict := [(7, UConn 7)]; vs_vars := [3]; vs_nconn := 12; vs_ncomp := 3; vs_eqs := [["old"]] |}.
Definition ex_run := number_unknowns [(0, ["N2"; "O2"])] ex_conns [(0, [("D", true); ("L", false)]); (1, [("P", true)])] ex_state.
