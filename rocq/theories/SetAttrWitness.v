(** Objects used in the examples and refutations of SetAttrProps.v. *)
From Verif Require Import ConnSpecModel CompSpecModel ConnSpecSpec CompSpecSpec SetAttrSpec SetAttrProofs.
Open Scope string_scope.
Open Scope list_scope.

Definition ex_comp : comp :=
  {| k_params := [("eta_s", {| q_kind := KCp; q_val := PNum NaN; q_is_set := false; q_is_var := false; q_char := None;
                               q_func := true; q_num_eq := 1; q_extra := [] |})];
     k_design := []; k_offdesign := []; k_local_design := false; k_local_offdesign := false; k_printout := true;
     k_char_warnings := true; k_design_path := CV PNone; k_fkt_group := CV PNone; k_new_design := false |}.
