(** Objects used in the examples and refutations of CompSpecProps.v. *)
From Verif Require Import CompSpecModel CompSpecSpec CompSpecProofs.
Open Scope string_scope.
Open Scope list_scope.

(** A heat exchanger like component: two ordinary parameters forming a group. *)
Definition p0 (k : pkind) (f : bool) (n : nat) : param :=
  {| q_kind := k; q_val := PNone; q_is_set := false; q_is_var := false; q_char := None;
     q_func := f; q_num_eq := n; q_extra := [] |}.
Definition pipe : comp :=
  {| k_params := [("ks", p0 KCp false 0); ("L", p0 KCp false 0); ("D", p0 KCp false 0);
                  ("pr", p0 KCp true 1); ("darcy_group", p0 (KGcp ["L"; "ks"; "D"]) true 1)];
     k_design := []; k_offdesign := []; k_local_design := false; k_local_offdesign := false;
     k_printout := true; k_char_warnings := true; k_design_path := CV PNone; k_fkt_group := CV PNone;
     k_new_design := true |}.
Definition noparse (s : string) : option pnum := None.
