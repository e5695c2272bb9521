(** Networks for the examples and counterexamples about design and offdesign mode. *)
From Coq Require Import QArith.
From Verif Require Import Base ModeModel ModeSpec.
Open Scope string_scope.
Open Scope list_scope.
Open Scope Q_scope.

Definition plain : units := {| u_si := fun _ x => x; u_un := fun _ x => x |}.
Definition given (x : Q) : cont := {| k_set := true; k_var := false; k_val := Some x; k_SI := None; k_design := None |}.
Definition free : cont := {| k_set := false; k_var := true; k_val := None; k_SI := None; k_design := None |}.
Definition pgiven (x : Q) : par := {| q_set := true; q_num := true; q_val := Some x; q_design := None |}.
Definition pfree : par := {| q_set := false; q_num := true; q_val := None; q_design := None |}.
Definition cn (l : string) (props : dict cont) (flags : dict bool) (des off : list string) (path : option string) (ldes loff : bool) : string * conn :=
  (l, {| n_props := props; n_flags := flags; n_m := l; n_tmp := None; n_des := des; n_off := off; n_path := path;
         n_ldes := ldes; n_loff := loff; n_new := true |}).
Definition cp (l : string) (pars : dict par) (des off : list string) (path : option string) (ldes loff : bool) : string * comp :=
  (l, {| p_pars := pars; p_des := des; p_off := off; p_path := path; p_ldes := ldes; p_loff := loff; p_new := true |}).
Definition nw (cs : dict conn) (ms : dict cont) (ps : dict comp) : net :=
  {| t_conns := cs; t_m := ms; t_comps := ps; t_branches := [keys cs]; t_redesign := false; t_path := None; t_new := false |}.
(** Tables: everything 7 at "A", 9 at "B"; the component "pipe" is in the table at
    "C" only, the pump in those at "A", "B", "C" and "D" *)
Definition rows (x : Q) : dict (dict (option Q)) :=
  let row := [("m", Some x); ("p", Some x); ("h", Some x); ("T", Some x)] in [("c0", row); ("c1", row)].
Definition disk (path : string) : file :=
  let pump x := ("pump", [("eta_s", Some x); ("P", Some x)]) in
  if String.eqb path "A" then {| f_conns := rows 7; f_comps := [pump 7] |}
  else if String.eqb path "C" then {| f_conns := rows 7; f_comps := [pump 7; ("pipe", [("ks", Some 7)])] |}
  else if String.eqb path "E" then {| f_conns := rows 7; f_comps := [] |}
  else {| f_conns := rows 9; f_comps := [pump 9] |}.
Definition found (x : Q) : solution := {| s_conn := fun _ _ => x; s_comp := fun _ _ => x |}.
Definition des (x : Q) : run := {| r_mode := "design"; r_path := None; r_sol := found x |}.
Definition off (path : string) (x : Q) : run := {| r_mode := "offdesign"; r_path := Some path; r_sol := found x |}.

(** A pump between c0 and c1: pressure at c1 and efficiency in design, temperature
    and power in offdesign *)
Definition plant : net := nw
  [cn "c0" [("p", given 1); ("h", free); ("T", given 300)] [("p_ref", false)] [] [] None false false;
   cn "c1" [("p", given 5); ("h", free); ("T", free)] [("p_ref", false); ("fluid_balance", false)] ["p"] ["T"] None false false]
  [("c0", given 10); ("c1", free)]
  [cp "pump" [("eta_s", pgiven 2); ("P", pfree)] ["eta_s"] ["P"] None false false].
(** Mass flow specified at the second connection, a design parameter *)
Definition metered : net := nw
  [cn "c0" [("p", given 1)] [] [] [] None false false; cn "c1" [("p", free)] [] ["m"] [] None false false]
  [("c0", free); ("c1", given 10)] [].
(** Pressure of c1 given by reference *)
Definition referenced : net := nw
  [cn "c0" [("p", given 1)] [] [] [] None false false; cn "c1" [("p", free)] [("p_ref", true)] ["p"] [] None false false]
  [("c0", given 10); ("c1", free)] [].
(** Mass flow of c1 free in design and fixed to the design value in offdesign *)
Definition throttled : net := nw
  [cn "c0" [("p", given 1)] [] [] [] None false false; cn "c1" [("p", given 5)] [] ["p"] ["m"] None false false]
  [("c0", free); ("c1", free)] [].
(** Components only *)
Definition pumps (path : option string) (ldes loff : bool) : net := nw [] []
  [cp "pump" [("eta_s", pgiven 2); ("P", pfree)] ["eta_s"] ["P"] path ldes loff].
Definition pipes : net := nw [] []
  [cp "pump" [("eta_s", pgiven 2); ("P", pfree)] [] [] None false false; cp "pipe" [("ks", pfree)] [] ["ks"] None false false].
(** c1 with a local mode *)
Definition local (ldes loff : bool) : net := nw
  [cn "c1" [("p", given 5); ("T", free)] [] ["p"] ["T"] (Some "A") ldes loff] [("c1", given 10)] [].
(** A reference of the mass flow in the offdesign list *)
Definition refs : net := nw
  [cn "c1" [("p", given 5)] [("m_ref", false)] ["p"] ["m_ref"] None false false] [("c1", given 10)] [].

Definition mset (st : option net) (l : string) : option bool := match st with Some s => option_map k_set (mass s l) | None => None end.
Definition at_prop {A} (f : cont -> A) (st : option net) (l v : string) : option A := match st with Some s => option_map f (prop s l v) | None => None end.
Definition at_param {A} (f : par -> A) (st : option net) (l v : string) : option A := match st with Some s => option_map f (param s l v) | None => None end.
Definition after (rs : list run) (st : net) : option net := runs plain disk rs st.
