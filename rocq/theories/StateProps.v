(** Properties of specified states, starting values and reported values (C124-C134). *)
From Coq Require Import QArith Qabs.
From Verif Require Import Base UnitsModel StateModel StateSpec StateProofs3 StateProofs4 StateProofs5 StateProofs6 StateWitness.
Open Scope string_scope.
Open Scope list_scope.

(* --------------------------------------------------------------- C124 *)
(** A specified temperature or vapour content is an equation of the system, or pressure and
    enthalpy are fixed at values that have it. *)
Theorem C124_accounted : forall units a file sol net net' l c k v, labelled net -> solve units a file sol net = Ok net' -> dget l net = Some c ->
  consistent (n_fluid c) -> unreferenced c "p" -> unreferenced c "h" -> In k ["T"; "x"] -> wanted units c k v ->
  exists c', dget l net' = Some c' /\ accounted c' k v.
Proof. exact spec_accounted. Qed.
Print Assumptions C124_accounted.
(** The temperature of a pure fluid that is no equation is reported as entered. *)
Theorem C124_reported : forall units a file sol net net' l c c' u, labelled net -> solve units a file sol net = Ok net' -> dget l net = Some c ->
  consistent (n_fluid c) -> unreferenced c "p" -> unreferenced c "h" -> f_mixture (n_fluid c) = false ->
  k_set (n_c c "T") = true -> ~ In "T" (keys (n_off c)) -> k_val (n_c c "T") = Some u ->
  dget l net' = Some c' -> ~ In "T" (n_eqs c') ->
  exists u', k_val (n_c c' "T") = Some u' /\ u' == u /\ k_unit (n_c c' "T") = units "T".
Proof. exact T_reported. Qed.
Print Assumptions C124_reported.
(** As many specifications are presolved as unknowns are taken out of the system. *)
Theorem C124_balance : forall units a file sol net net' l c, labelled net -> solve units a file sol net = Ok net' -> dget l net = Some c ->
  exists c', dget l net' = Some c' /\
    count (fun k => k_set (n_c c' k) && negb (smem k (n_eqs c'))) ["T"; "v"; "x"; "Td_bp"] =
    count (fun k => negb (k_set (n_c c' k)) && negb (k_var (n_c c' k))) ["p"; "h"].
Proof. exact balance. Qed.
Print Assumptions C124_balance.
Example C124_example :
  holds (solve (si []) no_guess None (finds 100000 0) [("1", free_flow); ("2", mk (water 0) [("m", 1); ("T", 373); ("x", 1 # 2)] [] [] None); ("3", mk (water 0) [("m", 1); ("T", 300)] [] [] None)])
    (fun net => at_label "1" net (fun c => n_eqs c = [] /\ option_map Qred (k_SI (n_c c "h")) = Some 300000%Q /\ option_map Qred (k_val (n_c c "T")) = Some 300%Q)
             /\ at_label "2" net (fun c => n_eqs c = [] /\ option_map Qred (k_SI (n_c c "p")) = Some 100000%Q /\ option_map Qred (k_SI (n_c c "h")) = Some 1373000%Q)
             /\ at_label "3" net (fun c => n_eqs c = ["T"] /\ k_var (n_c c "p") = true /\ k_var (n_c c "h") = true)).
Proof. vm_compute. auto 10. Qed.

(* --------------------------------------------------------------- C125 *)
(** Temperatures in degree Fahrenheit: 9 F above the boiling temperature are taken as 9 K. *)
Theorem C125_unit_refuted : exists units a sol net net' l c c' v, labelled net /\ solve units a None sol net = Ok net' /\ dget l net = Some c /\ dget l net' = Some c' /\
  consistent (n_fluid c) /\ (forall k, r_set (n_r c k) = false) /\ wanted units c "Td_bp" v /\ ~ accounted c' "Td_bp" v.
Proof. exact Td_unit. Qed.
Print Assumptions C125_unit_refuted.
(** A difference to the boiling temperature that becomes active in offdesign mode: the
    state exists, the calculation raises. *)
Theorem C125_offdesign_refuted : exists units a sol net l c p v Ts h, labelled net /\ dget l net = Some c /\ consistent (n_fluid c) /\
  (forall k, r_set (n_r c k) = false) /\ wanted units c "p" p /\ wanted units c "Td_bp" v /\ f_Tsat (n_fluid c) p = Ok Ts /\ f_hpT (n_fluid c) p (Ts + v) = Ok h /\
  solve units a None sol net = Err ValueError.
Proof. exact Td_offdesign. Qed.
Print Assumptions C125_offdesign_refuted.
(** With temperatures in K or degree Celsius and in design mode a specified difference to
    the boiling temperature is accounted for. *)
Theorem C125_accounted_partial : forall units a file sol net net' l c v, labelled net -> solve units a file sol net = Ok net' -> dget l net = Some c ->
  consistent (n_fluid c) -> unreferenced c "p" -> unreferenced c "h" -> units "T" = "K" \/ units "T" = "C" -> ~ In "Td_bp" (keys (n_off c)) ->
  wanted units c "Td_bp" v -> exists c', dget l net' = Some c' /\ accounted c' "Td_bp" v.
Proof. exact Td_accounted. Qed.
Print Assumptions C125_accounted_partial.
Example C125_example :
  holds (solve (si []) no_guess None (finds 100000 0) [("1", superheated)]) (fun net => at_label "1" net (fun c =>
    n_eqs c = [] /\ option_map Qred (k_SI (n_c c "h")) = Some 2382000%Q /\ option_map Qred (k_val (n_c c "T")) = Some 382%Q)).
Proof. vm_compute. auto 10. Qed.

(* --------------------------------------------------------------- C126 *)
(** Pressure and temperature specified and a reference of the enthalpy: the solution has
    the referenced enthalpy, the temperature is neither an equation nor satisfied. *)
Theorem C126_reference_refuted : exists units a sol net net' l o c c' d' v, labelled net /\ solve units a None sol net = Ok net' /\ dget l net = Some c /\ dget l net' = Some c' /\
  consistent (n_fluid c) /\ wanted units c "T" v /\ ~ accounted c' "T" v /\
  r_conn (n_r c "h") = o /\ dget o net' = Some d' /\ k_SI (n_c c' "h") = k_SI (n_c d' "h").
Proof. exact h_reference. Qed.
Print Assumptions C126_reference_refuted.

(* --------------------------------------------------------------- C127 *)
(** Specified mass flow, pressure and enthalpy are solution and report. *)
Theorem C127_reported : forall units a sol net net' l c k u v, labelled net -> solve units a None sol net = Ok net' -> dget l net = Some c ->
  In k ["m"; "p"; "h"] -> k_set (n_c c k) = true -> ~ In k (keys (n_off c)) -> k_val (n_c c k) = Some u ->
  convert_to_SI k u (units k) = Ok v ->
  exists c' u', dget l net' = Some c' /\ k_SI (n_c c' k) = Some v /\ k_val (n_c c' k) = Some u' /\ u' == u /\ k_unit (n_c c' k) = units k.
Proof. exact mph_reported. Qed.
Print Assumptions C127_reported.
Example C127_example :
  holds (solve (si [("m", "t / h")]) no_guess None (finds 100000 0) [("1", plain)]) (fun net => at_label "1" net (fun c =>
    option_map Qred (k_SI (n_c c "m")) = Some (25 # 9)%Q /\ option_map Qred (k_val (n_c c "m")) = Some 10%Q /\ k_unit (n_c c "m") = "t / h")).
Proof. vm_compute. auto 10. Qed.

(* --------------------------------------------------------------- C128 *)
(** A file of starting values in other units changes the reported mass flow and with it the
    mass flow of the next calculation. *)
Theorem C128_file_units_refuted : exists units a file sol net net' net'' l c c' c'' u u' v v', labelled net /\ solve units a file sol net = Ok net' /\ solve units a None sol net' = Ok net'' /\
  dget l net = Some c /\ dget l net' = Some c' /\ dget l net'' = Some c'' /\ k_set (n_c c "m") = true /\ n_off c = [] /\
  k_val (n_c c "m") = Some u /\ k_val (n_c c' "m") = Some u' /\ ~ u' == u /\ k_SI (n_c c' "m") = Some v /\ k_SI (n_c c'' "m") = Some v' /\ ~ v' == v.
Proof. exact file_units. Qed.
Print Assumptions C128_file_units_refuted.

(* --------------------------------------------------------------- C129 *)
(** A starting value given by the user is used. *)
Theorem C129_user_value : forall units a net net' l c c' k u, labelled net -> initialise units a None net = Ok net' ->
  dget l net = Some c -> dget l net' = Some c' -> In k ["m"; "p"; "h"] -> k_var (n_c c' k) = true -> undisturbed c k ->
  k_val0 (n_c c k) = Some u -> exists s, convert_to_SI k u (units k) = Ok s /\ k_SI (n_c c' k) = Some s.
Proof. exact user_start. Qed.
Print Assumptions C129_user_value.
(** Without one pressure and enthalpy start at what the components propose. *)
Theorem C129_proposed : forall units a net net' l c c' k, labelled net -> initialise units a None net = Ok net' ->
  dget l net = Some c -> dget l net' = Some c' -> In k ["p"; "h"] -> k_var (n_c c' k) = true -> undisturbed c k ->
  k_val0 (n_c c k) = None -> n_good c = false ->
  exists s v g, k_SI (n_c c' k) = Some s /\ s == v /\ generic k g /\ proposed g (a_src a l k) (a_tgt a l k) v.
Proof. exact proposed_start. Qed.
Print Assumptions C129_proposed.
(** A second calculation starts where the first one ended. *)
Theorem C129_restart : forall units a a' sol net net' net'' l c' c'' k, labelled net -> solve units a None sol net = Ok net' ->
  initialise units a' None net' = Ok net'' -> dget l net' = Some c' -> dget l net'' = Some c'' ->
  In k ["m"; "p"; "h"] -> k_var (n_c c'' k) = true -> (k = "h" -> ~ wants c' "Td_bp" /\ n_state c' = None) ->
  same (k_SI (n_c c'' k)) (k_SI (n_c c' k)).
Proof. exact restart. Qed.
Print Assumptions C129_restart.
Example C129_example :
  holds (initialise (si []) {| a_rnd := fun _ => 1 # 2; a_src := fun _ k => if String.eqb k "p" then 200000%Q else 0%Q; a_tgt := fun _ k => if String.eqb k "p" then 400000%Q else 250000%Q |}
           None [("1", mk (water 0) [] [("m", 7)] [] None)]) (fun net => at_label "1" net (fun c =>
    option_map Qred (k_SI (n_c c "m")) = Some 7%Q /\ option_map Qred (k_SI (n_c c "p")) = Some 300000%Q /\ option_map Qred (k_SI (n_c c "h")) = Some 250000%Q))
  /\ holds (rbind (solve (si []) no_guess None (finds 70000 80000) [("1", mk (water 0) [] [] [] None)]) (initialise (si []) no_guess None)) (fun net => at_label "1" net (fun c =>
    option_map Qred (k_SI (n_c c "m")) = Some 1%Q /\ option_map Qred (k_SI (n_c c "p")) = Some 70000%Q /\ option_map Qred (k_SI (n_c c "h")) = Some 80000%Q)).
Proof. vm_compute. auto 10. Qed.

(* --------------------------------------------------------------- C130 *)
(** Mass flows in t/h: the random starting value is below 1 kg/s. *)
Theorem C130_unit_refuted : exists units a net net' l c c' s, labelled net /\ initialise units a None net = Ok net' /\ dget l net = Some c /\ dget l net' = Some c' /\
  k_var (n_c c' "m") = true /\ undisturbed c "m" /\ k_val0 (n_c c "m") = None /\ 0 <= a_rnd a l /\ a_rnd a l < 1 /\ k_SI (n_c c' "m") = Some s /\ s < 1.
Proof. exact small_start. Qed.
Print Assumptions C130_unit_refuted.
(** With mass flows in kg/s it lies between 1 and 2 kg/s. *)
Theorem C130_range_partial : forall units a net net' l c c', labelled net -> initialise units a None net = Ok net' ->
  dget l net = Some c -> dget l net' = Some c' -> k_var (n_c c' "m") = true -> undisturbed c "m" ->
  k_val0 (n_c c "m") = None -> n_good c = false -> units "m" = "kg / s" ->
  0 <= a_rnd a l -> a_rnd a l < 1 -> exists s, k_SI (n_c c' "m") = Some s /\ 1 <= s /\ s < 2.
Proof. exact mass_start. Qed.
Print Assumptions C130_range_partial.
Example C130_example : holds (initialise (si []) no_guess None [("1", free_flow)]) (fun net => at_label "1" net (fun c => option_map Qred (k_SI (n_c c "m")) = Some (3 # 2)%Q)).
Proof. vm_compute. auto 10. Qed.

(* --------------------------------------------------------------- C131 *)
(** Negative enthalpies: the start of a gas is in the two phase region. *)
Theorem C131_vapour_refuted : exists units a net net' l c c' p h hg, labelled net /\ initialise units a None net = Ok net' /\ dget l net = Some c /\ dget l net' = Some c' /\
  k_var (n_c c' "h") = true /\ vapour_wanted units c /\ k_SI (n_c c' "p") = Some p /\ f_hpQ (n_fluid c) p 1 = Ok hg /\ k_SI (n_c c' "h") = Some h /\ h < hg.
Proof. exact steam_start. Qed.
Print Assumptions C131_vapour_refuted.
(** Negative enthalpies: the start of a liquid is in the two phase region. *)
Theorem C131_liquid_refuted : exists units a net net' l c c' p h hl, labelled net /\ initialise units a None net = Ok net' /\ dget l net = Some c /\ dget l net' = Some c' /\
  k_var (n_c c' "h") = true /\ liquid_wanted units c /\ k_SI (n_c c' "p") = Some p /\ f_hpQ (n_fluid c) p 0 = Ok hl /\ k_SI (n_c c' "h") = Some h /\ hl < h.
Proof. exact liquid_start_wrong. Qed.
Print Assumptions C131_liquid_refuted.
(** If the saturation enthalpy is not negative the start is on the side of the vapour. *)
Theorem C131_vapour_partial : forall units a file net net' l c c' p hg h, labelled net -> initialise units a file net = Ok net' ->
  dget l net = Some c -> dget l net' = Some c' -> k_var (n_c c' "h") = true -> vapour_wanted units c ->
  k_SI (n_c c' "p") = Some p -> f_hpQ (n_fluid c) p 1 = Ok hg -> 0 <= hg -> k_SI (n_c c' "h") = Some h -> hg <= h.
Proof. exact vapour_start. Qed.
Print Assumptions C131_vapour_partial.
(** If the saturation enthalpy is not negative the start is on the side of the liquid. *)
Theorem C131_liquid_partial : forall units a file net net' l c c' p hl h, labelled net -> initialise units a file net = Ok net' ->
  dget l net = Some c -> dget l net' = Some c' -> k_var (n_c c' "h") = true -> liquid_wanted units c ->
  k_SI (n_c c' "p") = Some p -> f_hpQ (n_fluid c) p 0 = Ok hl -> 0 <= hl -> k_SI (n_c c' "h") = Some h -> h <= hl.
Proof. exact liquid_start. Qed.
Print Assumptions C131_liquid_partial.
Example C131_example :
  holds (initialise (si []) no_guess None [("1", mk (water 0) [("p", 1)] [("h", 1000000)] [] (Some "g")); ("2", mk (water 0) [("p", 1); ("m", 1)] [("h", 1000000)] [] (Some "l"))])
    (fun net => at_label "1" net (fun c => option_map Qred (k_SI (n_c c "h")) = Some 2375373%Q) /\ at_label "2" net (fun c => option_map Qred (k_SI (n_c c "h")) = Some 372627%Q)).
Proof. vm_compute. auto 10. Qed.

(* --------------------------------------------------------------- C132 *)
(** Above the critical pressure the difference to the boiling temperature is that of the
    calculation before. *)
Theorem C132_stale_refuted : exists units a sol net net1 net2 l c1 c2 p d, labelled net /\ solve units a None sol net = Ok net1 /\ dget l net1 = Some c1 /\
  solve units a None sol (dset l (upd "p" (with_val (Some 250%Q)) c1) net1) = Ok net2 /\ dget l net2 = Some c2 /\
  f_mixture (n_fluid c2) = false /\ k_set (n_c c2 "Td_bp") = false /\ k_SI (n_c c2 "p") = Some p /\ f_Tsat (n_fluid c2) p = Err ValueError /\
  k_val (n_c c2 "Td_bp") = Some d.
Proof. exact stale_Td. Qed.
Print Assumptions C132_stale_refuted.
(** A specified vapour content is reported as nan. *)
Theorem C132_lost_refuted : exists units a sol net net' l c c' u, labelled net /\ solve units a None sol net = Ok net' /\ dget l net = Some c /\ dget l net' = Some c' /\
  k_set (n_c c "x") = true /\ k_val (n_c c "x") = Some u /\ n_off c = [] /\ k_set (n_c c' "x") = true /\ k_val (n_c c' "x") = None.
Proof. exact lost_x. Qed.
Print Assumptions C132_lost_refuted.
(** A mixture is reported with the vapour content and the phase of the pure fluid of the
    calculation before. *)
Theorem C132_mixture_refuted : exists units a sol net net1 net2 l c1 c2 f d s, labelled net /\ solve units a None sol net = Ok net1 /\ dget l net1 = Some c1 /\
  solve units a None sol (dset l (with_fluid f c1) net1) = Ok net2 /\ dget l net2 = Some c2 /\ n_fluid c2 = f /\ f_mixture f = true /\
  k_set (n_c c2 "x") = false /\ k_val (n_c c2 "x") = Some d /\ n_phase c2 = Some s.
Proof. exact stale_mixture. Qed.
Print Assumptions C132_mixture_refuted.
(** What is reported right: temperature, specific volume, volumetric flow and entropy (nan if
    the temperature of a mixture is not found); phase, vapour content and difference to the
    boiling temperature of pure fluids that have one; units. *)
Theorem C132_reported_partial : forall units a file sol net net' l c, labelled net -> solve units a file sol net = Ok net' -> dget l net = Some c ->
  exists c' p h T, dget l net' = Some c' /\ k_SI (n_c c' "p") = Some p /\ k_SI (n_c c' "h") = Some h /\ f_Tph (n_fluid c') p h = Ok T /\ n_fluid c' = n_fluid c /\
  (f_mixture (n_fluid c') = true -> exists hT, f_hpT (n_fluid c') p T = Ok hT /\
     ((close hT h /\ derived c' p h T) \/ (~ close hT h /\ forall k, In k ["T"; "vol"; "v"; "s"] -> k_SI (n_c c' k) = None))) /\
  (f_mixture (n_fluid c') = false -> derived c' p h T /\ result_of (f_phase (n_fluid c') p h) (n_phase c') /\
     forall Ts, f_Tsat (n_fluid c') p = Ok Ts ->
       (k_set (n_c c' "x") = false -> result_of (f_Qph (n_fluid c') p h) (k_SI (n_c c' "x"))) /\
       (k_set (n_c c' "Td_bp") = false -> k_SI (n_c c' "Td_bp") = Some (T - Ts)%Q)) /\
  forall k, In k fpd_keys -> file = None \/ ~ In k ["m"; "p"; "h"] -> shown units c' k.
Proof. exact reported. Qed.
Print Assumptions C132_reported_partial.
Example C132_example :
  holds (solve (si [("T", "C")]) no_guess None (finds 100000 1373000) [("1", free_h); ("2", mk gas [("m", 2); ("p", 1); ("h", 400000)] [] [] None)])
    (fun net => at_label "1" net (fun c => option_map Qred (k_val (n_c c "T")) = Some (1997 # 20)%Q /\ option_map Qred (k_val (n_c c "x")) = Some (1 # 2)%Q
                  /\ option_map Qred (k_val (n_c c "Td_bp")) = Some 0%Q /\ n_phase c = Some "tp" /\ option_map Qred (k_val (n_c c "v")) = Some (1 # 1000)%Q)
             /\ at_label "2" net (fun c => option_map Qred (k_val (n_c c "T")) = Some (2537 # 20)%Q /\ option_map Qred (k_val (n_c c "v")) = Some 2%Q /\ k_val (n_c c "x") = None)).
Proof. vm_compute. auto 10. Qed.

(* --------------------------------------------------------------- C133 *)
(** Pressure, temperature and vapour content: accepted, solved, not satisfied. *)
Theorem C133_refuted : exists units a sol net net' l c c' v, labelled net /\ solve units a None sol net = Ok net' /\ dget l net = Some c /\ dget l net' = Some c' /\
  n_known c = true /\ wanted units c "x" v /\ In "x" (n_eqs c') /\ k_var (n_c c' "p") = false /\ k_var (n_c c' "h") = false /\ ~ satisfied c' "x" v.
Proof. exact overdetermined. Qed.
Print Assumptions C133_refuted.
(** Of the properties of a connection of known composition at most three are specified. *)
Theorem C133_at_most_three_partial : forall units a file net net' l c, labelled net -> initialise units a file net = Ok net' -> dget l net = Some c ->
  n_known c = true -> forall ks, NoDup ks -> (forall k, In k ks -> In k ["m"; "p"; "h"; "T"; "x"; "Td_bp"; "v"] /\ wants c k) -> (length ks <= 3)%nat.
Proof. exact at_most_three. Qed.
Print Assumptions C133_at_most_three_partial.
Example C133_example :
  initialise (si []) no_guess None [("1", mk (water 0) [("m", 1); ("p", 1); ("T", 300); ("x", 1 # 2)] [] [] None)] = Err TESPyNetworkError.
Proof. vm_compute. reflexivity. Qed.

(* --------------------------------------------------------------- C134 *)
(** From bar to Pa: the next calculation starts at 1 Pa instead of 1 bar. *)
Theorem C134_units_refuted : exists units units' a sol net net' net'' l c' c'', labelled net /\ solve units a None sol net = Ok net' /\
  initialise units' a None net' = Ok net'' /\ dget l net' = Some c' /\ dget l net'' = Some c'' /\ (forall k, k <> "p" -> units' k = units k) /\
  k_var (n_c c'' "p") = true /\ ~ same (k_SI (n_c c'' "p")) (k_SI (n_c c' "p")).
Proof. exact changed_units. Qed.
Print Assumptions C134_units_refuted.
