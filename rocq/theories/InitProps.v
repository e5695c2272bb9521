(** C177, C178: starting values proposed by the components. *)
From Coq Require Import QArith.
From Verif Require Import Base UnitsModel StateModel StateSpec StateWitness InitModel InitSpec InitProofs.
Open Scope string_scope.
Open Scope list_scope.

(** C177 – for outlets the classes propose what their documentation says, apart from turbomachines, heat exchangers and the enthalpies of separators. *)
Theorem C177_outlets : forall o c id k v,
  In k ["p"; "h"] -> ~ turbomachine o -> ~ exchanger o -> (phase_separator o -> k = "p") ->
  invoke "initialise_source" o c id k = Ok v -> means (n_fluid c) (SI c "p") (entry_of k (documented_out o id)) v.
Proof. exact outlets_as_documented. Qed.
Print Assumptions C177_outlets.

(** C177 – so for inlets, apart from heat exchangers. *)
Theorem C177_inlets : forall o c id k v,
  In k ["p"; "h"] -> ~ exchanger o ->
  invoke "initialise_target" o c id k = Ok v -> means (n_fluid c) (SI c "p") (entry_of k (documented_in o id)) v.
Proof. exact inlets_as_documented. Qed.
Print Assumptions C177_inlets.

(** C177 – the first value of an unknown follows from the documented values of both ends, evaluated at the starting pressure. *)
Theorem C177_start : forall units rnd e c c' k,
  first_pass_at_ends units rnd e c = Ok c' -> In k ["p"; "h"] -> fresh c k ->
  k_unit (n_c c k) = units k -> ~ turbomachine (d_source e) -> ~ exchanger (d_source e) -> ~ exchanger (d_target e) ->
  (phase_separator (d_source e) -> k = "p") ->
  exists s t x v g, means (n_fluid c) (SI c' "p") (entry_of k (documented_out (d_source e) (d_source_id e))) s /\
    means (n_fluid c) (SI c' "p") (entry_of k (documented_in (d_target e) (d_target_id e))) t /\
    k_SI (n_c c' k) = Some x /\ x == v /\ generic k g /\ proposed g s t v.
Proof. exact start_documented. Qed.
Print Assumptions C177_start.

(** C177 – outlets of separators start as saturated liquid (first) and saturated gas (second). *)
Theorem C177_separator_outlets : forall o c id v,
  phase_separator o -> invoke "initialise_source" o c id "h" = Ok v ->
  means (n_fluid c) (SI c "p") (Saturated (if String.eqb id "out1" then 0 else 1)) v.
Proof. exact separator_outlet. Qed.
Print Assumptions C177_separator_outlets.

(** From a valve to a cooler of -10 W: (4e5 + 1e5) / 2 and (5e5 + 5e5) / 2; a water electrolyser
    to a sink: enthalpy at 323.15 K. *)
Example C177_ex :
  match first_pass_at_ends si_units (1 # 2) {| d_source := part Valve; d_source_id := "out1";
          d_target := {| o_cls := SimpleHX; o_Q := Some (-10 # 1)%Q; o_Qset := true |}; d_target_id := "in1" |} (unknowns gas) with
  | Ok c => (option_map Qred (SI c "m"), option_map Qred (SI c "p"), option_map Qred (SI c "h")) = (Some (3 # 2)%Q, Some 250000%Q, Some 500000%Q)
  | Err _ => False end
  /\ match first_pass_at_ends si_units (1 # 2) (between Electrolyzer Sink "out2" "in1") (unknowns gas) with
     | Ok c => (option_map Qred (SI c "p"), option_map Qred (SI c "h")) = (Some 500000%Q, Some 323150%Q) | Err _ => False end.
Proof. vm_compute. auto. Qed.


(** C178 – refuted: the method of turbomachines for outlets has another name (initialise_Source) and is never called. *)
Theorem C178_turbomachine_outlets_refuted : exists o c id k v, turbomachine o /\ In k ["p"; "h"] /\ invoke "initialise_source" o c id k = Ok v /\
  ~ means (n_fluid c) (SI c "p") (entry_of k (documented_out o id)) v.
Proof. exact turbomachine_outlet_wrong. Qed.
Print Assumptions C178_turbomachine_outlets_refuted.

(** C178 – what is used instead: the value of the other end, or 1 bar and 1 MJ/kg. *)
Theorem C178_turbomachine_outlets_partial : forall units rnd e c c' k,
  first_pass_at_ends units rnd e c = Ok c' -> In k ["p"; "h"] -> fresh c k ->
  k_unit (n_c c k) = units k -> turbomachine (d_source e) -> ~ exchanger (d_target e) ->
  exists t x v g, means (n_fluid c) (SI c' "p") (entry_of k (documented_in (d_target e) (d_target_id e))) t /\
    k_SI (n_c c' k) = Some x /\ x == v /\ generic k g /\ ((t == 0 /\ v == g) \/ (~ t == 0 /\ v == t)).
Proof. exact turbomachine_start. Qed.
Print Assumptions C178_turbomachine_outlets_partial.

(** C178 – refuted: heat exchangers propose 50 bar, documented are 4 bar. *)
Theorem C178_exchanger_pressures_refuted : exists o c id v, exchanger o /\ invoke "initialise_target" o c id "p" = Ok v /\
  ~ means (n_fluid c) (SI c "p") (entry_of "p" (documented_in o id)) v.
Proof. exact exchanger_pressure_wrong. Qed.
Print Assumptions C178_exchanger_pressures_refuted.

(** C178 – what heat exchangers propose: 50 bar; 200, 250, 300, 220 degree Celsius for out1, out2, in1, in2. *)
Theorem C178_exchanger_proposals_partial : forall o c id k,
  exchanger o -> In k ["p"; "h"] ->
  invoke "initialise_source" o c id k = (if String.eqb k "p" then Ok 5000000%Q else h_at_C c (if String.eqb id "out1" then 200 else 250)) /\
  invoke "initialise_target" o c id k = (if String.eqb k "p" then Ok 5000000%Q else h_at_C c (if String.eqb id "in1" then 300 else 220)).
Proof. exact exchanger_proposals. Qed.
Print Assumptions C178_exchanger_proposals_partial.

(** C178 – refuted: the documentation of separators exchanges the phases of the outlets. *)
Theorem C178_separator_outlets_refuted : exists o c id v, phase_separator o /\ invoke "initialise_source" o c id "h" = Ok v /\
  ~ means (n_fluid c) (SI c "p") (entry_of "h" (documented_out o id)) v.
Proof. exact separator_outlet_wrong. Qed.
Print Assumptions C178_separator_outlets_refuted.

(** Pump to sink: 1 bar instead of the documented 10 bar; sources and pumps: the inlet is as documented. *)
Example C178_ex :
  match first_pass_at_ends si_units (1 # 2) (between Pump Sink "out1" "in1") (unknowns gas),
        first_pass_at_ends si_units (1 # 2) (between Source Pump "out1" "in1") (unknowns gas) with
  | Ok c, Ok d => (option_map Qred (SI c "p"), option_map Qred (SI c "h"), option_map Qred (SI d "h")) = (Some 100000%Q, Some 1000000%Q, Some 290000%Q)
  | _, _ => False end.
Proof. vm_compute. reflexivity. Qed.

