(** C208-C213: the fluid property engines. *)
From Coq Require Import QArith Lqa Ascii.
From Verif Require Import Base NewtonModel MixModel PhModel EngModel EngSpec EngProofs EngWitness.
Open Scope Q_scope.

(** C208 – whatever was asked before, also if calls raised, the answer is that of a new object in any state. *)
Theorem C208_history : forall k lib st st' before m,
  snd (cp_call k lib (cp_calls k lib st before) m) = snd (cp_call k lib st' m).
Proof. exact history. Qed.
Print Assumptions C208_history.

(** A density after an enthalpy and a failed question: the density of the pressure asked for. *)
Example C208_ex : snd (cp_call water_k demo_cp (cp_calls water_k demo_cp (liq 500) [H_pT 100000 300; Vis_ph 1 2]) (T_ph 100000 1200000))
  = Ok (Num (1200000 / 4000)).
Proof. reflexivity. Qed.

(** C209 – iapws answers like CoolProp if both libraries describe the same fluid, each in its units. *)
Theorem C209_engines : forall k tc cp ia st m,
  same_fluid cp ia -> recognised k cp m -> (forall T, m <> M_p_sat T) ->
  both same_value (snd (cp_call k cp st m)) (ia_call (k_pcrit k) tc ia m).
Proof. exact engines. Qed.
Print Assumptions C209_engines.

Example C209_ex : same_fluid demo_cp demo_ia
  /\ both same_value (Ok (Num 1200000)) (ia_call 22064000 647 demo_ia (H_pT 100000 300))
  /\ both same_value (Ok (Num 200)) (ia_call 22064000 647 demo_ia (T_ph 100000 800000)).
Proof. split; [exact demo_same|]. split; cbn; reflexivity. Qed.

(** C210 – the saturation pressure differs. *)
Theorem C210_p_sat_refuted : exists k tc cp ia st T, same_fluid cp ia /\
  ~ both same_value (snd (cp_call k cp st (M_p_sat T))) (ia_call (k_pcrit k) tc ia (M_p_sat T)).
Proof.
  exists water_k, 647, demo_cp, demo_ia, (liq 300), 300. split; [exact demo_same|]. exact (proj2 (proj2 p_sat_differs)).
Qed.
Print Assumptions C210_p_sat_refuted.

(** C210 – with CoolProp the saturation pressure is the one of the library at the temperature, above the critical temperature at 99 % of
    that. Missing: agreement of the engines. *)
Theorem C210_p_sat_partial : forall k lib st tc T, k_Tcrit k = Some tc ->
  (T <= tc -> forall s, cp_update lib QT_in 0 T = Ok s -> snd (cp_call k lib st (M_p_sat T)) = Ok (Num (g_p s)))
  /\ (tc < T -> forall s, cp_update lib QT_in 0 (tc * (99#100)) = Ok s -> snd (cp_call k lib st (M_p_sat T)) = Ok (Num (g_p s))).
Proof. exact p_sat_partial. Qed.
Print Assumptions C210_p_sat_partial.

(** C210 – in other phases name and vapour fraction differ. *)
Theorem C210_phases_always : forall k tc cp ia st p h s t,
  cp_update cp HmassP h (subcritical (k_pcrit k) p) = Ok s -> g_phase s = COther ->
  ia I_hP (kilo h) (mega (subcritical (k_pcrit k) p)) = Ok t -> i_phase t = IOther ->
  snd (cp_call k cp st (Phase_ph p h)) = Ok (Name "state not recognised")
  /\ ia_call (k_pcrit k) tc ia (Phase_ph p h) = Ok (Name "phase not recognised")
  /\ snd (cp_call k cp st (Q_ph p h)) = Ok (Num (- (1)))
  /\ ia_call (k_pcrit k) tc ia (Q_ph p h) = Ok (Num (i_x t)).
Proof. exact other_phase. Qed.
Print Assumptions C210_phases_always.

Example C210_ex : snd (cp_call water_k odd_cp (liq 300) (Phase_ph 100000 1)) = Ok (Name "state not recognised")
  /\ ia_call 22064000 647 odd_ia (Phase_ph 100000 1) = Ok (Name "phase not recognised").
Proof. split; reflexivity. Qed.

(** C211 – the enthalpy of a vapour fraction raises AttributeError. *)
Theorem C211_missing_refuted : exists ig m, not_offered ig m /\ forall lib, py_call ig lib m = Err AttributeError.
Proof.
  exists false, (H_pQ 100000 0). split; [exact I|]. reflexivity.
Qed.
Print Assumptions C211_missing_refuted.

(** C211 – so does every specified vapour fraction, *)
Theorem C211_x_always : forall ig lib p h x, x_func (py_call ig lib) p h x = Err AttributeError.
Proof. exact py_x. Qed.
Print Assumptions C211_x_always.

(** C211 – while a specified difference to the boiling temperature gives nan as residual. *)
Theorem C211_Td_bp_always : forall ig lib p h td s, lib P_ph p h = Ok s -> Td_bp_func (py_call ig lib) p h td = Ok None.
Proof. exact py_Td. Qed.
Print Assumptions C211_Td_bp_always.

(** C211 – what is offered, *)
Theorem C211_offered_partial : forall ig m,
  (exists lib v, py_call ig lib m = Ok v) <-> ~ not_offered ig m.
Proof. exact py_offered. Qed.
Print Assumptions C211_offered_partial.

(** C211 – everything else raises NotImplementedError, *)
Theorem C211_refusal_partial : forall ig lib m, not_offered ig m -> (forall p q, m <> H_pQ p q) ->
  py_call ig lib m = Err NotImplementedError.
Proof. exact py_refusal. Qed.
Print Assumptions C211_refusal_partial.

(** C211 – and is reported as nan, *)
Theorem C211_reported_partial : forall ig lib p h td0 s, lib P_ph p h = Ok s ->
  reported (py_call ig lib) p h td0 = Ok (if ig then None else Some (Num (y_x s)), None, None).
Proof. exact py_reported. Qed.
Print Assumptions C211_reported_partial.

(** C211 – states an engine refuses with ValueError are reported without values, other exceptions end the report, *)
Theorem C211_unknown_partial : forall call p h td0,
  (call (Q_ph p h) = Err ValueError -> call (Phase_ph p h) = Err ValueError -> call (T_ph p h) = Err ValueError -> reported call p h td0 = Ok (None, None, td0))
  /\ (forall e, e <> ValueError -> e <> NotImplementedError -> call (Q_ph p h) = Err e -> reported call p h td0 = Err e)
  /\ (forall e, e <> ValueError -> e <> NotImplementedError -> call (Q_ph p h) = Err ValueError -> call (Phase_ph p h) = Err e -> reported call p h td0 = Err e)
  /\ (forall e, e <> ValueError -> e <> NotImplementedError -> call (Q_ph p h) = Err ValueError -> call (Phase_ph p h) = Err ValueError -> call (T_ph p h) = Err e -> reported call p h td0 = Err e).
Proof. exact unknown_reported. Qed.
Print Assumptions C211_unknown_partial.

(** C211 – with CoolProp a specified vapour fraction fixes the enthalpy, *)
Theorem C211_x_partial : forall k lib st p h x,
  match cp_update lib PQ_in p x with
  | Ok s => exists r, x_func (fun m => snd (cp_call k lib st m)) p h x = Ok (Some r) /\ (r == 0 <-> h == g_h s)
  | Err e => x_func (fun m => snd (cp_call k lib st m)) p h x = Err e
  end.
Proof. exact x_means. Qed.
Print Assumptions C211_x_partial.

(** C211 – and a specified difference to the boiling temperature the temperature, *)
Theorem C211_Td_bp_partial : forall k lib st p h td s sat,
  cp_update lib HmassP h p = Ok s -> cp_update lib PQ_in (subcritical (k_pcrit k) p) 0 = Ok sat ->
  exists r, Td_bp_func (fun m => snd (cp_call k lib st m)) p h td = Ok (Some r) /\ (r == 0 <-> g_T s == g_T sat + td).
Proof. exact Td_means. Qed.
Print Assumptions C211_Td_bp_partial.

(** C211 – while engines that offer everything report their answers. *)
Theorem C211_full_partial : forall call p h td0 q ph T ts,
  call (Q_ph p h) = Ok (Num q) -> call (Phase_ph p h) = Ok (Name ph) -> call (T_ph p h) = Ok (Num T) ->
  call (M_T_sat p) = Ok (Num ts) ->
  reported call p h td0 = Ok (Some (Num q), Some (Name ph), Some (Num (T - ts))).
Proof. exact full_reported. Qed.
Print Assumptions C211_full_partial.

Example C211_ex : not_offered true (S_pT 100000 300) /\ ~ not_offered false (S_pT 100000 300)
  /\ reported (py_call true demo_py) 100000 300000 None = Ok (None, None, None)
  /\ x_func (py_call false demo_py) 100000 300000 (1#2) = Err AttributeError.
Proof. split; [reflexivity|]. split; [cbn; discriminate|]. split; reflexivity. Qed.

(** C212 – a name without bracket is the name of the fluid, *)
Theorem C212_plain : forall s, free "["%char s -> fluid_name s = Ok (s, None).
Proof. exact plain_name. Qed.
Print Assumptions C212_plain.

(** C212 – one with a bracketed fraction is split, *)
Theorem C212_fraction : forall a b,
  free "["%char a -> free "["%char b -> free "]"%char b ->
  fluid_name (a ++ "[" ++ b ++ "]")%string = Ok (a, Some b).
Proof. exact fraction_name. Qed.
Print Assumptions C212_fraction.

(** C212 – several fractions are rejected. *)
Theorem C212_several : forall a b c, free "["%char a -> free "["%char b ->
  fluid_name (a ++ "[" ++ b ++ "[" ++ c)%string = Err ValueError.
Proof. exact two_fractions. Qed.
Print Assumptions C212_several.

(** C212 – the water engine takes exactly the names of water and its two formulations. *)
Theorem C212_iapws : forall aliases f b r,
  ia_new aliases f b = Ok r <->
  In f aliases /\ (b = None /\ r = "IF97"%string \/ b = Some "IF97"%string /\ r = "IF97"%string \/ b = Some "IF95"%string /\ r = "IF95"%string).
Proof. exact iapws_new. Qed.
Print Assumptions C212_iapws.

(** C212 – other names raise ValueError, other formulations NotImplementedError. *)
Theorem C212_iapws_rejected : forall aliases f b,
  (~ In f aliases -> ia_new aliases f b = Err ValueError) /\
  (In f aliases -> b <> None -> b <> Some "IF97"%string -> b <> Some "IF95"%string -> ia_new aliases f b = Err NotImplementedError).
Proof. exact iapws_rejected. Qed.
Print Assumptions C212_iapws_rejected.

Example C212_ex : fluid_name "MEG[0.3]" = Ok ("MEG"%string, Some "0.3"%string)
  /\ fluid_name "R410A" = Ok ("R410A"%string, None)
  /\ fluid_name "Water[0.5]&Ethanol[0.5]" = Err ValueError
  /\ ia_new ["H2O"; "water"]%string "R134a" None = Err ValueError
  /\ ia_new ["H2O"; "water"]%string "water" (Some "IF95"%string) = Ok "IF95"%string
  /\ ia_new ["H2O"; "water"]%string "water" (Some "HEOS"%string) = Err NotImplementedError.
Proof. repeat split; reflexivity. Qed.

(** C213 – the derivatives of a specified volumetric flow of a mixture raise KeyError. *)
Theorem C213_mixtures_always : forall u names p h fd pv hv,
  number_of_fluids fd <> 1%nat -> pv || hv = true -> v_row u names p h fd pv hv = Err KeyError.
Proof. exact v_row_mixture. Qed.
Print Assumptions C213_mixtures_always.

(** C213 – a mixture of two fluids. *)
Theorem C213_mixtures_refuted : exists fd, number_of_fluids fd = 2%nat /\ forall u names p h, v_row u names p h fd false true = Err KeyError.
Proof. exists mix2. split; [reflexivity|]. intros. apply v_row_mixture; [discriminate|reflexivity]. Qed.
Print Assumptions C213_mixtures_refuted.

(** C213 – for a single fluid they are the difference quotients of its specific volume. *)
Theorem C213_single_partial : forall u names p h fd e (rho : Q -> Q -> Q),
  number_of_fluids fd = 1%nat -> pure_fluid fd = Some e ->
  (forall p h, u_dph u e p h = Ok (rho p h) /\ ~ rho p h == 0) ->
  exists dp dh, v_row u names p h fd true true = Ok (Some dp, Some dh)
    /\ dp == (1 / rho (p + (1#10)) h - 1 / rho (p - (1#10)) h) / (2 * (1#10))
    /\ dh == (1 / rho p (h + (1#10)) - 1 / rho p (h - (1#10))) / (2 * (1#10)).
Proof. exact v_row_single. Qed.
Print Assumptions C213_single_partial.

Example C213_ex : exists fd, number_of_fluids fd = 2%nat /\ forall u names p h,
  v_row u names p h fd false true = Err KeyError.
Proof. exists mix2. split; [reflexivity|]. intros. apply C213_mixtures_always; [discriminate|reflexivity]. Qed.
