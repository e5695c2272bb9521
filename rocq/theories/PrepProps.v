(** C243 - C249: the preparation of particular classes. *)
From Coq Require Import QArith Lqa Lia List String Bool.
From Verif Require Import Base PrepModel PrepSpec TableModel TableSpec PrepProofs.
From Verif Require CharModel CombModel OffModel UpdateModel.
Import ListNotations.
Open Scope nat_scope.
Open Scope string_scope.
Open Scope list_scope.

(** C243 – power and heat loss of an engine: as given, otherwise unknowns, with a derivative in every iteration. *)
Theorem C243_engine : forall parse calls mandatory, parse "var" = None -> let h := cset_attr_history parse calls (new_component KCombustionEngine) in
  exists k n, engine_preprocess parse mandatory h = Ok (k, n) /\ n = mandatory + equations KCombustionEngine k
  /\ forall p, p = "P" \/ p = "Qloss" -> specified k p = true
     /\ (specified h p = true -> dget p (k_params k) = dget p (k_params h))
     /\ (specified h p = false -> In p (map fst (component_columns 0 k)) /\ forall cols, jac_columns KCombustionEngine k = Ok cols -> In p cols).
Proof. exact given_or_unknown. Qed.
Print Assumptions C243_engine.

(** C243 – the power of a fuel cell or an electrolyzer likewise. *)
Theorem C243_reactor : forall c e0 parse calls mandatory molar e, parse "var" = None -> c = KFuelCell \/ c = KWaterElectrolyzer -> e0 molar = Ok e ->
  let h := cset_attr_history parse calls (new_component c) in
  exists k n, reactor_preprocess e0 parse mandatory molar h = Ok (k, n, e) /\ n = mandatory + equations c k
  /\ specified k "P" = true
  /\ (specified h "P" = true -> dget "P" (k_params k) = dget "P" (k_params h))
  /\ (specified h "P" = false -> In "P" (map fst (component_columns 0 k)) /\ forall cols, jac_columns c k = Ok cols -> In "P" cols).
Proof. exact reactor_prepared. Qed.
Print Assumptions C243_reactor.

(** C243 – preparing a component twice is the same as once. *)
Theorem C243_again : forall parse c calls mandatory k n, preprocess mandatory (cset_attr_history parse calls (new_component c)) = Ok (k, n) ->
  exists k', preprocess mandatory k = Ok (k', n) /\ forall p, dget p (k_params k') = dget p (k_params k).
Proof. exact again. Qed.
Print Assumptions C243_again.

(** C244 – the reaction energies of fuel cell and electrolyzer are opposite, 286 kJ per mol of hydrogen. *)
Theorem C244_energy : forall molar M, dget "H2" molar = Some M -> (0 < M)%Q ->
  exists a b, fuel_cell_e0 molar = Ok a /\ electrolyzer_e0 molar = Ok b /\ (a * M == -286000)%Q /\ (b == - a)%Q /\ (a < 0)%Q.
Proof. exact e0_values. Qed.
Print Assumptions C244_energy.

(** C245 – hydrogen under its name: the preparation fails. *)
Theorem C245_refuted : exists molar, (exists M, dget "hydrogen" molar = Some M /\ (0 < M)%Q) /\
  forall parse mandatory k, ~ exists r, reactor_preprocess fuel_cell_e0 parse mandatory molar k = Ok r.
Proof. exact e0_name. Qed.
Print Assumptions C245_refuted.

(** C245 – with KeyError, whenever no fluid is called H2. *)
Theorem C245_missing_always : forall parse mandatory molar k k1, auto_var parse "P" k = Ok k1 -> dget "H2" molar = None ->
  reactor_preprocess fuel_cell_e0 parse mandatory molar k = Err KeyError /\ reactor_preprocess electrolyzer_e0 parse mandatory molar k = Err KeyError.
Proof. exact e0_missing. Qed.
Print Assumptions C245_missing_always.

(** C246 – the outlet of the condenser is saturated exactly if no subcooling is asked for in the last call. *)
Theorem C246_switch : forall parse calls mandatory b, let h := cset_attr_history parse calls (new_component KCondenser) in
  exists k n, condenser_preprocess mandatory (fst (cset_attr parse (asks b) h)) = Ok (k, n) /\ n = mandatory + equations KCondenser k
    /\ specified k "subcooling" = negb b.
Proof. exact subcooling_switch. Qed.
Print Assumptions C246_switch.

(** C246 – with any other value than None, the outlet is saturated exactly if Python takes the value for false. *)
Theorem C246_value : forall parse calls mandatory w, w <> PNone -> let h := cset_attr_history parse calls (new_component KCondenser) in
  exists k n, condenser_preprocess mandatory (fst (cset_attr parse [("subcooling", CV w)] h)) = Ok (k, n) /\ n = mandatory + equations KCondenser k
    /\ (specified k "subcooling" = true <-> counts_as_no w).
Proof. exact subcooling_value. Qed.
Print Assumptions C246_value.

(** C246 – and by default. *)
Theorem C246_default : forall mandatory, exists k n, condenser_preprocess mandatory (new_component KCondenser) = Ok (k, n) /\ specified k "subcooling" = true.
Proof. exact subcooling_default. Qed.
Print Assumptions C246_default.

(** C247 – withdrawing the specification does not restore the equation. *)
Theorem C247_refuted : exists calls, (exists pre, calls = pre ++ [[("subcooling", CV PNone)]]) /\ forall parse mandatory,
  exists k n, condenser_preprocess mandatory (cset_attr_history parse calls (new_component KCondenser)) = Ok (k, n) /\ specified k "subcooling" = false.
Proof. exact subcooling_unset. Qed.
Print Assumptions C247_refuted.

(** C248 – pure fluids pass, with a warning unless it is water; mixtures are refused. *)
Theorem C248_steam : forall aliases fd parse calls mandatory, let h := cset_attr_history parse calls (new_component KSteamTurbine) in
  (forall f, pure fd f -> exists k n, steam_preprocess aliases fd mandatory h = (negb (CombModel.alias_in_list aliases f ["water"]), Ok (k, n)) /\ n = mandatory + equations KSteamTurbine k)
  /\ ((forall f, ~ pure fd f) -> steam_preprocess aliases fd mandatory h = (false, Err ValueError)).
Proof. exact steam_pure. Qed.
Print Assumptions C248_steam.

(** C249 – no warning exactly if the load is inside of all characteristics. *)
Theorem C249_load : forall design P tiP Qloss Q1 Q2, Forall (fun c => 2 <= length (CharModel.cl_x c)) [tiP; Qloss; Q1; Q2] ->
  exists ws, engine_bounds design P tiP Qloss Q1 Q2 = Ok ws /\ (ws = [] <-> forall c, In c [tiP; Qloss; Q1; Q2] -> ~ outside c (load design P)).
Proof. exact engine_load. Qed.
Print Assumptions C249_load.

Example C243_ex : rmap (fun kn => (map fst (component_columns 7 (fst kn)), snd kn))
  (engine_preprocess (fun _ => None) 8 (fst (cset_attr (fun _ => None) [("P", CV (PNum (Fin (-1000))))] (new_component KCombustionEngine)))) = Ok (["Qloss"], 8).
Proof. reflexivity. Qed.
Example C243_reactor_ex : rmap (fun r => (map fst (component_columns 7 (fst (fst r))), snd r))
  (reactor_preprocess fuel_cell_e0 (fun _ => None) 8 [("H2", 2 # 1000)] (new_component KFuelCell)) = Ok (["P"], (-572000 # 1) / (4 # 1000))%Q.
Proof. reflexivity. Qed.
Example C244_ex : exists M, dget "H2" [("O2", 32 # 1000); ("H2", 2 # 1000)] = Some M /\ (0 < M)%Q.
Proof. eexists. split; reflexivity. Qed.
Example C245_ex : reactor_preprocess electrolyzer_e0 (fun _ => None) 8 [("hydrogen", 2 # 1000)] (new_component KWaterElectrolyzer) = Err KeyError.
Proof. reflexivity. Qed.
Example C246_ex : rmap snd (condenser_preprocess 1 (fst (cset_attr (fun _ => None) (asks true) (new_component KCondenser)))) = Ok 1
  /\ rmap snd (condenser_preprocess 1 (new_component KCondenser)) = Ok 2.
Proof. split; reflexivity. Qed.
Example C246_value_ex : counts_as_no (PNum (Fin 0)) /\ ~ counts_as_no (PNum (Fin 1)) /\ ~ counts_as_no (PStr "no").
Proof. split; [now constructor|]. split; intros H; inversion H. match goal with [E : (1 == 0)%Q |- _] => discriminate E end. Qed.
Example C248_ex : pure [("water", 1); ("air", 0)]%Q "water" /\ forall f, ~ pure [("water", 1 # 2); ("air", 1 # 2)]%Q f.
Proof.
  split; [exists [], [("air", 0%Q)], 1%Q; repeat split; repeat constructor; discriminate|].
  intros f P. apply single_pure in P. discriminate.
Qed.
Example C249_ex : let c := {| CharModel.cl_x := [1 # 2; 1; 6 # 5]; CharModel.cl_y := [1; 1; 1]; CharModel.cl_extrapolate := false |}%Q in
  ~ outside c (load (Some 1000) 800)%Q /\ outside c (load (Some 1000) 300)%Q.
Proof. cbv. split; [intros [A|A]; discriminate A|left; reflexivity]. Qed.

