(** Chemical exergy: C184-C187. *)
From Coq Require Import QArith Lqa.
From Verif Require Import Base MixModel MixSpec ChemExModel ChemExSpec ChemExProofs ChemExWitness ChemExWitness2.
Open Scope Q_scope.

(** C184 – a single fluid has the value of its table row for the state of reference named there, per mass; the mixing rule and the ambient state do not matter. *)
Theorem C184_pure : forall ln names t pamb Tamb fd rule e r q, number_of_fluids fd = 1%nat ->
  pure_fluid fd = Some e ->
  (forall k r', In k (w_aliases (e_wr e)) -> dget k t = Some r' -> exists i, r_ref r' = Num i) ->
  listed t e r -> reference_value r q -> ~ w_M (e_wr e) == 0 ->
  exists v, chem_mix ln names t pamb Tamb fd rule = Ok v /\ v * w_M (e_wr e) == q * 1000.
Proof. exact reference_pure. Qed.
Print Assumptions C184_pure.

(** C184 – the exergy flow is mass flow times specific value; without a table both are zero. *)
Theorem C184_flow : forall ln names t pamb Tamb m fd rule e E,
  chem_conn ln names t pamb Tamb m fd rule = Ok (e, E) -> E == m * e /\ (t = None -> e == 0).
Proof. exact conn_value. Qed.
Print Assumptions C184_flow.

Example C184_ex : rmap Qred (chem_mix ln1 waters szargut 1 300 (only n2) None) = Ok (180000 # 7)
  /\ rmap Qred (chem_mix ln1 waters szargut 1 300 (only h2o) None) = Ok 50000.
Proof. split; vm_compute; reflexivity. Qed.

(** C185 – a mixture that does not condense at ambient conditions: molar sum of the values of the gases and of the exergy of mixing, over the molar mass of the mixture. *)
Theorem C185_gas : forall ln names t pamb Tamb fd g, valid fd -> number_of_fluids fd <> 1%nat ->
  stays_gas names pamb Tamb fd -> gas_values t fd g ->
  exists xs M v, molar_fractions fd = Ok xs /\ molar_mass_mixture fd xs = Ok M /\ 0 < M
  /\ chem_mix ln names t pamb Tamb fd (Some "ideal-cond"%string) = Ok v
  /\ v * M == 1000 * gas_sum ln Tamb g xs.
Proof. exact dry_value. Qed.
Print Assumptions C185_gas.

(** C185 – a mixture that condenses: liquid water has the value of the liquid, the gas the sum over its own composition. *)
Theorem C185_condensed : forall ln names t pamb Tamb fd g water ew yl, valid fd -> number_of_fluids fd <> 1%nat ->
  condenses pamb Tamb fd water ew -> water_in names fd = Some water -> gas_values t fd g -> liquid_value t ew yl ->
  (forall k e, dget k fd = Some e -> smem "water" (w_aliases (e_wr e)) = String.eqb k water) ->
  exists xs M c v, molar_fractions fd = Ok xs /\ molar_mass_mixture fd xs = Ok M /\ 0 < M
  /\ cond_check pamb Tamb fd water = Ok c /\ 0 < c_molar_liquid c < 1
  /\ chem_mix ln names t pamb Tamb fd (Some "ideal-cond"%string) = Ok v
  /\ v * M == 1000 * (c_molar_liquid c * yl + (1 - c_molar_liquid c) * gas_sum ln Tamb g (c_molar_gas c)).
Proof. exact wet_value. Qed.
Print Assumptions C185_condensed.

(** C185 – mixing lowers the exergy: the sum is at most the one of the unmixed gases. *)
Theorem C185_mixing : forall ln Tamb g xs, (forall x, 0 < x <= 1 -> ln x <= 0) -> 0 <= Tamb ->
  (forall k x, In (k, x) xs -> x <= 1) ->
  gas_sum ln Tamb g xs <= sumd xs (fun k x => if Qle_bool x 0 then 0 else x * g k).
Proof. exact mixing_lowers. Qed.
Print Assumptions C185_mixing.

(** C185 – a value is returned only for the rule ideal-cond and if the table has a value of the gas for every fluid of the mixture. *)
Theorem C185_complete : forall ln names t pamb Tamb fd rule v, valid fd -> number_of_fluids fd <> 1%nat ->
  (forall water ew, water_in names fd = Some water -> dget water fd = Some ew ->
     e_frac ew < 1 /\ (w_below (e_wr ew) Tamb = true -> 0 < w_psat (e_wr ew) Tamb)) ->
  chem_mix ln names t pamb Tamb fd rule = Ok v ->
  rule = Some "ideal-cond"%string /\ forall k e, dget k fd = Some e -> 0 < e_frac e -> exists y, gas_value t e y.
Proof. exact needs_values. Qed.
Print Assumptions C185_complete.

Example C185_ex : valid (two n2 h2o) /\ number_of_fluids (two n2 h2o) = 2%nat
  /\ condenses 4 300 (two n2 h2o) "water" {| e_frac := 18 # 46; e_wr := h2o |}
  /\ rmap Qred (chem_mix ln1 waters szargut 4 300 (two n2 h2o) (Some "ideal-cond"%string)) = Ok (97184918219 # 1380000)
  /\ stays_gas waters 1 300 (two n2 h2o)
  /\ rmap Qred (chem_mix ln1 waters szargut 1 300 (two n2 h2o) (Some "ideal-cond"%string)) = Ok (38628306073 # 230000)
  /\ chem_mix ln1 waters szargut 1 300 (two n2 h2o) (Some "ideal"%string) = Err KeyError.
Proof.
  split; [apply two_valid |]. split; [reflexivity |].
  split; [split; [reflexivity |]; repeat (split; [vm_compute; reflexivity |]); vm_compute; reflexivity |].
  split; [vm_compute; reflexivity |].
  split; [exists {| e_frac := 18 # 46; e_wr := h2o |}; split; [reflexivity | right; vm_compute; congruence] |].
  split; vm_compute; reflexivity.
Qed.

(** C186 – "a fluid with a value in the table has a chemical exergy" is false: the row of n-pentane in Szargut2007.json names the liquid as reference, whose cell is text. *)
Theorem C186_table_refuted : exists t k r fd q, dget k t = Some r /\ r_gas r = Num q /\ number_of_fluids fd = 1%nat
  /\ (exists e, pure_fluid fd = Some e /\ listed t e r)
  /\ forall ln names pamb Tamb rule, chem_mix ln names t pamb Tamb fd rule = Err TypeError.
Proof.
  exists szargut, "N-PENTANE"%string, {| r_liquid := Text; r_gas := Num (34613 # 10); r_ref := Num 2 |}, (only pentane), (34613 # 10).
  split; [reflexivity |]. split; [reflexivity |]. split; [reflexivity |]. split; [| reflexivity].
  eexists. split; [reflexivity |]. apply listed_head. reflexivity.
Qed.
Print Assumptions C186_table_refuted.

(** C186 – most rows of the tables hold text only: the fluid is listed, and the analysis ends with a TypeError. *)
Theorem C186_missing_refuted : exists t fd r, (exists e, pure_fluid fd = Some e /\ listed t e r)
  /\ number_of_fluids fd = 1%nat /\ forall ln names pamb Tamb rule, chem_mix ln names t pamb Tamb fd rule = Err TypeError.
Proof.
  exists szargut, (only butene), {| r_liquid := Text; r_gas := Text; r_ref := Text |}.
  split; [| split; reflexivity]. eexists. split; [reflexivity |]. apply listed_head. reflexivity.
Qed.
Print Assumptions C186_missing_refuted.

(** C187 – "fluids with a fraction below the precision do not count" is false of chemical exergy: a trace of a fluid without value ends the analysis. *)
Theorem C187_trace_refuted : exists t fd fd' k e, number_of_fluids fd = number_of_fluids fd'
  /\ dget k fd = Some e /\ e_frac e == 0 /\ (exists e', dget k fd' = Some e' /\ 0 < e_frac e' /\ larger (e_frac e') = false)
  /\ (exists v, chem_mix ln1 waters t 1 300 fd (Some "ideal-cond"%string) = Ok v)
  /\ chem_mix ln1 waters t 1 300 fd' (Some "ideal-cond"%string) = Err TypeError.
Proof.
  exists szargut, (trace butene 0), (trace butene (1 # 10000000)), "x"%string, {| e_frac := 0; e_wr := butene |}.
  split; [reflexivity |]. split; [reflexivity |]. split; [reflexivity |]. split.
  { eexists. split; [reflexivity |]. split; reflexivity. }
  split; [eexists; vm_compute; reflexivity | vm_compute; reflexivity].
Qed.
Print Assumptions C187_trace_refuted.

(** C187 – a fraction that is negative by less than the precision ends in the logarithm of a negative number. *)
Theorem C187_negative_refuted : exists fd k e, dget k fd = Some e /\ - (1 # 1000000) < e_frac e < 0 /\ sumd fd (fun _ e => e_frac e) == 1
  /\ (exists y, gas_value szargut e y)
  /\ chem_mix ln1 waters szargut 1 300 fd (Some "ideal-cond"%string) = Err ValueError.
Proof.
  exists (trace pentane (-1 # 10000000)), "x"%string, {| e_frac := -1 # 10000000; e_wr := pentane |}.
  split; [reflexivity |]. split; [split; reflexivity |]. split; [vm_compute; reflexivity |].
  split; [exists (34613 # 10); apply gas_number; reflexivity | vm_compute; reflexivity].
Qed.
Print Assumptions C187_negative_refuted.
