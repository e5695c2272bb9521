(** C226, C227: default and custom characteristics. *)
From Coq Require Import String List Bool QArith.
From Verif Require Import Base CharModel CharLoadModel CharLoadSpec CharLoadProofs.
Import ListNotations.
Open Scope string_scope.

(** C226 – after the preparation of a component every characteristic line is available: the one given, else the default of its class, else a line of constant value one. *)
Theorem C226_all : forall lines maps component ps, all_fit lines -> only_lines ps ->
  exists cs, install_all lines maps component ps = Ok cs
    /\ map fst cs = map (fun p => fst (fst p)) ps
    /\ Forall2 (fun p kc => 
         (forall c, snd p = Some c -> snd kc = c)
         /\ (snd p = None -> forall d, entry lines component (fst (fst p)) "DEFAULT" d ->
             snd kc = CLine {| cl_x := ld_x d; cl_y := ld_y d; cl_extrapolate := false |})
         /\ (snd p = None -> no_entry lines component (fst (fst p)) "DEFAULT" ->
             forall x, exists v, evaluate1 (snd kc) x = Ok v /\ (v == 1)%Q)) ps cs.
Proof. exact all_installed. Qed.
Print Assumptions C226_all.

(** C226 – the latter is one everywhere. *)
Theorem C226_unit : forall x, exists v, evaluate1 (CLine unit_line) x = Ok v /\ (v == 1)%Q.
Proof. exact unit_is_one. Qed.
Print Assumptions C226_unit.

(** C226 – custom lines are those of the file of the user. *)
Theorem C226_custom : forall lines maps name d, dget name lines = Some d -> fits d ->
  load_custom_char (Some lines) maps name KLine = inl (CLine {| cl_x := ld_x d; cl_y := ld_y d; cl_extrapolate := false |}).
Proof. exact custom_found. Qed.
Print Assumptions C226_custom.

(** C226 – a missing file is reported as such. *)
Theorem C226_custom_file : forall lines maps name k,
  load_custom_char lines maps name k = inr NoFile <-> match k with KLine => lines = None | KMap => maps = None end.
Proof. exact custom_missing_file. Qed.
Print Assumptions C226_custom_file.

(** C226 – an unknown name is a KeyError. *)
Theorem C226_custom_name : forall lines maps name, dget name lines = None ->
  load_custom_char (Some lines) maps name KLine = inr (Other KeyError).
Proof. exact custom_missing_name. Qed.
Print Assumptions C226_custom_name.

(** C227 – a map without default is replaced by a line that cannot be evaluated as a map. *)
Theorem C227_map_refuted : exists lines maps component parameter c,
  install lines maps component parameter KMap None = Ok c /\ forall x y, evaluate2 c x y = Err AttributeError.
Proof. exact map_without_default. Qed.
Print Assumptions C227_map_refuted.

(** C227 – for every class and parameter without default map. *)
Theorem C227_map_always : forall lines maps component parameter, no_entry maps component parameter "DEFAULT" ->
  exists c, install lines maps component parameter KMap None = Ok c /\ forall x y, evaluate2 c x y = Err AttributeError.
Proof. exact map_never_usable. Qed.
Print Assumptions C227_map_always.

(** C227 – which derived classes find defaults in the files shipped. *)
Theorem C227_tables : has_default "Turbine" "eta_s_char" = true /\ has_default "SteamTurbine" "eta_s_char" = false
  /\ has_default "HeatExchanger" "kA_char1" = true /\ has_default "MovingBoundaryHeatExchanger" "kA_char1" = false
  /\ has_default "SimpleHeatExchanger" "kA_char" = true /\ has_default "SolarCollector" "kA_char" = false
  /\ has_default "ParabolicTrough" "kA_char" = false
  /\ has_default "Condenser" "kA_char1" = true /\ has_default "Desuperheater" "kA_char2" = true /\ has_default "Pipe" "kA_char" = true.
Proof. exact subclass_without_default. Qed.
Print Assumptions C227_tables.

(** C227 – so the characteristic of a derived class differs from the default of its base class. *)
Theorem C227_subclass_refuted : exists lines maps parent child parameter d x v,
  entry lines parent parameter "DEFAULT" d /\ fits d
  /\ no_entry lines child parameter "DEFAULT"
  /\ evaluate1 (CLine {| cl_x := ld_x d; cl_y := ld_y d; cl_extrapolate := false |}) x = Ok v /\ ~ (v == 1)%Q
  /\ component_of "Turbine" = Some parent /\ component_of "SteamTurbine" = Some child
  /\ exists c w, install lines maps child parameter KLine None = Ok c /\ evaluate1 c x = Ok w /\ (w == 1)%Q.
Proof. exact subclass_line_differs. Qed.
Print Assumptions C227_subclass_refuted.

Example C226_ex : 
  let lines := [("pump", [("eta_s_char", [("DEFAULT", {| ld_x := [0; 1]%Q; ld_y := [1 # 2; 1]%Q |})])])] in
  all_fit lines /\ only_lines [("eta_s_char", KLine, None); ("flow_char", KLine, None)]
  /\ exists cs, install_all lines [] "pump" [("eta_s_char", KLine, None); ("flow_char", KLine, None)] = Ok cs /\ List.length cs = 2%nat.
Proof.
  split; [|split].
  - intros c p n d (t1 & t2 & H1 & H2 & H3). cbn in H1. destruct (String.eqb c "pump"); inversion H1; subst.
    cbn in H2. destruct (String.eqb p "eta_s_char"); inversion H2; subst. cbn in H3. destruct (String.eqb n "DEFAULT"); inversion H3; subst.
    reflexivity.
  - repeat constructor; discriminate.
  - eexists. split; reflexivity.
Qed.
