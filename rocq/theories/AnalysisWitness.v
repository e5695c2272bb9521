(** Objects used in the examples and refutations of AnalysisProps.v. *)
From Coq Require Import QArith Qabs Lqa.
From Verif Require Import Base ExergyModel AnalysisModel AnalysisSpec AnalysisProofs AnalysisProofs2.
Open Scope Q_scope.

(** Source, turbine and sink; the generator on the power bus loses a tenth. *)
Definition source (group : string) (x : Q) : comp :=
  {| k_label := "source"; k_group := group;
     k_balance := Ok {| E_F := None; E_P := None; E_D := None; epsilon := None;
                        E_bus := Shares (Some 0) (Some x) (Some 0) |};
     k_inlets := 0; k_outlets := 1; k_cat_in := ""; k_cat_out := "water" |}.
Definition sink (group : string) (x : Q) : comp :=
  {| k_label := "sink"; k_group := group;
     k_balance := Ok {| E_F := None; E_P := None; E_D := None; epsilon := None;
                        E_bus := Shares (Some 0) (Some x) (Some 0) |};
     k_inlets := 1; k_outlets := 0; k_cat_in := "water"; k_cat_out := "" |}.
Definition turbine (P F : Q) (bus : bus_value) : comp :=
  {| k_label := "turbine"; k_group := "turbine";
     k_balance := Ok (finish (Some F) (Some P) bus);
     k_inlets := 1; k_outlets := 1; k_cat_in := "water"; k_cat_out := "water" |}.
Definition on (label comp : string) (base : bool) (eff : Q) : bus :=
  {| u_label := label; u_comps := [(comp, {| b_base := base; b_eff := eff |})] |}.
Definition plant (fuel_base : bool) (fuel_eff : Q) : analysis :=
  {| an_F := [on "fuel" "source" fuel_base fuel_eff]; an_P := [on "power" "turbine" false (9#10)];
     an_int := []; an_L := [on "loss" "sink" false 1] |}.
Definition pipes : list link :=
  [{| n_src := "source"; n_tgt := "turbine"; n_cat := "water"; n_chem := 0; n_phys := 100 |};
   {| n_src := "turbine"; n_tgt := "sink"; n_cat := "water"; n_chem := 0; n_phys := 30 |}].
Definition parts : list comp :=
  [source "source" 100; turbine 60 70 (Shares (Some 0) (Some 0) (Some 60)); sink "sink" 30].
Definition shown (x : res (results * list (string * (Q * Q)))) :=
  match x with
  | Ok (r, g) => Some (option_map Qred (o_F r), option_map Qred (o_P r), Qred (o_D r), option_map Qred (o_L r),
                       o_open r, map (fun y => (fst y, (Qred (fst (snd y)), Qred (snd (snd y))))) g)
  | Err _ => None
  end.
(** A simple heat exchanger with the default of [dissipative], delivering heat
    above the ambient temperature to a product bus: the product is nan, no message
    is given. *)
Definition warm (T : Q) : conn :=
  {| x_m := 1; x_p := 1; x_T := T; x_h := T * T / 2; x_s := T;
     x_fluid := {| f_h := fun _ T => T * T / 2; f_s := fun _ T => T |}; x_chem := 0 |}.
Definition heater : comp :=
  {| k_label := "turbine"; k_group := "turbine";
     k_balance := Ok (fst (simple_exergy {| a_p := 1; a_T := 300 |} (-(3150)) None (warm 320) (warm 310)));
     k_inlets := 1; k_outlets := 1; k_cat_in := "water"; k_cat_out := "water" |}.
