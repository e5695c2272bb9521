(** Fluids and tables for the statements about chemical exergy. *)
From Coq Require Import QArith Lqa.
From Verif Require Import Base MixModel MixSpec ChemExModel.
Open Scope Q_scope.

(** A fluid with the given molar mass and names; water boils at 300 K times the
    pressure *)
Definition wra (M : Q) (al : list string) : wrapper :=
  {| w_M := M; w_Tmin := 200; w_Tmax := 1000; w_pmin := 0; w_aliases := al; w_below := fun T => Qle_bool T 600;
     w_psat := fun T => T / 300; w_Tsat := fun p => 300 * p; w_hpT := fun _ T => T; w_spT := fun p T => T - p; w_dpT := fun _ _ => 1;
     w_vis := fun _ _ => 1; w_hQT := fun _ _ => 0; w_sQT := fun _ _ => 0; w_dQT := fun _ _ => 0 |}.
Definition n2 : wrapper := wra (28 # 1000) ["Nitrogen"; "NITROGEN"; "N2"]%string.
Definition h2o : wrapper := wra (18 # 1000) ["Water"; "water"; "WATER"; "H2O"]%string.
Definition pentane : wrapper := wra (72 # 1000) ["n-Pentane"; "N-PENTANE"]%string.
Definition butene : wrapper := wra (56 # 1000) ["1-Butene"; "1BUTENE"]%string.
(** data/ChemEx/Szargut2007.json and Ahrendts.json: the rows used here *)
Definition szargut : table :=
  [("NITROGEN", {| r_liquid := Text; r_gas := Num (72 # 100); r_ref := Num 3 |});
   ("WATER", {| r_liquid := Num (9 # 10); r_gas := Num (95 # 10); r_ref := Num 2 |});
   ("N-PENTANE", {| r_liquid := Text; r_gas := Num (34613 # 10); r_ref := Num 2 |});
   ("1BUTENE", {| r_liquid := Text; r_gas := Text; r_ref := Text |})]%string.
(** One fluid, two fluids, two fluids and a trace of a third *)
Definition only (w : wrapper) : fluids := [("x", {| e_frac := 1; e_wr := w |})]%string.
Definition two (w w' : wrapper) : fluids := [("a", {| e_frac := 28 # 46; e_wr := w |}); ("water", {| e_frac := 18 # 46; e_wr := w' |})]%string.
Definition trace (w : wrapper) (x : Q) : fluids :=
  [("a", {| e_frac := 28 # 46; e_wr := n2 |}); ("water", {| e_frac := (18 # 46) - x; e_wr := h2o |}); ("x", {| e_frac := x; e_wr := w |})]%string.
(** A function that is zero at one and negative below, in place of the logarithm *)
Definition ln1 (x : Q) : Q := x - 1.
Definition waters : list string := ["water"; "H2O"]%string.
