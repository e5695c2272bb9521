(** Networks whose reports are looked at. *)
From Coq Require Import Lia.
From Verif Require Import Base XrefModel XrefSpec XrefProofs XrefProofs2 XrefProofs3.
Open Scope string_scope.
Open Scope list_scope.

(** Heat exchangers with characteristics (heat_exchangers/base.py 275-283), turbines with their
    efficiency characteristic (turbine.py 160-172). *)
Definition hx (labels : list string) : cl := {|
  c_name := "HeatExchanger"; c_constr := [Single "mass_flow_constraints"; Single "fluid_constraints"; Single "energy_balance_constraints"];
  c_comps := labels; c_params := [("pr1", true); ("ttd_min", false)];
  c_groups := [("kA_char", true, [("kA_char1", Some KLine); ("kA_char2", Some KLine)])]; c_chars := [];
  c_char := fun l p => if String.eqb l "hx 1" then (if String.eqb p "kA_char1" then 1 else 2) else if String.eqb p "kA_char1" then 3 else 4 |}.
Definition turbine : cl := {|
  c_name := "Turbine"; c_constr := [Single "mass_flow_constraints"; Single "fluid_constraints"];
  c_comps := ["turbine"]; c_params := [("pr", true)]; c_groups := []; c_chars := [("eta_s_char", true, KLine)];
  c_char := fun _ _ => 5 |}.
Definition row (l : string) (c : nat) : brow := {| w_comp := l; w_char := c; w_const := false; w_base := false |}.
(** The power of the turbine and the heat of the exchanger on busses. *)
Definition plant : net := {|
  n_mode := "design"; n_props := [Pm; Pp; PT]; n_fluids := ["water"];
  n_udes := [{| u_label := "pressure ratio"; u_lines := [7]; u_maps := [] |}];
  n_classes := [hx ["hx 1"; "hx 2"]; turbine];
  n_busses := [{| b_set := true; b_rows := [row "turbine" 6] |}; {| b_set := false; b_rows := [row "hx 1" 6; row "turbine" 6] |}] |}.

Lemma plain_hx : plain "HeatExchanger". Proof. apply no_us_plain. reflexivity. Qed.
Lemma plain_turbine : plain "Turbine". Proof. apply no_us_plain. reflexivity. Qed.
Ltac nodup := repeat (constructor; [cbn; intuition discriminate|]); constructor.

Lemma hx_documented : forall ls, charts_documented (hx ls).
Proof.
  intros ls. split.
  - intros c d k [].
  - intros g d es e k [H|[]] I. injection H as <- <- <-. split; [reflexivity|].
    intros (g' & es' & k' & [J|[]] & J'). injection J as <- <-. cbn in J'. destruct J' as [J'|[J'|[]]]; discriminate J'.
Qed.
Lemma turbine_documented : charts_documented turbine.
Proof.
  split.
  - intros c d k [H|[]]. injection H as <- <- <-. split; [reflexivity|]. intros (g' & es' & k' & [] & _).
  - intros g d es e k [].
Qed.

Lemma plant_names : distinct_names plant.
Proof.
  split; [nodup|split; [nodup|split; [intros [] [H|[]]; discriminate H|split; [nodup|split; [nodup|]]]]].
  intros m [<-|[<-|[]]].
  - split; [apply plain_hx|split; [cbn; intuition discriminate|nodup]].
  - split; [apply plain_turbine|split; [cbn; intuition discriminate|nodup]].
Qed.

Lemma hx_drawable : forall ls p, drawable (hx ls) p -> p = "kA_char1" \/ p = "kA_char2".
Proof.
  intros ls p [H|[(d & k & [])|(g & d & es & k & [H|[]] & I)]].
  - cbn in H. destruct H as [H|[H|[H|[]]]]; discriminate H.
  - injection H as <- <- <-. cbn in I. destruct I as [I|[I|[]]]; injection I as <- _; auto.
Qed.
Lemma turbine_drawable : forall p, drawable turbine p -> p = "eta_s_char".
Proof.
  intros p [H|[(d & k & [H|[]])|(g & d & es & k & [] & _)]].
  - cbn in H. destruct H as [H|[H|[]]]; discriminate H.
  - injection H as <- _ _. reflexivity.
Qed.
Lemma plant_files : distinct_files plant.
Proof.
  split; [nodup|split; [nodup|split]].
  - intros m [<-|[<-|[]]].
    + split; [apply plain_hx|split; [discriminate|split; [discriminate|split]]].
      * intros p q r s A B N H. apply hx_drawable in A. apply hx_drawable in B.
        destruct A, B; subst; try (apply N; reflexivity); discriminate H.
      * intros l l' [<-|[<-|[]]] [<-|[<-|[]]] E; (reflexivity || discriminate E).
    + split; [apply plain_turbine|split; [discriminate|split; [discriminate|split]]].
      * intros p q r s A B N H. apply turbine_drawable in A. apply turbine_drawable in B. congruence.
      * intros l l' [<-|[]] [<-|[]] E; reflexivity.
  - intros b b' r r' [<-|[<-|[]]] [<-|[<-|[]]] I J; cbn in I, J;
      repeat match goal with H : _ \/ _ |- _ => destruct H | H : False |- _ => destruct H end; subst; reflexivity.
Qed.

(** Two busses with given totals. *)
Definition totals_twice : net := {|
  n_mode := "design"; n_props := [Pm]; n_fluids := ["water"]; n_udes := []; n_classes := [turbine];
  n_busses := [{| b_set := true; b_rows := [row "turbine" 6] |}; {| b_set := true; b_rows := [row "turbine" 6] |}] |}.
Lemma totals_twice_bad : distinct_names totals_twice /\ ~ NoDup (eq_labels (report totals_twice)).
Proof.
  split.
  - split; [nodup|split; [nodup|split; [intros [] [H|[]]; discriminate H|split; [nodup|split; [nodup|]]]]].
    intros m [<-|[]]. split; [apply plain_turbine|split; [cbn; intuition discriminate|nodup]].
  - intros N. assert (D : forall l : list string, NoDup l -> forall x a b, l = a ++ x :: x :: b -> False).
    { intros l M x a. revert l M. induction a as [|y a IH]; intros l M b ->.
      - inversion M as [|? ? Q _]. apply Q. left. reflexivity.
      - inversion M as [|? ? _ M']. exact (IH _ M' b eq_refl). }
    apply (D _ N "Bus_energy_flow_sum" ["Connection_mass flow"; "Connection_water"; "Turbine_mass_flow_constraints"; "Turbine_fluid_constraints"; "Turbine_pr"; "Turbine_eta_s_char"] []).
    reflexivity.
Qed.

(** Labels that differ in a space. *)
Definition spaced : net := {|
  n_mode := "design"; n_props := [Pm]; n_fluids := ["water"]; n_udes := []; n_classes := [hx ["hx 1"; "hx_1"]]; n_busses := [] |}.
Lemma spaced_bad : NoDup (c_comps (hx ["hx 1"; "hx_1"])) /\ distinct_names spaced /\ ~ figures_right (report spaced).
Proof.
  split; [nodup|split].
  - split; [nodup|split; [nodup|split; [intros [] [H|[]]; discriminate H|split; [constructor|split; [nodup|]]]]].
    intros m [<-|[]]. split; [apply plain_hx|split; [cbn; intuition discriminate|nodup]].
  - intros H. specialize (H "CharLine_kA_char1_hx 1" "figures/HeatExchanger_CharLine_kA_char1_hx_1.pdf" 1).
    assert (I : In (Fig "CharLine_kA_char1_hx 1" "figures/HeatExchanger_CharLine_kA_char1_hx_1.pdf" 1) (report spaced))
      by (cbn; tauto).
    specialize (H I). vm_compute in H. discriminate H.
Qed.

(** A component with two characteristics on two busses. *)
Definition two_lines : net := {|
  n_mode := "design"; n_props := [Pm]; n_fluids := ["water"]; n_udes := []; n_classes := [turbine];
  n_busses := [{| b_set := true; b_rows := [row "turbine" 6] |}; {| b_set := false; b_rows := [row "turbine" 8] |}] |}.
Lemma two_lines_bad : ~ figures_right (report two_lines) /\ ~ NoDup (fig_labels (report two_lines)).
Proof.
  split.
  - intros H. specialize (H "Bus_CharLine_turbinedesign" "figures/Bus_CharLine_turbinedesign.pdf" 6).
    assert (I : In (Fig "Bus_CharLine_turbinedesign" "figures/Bus_CharLine_turbinedesign.pdf" 6) (report two_lines)) by (cbn; tauto).
    specialize (H I). vm_compute in H. discriminate H.
  - intros N. vm_compute in N. inversion N as [|? ? _ N']. inversion N' as [|? ? M _]. apply M. left. reflexivity.
Qed.

(** A user defined equation with a line and a map. *)
Definition line_and_map : net := {|
  n_mode := "design"; n_props := [Pm]; n_fluids := ["water"]; n_udes := [{| u_label := "law"; u_lines := [1]; u_maps := [2] |}];
  n_classes := [turbine]; n_busses := [] |}.
Lemma line_and_map_bad : ~ NoDup (fig_labels (report line_and_map)).
Proof. intros N. vm_compute in N. inversion N as [|? ? M _]. apply M. left. reflexivity. Qed.
