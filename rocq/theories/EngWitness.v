(** Concrete libraries for the examples: a liquid whose properties depend on the temperature
    only. *)
From Coq Require Import QArith Lqa.
From Verif Require Import Base NewtonModel MixModel PhModel EngModel EngSpec.
Open Scope Q_scope.

(** The liquid at temperature [T] in the units of CoolProp *)
Definition liq (T : Q) : cstate :=
  {| g_T := T; g_h := 4000 * T; g_s := 10 * T; g_p := 1000 * T; g_rho := 1000; g_Q := 0; g_phase := CLiq; g_vis := Ok (1#1000) |}.
Definition demo_cp : coolprop :=
  {| cp_update := fun i a b => Ok (liq match i with HmassP => a / 4000 | PSmass => b / 10 | PQ_in => a / 1000 | PT_in => b | QT_in => b end);
     cp_after := fun s _ _ _ => s |}.
(** The same in the units of iapws *)
Definition iliq (T : Q) : istate :=
  {| i_T := T; i_P := T / 1000; i_h := 4 * T; i_s := T / 100; i_rho := 1000; i_x := 0; i_mu := 1#1000; i_phase := ILiquid |}.
Definition demo_ia : iapws := fun i a b =>
  Ok (iliq match i with I_hP => a / 4 | I_sP => a * 100 | I_Px => a * 1000 | I_PT => b | I_Tx => a end).

Lemma same_liq : forall T T', T == T' -> same_state (liq T) (iliq T').
Proof.
  intros T T' E. unfold same_state, liq, iliq. cbn. repeat split; try reflexivity; try exact E;
    rewrite E; field.
Qed.
Lemma demo_same : same_fluid demo_cp demo_ia.
Proof.
  constructor; intros; cbn; apply same_liq.
  - rewrite H. field.
  - rewrite H. field.
  - rewrite H. field.
  - assumption.
  - assumption.
Qed.

(** An ideal gas of pyromat *)
Definition demo_py : pyromat := fun i a b =>
  Ok {| y_T := match i with P_ph => b / 1000 | P_ps => b | _ => b end; y_h := 1000 * b; y_s := b; y_d := 1; y_x := 0 |}.
(** A fluid at another phase *)
Definition odd_cp : coolprop :=
  {| cp_update := fun _ _ _ => Ok {| g_T := 300; g_h := 1; g_s := 1; g_p := 1; g_rho := 1; g_Q := - (1); g_phase := COther; g_vis := Err ValueError |};
     cp_after := fun s _ _ _ => s |}.
Definition odd_ia : iapws := fun _ _ _ =>
  Ok {| i_T := 300; i_P := 1; i_h := 1; i_s := 1; i_rho := 1; i_x := 1; i_mu := 1; i_phase := IOther |}.
Definition water_k : consts := {| k_pcrit := 22064000; k_Tcrit := Some 647 |}.

Lemma p_sat_differs :
  same_fluid demo_cp demo_ia
  /\ snd (cp_call water_k demo_cp (liq 300) (M_p_sat 300)) = Ok (Num (1000 * 300))
  /\ ~ both same_value (snd (cp_call water_k demo_cp (liq 300) (M_p_sat 300))) (ia_call 22064000 647 demo_ia (M_p_sat 300)).
Proof. split; [exact demo_same|]. split; [reflexivity|]. cbn. discriminate. Qed.

(** Two fluids in equal parts *)
Definition any_w : wrapper :=
  {| w_M := 1; w_Tmin := 200; w_Tmax := 2000; w_pmin := 1; w_aliases := []; w_below := fun _ => true; w_psat := fun _ => 1;
     w_Tsat := fun _ => 300; w_hpT := fun _ T => T; w_spT := fun _ T => T; w_dpT := fun _ _ => 1; w_vis := fun _ _ => 1;
     w_hQT := fun _ T => T; w_sQT := fun _ T => T; w_dQT := fun _ _ => 1 |}.
Definition mix2 : fluids := [("N2", {| e_frac := 1#2; e_wr := any_w |}); ("O2", {| e_frac := 1#2; e_wr := any_w |})]%string.
