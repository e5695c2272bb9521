(** Proofs about the convergence checks of turbomachines. *)
From Coq Require Import QArith Bool List Lqa Lia.
From Verif Require Import Base UpdateModel FeasSpec.
Import ListNotations.

Lemma qlt_true : forall a b, qlt a b = true -> (a < b)%Q.
Proof. intros a b H. unfold qlt in H. apply negb_true_iff in H. apply Qnot_le_lt. intros C. apply Qle_bool_iff in C. congruence. Qed.
Lemma qlt_false : forall a b, qlt a b = false -> (b <= a)%Q.
Proof. intros a b H. unfold qlt in H. apply negb_false_iff in H. now apply Qle_bool_iff. Qed.
Lemma qle_true : forall a b, qle a b = true -> (a <= b)%Q.
Proof. intros a b H. now apply Qle_bool_iff. Qed.
Lemma qle_false : forall a b, qle a b = false -> (b < a)%Q.
Proof. intros a b H. apply Qnot_le_lt. intros C. apply Qle_bool_iff in C. unfold qle in H. congruence. Qed.

Ltac known :=
  repeat match goal with
  | H : qlt _ _ = true |- _ => apply qlt_true in H
  | H : qlt _ _ = false |- _ => apply qlt_false in H
  | H : qle _ _ = true |- _ => apply qle_true in H
  | H : qle _ _ = false |- _ => apply qle_false in H
  | H : _ && _ = true |- _ => apply andb_prop in H; destruct H
  | H : _ && _ = false |- _ => apply andb_false_iff in H; destruct H
  end.

Ltac ids H :=
  repeat (cbn [v_p v_h v_m set_p set_h set_m] in *; unfold nupd in *;
    rewrite ?Nat.eqb_refl, ?(proj2 (Nat.eqb_neq _ _) H), ?(proj2 (Nat.eqb_neq _ _) (not_eq_sym H)) in *).

Ltac cases :=
  match goal with
  | |- context [if ?b then _ else _] =>
    match b with context [if _ then _ else _] => fail 1 | _ => let E := fresh "E" in destruct b eqn:E end
  end.

Ltac solve_feas := known; try congruence; try lra.

Lemma compressor_p : forall X i o s, two i o -> p_positive i o s -> p_free X i o ->
  p_rises i o (fst (convergence_check X (Compressor i o) s)).
Proof.
  intros X i o s N [P1 P2] F. unfold p_rises. cbn [convergence_check fst]. unfold conv_compressor, two in *. cbn zeta.
  destruct (x_p X (k_id o)) eqn:XO; destruct (x_p X (k_id i)) eqn:XI; cbn [andb];
    try (unfold p_free in F; rewrite XO, XI in F; destruct F; discriminate);
  repeat (cases; ids N); ids N; solve_feas.
Qed.

Lemma compressor_h : forall X i o s, two i o -> h_positive i o s -> h_free X i o ->
  h_rises i o (fst (convergence_check X (Compressor i o) s)).
Proof.
  intros X i o s N [P1 P2] F. unfold h_rises. cbn [convergence_check fst]. unfold conv_compressor, two in *. cbn zeta.
  destruct (x_h X (k_id o)) eqn:XO; destruct (x_h X (k_id i)) eqn:XI; cbn [andb];
    try (unfold h_free in F; rewrite XO, XI in F; destruct F; discriminate);
  repeat (cases; ids N); ids N; solve_feas.
Qed.

Lemma turbine_p : forall X i o s, two i o -> p_positive i o s -> x_p X (k_id o) = true ->
  p_falls i o (fst (convergence_check X (Turbine i o) s)).
Proof.
  intros X i o s N [P1 P2] F. unfold p_falls. cbn [convergence_check fst]. unfold conv_turbine, two in *. cbn zeta.
  rewrite F, !andb_true_r.
  destruct (k_good i); repeat (cases; ids N); ids N; solve_feas.
Qed.

Lemma turbine_h : forall X i o s, two i o -> h_positive i o s -> x_h X (k_id o) = true ->
  h_falls i o (fst (convergence_check X (Turbine i o) s)).
Proof.
  intros X i o s N [P1 P2] F. unfold h_falls. cbn [convergence_check fst]. unfold conv_turbine, two in *. cbn zeta.
  rewrite F, !andb_true_r.
  destruct (k_good i); repeat (cases; ids N); ids N; solve_feas.
Qed.

(** The part of the check of a pump that looks at the flow characteristic. *)
Lemma pump_split : forall X i o flow s, conv_pump X i o flow s =
  let t := fst (conv_pump X i o None s) in
  match flow with
  | None => (t, None)
  | Some (volf, x0, x1, xl) =>
      match volf t with
      | Err e => (t, Some e)
      | Ok vol =>
          if qlt xl (v_m t (k_m i) * vol)%Q && x_m X (k_m i) then (set_m (k_m i) (xl / vol)%Q t, None)
          else if qlt (v_m t (k_m i) * vol)%Q x1 && x_m X (k_m i) then (set_m (k_m i) (x0 / vol)%Q t, None)
          else (t, None)
      end
  end.
Proof. intros X i o [[[[volf x0] x1] xl]|] s; reflexivity. Qed.

(** The flow characteristic does not change pressures and enthalpies. *)
Lemma pump_flow : forall X i o flow s,
  v_p (fst (conv_pump X i o flow s)) = v_p (fst (conv_pump X i o None s))
  /\ v_h (fst (conv_pump X i o flow s)) = v_h (fst (conv_pump X i o None s)).
Proof.
  intros X i o flow s. rewrite pump_split. cbn zeta. set (t := fst (conv_pump X i o None s)). clearbody t.
  destruct flow as [[[[volf x0] x1] xl]|]; [|split; reflexivity].
  destruct (volf t) as [vol|e]; [|split; reflexivity].
  destruct (_ && _); [split; reflexivity|]. destruct (_ && _); split; reflexivity.
Qed.

Lemma pump_p : forall X i o flow s, two i o -> p_positive i o s -> x_p X (k_id i) = true ->
  p_rises i o (fst (convergence_check X (Pump i o flow) s)).
Proof.
  intros X i o flow s N [P1 P2] F. unfold p_rises. cbn [convergence_check].
  destruct (pump_flow X i o flow s) as [-> _]. unfold conv_pump, two in *. cbn zeta. cbn [fst]. rewrite F. cbn [andb].
  destruct (x_p X (k_id o)); cbn [andb]; repeat (cases; ids N); ids N; solve_feas.
Qed.

Lemma pump_h : forall X i o flow s, two i o -> h_positive i o s -> x_h X (k_id i) = true ->
  h_rises i o (fst (convergence_check X (Pump i o flow) s)).
Proof.
  intros X i o flow s N [P1 P2] F. unfold h_rises. cbn [convergence_check].
  destruct (pump_flow X i o flow s) as [_ ->]. unfold conv_pump, two in *. cbn zeta. cbn [fst]. rewrite F. cbn [andb].
  destruct (x_h X (k_id o)); cbn [andb]; repeat (cases; ids N); ids N; solve_feas.
Qed.

Lemma andb_r_false : forall b c, c = false -> b && c = false.
Proof. intros; subst; apply andb_false_r. Qed.
Lemma not_qlt : forall a b, (b <= a)%Q -> qlt a b = false.
Proof. intros a b H. unfold qlt. apply negb_false_iff. now apply Qle_bool_iff. Qed.
Lemma not_qle : forall a b, (b < a)%Q -> qle a b = false.
Proof. intros a b H. destruct (qle a b) eqn:E; [|reflexivity]. apply qle_true in E. lra. Qed.

Lemma compressor_keeps : forall X i o s, p_rises i o s -> h_rises i o s ->
  convergence_check X (Compressor i o) s = (s, None).
Proof.
  intros X i o s P H. unfold p_rises, h_rises in *. cbn [convergence_check]. unfold conv_compressor. cbn zeta.
  assert (E1 : qlt (v_p s (k_id o)) (v_p s (k_id i)) = false) by now apply not_qlt.
  assert (E2 : qlt (v_h s (k_id o)) (v_h s (k_id i)) = false) by now apply not_qlt.
  repeat first [rewrite E1 | rewrite E2 | rewrite andb_false_r]. reflexivity.
Qed.

Lemma turbine_keeps : forall X i o s, k_good i = true -> p_falls i o s -> h_falls i o s ->
  convergence_check X (Turbine i o) s = (s, None).
Proof.
  intros X i o s G P H. unfold p_falls, h_falls in *. cbn [convergence_check]. unfold conv_turbine. cbn zeta. rewrite G.
  assert (E1 : qle (v_p s (k_id i)) (v_p s (k_id o)) = false) by now apply not_qle.
  assert (E2 : qle (v_h s (k_id i)) (v_h s (k_id o)) = false) by now apply not_qle.
  repeat first [rewrite E1 | rewrite E2 | rewrite andb_false_l]. reflexivity.
Qed.

Lemma pump_keeps : forall X i o s, p_rises i o s -> h_rises i o s ->
  convergence_check X (Pump i o None) s = (s, None).
Proof.
  intros X i o s P H. unfold p_rises, h_rises in *. cbn [convergence_check]. unfold conv_pump. cbn zeta.
  assert (E1 : qlt (v_p s (k_id o)) (v_p s (k_id i)) = false) by now apply not_qlt.
  assert (E2 : qlt (v_h s (k_id o)) (v_h s (k_id i)) = false) by now apply not_qlt.
  repeat first [rewrite E1 | rewrite E2 | rewrite andb_false_r]. reflexivity.
Qed.

(** Volume flow of a pump with characteristic: ends up between the first and the last point. *)
Lemma pump_range : forall X i o volf x0 x1 xl s vol, 
  x_m X (k_m i) = true -> (x0 <= x1)%Q -> (x0 <= xl)%Q -> (0 < vol)%Q -> (forall s', volf s' = Ok vol) ->
  let s' := fst (convergence_check X (Pump i o (Some (volf, x0, x1, xl))) s) in
  (x0 <= v_m s' (k_m i) * vol /\ v_m s' (k_m i) * vol <= xl)%Q.
Proof.
  intros X i o volf x0 x1 xl s vol F L01 L0l PV V. cbn zeta. cbn [convergence_check]. rewrite pump_split. cbn zeta.
  set (t := fst (conv_pump X i o None s)). clearbody t. rewrite V, F, !andb_true_r.
  assert (D : forall a, (a / vol * vol == a)%Q) by (intros a; field; lra).
  destruct (qlt xl (v_m t (k_m i) * vol)) eqn:E1; [|destruct (qlt (v_m t (k_m i) * vol) x1) eqn:E2]; known; cbn [fst v_m set_m];
    unfold nupd; rewrite ?Nat.eqb_refl, ?D; split; lra.
Qed.

(** *** Where the checks fail *)

Definition cn (n : nat) : conn :=
  {| k_id := n; k_m := 0; k_fl := 0; k_good := true; k_T := false; k_Td := false; k_Tdv := 0; k_state := None;
     k_wrap := []; k_hmix := fun _ _ _ => Ok 0%Q |}.
Definition st_of (p h : nat -> Q) (m : Q) : vstate :=
  {| v_m := fun _ => m; v_p := p; v_h := h; v_f := fun _ => []; v_c := fun _ => 0%Q; v_fd := fun _ => [] |}.
Definition two_of (a b : Q) (n : nat) : Q := match n with O => a | _ => b end.
Definition all_free : unknowns := {| x_m := fun _ => true; x_p := fun _ => true; x_h := fun _ => true; x_f := fun _ => [] |}.
Definition only_out : unknowns := {| x_m := fun _ => false; x_p := fun n => Nat.eqb n 1; x_h := fun n => Nat.eqb n 1; x_f := fun _ => [] |}.
Definition only_in : unknowns := {| x_m := fun _ => false; x_p := fun n => Nat.eqb n 0; x_h := fun n => Nat.eqb n 0; x_f := fun _ => [] |}.

Lemma compressor_negative : exists X i o s, two i o /\ x_h X (k_id i) = true /\ x_h X (k_id o) = true
  /\ ~ h_rises i o (fst (convergence_check X (Compressor i o) s)).
Proof.
  exists all_free, (cn 0), (cn 1), (st_of (two_of 1 2) (two_of (-100) (-200)) 1).
  split; [discriminate|]. split; [reflexivity|]. split; [reflexivity|]. unfold h_rises. vm_compute. intros H. now apply H.
Qed.

Lemma turbine_negative : exists X i o s, two i o /\ x_h X (k_id i) = true /\ x_h X (k_id o) = true /\ k_good i = true
  /\ ~ h_falls i o (fst (convergence_check X (Turbine i o) s)).
Proof.
  exists all_free, (cn 0), (cn 1), (st_of (two_of 2 1) (two_of (-200) (-100)) 1).
  split; [discriminate|]. split; [reflexivity|]. split; [reflexivity|]. split; [reflexivity|]. unfold h_falls. vm_compute. discriminate.
Qed.

Lemma turbine_inlet : exists X i o s, two i o /\ p_positive i o s /\ p_free X i o
  /\ ~ p_falls i o (fst (convergence_check X (Turbine i o) s)).
Proof.
  exists only_in, (cn 0), (cn 1), (st_of (two_of 1 2) (two_of 1 1) 1).
  split; [discriminate|]. split; [split; reflexivity|]. split; [left; reflexivity|]. unfold p_falls. vm_compute. discriminate.
Qed.

Lemma pump_outlet : exists X i o s, two i o /\ p_positive i o s /\ p_free X i o
  /\ ~ p_rises i o (fst (convergence_check X (Pump i o None) s)).
Proof.
  exists only_out, (cn 0), (cn 1), (st_of (two_of 10 1) (two_of 1 1) 1).
  split; [discriminate|]. split; [split; reflexivity|]. split; [right; reflexivity|]. unfold p_rises. vm_compute. intros H. now apply H.
Qed.

Lemma pump_stops : exists X i o volf x0 x1 xl s vol, x_m X (k_m i) = true /\ (forall s', volf s' = Ok vol)
  /\ (x0 < v_m s (k_m i) * vol)%Q /\ (v_m s (k_m i) * vol < xl)%Q /\ p_rises i o s /\ h_rises i o s
  /\ (v_m (fst (convergence_check X (Pump i o (Some (volf, x0, x1, xl))) s)) (k_m i) == 0)%Q.
Proof.
  exists all_free, (cn 0), (cn 1), (fun _ => Ok (1 # 1000)%Q), 0%Q, (1 # 100)%Q, (1 # 10)%Q, (st_of (two_of 1 2) (two_of 1 2) 9), (1 # 1000)%Q.
  split; [reflexivity|]. split; [reflexivity|]. split; [reflexivity|]. split; [reflexivity|].
  split; [discriminate|]. split; [discriminate|]. reflexivity.
Qed.
