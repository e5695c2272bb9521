(** Proofs about exergy and entropy balances. *)
From Coq Require Import QArith Lqa.
From Verif Require Import Base ExergyModel ExergySpec.
Open Scope Q_scope.

Lemma ge_iff : forall a b, ge a b = true <-> b <= a.
Proof. intros a b. unfold ge. apply Qle_bool_iff. Qed.
Lemma gt_iff : forall a b, gt a b = true <-> b < a.
Proof.
  intros a b. unfold gt. destruct (Qle_bool a b) eqn:E; cbn [negb].
  - apply Qle_bool_iff in E. split; [discriminate | intro; lra].
  - split; [intros _ | reflexivity]. apply Qnot_le_lt. intro H. apply Qle_bool_iff in H. congruence.
Qed.
Lemma ge_false : forall a b, ge a b = false -> a < b.
Proof.
  intros a b E. unfold ge in E. apply Qnot_le_lt. intro H. apply Qle_bool_iff in H. congruence.
Qed.
Lemma gt_false : forall a b, gt a b = false -> a <= b.
Proof.
  intros a b E. unfold gt in E. apply Bool.negb_false_iff in E. apply Qle_bool_iff. exact E.
Qed.

Lemma flow_is_physical : forall a c, Ex_physical a c == flow_exergy a c.
Proof. intros. unfold Ex_physical, ex_physical, ex_therm, ex_mech, flow_exergy. ring. Qed.
Lemma physical_split : forall a c, Ex_therm a c + Ex_mech a c == flow_exergy a c.
Proof. intros. unfold Ex_therm, Ex_mech, ex_therm, ex_mech, flow_exergy. ring. Qed.
Lemma physical_specific : forall a c, x_m c * ex_physical a c == flow_exergy a c.
Proof. intros. apply flow_is_physical. Qed.

Lemma dead_state : forall a c, at_state c -> x_T c = a_T a ->
  ex_therm a c == 0 /\ (x_p c = a_p a -> ex_mech a c == 0).
Proof.
  intros a c (H & S) T. rewrite T in H, S. unfold ex_therm, ex_mech. split.
  - rewrite H, S. ring.
  - intro P. rewrite P. ring.
Qed.

(** decide every test of the code *)
Ltac cases_T :=
  repeat match goal with
  | |- context [ge ?a ?b] => let E := fresh "E" in destruct (ge a b) eqn:E;
      [apply ge_iff in E | apply ge_false in E]
  | |- context [gt ?a ?b] => let E := fresh "E" in destruct (gt a b) eqn:E;
      [apply gt_iff in E | apply gt_false in E]
  end.
Ltac flows a :=
  repeat match goal with
  | |- context [Ex_physical a ?c] => rewrite (flow_is_physical a c)
  end;
  repeat match goal with
  | |- context [Ex_therm a ?c] =>
      let H := fresh "X" in pose proof (physical_split a c) as H;
      let t := fresh "t" in let m := fresh "m" in
      set (t := Ex_therm a c) in *; set (m := Ex_mech a c) in *; clearbody t m
  end;
  repeat match goal with
  | |- context [Ex_mech a ?c] =>
      let H := fresh "X" in pose proof (physical_split a c) as H;
      let t := fresh "t" in let m := fresh "m" in
      set (t := Ex_therm a c) in *; set (m := Ex_mech a c) in *; clearbody t m
  end.

Lemma turbine_destruction : forall a P i o,
  (E_D (turbine_exergy a P i o) = None <-> x_T i < a_T a < x_T o)
  /\ forall d, E_D (turbine_exergy a P i o) = Some d -> d == net a P [i] [o].
Proof.
  intros a P i o. unfold turbine_exergy, finish, net.
  cases_T; cbn [andb E_D nsub nlift sum_of fold_right];
    (split; [split; intro H; try discriminate H; try lra; try reflexivity
            | intros d H; try discriminate H; injection H as <-; flows a; lra]).
Qed.

Lemma compressor_destruction : forall a P i o,
  (E_D (compressor_exergy a P i o) = None <-> x_T o < a_T a < x_T i)
  /\ forall d, E_D (compressor_exergy a P i o) = Some d -> d == net a P [i] [o].
Proof.
  intros a P i o. unfold compressor_exergy, finish, net.
  cases_T; cbn [andb E_D nsub nlift sum_of fold_right];
    (split; [split; intro H; try discriminate H; try lra; try reflexivity
            | intros d H; try discriminate H; injection H as <-; flows a; lra]).
Qed.

Lemma valve_destruction : forall a i o,
  (E_D (valve_exergy a i o) = None <-> x_T i <= a_T a < x_T o)
  /\ forall d, E_D (valve_exergy a i o) = Some d -> d == net a 0 [i] [o].
Proof.
  intros a i o. unfold valve_exergy, finish_nan, net.
  cases_T; cbn [andb E_D nsub nlift isnan sum_of fold_right];
    (split; [split; intro H; try discriminate H; try lra; try reflexivity
            | intros d H; try discriminate H; injection H as <-; flows a; lra]).
Qed.

Lemma hx_destruction : forall a i1 i2 o1 o2,
  reports (E_D (hx_exergy a i1 i2 o1 o2)) (net a 0 [i1; i2] [o1; o2]).
Proof.
  intros a i1 i2 o1 o2. unfold hx_exergy, finish_nan, net, reports. cbn [forallb].
  repeat match goal with
  | |- context [if ?b then (_, _) else _] => destruct b
  end; cbn [E_D nsub nlift isnan sum_of fold_right];
    (eexists; split; [reflexivity | flows a; lra]).
Qed.

Lemma drum_destruction : forall a i1 i2 o1 o2,
  reports (E_D (drum_exergy a i1 i2 o1 o2)) (net a 0 [i1; i2] [o1; o2]).
Proof.
  intros. unfold drum_exergy, finish, net, reports. cbn [E_D nsub nlift sum_of fold_right].
  eexists; split; [reflexivity | flows a; lra].
Qed.

(** total exergy with the chemical share *)
Lemma chamber_destruction : forall a b i1 i2 o,
  reports (E_D (chamber_exergy a b i1 i2 o))
    (net a 0 [i1; i2] [o] + (x_m i1 * x_chem i1 + x_m i2 * x_chem i2 - x_m o * x_chem o)).
Proof.
  intros. unfold chamber_exergy, finish, net, reports, Ex_chemical. cbn [E_D nsub nlift sum_of fold_right].
  eexists; split; [reflexivity | flows a; lra].
Qed.

(* ----------------------------------------------------------------- merge *)

Lemma merge_sum : forall a o (g : conn -> Q * Q -> Q * Q),
  (forall i acc, fst (g i acc) - snd (g i acc)
     == fst acc - snd acc + (Ex_physical a i - x_m i * ex_physical a o)) ->
  forall ins acc, fst (fold_left (fun acc i => g i acc) ins acc) - snd (fold_left (fun acc i => g i acc) ins acc)
    == fst acc - snd acc + (sum_of ins (flow_exergy a) - sum_of ins x_m * ex_physical a o).
Proof.
  intros a o g G. induction ins as [| i ins IH]; intro acc; cbn [fold_left sum_of fold_right].
  - lra.
  - rewrite IH, G, flow_is_physical. fold (sum_of ins (flow_exergy a)). fold (sum_of ins x_m). lra.
Qed.
Lemma above_sum : forall a o i acc,
  fst (merge_above a o i acc) - snd (merge_above a o i acc)
  == fst acc - snd acc + (Ex_physical a i - x_m i * ex_physical a o).
Proof.
  intros a o i [F P]. unfold merge_above, Ex_physical.
  destruct (gt (x_T o) (x_T i)); [destruct (ge (x_T i) (a_T a)) |]; cbn [fst snd]; ring.
Qed.
Lemma below_sum : forall a o i acc,
  fst (merge_below a o i acc) - snd (merge_below a o i acc)
  == fst acc - snd acc + (Ex_physical a i - x_m i * ex_physical a o).
Proof.
  intros a o i [F P]. unfold merge_below, Ex_physical.
  destruct (gt (x_T i) (x_T o)); [destruct (ge (x_T i) (a_T a)) |]; cbn [fst snd]; ring.
Qed.
Lemma merge_destruction : forall a ins o,
  (E_D (merge_exergy a ins o) = None <-> x_T o == a_T a)
  /\ (sum_of ins x_m == x_m o ->
      forall d, E_D (merge_exergy a ins o) = Some d -> d == net a 0 ins [o]).
Proof.
  intros a ins o. unfold merge_exergy, finish, net.
  destruct (gt (x_T o) (a_T a)) eqn:G.
  - apply gt_iff in G.
    pose proof (merge_sum a o (merge_above a o) (above_sum a o) ins (0, 0)) as H.
    destruct (fold_left (fun acc i => merge_above a o i acc) ins (0, 0)) as [F P]. cbn [fst snd] in H.
    cbn [E_D nsub nlift]. split; [split; intro X; [discriminate X | lra] |].
    intros M d X. injection X as <-. cbn [sum_of fold_right]. rewrite M, physical_specific in H. lra.
  - apply gt_false in G. destruct (Qeq_bool (x_T o) (a_T a)) eqn:EQ.
    + apply Qeq_bool_iff in EQ. cbn [E_D nsub nlift]. split; [split; [intros _; exact EQ | reflexivity] |].
      intros _ d X. discriminate X.
    + apply Qeq_bool_neq in EQ.
      pose proof (merge_sum a o (merge_below a o) (below_sum a o) ins (0, 0)) as H.
      destruct (fold_left (fun acc i => merge_below a o i acc) ins (0, 0)) as [F P]. cbn [fst snd] in H.
      cbn [E_D nsub nlift]. split; [split; intro X; [discriminate X | contradiction] |].
      intros M d X. injection X as <-. cbn [sum_of fold_right]. rewrite M, physical_specific in H. lra.
Qed.

(* --------------------------------------------------------- Gouy-Stodola *)

(** One stream with power: net exergy is ambient temperature times entropy. *)
Lemma stream_net : forall a W i o, same_stream i o -> W == x_m i * (x_h o - x_h i) ->
  net a W [i] [o] == a_T a * produced [i] [o].
Proof.
  intros a W i o (M & F) E. unfold net, produced, flow_exergy. cbn [sum_of fold_right].
  rewrite F, M, E. ring.
Qed.
Lemma produced_flow : forall i o, same_stream i o -> produced [i] [o] == flow_entropy i o.
Proof. intros i o (M & _). unfold produced, flow_entropy. cbn [sum_of fold_right]. rewrite M. ring. Qed.
Lemma two_net : forall a i1 i2 o1 o2, same_stream i1 o1 -> same_stream i2 o2 ->
  x_m i1 * (x_h o1 - x_h i1) + x_m i2 * (x_h o2 - x_h i2) == 0 ->
  net a 0 [i1; i2] [o1; o2] == a_T a * produced [i1; i2] [o1; o2].
Proof.
  intros a i1 i2 o1 o2 (M1 & F1) (M2 & F2) E. unfold net, produced, flow_exergy. cbn [sum_of fold_right].
  rewrite F1, F2, M1, M2. lra.
Qed.
Lemma hx_produced : forall s1 s2 i1 i2 o1 o2, same_stream i1 o1 -> same_stream i2 o2 ->
  hx_entropy s1 s2 i1 i2 o1 o2 == produced [i1; i2] [o1; o2].
Proof.
  intros s1 s2 i1 i2 o1 o2 (M1 & _) (M2 & _). unfold hx_entropy, side_entropy, produced.
  cbn [sum_of fold_right]. rewrite M1, M2. ring.
Qed.

(** Several streams of one fluid *)
Lemma sum_flow : forall a f l, (forall c, In c l -> x_fluid c = f) ->
  sum_of l (flow_exergy a) == sum_of l (fun c => x_m c * x_h c) - sum_of l x_m * f_h f (a_p a) (a_T a)
    - a_T a * (sum_of l (fun c => x_m c * x_s c) - sum_of l x_m * f_s f (a_p a) (a_T a)).
Proof.
  intros a f. induction l as [| c l IH]; intro H; cbn [sum_of fold_right]; [ring |].
  fold (sum_of l (flow_exergy a)). fold (sum_of l (fun c => x_m c * x_h c)). fold (sum_of l x_m).
  fold (sum_of l (fun c => x_m c * x_s c)).
  rewrite IH by (intros; apply H; now right). unfold flow_exergy. rewrite (H c) by now left. ring.
Qed.
Lemma mixed_net : forall a f ins outs, (forall c, In c (ins ++ outs)%list -> x_fluid c = f) ->
  sum_of ins x_m == sum_of outs x_m ->
  sum_of ins (fun c => x_m c * x_h c) == sum_of outs (fun c => x_m c * x_h c) ->
  net a 0 ins outs == a_T a * produced ins outs.
Proof.
  intros a f ins outs H M E. unfold net, produced.
  rewrite (sum_flow a f ins), (sum_flow a f outs), M, E by (intros; apply H; apply in_or_app; tauto).
  ring.
Qed.
Lemma merge_entropy_sum : forall (g : conn -> Q) ins acc,
  fold_left (fun acc i => acc - x_m i * (x_s i - g i)) ins acc
  == acc - sum_of ins (fun c => x_m c * x_s c) + sum_of ins (fun c => x_m c * g c).
Proof.
  intros g. induction ins as [| i ins IH]; intro acc; cbn [fold_left sum_of fold_right]; [ring |].
  rewrite IH. fold (sum_of ins (fun c => x_m c * x_s c)). fold (sum_of ins (fun c => x_m c * g c)). ring.
Qed.
Lemma sum_const : forall (g : conn -> Q) k l, (forall c, In c l -> g c = k) ->
  sum_of l (fun c => x_m c * g c) == sum_of l x_m * k.
Proof.
  intros g k. induction l as [| c l IH]; intro H; cbn [sum_of fold_right]; [ring |].
  fold (sum_of l (fun c => x_m c * g c)). fold (sum_of l x_m).
  rewrite IH by (intros; apply H; now right). rewrite (H c) by now left. ring.
Qed.
Lemma merge_produced : forall f ins o, (forall c, In c (ins ++ [o])%list -> x_fluid c = f) ->
  sum_of ins x_m == x_m o -> merge_entropy ins o == produced ins [o].
Proof.
  intros f ins o H M. unfold merge_entropy. rewrite merge_entropy_sum. unfold produced.
  rewrite (sum_const (fun c => f_s (x_fluid c) 100000 (29815 # 100)) (f_s f 100000 (29815#100)) ins)
    by (intros c I; rewrite (H c); [reflexivity | apply in_or_app; tauto]).
  rewrite (H o) by (apply in_or_app; right; now left). cbn [sum_of fold_right]. rewrite M. ring.
Qed.

(* ------------------------------------------------------- the statements *)

Lemma turbomachine_gouy : forall a P i o, same_stream i o -> P == x_m i * (x_h o - x_h i) ->
  (forall d, E_D (turbine_exergy a P i o) = Some d -> d == a_T a * flow_entropy i o)
  /\ (forall d, E_D (compressor_exergy a P i o) = Some d -> d == a_T a * flow_entropy i o).
Proof.
  intros a P i o S E. split; intros d H.
  - rewrite (proj2 (turbine_destruction a P i o) d H), (stream_net a P i o S E), (produced_flow i o S). reflexivity.
  - rewrite (proj2 (compressor_destruction a P i o) d H), (stream_net a P i o S E), (produced_flow i o S). reflexivity.
Qed.
Lemma valve_gouy : forall a i o, same_stream i o -> x_h o == x_h i ->
  forall d, E_D (valve_exergy a i o) = Some d -> d == a_T a * flow_entropy i o.
Proof.
  intros a i o S E d H. rewrite (proj2 (valve_destruction a i o) d H), (stream_net a 0 i o S), (produced_flow i o S).
  - reflexivity.
  - rewrite E. ring.
Qed.
Lemma hx_gouy : forall a s1 s2 i1 i2 o1 o2, same_stream i1 o1 -> same_stream i2 o2 ->
  x_m i1 * (x_h o1 - x_h i1) + x_m i2 * (x_h o2 - x_h i2) == 0 ->
  reports (E_D (hx_exergy a i1 i2 o1 o2)) (a_T a * hx_entropy s1 s2 i1 i2 o1 o2).
Proof.
  intros a s1 s2 i1 i2 o1 o2 S1 S2 E. destruct (hx_destruction a i1 i2 o1 o2) as (d & H & V).
  exists d. split; [exact H |]. rewrite V, (two_net a i1 i2 o1 o2 S1 S2 E), (hx_produced s1 s2 _ _ _ _ S1 S2).
  reflexivity.
Qed.
Lemma merge_gouy : forall a f ins o, (forall c, In c (ins ++ [o])%list -> x_fluid c = f) ->
  sum_of ins x_m == x_m o -> sum_of ins (fun c => x_m c * x_h c) == x_m o * x_h o ->
  forall d, E_D (merge_exergy a ins o) = Some d -> d == a_T a * merge_entropy ins o.
Proof.
  intros a f ins o H M E d D. rewrite (proj2 (merge_destruction a ins o) M d D).
  rewrite (merge_produced f ins o H M). apply (mixed_net a f ins [o] H); cbn [sum_of fold_right].
  - rewrite M. ring.
  - rewrite E. ring.
Qed.
Lemma drum_gouy : forall a f i1 i2 o1 o2, (forall c, In c [i1; i2; o1; o2] -> x_fluid c = f) ->
  x_m i1 + x_m i2 == x_m o1 + x_m o2 ->
  x_m i1 * x_h i1 + x_m i2 * x_h i2 == x_m o1 * x_h o1 + x_m o2 * x_h o2 ->
  reports (E_D (drum_exergy a i1 i2 o1 o2)) (a_T a * produced [i1; i2] [o1; o2]).
Proof.
  intros a f i1 i2 o1 o2 H M E. destruct (drum_destruction a i1 i2 o1 o2) as (d & D & V).
  exists d. split; [exact D |]. rewrite V. apply (mixed_net a f [i1; i2] [o1; o2] H); cbn [sum_of fold_right]; lra.
Qed.

(* ------------------------------------------------- simple heat exchanger *)

Definition massless_of (b : balance) : num :=
  match E_bus b with Shares _ _ m => m | Plain _ => None end.

Lemma simple_rejecting : forall a Qv i o, Qv < 0 -> a_T a <= x_T i -> a_T a <= x_T o ->
  reports (E_D (fst (simple_exergy a Qv (Some true) i o))) (net a 0 [i] [o])
  /\ exists e, massless_of (fst (simple_exergy a Qv (Some false) i o)) = Some e
     /\ reports (E_D (fst (simple_exergy a Qv (Some false) i o))) (net a 0 [i] [o] - e).
Proof.
  intros a Qv i o N I O. unfold simple_exergy.
  rewrite (proj2 (gt_iff 0 Qv) N), (proj2 (ge_iff (x_T i) (a_T a)) I), (proj2 (ge_iff (x_T o) (a_T a)) O).
  cbn [andb fst]. unfold finish_nan, massless_of, net, reports. cbn [E_D E_bus isnan nsub nlift sum_of fold_right].
  split; [eexists; split; [reflexivity | flows a; lra] |].
  eexists. split; [reflexivity |]. eexists. split; [reflexivity | flows a; lra].
Qed.
Lemma simple_heated : forall a Qv d i o, 0 < Qv -> a_T a <= x_T i -> a_T a <= x_T o ->
  exists e, massless_of (fst (simple_exergy a Qv d i o)) = Some e
  /\ reports (E_D (fst (simple_exergy a Qv d i o))) (net a 0 [i] [o] + e).
Proof.
  intros a Qv d i o N I O. unfold simple_exergy.
  assert (G : gt 0 Qv = false) by (destruct (gt 0 Qv) eqn:G; [apply gt_iff in G; lra | reflexivity]).
  assert (I' : a_T a - (1 # 1000000) <= x_T i) by lra. assert (O' : a_T a - (1 # 1000000) <= x_T o) by lra.
  rewrite G, (proj2 (gt_iff Qv 0) N), (proj2 (ge_iff (x_T i) _) I'), (proj2 (ge_iff (x_T o) _) O').
  cbn [andb fst]. unfold finish_nan, massless_of, net, reports. cbn [E_D E_bus isnan nsub nlift sum_of fold_right].
  eexists. split; [reflexivity |]. eexists. split; [reflexivity | flows a; lra].
Qed.
Lemma simple_cold : forall a Qv i o, 0 < Qv -> x_T i < a_T a - (1 # 1000000) -> x_T o < a_T a ->
  exists e, massless_of (fst (simple_exergy a Qv (Some false) i o)) = Some e
  /\ reports (E_D (fst (simple_exergy a Qv (Some false) i o))) (net a 0 [i] [o] - e).
Proof.
  intros a Qv i o N I O. unfold simple_exergy.
  assert (G : gt 0 Qv = false) by (destruct (gt 0 Qv) eqn:G; [apply gt_iff in G; lra | reflexivity]).
  assert (G1 : ge (x_T i) (a_T a - (1 # 1000000)) = false)
    by (destruct (ge (x_T i) (a_T a - (1 # 1000000))) eqn:X; [apply ge_iff in X; lra | reflexivity]).
  assert (G2 : gt (x_T o) (a_T a) = false)
    by (destruct (gt (x_T o) (a_T a)) eqn:X; [apply gt_iff in X; lra | reflexivity]).
  assert (I' : x_T i < a_T a) by lra.
  rewrite G, (proj2 (gt_iff Qv 0) N), G1, G2, (proj2 (gt_iff (a_T a) (x_T i)) I'), (proj2 (gt_iff (a_T a) (x_T o)) O).
  rewrite Bool.andb_false_r.
  cbn [andb fst]. unfold finish_nan, massless_of, net, reports. cbn [E_D E_bus isnan nsub nlift sum_of fold_right].
  eexists. split; [reflexivity |]. eexists. split; [reflexivity | flows a; lra].
Qed.
Lemma simple_adiabatic : forall a d i o,
  reports (E_D (fst (simple_exergy a 0 d i o))) (net a 0 [i] [o]).
Proof.
  intros a d i o. unfold simple_exergy. change (gt 0 0) with false. cbn [fst].
  unfold finish_nan, net, reports. cbn [E_D isnan sum_of fold_right].
  eexists. split; [reflexivity | flows a; lra].
Qed.

Lemma engine_meant : forall a P i1 i2 i3 i4 o1 o2 o3,
  (exists b d, engine_exergy (fun c => ANumber (Ex_physical a c)) a P i1 i2 i3 i4 o1 o2 o3 = Ok b /\ E_D b = Some d
     /\ d == net a P [i1; i2; i3; i4] [o1; o2; o3] + (x_m i3 * x_chem i3 + x_m i4 * x_chem i4 - x_m o3 * x_chem o3)).
Proof.
  intros. unfold engine_exergy. cbn [py_sub py_add rbind]. eexists _, _. split; [reflexivity|]. split; [reflexivity|].
  unfold net, Ex_chemical. rewrite !flow_is_physical. cbn. ring.
Qed.
Lemma combustion_balances :
  (forall a P i1 i2 i3 i4 o1 o2 o3, engine_exergy AConnection a P i1 i2 i3 i4 o1 o2 o3 = Err TypeError)
  /\ (forall mixture i1 i2 o, chamber_entropy mixture None i1 i2 o = Err (if mixture o then KeyError else AttributeError))
  /\ (forall mixture i3 i4 o3, mixture i3 = true \/ mixture i4 = true \/ mixture o3 = true ->
      engine_S_Qcomb mixture i3 i4 o3 = Err KeyError).
Proof.
  split; [reflexivity|]. split.
  - intros mixture i1 i2 o. unfold chamber_entropy, s_reference. destruct (mixture o); reflexivity.
  - intros mixture i3 i4 o3 H. unfold engine_S_Qcomb, s_reference.
    destruct (mixture o3); [reflexivity|]. destruct (mixture i3); [reflexivity|].
    destruct (mixture i4); [reflexivity|]. destruct H as [H|[H|H]]; discriminate.
Qed.
Lemma combustion_single : forall mixture q i1 i2 o,
  mixture i1 = false -> mixture i2 = false -> mixture o = false ->
  let change c := x_m c * (x_s c - f_s (x_fluid c) 100000 (29815 # 100)) in
  chamber_entropy mixture (Some q) i1 i2 o = Ok (change o)
  /\ exists S, engine_S_Qcomb mixture i1 i2 o = Ok S /\ S == change o - change i1 - change i2.
Proof.
  intros mixture q i1 i2 o A B C change. unfold chamber_entropy, engine_S_Qcomb, s_reference.
  rewrite A, B, C. cbn [rbind]. split; [reflexivity|]. eexists. split; [reflexivity|]. reflexivity.
Qed.
