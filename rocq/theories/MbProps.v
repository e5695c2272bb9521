(** C141-C145: moving boundary heat exchangers. *)
From Coq Require Import Reals Qreals Sorting.Sorted.
From Verif Require Import MbModel ReportSpec MbSpec MbProofs MbProofs2.
Open Scope nat_scope.
Open Scope list_scope.

(** C141 – the limits of the sections ascend from zero to the heat transferred; every phase
    change that lies by more than 1e-6 between the ends of a side is one of them, at the
    heat transferred up to there, and all inner limits are phase changes. *)
Theorem C141_sections : forall hot cold d qs,
  exchanging hot cold d -> saturation_ok (fl hot) -> saturation_ok (fl cold) -> assign_sections hot cold = Ok qs ->
  StronglySorted Qle qs /\ (exists x, hd_error qs = Some x /\ (x == 0)%Q) /\ (last qs 0 == d)%Q /\
  (forall q, In q qs -> (0 <= q <= d)%Q) /\
  (forall x, phase_change (fl hot) (p_out hot) x -> (h_out hot + ERR < x)%Q -> (x + ERR < h_in hot)%Q -> has qs (mass hot * (x - h_out hot))%Q) /\
  (forall x, phase_change (fl cold) (p_in cold) x -> (h_in cold + ERR < x)%Q -> (x + ERR < h_out cold)%Q -> has qs (mass cold * (x - h_in cold))%Q) /\
  (forall q, In q qs -> (0 < q)%Q -> (q < d)%Q -> (exists x, phase_change (fl hot) (p_out hot) x /\ (q == mass hot * (x - h_out hot))%Q) \/
     (exists x, phase_change (fl cold) (p_in cold) x /\ (q == mass cold * (x - h_in cold))%Q)).
Proof. exact sections. Qed.
Print Assumptions C141_sections.

(** C141 – if the fluid data differ between the ends of a side, ValueError is raised. *)
Theorem C141_mismatch : forall hot cold,
  same_data hot = false \/ (same_data cold = false /\ exists l, h_steps hot = Ok l) ->
  td_pinch hot cold = Err ValueError /\ calc_UA hot cold = Err ValueError.
Proof. exact mismatch. Qed.
Print Assumptions C141_mismatch.

Example C141_ex : exchanging condenser_hot condenser_cold 100 /\ saturation_ok (fl condenser_hot) /\ saturation_ok (fl condenser_cold) /\
  rmap (map Qred) (assign_sections condenser_hot condenser_cold) = Ok [0; 20; 80; 100]%Q.
Proof. split; [exact (proj1 condenser)|]. split; [exact (proj1 condensing_ok)|]. split; [apply simple_sat|exact (proj1 (proj2 condenser))]. Qed.

(** C142 – if heat goes from the hot to the cold side, the reported pinch is at most the
    difference at either end and at any phase change, and it is the difference at some
    point of the exchange (temperatures at the pressures of the inlets). *)
Theorem C142_pinch : forall hot cold d t,
  exchanging hot cold d -> saturation_ok (fl hot) -> saturation_ok (fl cold) -> T_proper (fl hot) -> T_proper (fl cold) ->
  td_pinch hot cold = Ok t ->
  (t <= Tph (fl hot) (p_in hot) (h_out hot) - Tph (fl cold) (p_in cold) (h_in cold))%Q /\
  (t <= Tph (fl hot) (p_in hot) (h_in hot) - Tph (fl cold) (p_in cold) (h_out cold))%Q /\
  (forall x, phase_change (fl hot) (p_out hot) x -> (h_out hot + ERR < x)%Q -> (x + ERR < h_in hot)%Q -> (t <= difference hot cold (mass hot * (x - h_out hot)))%Q) /\
  (forall x, phase_change (fl cold) (p_in cold) x -> (h_in cold + ERR < x)%Q -> (x + ERR < h_out cold)%Q -> (t <= difference hot cold (mass cold * (x - h_in cold)))%Q) /\
  exists q, (0 <= q <= d)%Q /\ t = difference hot cold q.
Proof. exact pinch_terminals. Qed.
Print Assumptions C142_pinch.

Example C142_ex : T_proper (fl condenser_hot) /\ T_proper (fl condenser_cold) /\
  rmap Qred (td_pinch condenser_hot condenser_cold) = Ok 30%Q.
Proof. split; [exact (proj2 condensing_ok)|]. split; [apply ident_proper|exact (proj2 (proj2 condenser))]. Qed.

(** C143 – if the streams exchange heat in the other direction, the reported pinch is
    larger than the difference at an end. *)
Theorem C143_reversed_refuted : exists hot cold t,
  (0 < mass hot)%Q /\ (0 < mass cold)%Q /\ same_data hot = true /\ same_data cold = true /\
  (mass hot * (h_in hot - h_out hot) == mass cold * (h_out cold - h_in cold))%Q /\
  td_pinch hot cold = Ok t /\
  (Tph (fl hot) (p_in hot) (h_in hot) - Tph (fl cold) (p_in cold) (h_out cold) < t)%Q.
Proof.
  exists reversed_hot, reversed_cold, (-100)%Q. destruct reversed as (A & B & _ & D).
  split; [reflexivity|]. split; [reflexivity|]. split; [reflexivity|]. split; [reflexivity|]. split; [exact D|]. split; [exact A|].
  change (p_in reversed_hot) with 1%Q. change (p_in reversed_cold) with 1%Q. rewrite B. reflexivity.
Qed.
Print Assumptions C143_reversed_refuted.

(** C143 – the reported pinch is the smallest difference anywhere in the exchanger
    provided that within every section the difference is nowhere smaller than at both
    ends of the section. Missing: profiles with a smaller difference inside a section. *)
Theorem C143_smallest_partial : forall hot cold d t qs,
  exchanging hot cold d -> saturation_ok (fl hot) -> saturation_ok (fl cold) -> T_proper (fl hot) -> T_proper (fl cold) ->
  assign_sections hot cold = Ok qs -> td_pinch hot cold = Ok t ->
  (forall a b q, neighbours qs a b -> (a <= q <= b)%Q -> (difference hot cold a <= difference hot cold q)%Q \/ (difference hot cold b <= difference hot cold q)%Q) ->
  forall q, (0 <= q <= d)%Q -> (t <= difference hot cold q)%Q.
Proof. exact pinch_global. Qed.
Print Assumptions C143_smallest_partial.

Example C143_ex : forall q, (0 <= q <= 100)%Q -> (10 <= difference (stream (simple ident) 130 30 1) (stream (simple ident) 20 70 2) q)%Q.
Proof.
  intros q (A & B). unfold difference, stream, simple, ident. cbn [Tph fl mass h_out h_in]. rewrite !Qred_correct.
  setoid_replace (30 + q / 1 - (20 + q / 2))%Q with (10 + q / 2)%Q by field.
  rewrite <- (Qplus_0_r 10) at 1. apply Qplus_le_compat; [apply Qle_refl|]. apply Qle_shift_div_l; [reflexivity|]. now rewrite Qmult_0_l.
Qed.

(** C143 – inside a section the difference may be smaller than the reported pinch. *)
Theorem C143_smallest_refuted : exists hot cold d t q,
  exchanging hot cold d /\ saturation_ok (fl hot) /\ saturation_ok (fl cold) /\ T_proper (fl hot) /\ T_proper (fl cold) /\
  td_pinch hot cold = Ok t /\ (0 <= q <= d)%Q /\ (difference hot cold q < t)%Q.
Proof.
  exists curved_hot, curved_cold, 100%Q, 30%Q, 50%Q. destruct curved_pinch as (A & B & C). destruct curved_proper as (P1 & P2).
  split; [exact A|]. split; [apply simple_sat|]. split; [apply simple_sat|]. split; [exact P1|]. split; [exact P2|]. split; [exact B|].
  split; [split; discriminate|]. rewrite C. reflexivity.
Qed.
Print Assumptions C143_smallest_refuted.

(** C144 – if the hot side is warmer at every limit, the heat transfer coefficient is the
    sum over the sections of heat by mean difference (logarithmic unless the differences
    are closer than 1e-6 K); heat by coefficient lies between the smallest and the
    largest difference. *)
Theorem C144_UA : forall hot cold d qs,
  exchanging hot cold d -> saturation_ok (fl hot) -> saturation_ok (fl cold) -> assign_sections hot cold = Ok qs ->
  (forall q, In q qs -> (0 < difference hot cold q)%Q) ->
  exists u, calc_UA hot cold = Ok u /\ total (difference hot cold) qs u /\
    forall lo hi, (forall q, In q qs -> (lo <= Q2R (difference hot cold q) <= hi)%R) -> (u * lo <= Q2R d <= u * hi)%R.
Proof. exact UA_value. Qed.
Print Assumptions C144_UA.

(** C145 – a crossing of the temperatures, which no exchanger can have, still yields a
    positive coefficient. *)
Theorem C145_cross_refuted : exists hot cold d t u,
  exchanging hot cold d /\ td_pinch hot cold = Ok t /\ (t < 0)%Q /\ calc_UA hot cold = Ok u /\ (0 < u)%R.
Proof.
  destruct crossing as (u & t & A & B & C & D & E). exists crossing_hot, crossing_cold, 100%Q, t, u.
  split; [exact A|]. split; [exact B|]. split; [exact C|]. split; [exact D|exact E].
Qed.
Print Assumptions C145_cross_refuted.

Example C144_ex : exists qs u, assign_sections condenser_hot condenser_cold = Ok qs /\ calc_UA condenser_hot condenser_cold = Ok u /\
  total (difference condenser_hot condenser_cold) qs u.
Proof.
  destruct condensing_ok as (S & _). destruct condenser as (E & A & _).
  destruct (assign_sections condenser_hot condenser_cold) as [qs|] eqn:AS; [|discriminate]. exists qs.
  destruct (UA_value _ _ _ _ E S (simple_sat _) AS) as (u & U & T & _); [|exists u; auto].
  assert (X : forallb (fun q => qlt 0 (difference condenser_hot condenser_cold q)) qs = true).
  { assert (Y : match assign_sections condenser_hot condenser_cold with Ok l => forallb (fun q => qlt 0 (difference condenser_hot condenser_cold q)) l | _ => false end = true)
      by (vm_compute; reflexivity). now rewrite AS in Y. }
  rewrite forallb_forall in X. intros q Q. apply qlt_true. now apply X.
Qed.
