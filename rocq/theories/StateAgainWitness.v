(** Networks whose specifications are changed by a calculation that does not converge. *)
From Coq Require Import QArith Lqa.
From Verif Require Import Base UnitsModel StateModel StateSpec StateWitness StateAgainSpec.
Open Scope string_scope.
Open Scope list_scope.

(** Pressure and enthalpy unknown, 300 K. *)
Definition warm : conn := mk (water 0) [("m", 2); ("T", 300)] [] [] None.
(** Mass flow unknown, 5 litres per second. *)
Definition flowing : conn := mk (water 0) [("p", 1); ("T", 300); ("v", 1 # 200)] [] [] None.

Definition drifted (k : string) (v : Q) (c : conn) : Prop :=
  smem k (n_eqs c) = true /\ k_set (n_c c k) = true /\ option_map Qred (k_val (n_c c k)) = Some v.

Lemma unsatisfied_T : exists units a sol net net' l c c' v v', labelled net /\ solve units a None sol net = Ok net' /\ dget l net = Some c /\ dget l net' = Some c' /\
  found c' /\ n_off c = [] /\ wanted units c "T" v /\ In "T" (n_eqs c') /\ wanted units c' "T" v' /\ ~ v' == v.
Proof.
  destruct (holds_at (solve (si []) no_guess None (finds 100000 320000) [("1", warm)]) "1"
    (fun c' => drifted "T" 320 c' /\ n_off c' = [] /\ f_mixture (n_fluid c') = false)) as (net' & c' & R & D' & (P1 & P2 & P3) & P4 & P5); [vm_compute; auto 10|].
  destruct (k_val (n_c c' "T")) as [q|] eqn:Q; cbn [option_map] in P3; [|discriminate]. inversion P3 as [P6].
  exists (si []), no_guess, (finds 100000 320000), [("1", warm)], net', "1", warm, c', ((300 + 0) * 1)%Q, ((q + 0) * 1)%Q.
  split; [apply labelled_one; constructor|]. split; [exact R|]. split; [reflexivity|]. split; [exact D'|]. split; [left; exact P5|]. split; [reflexivity|].
  split; [split; [reflexivity|]; exists 300%Q; split; reflexivity|]. split; [now apply smem_In|].
  split; [unfold wanted; rewrite P4; split; [exact P2|]; exists q; split; [exact Q|reflexivity]|].
  assert (E : q == 320) by (rewrite <- (Qred_correct q), P6; reflexivity). rewrite E. lra.
Qed.

Lemma unsatisfied_v : exists units a sol net net' l c c' v v', labelled net /\ solve units a None sol net = Ok net' /\ dget l net = Some c /\ dget l net' = Some c' /\
  found c' /\ n_off c = [] /\ wanted units c "v" v /\ In "v" (n_eqs c') /\ wanted units c' "v" v' /\ ~ v' == v.
Proof.
  destruct (holds_at (solve (si []) no_guess None (finds 100000 320000) [("1", flowing)]) "1"
    (fun c' => drifted "v" (1 # 1000) c' /\ n_off c' = [] /\ f_mixture (n_fluid c') = false)) as (net' & c' & R & D' & (P1 & P2 & P3) & P4 & P5); [vm_compute; auto 10|].
  destruct (k_val (n_c c' "v")) as [q|] eqn:Q; cbn [option_map] in P3; [|discriminate]. inversion P3 as [P6].
  exists (si []), no_guess, (finds 100000 320000), [("1", flowing)], net', "1", flowing, c', ((1 # 200) * 1)%Q, (q * 1)%Q.
  split; [apply labelled_one; constructor|]. split; [exact R|]. split; [reflexivity|]. split; [exact D'|]. split; [left; exact P5|]. split; [reflexivity|].
  split; [split; [reflexivity|]; exists (1 # 200)%Q; split; reflexivity|]. split; [now apply smem_In|].
  split; [unfold wanted; rewrite P4; split; [exact P2|]; exists q; split; [exact Q|reflexivity]|].
  assert (E : q == 1 # 1000) by (rewrite <- (Qred_correct q), P6; reflexivity). rewrite E. lra.
Qed.
