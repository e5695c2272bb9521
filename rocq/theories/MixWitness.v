(** Objects used in the examples and refutations of MixProps.v. *)
From Coq Require Import QArith Lqa.
From Verif Require Import Base NewtonModel MixModel MixSpec MixProofs MixProofs2 MixProofs3.
Open Scope Q_scope.

(** Nitrogen and water with molar mass one, half each. *)
Definition wr (h s d : Q -> Q -> Q) (hq sq dq : Q -> Q -> Q) : wrapper :=
  {| w_M := 1; w_Tmin := 200; w_Tmax := 1000; w_pmin := 0; w_aliases := []; w_below := fun T => Qle_bool T 600;
     w_psat := fun T => T / 300; w_Tsat := fun p => 300 * p; w_hpT := h; w_spT := s; w_dpT := d;
     w_vis := fun _ _ => 1; w_hQT := hq; w_sQT := sq; w_dQT := dq |}.
Definition nitrogen : wrapper := wr (fun _ T => T) (fun _ T => T) (fun _ _ => 1) (fun _ _ => 0) (fun _ _ => 0) (fun _ _ => 0).
Definition steam : wrapper :=
  wr (fun _ T => 2 * T + 2500) (fun _ T => 2 * T) (fun _ _ => 1)
     (fun q T => 4 * T + q * 2000) (fun q T => T + q * 7) (fun q _ => if Qeq_bool q 0 then 1000 else 1).
Definition air : fluids := [("N2", {| e_frac := 1#2; e_wr := nitrogen |}); ("water", {| e_frac := 1#2; e_wr := steam |})]%string.
Definition names : list string := ["H2O"; "water"]%string.
Lemma air_valid : valid air.
Proof.
  split; [repeat constructor; cbn; intuition congruence |]. split; [| vm_compute; reflexivity].
  intros k e D. apply dget_In in D. destruct D as [E | [E | []]]; injection E as <- <-; split; vm_compute; congruence.
Qed.
