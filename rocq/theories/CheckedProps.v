(** C230, C231: the check of a network before a solution. *)
From Coq Require Import String List Bool Arith Lia.
From Verif Require Import Base TopoModel TopoSpec TopoProofs CheckedModel CheckedSpec CheckedProofs.
Import ListNotations.

(** C230 – a network that passes the check is connected, and the check leaves its connections and components alone. *)
Theorem C230_sound : forall W branches n n', check_network W branches n = (n', None) ->
  connected W n' /\ n_checked n' = true /\ n_conns n' = n_conns n /\ n_comps n' = n_comps n.
Proof. exact check_sound. Qed.
Print Assumptions C230_sound.

(** C230 – every connected network whose branches can be created passes. *)
Theorem C230_complete : forall W branches n, connected W n -> (forall m, branches m = None) ->
  exists n', check_network W branches n = (n', None).
Proof. exact check_complete. Qed.
Print Assumptions C230_complete.

(** C230 – whatever was added, deleted and solved before, a solution starts only on a connected network. *)
Theorem C230_solve : forall W order branches l, set_order order -> deletes_fine W order branches l empty_net ->
  forall n', run W order branches ASolve (acts W order branches l empty_net) = (n', None) -> connected W n'.
Proof. exact solves_connected. Qed.
Print Assumptions C230_solve.

(** C230 – after a connection was added the next solution checks the network. *)
Theorem C230_after_change : forall W order branches args n c, set_order order ->
  In (AConn c) args -> snd (add_conns W order args n) = None ->
  forall n', run W order branches ASolve (fst (add_conns W order args n)) = (n', None) ->
  check_network W branches (fst (add_conns W order args n)) = (n', None).
Proof. exact change_checked. Qed.
Print Assumptions C230_after_change.

(** C230 – without change a solution starts again. *)
Theorem C230_repeated : forall W branches n n', solve_check W branches n = (n', None) -> solve_check W branches n' = (n', None).
Proof. exact rechecks. Qed.
Print Assumptions C230_repeated.

(** C231 – after a deletion that raised in the middle a solution starts on a pump without inlet. *)
Theorem C231_failed_deletion_refuted : exists W order branches l n', set_order order
  /\ run W order branches ASolve (acts W order branches l empty_net) = (n', None) /\ ~ connected W n'.
Proof. exact failed_delete. Qed.
Print Assumptions C231_failed_deletion_refuted.

Example C230_ex : deletes_fine chW (nodup Nat.eq_dec) (fun _ => None) [AAdd [AConn 0]; ASolve; AAdd [AConn 1]; ASolve; ADel [0]] empty_net
  /\ snd (run chW (nodup Nat.eq_dec) (fun _ => None) ASolve (acts chW (nodup Nat.eq_dec) (fun _ => None) [AAdd [AConn 0]; ASolve] empty_net)) <> None
  /\ snd (run chW (nodup Nat.eq_dec) (fun _ => None) ASolve (acts chW (nodup Nat.eq_dec) (fun _ => None) [AAdd [AConn 0]; ASolve; AAdd [AConn 1]] empty_net)) = None
  /\ snd (run chW (nodup Nat.eq_dec) (fun _ => None) ASolve (acts chW (nodup Nat.eq_dec) (fun _ => None) [AAdd [AConn 0]; ASolve; AAdd [AConn 1]; ASolve; ADel [0]] empty_net)) <> None.
Proof. repeat split; try reflexivity; try discriminate; intros cs H; inversion H; reflexivity. Qed.

