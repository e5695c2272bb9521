(** C16, C53: mass flow branches. *)
From Coq Require Import QArith.
From Verif Require Import TopoModel TopoSpec BranchModel BranchSpec BranchProofs.
Open Scope nat_scope.
Open Scope string_scope.
Open Scope list_scope.

(** C16 – checking a network terminates: with a recursion limit above the number
    of connections it returns the branches or reports a topology error, nothing
    else (no IndexError, ValueError or exhausted recursion). *)
Theorem C16_terminates :
  forall W n limit, sound_net W n -> length (n_conns n) < limit ->
    let r := snd (check_network W limit n) in
    (exists bs, r = Ok bs) \/ r = Err TESPyNetworkError.
Proof. exact check_outcome. Qed.
Print Assumptions C16_terminates.

(** C16 – no connection is claimed twice, neither by two branches nor within one;
    the claimed connections are those on a stream that begins somewhere; all
    connections of a branch carry the same mass flow whenever the mass balances
    of the components hold. *)
Theorem C16_branches :
  forall W n limit n' bs, sound_net W n -> length (n_conns n) < limit ->
    check_network W limit n = (n', Ok bs) ->
    NoDup (branch_conns (massflow_branches bs)) /\
    (forall c, In c (branch_conns (massflow_branches bs)) <-> on_stream W n c) /\
    (forall m, balanced W n m -> forall b, In b (massflow_branches bs) ->
       forall c d, In c (fst b) -> In d (fst b) -> (m c == m d)%Q).
Proof. exact check_branches. Qed.
Print Assumptions C16_branches.

(** C16 – the fluid branches regroup the same branches. *)
Theorem C16_fluid_branches :
  forall bs, concat (map snd (fluid_branches bs)) = massflow_branches bs.
Proof. exact fluid_flat. Qed.
Print Assumptions C16_fluid_branches.

(** C16 – checking does not change the tables of connections and components. *)
Theorem C16_check_frame :
  forall W limit, check_frame (fun n => fst (check_network W limit n)).
Proof. exact check_network_frame. Qed.
Print Assumptions C16_check_frame.

(** C53 – a separate closed loop belongs to no branch although the check accepts it. *)
Theorem C53_every_connection_in_a_branch_refuted :
  exists W n limit n' bs c, sound_net W n /\ length (n_conns n) < limit /\
    check_network W limit n = (n', Ok bs) /\ has_conn n c /\ ~ In c (branch_conns (massflow_branches bs)).
Proof. exact loop_uncovered. Qed.
Print Assumptions C53_every_connection_in_a_branch_refuted.

(** C53 – without such loops every connection is in a branch. *)
Theorem C53_every_connection_in_a_branch_partial :
  forall W n limit n' bs, sound_net W n -> length (n_conns n) < limit ->
    check_network W limit n = (n', Ok bs) -> loop_free W n ->
    forall c, has_conn n c -> In c (branch_conns (massflow_branches bs)).
Proof. exact check_covers. Qed.
Print Assumptions C53_every_connection_in_a_branch_partial.

(** Example: feed water enters a drum, circulates through the evaporator, steam
    leaves: the main branch continues after the drum, the circulation is a
    subbranch. The hypotheses of the theorems hold. *)
Example C16_example :
  sound_net drumW drumN /\
  snd (check_network drumW 10 drumN) =
    Ok [("a", Branch [0; 3] [0; 1; 3] [("b", Branch [1; 2] [1; 2; 1] [])])] /\
  map fst (massflow_branches [("a", Branch [0; 3] [0; 1; 3] [("b", Branch [1; 2] [1; 2; 1] [])])]) = [[0; 3]; [1; 2]] /\
  snd (check_network drumW 1 drumN) = Err RecursionError.
Proof. split; [exact drum_sound|]. vm_compute. repeat split. Qed.
