(** C17, C18, C56: mass flow reduction. *)
From Coq Require Import QArith.
From Verif Require Import MassModel MassSpec MassProofs MassWitness.
Open Scope nat_scope.

(** C17 – reduction succeeds exactly if every branch has at most one mass flow
    specification and no mass flow reference within the branch; otherwise it
    reports a TESPyNetworkError. *)
Theorem C17_accepts :
  forall mref conns bs s, branches_ok bs conns ->
    ((exists s', presolve_massflow mref bs s = (s', None)) <-> forall b, In b bs -> admissible mref s b) /\
    (snd (presolve_massflow mref bs s) = None \/ snd (presolve_massflow mref bs s) = Some TESPyNetworkError).
Proof. exact presolve_accepts. Qed.
Print Assumptions C17_accepts.

(** C17 – after a successful reduction one container serves exactly one branch;
    it is specified with the value the user gave on some connection of the
    branch, or not specified if the user gave none; other connections keep their
    container and no container is written. *)
Theorem C17_one_container_per_branch :
  forall mref conns bs s s', branches_ok bs conns -> own conns s ->
    presolve_massflow mref bs s = (s', None) ->
    (forall b c d, In b bs -> In c b -> In d b -> ms_of s' c = ms_of s' d) /\
    (forall b b' c d, In b bs -> In b' bs -> In c b -> In d b' -> ms_of s' c = ms_of s' d -> b = b') /\
    (forall b c, In b bs -> In c b ->
       (forall d q, In d b -> mspec s d = Some q -> mspec s' c = Some q) /\
       ((forall d, In d b -> mspec s d = None) -> mspec s' c = None)) /\
    (forall c, ~ In c (concat bs) -> ms_of s' c = ms_of s c) /\ ms_heap s' = ms_heap s.
Proof. exact presolve_shares. Qed.
Print Assumptions C17_one_container_per_branch.

(** C18 – a solve that returns gives every connection its own container back with
    the user's specification as before, and all connections of a branch carry the
    same result. *)
Theorem C18_solve_keeps_specifications :
  forall mref bs conns work s s', NoDup conns -> branches_ok bs conns -> own conns s -> solver_ok work ->
    solve_massflow mref bs conns work s = (s', None) ->
    own conns s' /\ (forall c, In c conns -> ms_of s' c = ms_of s c /\ mspec s' c = mspec s c) /\
    (forall b c d, In b bs -> In c b -> In d b ->
       mc_val (ms_heap s' (ms_of s' c)) = mc_val (ms_heap s' (ms_of s' d))).
Proof. exact solve_keeps. Qed.
Print Assumptions C18_solve_keeps_specifications.

(** C18 – the same for any number of solves in a row. *)
Theorem C18_repeated_solves :
  forall mref bs conns, NoDup conns -> branches_ok bs conns ->
    forall works s s', own conns s -> (forall w, In w works -> solver_ok w) ->
    solves mref bs conns works s = (s', None) ->
    own conns s' /\ forall c, In c conns -> ms_of s' c = ms_of s c /\ mspec s' c = mspec s c.
Proof. exact solves_keep. Qed.
Print Assumptions C18_repeated_solves.

(** C56 – a solve that raises can leave a specification on a connection that had
    none; a correction that would have been accepted before is rejected after. *)
Theorem C56_raising_solve_keeps_specifications_refuted :
  exists mref bs conns work s,
    NoDup conns /\ branches_ok bs conns /\ own conns s /\ solver_ok work /\
    snd (solve_massflow mref bs conns work s) = Some TESPyNetworkError /\
    (exists c, In c conns /\ mspec s c = None /\ mspec (fst (solve_massflow mref bs conns work s)) c = Some 5%Q) /\
    (let good := withdraw 3 s in snd (solve_massflow mref bs conns work good) = None) /\
    (let bad := withdraw 3 (fst (solve_massflow mref bs conns work s)) in
     snd (solve_massflow mref bs conns work bad) = Some TESPyNetworkError).
Proof. exact raise_loses_specifications. Qed.
Print Assumptions C56_raising_solve_keeps_specifications_refuted.

(** C56 – the same if the specifications are admissible and an exception is raised
    while iterating; the connections go on sharing one container. *)
Theorem C56_solver_exception_refuted :
  exists mref bs conns work s,
    NoDup conns /\ branches_ok bs conns /\ own conns s /\ solver_ok work /\ (forall b, In b bs -> admissible mref s b) /\
    snd (solve_massflow mref bs conns work s) = Some ValueError /\
    exists c d, In c conns /\ In d conns /\ mspec s c = None /\ mspec (fst (solve_massflow mref bs conns work s)) c = Some 5%Q /\
      ms_of s c <> ms_of s d /\ ms_of (fst (solve_massflow mref bs conns work s)) c = ms_of (fst (solve_massflow mref bs conns work s)) d.
Proof. exact crash_loses_specifications. Qed.
Print Assumptions C56_solver_exception_refuted.

Example C17_ex :
  let r := presolve_massflow (fun _ => None) [[0; 1; 2]; [3; 4]] ex_mass in
  snd r = None /\ map (ms_of (fst r)) [0; 1; 2; 3; 4] = [11; 11; 11; 13; 13].
Proof. split; reflexivity. Qed.
Example C17_ex_reference :
  snd (presolve_massflow (fun c => if Nat.eqb c 0 then Some 2 else None) [[0; 1; 2]; [3; 4]] ex_mass)
  = Some TESPyNetworkError.
Proof. reflexivity. Qed.
Example C18_ex :
  let r := solve_massflow (fun _ => None) [[0; 1; 2]; [3; 4]] [4; 0; 1; 3; 2] ex_work ex_mass in
  snd r = None /\
  map (fun c => (ms_of (fst r) c, mspec (fst r) c, mc_val (ms_heap (fst r) (ms_of (fst r) c)))) [0; 1; 2; 3; 4]
  = [(10, None, 5%Q); (11, Some 5%Q, 5%Q); (12, None, 5%Q); (13, None, 7%Q); (14, None, 7%Q)].
Proof. split; reflexivity. Qed.
Example C18_ex_work : solver_ok ex_work.
Proof. intros h h' E a. inversion E; subst. destruct (mc_set (h a)) eqn:S1; cbn; auto. split; congruence. Qed.
