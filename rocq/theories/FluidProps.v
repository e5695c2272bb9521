(** C19, C57, C58, C59, C135: fluid composition reduction. *)
From Coq Require Import QArith.
From Verif Require Import MassModel FluidModel FluidSpec FluidProofs FluidWitness FluidProofs2 FluidWitness2.
Open Scope nat_scope.

(** C19 – propagation succeeds or reports a TESPyNetworkError. On success each
    connection knows exactly the fluids occurring on some connection; given
    fractions are kept if there are two fluids or more, a single fluid gets the
    fraction one; all connections have one mixing rule, which is the one the user
    specified anywhere; any group of the connections is ready for reduction. *)
Theorem C19_propagate :
  forall conns s s', sound_conns s conns -> propagate conns s = (s', None) ->
    (forall c, In c conns -> fs_of s' c = fs_of s c /\ fs_tmp s' c = fs_tmp s c /\ fset s' c = fset s c /\ fvar s' c = fvar s c) /\
    (forall c f, In c conns -> (In f (keys (frac s' c)) <-> exists d, In d conns /\ In f (keys (frac s d)))) /\
    ((exists f g c d, In c conns /\ In d conns /\ f <> g /\ In f (keys (frac s c)) /\ In g (keys (frac s d))) ->
       forall c f q, In c conns -> dget f (frac s c) = Some q -> dget f (frac s' c) = Some q) /\
    (forall c f, In c conns -> (forall g d, In d conns -> In g (keys (frac s d)) -> g = f) -> dget f (frac s' c) = Some 1%Q) /\
    (exists r, forall c, In c conns -> fs_mix s' c = Some r /\ forall r', fs_mix s c = Some r' -> r' = r) /\
    (forall b, NoDup b -> incl b conns -> sound_branch s' b) /\
    sound_conns s' conns /\ (forall a, fc_val (fs_cont s' a) = fc_val (fs_cont s a)).
Proof. exact propagate_ok. Qed.
Print Assumptions C19_propagate.

Theorem C19_propagate_outcome :
  forall conns s, snd (propagate conns s) = None \/ snd (propagate conns s) = Some TESPyNetworkError.
Proof. exact propagate_outcome. Qed.
Print Assumptions C19_propagate_outcome.

(** C19 – a fluid fixed twice in a branch and a total above one are rejected,
    anything else is accepted; a rejected branch is left as it was. *)
Theorem C19_accepts :
  forall s main others, sound_branch s (main :: others) ->
    let b := main :: others in
    (fixed_twice s b -> presolve_fluid_branch b s = (s, Some TESPyNetworkError)) /\
    (~ fixed_twice s b -> (1 + ERR < total s b)%Q -> presolve_fluid_branch b s = (s, Some ValueError)) /\
    (~ fixed_twice s b -> (total s b <= 1 + ERR)%Q -> exists s', presolve_fluid_branch b s = (s', None)).
Proof. exact presolve_fluid_accepts. Qed.
Print Assumptions C19_accepts.

(** C19 – the reduced composition: one container for the branch; fixed fractions
    are kept; a single open fraction is the rest to one; open fractions are zero
    if the fixed ones are complete; two or more open fractions are variable and
    keep their starting values; without specifications all fractions are variable
    or the only fluid has fraction one; the set of fluids does not change. *)
Theorem C19_composition :
  forall s main others, sound_branch s (main :: others) ->
  let b := main :: others in
  forall s', presolve_fluid_branch b s = (s', None) ->
  (forall c d, In c b -> In d b -> fs_of s' c = fs_of s' d) /\
  (forall c f q, In c b -> fixed_by s b f q -> dget f (frac s' c) = Some q /\ In f (fset s' c) /\ ~ In f (fvar s' c)) /\
  (forall c f, In c b -> ~ no_specs s b -> (total s b < 1 - ERR)%Q -> open_fluid s main b f ->
     (forall g, open_fluid s main b g -> g = f) ->
     (exists q, dget f (frac s' c) = Some q /\ q == 1 - total s b)%Q /\ In f (fset s' c) /\ fvar s' c = []) /\
  (forall c, In c b -> (1 - ERR <= total s b)%Q ->
     (forall f, open_fluid s main b f -> dget f (frac s' c) = Some 0%Q /\ In f (fset s' c)) /\ fvar s' c = []) /\
  (forall c g h, In c b -> ~ no_specs s b -> (total s b < 1 - ERR)%Q ->
     open_fluid s main b g -> open_fluid s main b h -> g <> h ->
     forall f, (In f (fvar s' c) <-> open_fluid s main b f) /\
       (open_fluid s main b f -> dget f (frac s' c) = dget f (frac s main) /\ ~ In f (fset s' c))) /\
  (forall c, In c b -> no_specs s b ->
     (forall f, fs_pot s main = [f] -> dget f (frac s' c) = Some 1%Q) /\
     (1 < length (fs_pot s main) -> frac s' c = frac s main /\ forall f, In f (fvar s' c) <-> In f (keys (frac s main)))) /\
  (forall c f, In c b -> (In f (keys (frac s' c)) <-> In f (keys (frac s main)))) /\
  (forall c, In c b -> NoDup (keys (frac s' c))).
Proof. exact reduce_result. Qed.
Print Assumptions C19_composition.

(** C57 – a composition without variable fractions can sum to less than one: all
    fluids fixed with a total of 0.6 are accepted. *)
Theorem C57_fixed_composition_sums_to_one_refuted :
  exists s conns s0 s1, sound_conns s conns /\ own_fluid s conns /\
    propagate conns s = (s0, None) /\ presolve_fluids [conns] s0 = (s1, None) /\
    exists c, In c conns /\ fvar s1 c = [] /\ (dict_sum (frac s1 c) == 6 # 10)%Q.
Proof. exact sum_witness. Qed.
Print Assumptions C57_fixed_composition_sums_to_one_refuted.

(** C57 – it does sum to one (within ERR) if some fraction was left open or the
    fixed fractions are complete. *)
Theorem C57_fixed_composition_sums_to_one_partial :
  forall s main others, sound_branch s (main :: others) ->
    let b := main :: others in
    forall s' c, presolve_fluid_branch b s = (s', None) -> In c b -> ~ no_specs s b ->
    fvar s' c = [] -> ((exists f, open_fluid s main b f) \/ (1 - ERR <= total s b)%Q) ->
    (1 - ERR <= dict_sum (frac s' c) <= 1 + ERR)%Q.
Proof. exact reduce_sum. Qed.
Print Assumptions C57_fixed_composition_sums_to_one_partial.

(** C58 – a solve can change the user's specification: the fraction 0.5 of the
    only fluid becomes 1. *)
Theorem C58_solve_keeps_fluid_specifications_refuted :
  exists s conns s', sound_conns s conns /\ own_fluid s conns /\ work_ok conns idle /\
    solve_fluids conns [conns] idle s = (s', None) /\
    exists c f, In c conns /\ fspec s c f = Some (1 # 2)%Q /\ fspec s' c f = Some 1%Q.
Proof. exact single_fluid_witness. Qed.
Print Assumptions C58_solve_keeps_fluid_specifications_refuted.

(** C58 – after a solve a specification on one connection that is withdrawn again
    has changed the specification of another connection; before the solve it
    would not have. *)
Theorem C58_specifications_independent_refuted :
  exists s conns s' q, sound_conns s conns /\ own_fluid s conns /\ work_ok conns idle /\
    solve_fluids conns [conns] idle s = (s', None) /\
    (forall x f, fspec (set_fluid 1 "water" None (set_fluid 1 "water" (Some q) s)) x f = fspec s x f) /\
    (forall x f, In x conns -> fspec s' x f = fspec s x f) /\
    fspec (set_fluid 1 "water" None (set_fluid 1 "water" (Some q) s')) 0 "water" <> fspec s' 0 "water".
Proof. exact shared_witness. Qed.
Print Assumptions C58_specifications_independent_refuted.

(** C58 – a solve drops the starting values of the first connection of a branch. *)
Theorem C58_starting_values_refuted :
  exists s conns s', sound_conns s conns /\ own_fluid s conns /\ work_ok conns idle /\
    solve_fluids conns [conns] idle s = (s', None) /\
    exists c, In c conns /\ fc_val0 (cont_of s c) <> [] /\ fc_val0 (cont_of s' c) = [].
Proof. exact starting_witness. Qed.
Print Assumptions C58_starting_values_refuted.

(** C58 – with two fluids or more, a solve that returns leaves each connection
    with its own container and its specifications. *)
Theorem C58_solve_keeps_fluid_specifications_partial :
  forall conns bs work s s',
    sound_conns s conns -> own_fluid s conns -> separate s bs ->
    NoDup (concat bs) -> ~ In [] bs -> (forall c, In c (concat bs) <-> In c conns) -> work_ok conns work ->
    (exists f g c d, In c conns /\ In d conns /\ f <> g /\ In f (keys (frac s c)) /\ In g (keys (frac s d))) ->
    solve_fluids conns bs work s = (s', None) ->
    own_fluid s' conns /\
    (forall c, In c conns -> fset s' c = fset s c /\ forall f, fspec s' c f = fspec s c f).
Proof. exact solve_fluids_keep. Qed.
Print Assumptions C58_solve_keeps_fluid_specifications_partial.

(** C59 – after a solve without mixing rule, specifying one is rejected, although
    the same specification is accepted before the solve. *)
Theorem C59_mixing_rule_refuted :
  exists s conns s', sound_conns s conns /\ own_fluid s conns /\
    solve_fluids conns [conns] idle s = (s', None) /\
    snd (solve_fluids conns [conns] idle (set_mixing 0 (Some "ideal"%string) s)) = None /\
    snd (solve_fluids conns [conns] idle (set_mixing 0 (Some "ideal"%string) s')) = Some TESPyNetworkError.
Proof. exact mixing_witness. Qed.
Print Assumptions C59_mixing_rule_refuted.

(** C59 – after a solve a new fluid property engine is ignored, although the same
    specification takes effect before the solve. *)
Theorem C59_engine_refuted :
  exists s conns s', sound_conns s conns /\ own_fluid s conns /\
    solve_fluids conns [conns] idle s = (s', None) /\
    (let r := solve_fluids conns [conns] idle (set_engines 0 [("water", "IAPWSWrapper")]%string s) in
     snd r = None /\ wrapper_of (fst r) 0 "water" = Some ("IAPWSWrapper"%string, None)) /\
    (let r := solve_fluids conns [conns] idle (set_engines 0 [("water", "IAPWSWrapper")]%string s') in
     snd r = None /\ wrapper_of (fst r) 0 "water" = Some ("CoolPropWrapper"%string, None)).
Proof. exact engine_witness. Qed.
Print Assumptions C59_engine_refuted.

Example C19_ex :
  let r := solve_fluids [0; 1; 2] [[0; 1; 2]] idle ex_fluid in
  snd r = None /\
  Qeq_bool (match dget "ethanol" (frac (fst r) 2) with Some q => q | None => 0%Q end) (1 # 2) = true /\
  fspec (fst r) 0 "water" = Some (2 # 10)%Q /\ fspec (fst r) 2 "ethanol" = None.
Proof. repeat split; vm_compute; reflexivity. Qed.
(** Example: a fourth fluid makes two fractions variable. *)
Example C19_ex_variable :
  let s := set_dict 2 [("ethanol", 1%Q); ("air", 0%Q)]%string ex_fluid in
  let r := presolve_fluids [[0; 1; 2]] (fst (propagate [0; 1; 2] s)) in
  snd r = None /\ fvar (fst r) 1 = ["air"; "ethanol"]%string \/ fvar (fst r) 1 = ["ethanol"; "air"]%string.
Proof. vm_compute. intuition. Qed.

(** C135 – an existing fluid property wrapper is kept. Otherwise a fluid occurring in
    the branch gets the engine given with a fraction somewhere in the branch if all
    those given agree, and CoolProp if no engine is given. *)
Theorem C135_engine_partial :
  forall conns s s', sound_conns s conns -> own_fluid s conns -> propagate conns s = (s', None) ->
  forall c f, In c conns ->
  (forall w, wrapper_of s c f = Some w -> wrapper_of s' c f = Some w) /\
  (wrapper_of s c f = None -> (exists d, In d conns /\ In f (keys (frac s d))) ->
     (forall e, (exists d, In d conns /\ engine_given s d f e) -> (forall d e', In d conns -> engine_given s d f e' -> e' = e) ->
        exists b, wrapper_of s' c f = Some (e, b)) /\
     ((forall d e, In d conns -> ~ engine_given s d f e) -> dget f (fc_engine (cont_of s c)) = None ->
        exists b, wrapper_of s' c f = Some ("CoolPropWrapper"%string, b))).
Proof. exact engines_used. Qed.
Print Assumptions C135_engine_partial.

(** C135 – two connections giving different engines are accepted; one of them does
    not get its own. *)
Theorem C135_conflict_refuted :
  exists s conns s' c f e w b, sound_conns s conns /\ own_fluid s conns /\ propagate conns s = (s', None) /\
    In c conns /\ wrapper_of s c f = None /\ engine_given s c f e /\ wrapper_of s' c f = Some (w, b) /\ w <> e.
Proof. exact engines_conflict. Qed.
Print Assumptions C135_conflict_refuted.

(** C135 – an engine given where the fraction is a starting value is used there
    only, the rest of the branch gets another one. *)
Theorem C135_not_propagated_refuted :
  exists s conns s' c d f e w b, sound_conns s conns /\ own_fluid s conns /\ propagate conns s = (s', None) /\
    In c conns /\ In d conns /\ dget f (fc_engine (cont_of s d)) = Some e /\
    (forall x e', In x conns -> dget f (fc_engine (cont_of s x)) = Some e' -> e' = e) /\
    wrapper_of s c f = None /\ wrapper_of s' d f = Some (e, None) /\ wrapper_of s' c f = Some (w, b) /\ w <> e.
Proof. exact engines_not_propagated. Qed.
Print Assumptions C135_not_propagated_refuted.
Example C135_ex :
  let s := set_engines 0 [("water", "IAPWSWrapper")]%string (set_fluid 0 "water" (Some 1%Q) (new_conns 9)) in
  map (fun c => wrapper_of (fst (propagate [0; 1] s)) c "water") [0; 1] =
  [Some ("IAPWSWrapper"%string, None); Some ("IAPWSWrapper"%string, None)].
Proof. vm_compute. reflexivity. Qed.
