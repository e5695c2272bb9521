From Coq Require Import QArith.
From Verif Require Import Base MassModel FluidModel FluidSpec StartSpec.
Open Scope nat_scope.
Open Scope string_scope.
Open Scope list_scope.

(** Two connections in a row behind a merge of water and air; starting values of air at the first and of water at the second. *)
Definition ex_conns := [0; 1; 2; 3].
Definition ex_bs := [[0; 1]; [2]; [3]].
Definition ex_fluids := ["air"; "water"].
Definition ex_new : fstate :=
  set_fluid0 1 [("water", 2 # 5)%Q] (set_fluid0 0 [("air", 3 # 10)%Q]
    (set_fluid 3 "water" (Some 1%Q) (set_fluid 2 "air" (Some 1%Q) (new_conns 9)))).
Definition ex_prep (s : fstate) : fstate := fst (presolve_fluids ex_bs (fst (propagate ex_conns s))).
Definition ex_again : fstate := set_fluid0 0 [("air", 7 # 10)%Q] (fst (solve_fluids ex_conns ex_bs idle ex_new)).
(** A third fluid is given as starting value only. *)
Definition ex_third : fstate := set_fluid0 0 [("ammonia", 1 # 10)%Q] ex_new.

Ltac four C := cbn in C; destruct C as [<-|[<-|[<-|[<-|[]]]]].
Lemma sound_by (s : fstate) : (forall c, In c ex_conns -> NoDup (fset s c) /\ NoDup (keys (frac s c)) /\
    fs_of s c < fs_new s /\ fc_val (cont_of s c) < fs_new s /\ incl (fset s c) (keys (frac s c))) -> sound_conns s ex_conns.
Proof. intros H. split; [|exact H]. repeat constructor; cbn; intuition congruence. Qed.
Lemma new_setup s : s = ex_new \/ s = ex_third -> sound_conns s ex_conns /\ own_fluid s ex_conns /\ own_values s ex_conns /\ branches_of ex_conns ex_bs /\ fluids_of s ex_conns ex_fluids.
Proof.
  intros E. split; [|split; [|split; [|split]]].
  - apply sound_by. intros c C. destruct E as [->| ->]; four C; vm_compute;
      (split; [repeat constructor; cbn; intuition congruence|]); (split; [repeat constructor; cbn; intuition congruence|]);
      (split; [lia|]); (split; [lia|]); intros x X; exact X.
  - split; [intros c d C D; destruct E as [->| ->]; cbn; auto|intros c C; destruct E as [->| ->]; reflexivity].
  - intros c d C D. destruct E as [->| ->]; four C; four D; vm_compute; intros X; try reflexivity; discriminate.
  - split; [repeat constructor; cbn; intuition congruence|]. split; [cbn; intuition discriminate|]. intros c. cbn. tauto.
  - split; [repeat constructor; cbn; intuition congruence|]. intros f. split.
    + intros F. cbn in F. destruct F as [<-|[<-|[]]]; [exists 2|exists 3]; (split; [cbn; auto|destruct E as [->| ->]; vm_compute; auto]).
    + intros (d & D & K). destruct E as [->| ->]; four D; vm_compute in K; cbn; intuition.
Qed.
Lemma composed_by s : snd (propagate ex_conns s) = None -> snd (presolve_fluids ex_bs (fst (propagate ex_conns s))) = None -> composed ex_conns ex_bs s (ex_prep s).
Proof.
  intros A B. unfold ex_prep. exists (fst (propagate ex_conns s)). destruct (propagate ex_conns s) as [s0 e]. cbn [fst snd] in *. subst e. split; [reflexivity|].
  destruct (presolve_fluids ex_bs s0) as [s1 e]. cbn [fst snd] in *. now subst e.
Qed.
Lemma ex_composed s : s = ex_new \/ s = ex_third -> composed ex_conns ex_bs s (ex_prep s).
Proof. intros E. apply composed_by; destruct E as [->| ->]; vm_compute; reflexivity. Qed.
Lemma other_ignored : exists conns bs s s' fluids b c f q,
  sound_conns s conns /\ own_fluid s conns /\ own_values s conns /\ branches_of conns bs /\ fluids_of s conns fluids /\ composed conns bs s s'
  /\ In b bs /\ In c b /\ In f (fvar s' c) /\ dget f (fc_val0 (cont_of s c)) = Some q
  /\ exists q', dget f (frac s' c) = Some q' /\ ~ (q' == q)%Q.
Proof.
  exists ex_conns, ex_bs, ex_new, (ex_prep ex_new), ex_fluids, [0; 1], 1, "water", (2 # 5)%Q.
  destruct (new_setup ex_new (or_introl eq_refl)) as (A & B & C & D & E). repeat (split; [assumption|]).
  split; [apply ex_composed; auto|]. split; [now left|]. split; [right; now left|]. split; [vm_compute; auto|]. split; [vm_compute; reflexivity|].
  exists (1 # 2)%Q. split; [vm_compute; reflexivity|]. vm_compute. discriminate.
Qed.
Lemma third_ignored : exists conns bs s s' fluids main others f q,
  sound_conns s conns /\ own_fluid s conns /\ own_values s conns /\ branches_of conns bs /\ fluids_of s conns fluids /\ composed conns bs s s'
  /\ In (main :: others) bs /\ dget f (fc_val0 (cont_of s main)) = Some q /\ (0 < q)%Q /\ ~ In f (keys (frac s' main)).
Proof.
  exists ex_conns, ex_bs, ex_third, (ex_prep ex_third), ex_fluids, 0, [1], "ammonia", (1 # 10)%Q.
  destruct (new_setup ex_third (or_intror eq_refl)) as (A & B & C & D & E). repeat (split; [assumption|]).
  split; [apply ex_composed; auto|]. split; [now left|]. split; [vm_compute; reflexivity|]. split; [reflexivity|]. vm_compute. intuition discriminate.
Qed.
Lemma later_ignored : exists conns bs work s s1 main others f q s2,
  sound_conns s conns /\ own_fluid s conns /\ own_values s conns /\ branches_of conns bs
  /\ solve_fluids conns bs work s = (s1, None) /\ In (main :: others) bs
  /\ composed conns bs (set_fluid0 main [(f, q)] s1) s2 /\ In f (fvar s2 main) /\ exists q', dget f (frac s2 main) = Some q' /\ ~ (q' == q)%Q.
Proof.
  exists ex_conns, ex_bs, idle, ex_new, (fst (solve_fluids ex_conns ex_bs idle ex_new)), 0, [1], "air", (7 # 10)%Q, (ex_prep ex_again).
  destruct (new_setup ex_new (or_introl eq_refl)) as (A & B & C & D & E). repeat (split; [assumption|]).
  split. { assert (X : snd (solve_fluids ex_conns ex_bs idle ex_new) = None) by (vm_compute; reflexivity). destruct (solve_fluids ex_conns ex_bs idle ex_new) as [a b]. cbn [fst snd] in *. now subst b. }
  split; [now left|]. split; [apply composed_by; vm_compute; reflexivity|]. split; [vm_compute; auto|].
  exists (3 # 10)%Q. split; [vm_compute; reflexivity|]. vm_compute. discriminate.
Qed.
Definition ex_solved : fstate := fst (solve_fluids ex_conns ex_bs idle ex_new).
Lemma solved_setup : sound_conns ex_solved ex_conns /\ calculated ex_solved ex_conns
  /\ (exists g h, g <> h /\ occurs ex_solved ex_conns g /\ occurs ex_solved ex_conns h) /\ snd (propagate ex_conns ex_solved) = None.
Proof.
  assert (K : forall c, In c ex_conns -> keys (frac ex_solved c) = ["air"; "water"] \/ keys (frac ex_solved c) = ["water"; "air"]) by (intros c C; four C; vm_compute; auto).
  split; [|split; [|split]].
  - clear K. apply sound_by. intros c C. four C; vm_compute;
      (split; [repeat constructor; cbn; intuition congruence|]); (split; [repeat constructor; cbn; intuition congruence|]);
      (split; [lia|]); (split; [lia|]); intros x X; cbn in X |- *; intuition.
  - intros c f C (d & D & F). pose proof (K d D) as E. destruct (K c C) as [-> | ->]; clear K; destruct E as [E|E]; rewrite E in F; clear E; cbn in F |- *; intuition.
  - exists "air", "water". split; [discriminate|]. split; exists 0; (split; [now left|vm_compute; auto]).
  - vm_compute. reflexivity.
Qed.
