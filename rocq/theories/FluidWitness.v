(** Witnesses for the refuted properties of fluid composition reduction. *)
From Verif Require Import MassModel FluidModel FluidSpec FluidProofs.
Open Scope nat_scope.
Open Scope list_scope.

Lemma idle_ok conns : work_ok conns idle.
Proof. intros s h H c f _ _. unfold idle in H. inversion H; subst. reflexivity. Qed.

Lemma sound_intro s conns : NoDup conns ->
  Forall (fun c => NoDup (fset s c) /\ NoDup (keys (frac s c)) /\
    fs_of s c < fs_new s /\ fc_val (cont_of s c) < fs_new s /\ incl (fset s c) (keys (frac s c))) conns ->
  sound_conns s conns.
Proof. intros A B. split; [auto|]. now apply Forall_forall. Qed.

Lemma ok_pair {A B} (r : A * option B) : snd r = None -> r = (fst r, None).
Proof. destruct r; cbn. now intros ->. Qed.

Ltac nodup := repeat (constructor; [cbn; intuition congruence|]); constructor.
Ltac sound := apply sound_intro; [nodup|
  repeat (constructor; [cbn; split; [nodup|split; [nodup|split; [lia|split; [lia|intros ? ?; cbn in *; tauto]]]]|]); constructor].
Ltac owned := split; [cbn; auto|cbn; auto].

Definition w_sum := set_fluid 1 "ammonia" (Some (3 # 10)%Q) (set_fluid 0 "water" (Some (3 # 10)%Q) (new_conns 9)).
Lemma sum_witness : exists s conns s0 s1, sound_conns s conns /\ own_fluid s conns /\
  propagate conns s = (s0, None) /\ presolve_fluids [conns] s0 = (s1, None) /\
  exists c, In c conns /\ fvar s1 c = [] /\ (dict_sum (frac s1 c) == 6 # 10)%Q.
Proof.
  exists w_sum, [0; 1], (fst (propagate [0; 1] w_sum)), (fst (presolve_fluids [[0; 1]] (fst (propagate [0; 1] w_sum)))).
  split; [sound|]. split; [owned|]. split; [apply ok_pair; vm_compute; reflexivity|]. split; [apply ok_pair; vm_compute; reflexivity|].
  exists 0. split; [cbn; auto|]. split; vm_compute; reflexivity.
Qed.

Definition w_one := set_fluid 0 "water" (Some (1 # 2)%Q) (new_conns 9).
Lemma single_fluid_witness : exists s conns s', sound_conns s conns /\ own_fluid s conns /\ work_ok conns idle /\
  solve_fluids conns [conns] idle s = (s', None) /\
  exists c f, In c conns /\ fspec s c f = Some (1 # 2)%Q /\ fspec s' c f = Some 1%Q.
Proof.
  exists w_one, [0; 1], (fst (solve_fluids [0; 1] [[0; 1]] idle w_one)).
  split; [sound|]. split; [owned|]. split; [apply idle_ok|]. split; [apply ok_pair; vm_compute; reflexivity|].
  exists 0, "water"%string. split; [cbn; auto|]. split; vm_compute; reflexivity.
Qed.

Definition w_two := set_fluid 0 "ammonia" (Some (7 # 10)%Q) (set_fluid 0 "water" (Some (3 # 10)%Q) (new_conns 9)).
Lemma shared_witness : exists s conns s' q, sound_conns s conns /\ own_fluid s conns /\ work_ok conns idle /\
  solve_fluids conns [conns] idle s = (s', None) /\
  (forall x f, fspec (set_fluid 1 "water" None (set_fluid 1 "water" (Some q) s)) x f = fspec s x f) /\
  (forall x f, In x conns -> fspec s' x f = fspec s x f) /\
  fspec (set_fluid 1 "water" None (set_fluid 1 "water" (Some q) s')) 0 "water" <> fspec s' 0 "water".
Proof.
  exists w_two, [0; 1], (fst (solve_fluids [0; 1] [[0; 1]] idle w_two)), (1 # 2)%Q.
  split; [sound|]. split; [owned|]. split; [apply idle_ok|]. split; [apply ok_pair; vm_compute; reflexivity|].
  split; [intros [|[|x]] f; reflexivity|]. split.
  - intros x f [<-|[<-|[]]]; [|vm_compute; reflexivity].
    unfold fspec. replace (fset (fst (solve_fluids [0; 1] [[0; 1]] idle w_two)) 0) with (fset w_two 0) by (vm_compute; reflexivity).
    destruct (smem f (fset w_two 0)) eqn:E; [|auto]. apply smem_In in E. cbn in E.
    destruct E as [<-|[<-|[]]]; vm_compute; reflexivity.
  - vm_compute. discriminate.
Qed.

Definition w_start := set_fluid0 0 [("water"%string, 1 # 4)] w_two.
Lemma starting_witness : exists s conns s', sound_conns s conns /\ own_fluid s conns /\ work_ok conns idle /\
  solve_fluids conns [conns] idle s = (s', None) /\
  exists c, In c conns /\ fc_val0 (cont_of s c) <> [] /\ fc_val0 (cont_of s' c) = [].
Proof.
  exists w_start, [0; 1], (fst (solve_fluids [0; 1] [[0; 1]] idle w_start)).
  split; [sound|]. split; [owned|]. split; [apply idle_ok|]. split; [apply ok_pair; vm_compute; reflexivity|].
  exists 0. split; [cbn; auto|]. split; [vm_compute; discriminate|vm_compute; reflexivity].
Qed.

Lemma mixing_witness : exists s conns s', sound_conns s conns /\ own_fluid s conns /\
  solve_fluids conns [conns] idle s = (s', None) /\
  snd (solve_fluids conns [conns] idle (set_mixing 0 (Some "ideal"%string) s)) = None /\
  snd (solve_fluids conns [conns] idle (set_mixing 0 (Some "ideal"%string) s')) = Some TESPyNetworkError.
Proof.
  exists w_two, [0; 1], (fst (solve_fluids [0; 1] [[0; 1]] idle w_two)).
  split; [sound|]. split; [owned|]. split; [apply ok_pair; vm_compute; reflexivity|]. split; vm_compute; reflexivity.
Qed.

Definition w_engine := set_fluid 0 "water" (Some 1%Q) (new_conns 9).
Lemma engine_witness : exists s conns s', sound_conns s conns /\ own_fluid s conns /\
  solve_fluids conns [conns] idle s = (s', None) /\
  (let r := solve_fluids conns [conns] idle (set_engines 0 [("water", "IAPWSWrapper")]%string s) in
   snd r = None /\ wrapper_of (fst r) 0 "water" = Some ("IAPWSWrapper"%string, None)) /\
  (let r := solve_fluids conns [conns] idle (set_engines 0 [("water", "IAPWSWrapper")]%string s') in
   snd r = None /\ wrapper_of (fst r) 0 "water" = Some ("CoolPropWrapper"%string, None)).
Proof.
  exists w_engine, [0; 1], (fst (solve_fluids [0; 1] [[0; 1]] idle w_engine)).
  split; [sound|]. split; [owned|]. split; [apply ok_pair; vm_compute; reflexivity|]. split; split; vm_compute; reflexivity.
Qed.
