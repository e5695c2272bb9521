(** Networks whose calculation depends on the order of the connections. *)
From Coq Require Import QArith Permutation.
From Verif Require Import Base UnitsModel StateModel StateSpec StateWitness StateOrderSpec.
Open Scope string_scope.
Open Scope list_scope.

(** Three connections: the pressure of 1 is specified, 2 refers to 1, 3 refers to 2. *)
Definition first : conn := mk (water 0) [("m", 1%Q); ("p", 5%Q); ("h", 100000%Q)] [] [] None.
Definition second : conn := with_ref "p" "1" (mk (water 0) [("h", 100000%Q)] [("m", 1%Q)] [] None).
Definition third : conn := with_ref "p" "2" (mk (water 0) [("h", 100000%Q)] [("m", 1%Q)] [] None).
Definition forward : dict conn := [("1", first); ("2", second); ("3", third)].
Definition backward : dict conn := [("1", first); ("3", third); ("2", second)].

Lemma forward_backward : Permutation forward backward.
Proof. apply perm_skip, perm_swap. Qed.
Definition SI_of (r : res (dict conn)) (l k : string) : option num := match r with Ok n => option_map (fun c => SI c k) (dget l n) | Err _ => None end.

Lemma start_differs : exists units a net net' out out' o o', Permutation net net' /\ NoDup (keys net)
  /\ initialise units a None net = Ok out /\ initialise units a None net' = Ok out' /\ dget "3" out = Some o /\ dget "3" out' = Some o'
  /\ k_var (n_c o "p") = true /\ ~ same (SI o "p") (SI o' "p").
Proof.
  assert (H : holds (initialise (si []) no_guess None forward) (fun n => at_label "3" n (fun c => k_var (n_c c "p") = true /\ option_map Qred (SI c "p") = Some 500000%Q))).
  { vm_compute. auto. }
  assert (H' : holds (initialise (si []) no_guess None backward) (fun n => at_label "3" n (fun c => option_map Qred (SI c "p") = Some 100000%Q))).
  { vm_compute. auto. }
  destruct (holds_at _ _ _ H) as (out & o & E & D & V & X). destruct (holds_at _ _ _ H') as (out' & o' & E' & D' & X').
  exists (si []), no_guess, forward, backward, out, out', o, o'. split; [apply forward_backward|]. split; [|repeat (split; [assumption|])].
  - unfold forward. cbn. repeat (constructor; [cbn; intuition discriminate|]). constructor.
  - intros S. destruct (SI o "p") as [x|]; [|discriminate]. destruct (SI o' "p") as [y|]; [|discriminate]. cbn in X, X', S.
    injection X as X. injection X' as X'. rewrite <- (Qred_correct x), <- (Qred_correct y), X, X' in S. discriminate S.
Qed.

(** A fluid with a phase change below 2 bar only, and a connection that has to be liquid. *)
Definition low : fluid :=
  {| f_mixture := false; f_hpT := f_hpT (water 0); f_hpQ := fun p x => if Qle_bool p 200000 then f_hpQ (water 0) p x else Err ValueError;
     f_psat := f_psat (water 0); f_Tsat := f_Tsat (water 0); f_Tph := f_Tph (water 0); f_Qph := f_Qph (water 0); f_vph := f_vph (water 0);
     f_sph := f_sph (water 0); f_phase := f_phase (water 0) |}.
Definition liquid : conn := with_ref "p" "2" (mk low [("m", 1%Q)] [("h", 100000%Q)] [] (Some "l")).
Definition good : dict conn := [("1", first); ("3", liquid); ("2", second)].
Definition bad : dict conn := [("1", first); ("2", second); ("3", liquid)].
Lemma raise_differs : exists units a sol net net' out, Permutation net net' /\ NoDup (keys net)
  /\ solve units a None sol net = Ok out /\ solve units a None sol net' = Err ValueError.
Proof.
  assert (H : holds (solve (si []) no_guess None (finds 100000 100000) good) (fun n => True)) by (vm_compute; exact I).
  destruct (holds_ok _ _ H) as (out & E & _).
  exists (si []), no_guess, (finds 100000 100000), good, bad, out. split; [apply perm_skip, perm_swap|]. split; [|split; [exact E|]].
  - unfold good. cbn. repeat (constructor; [cbn; intuition discriminate|]). constructor.
  - vm_compute. reflexivity.
Qed.
