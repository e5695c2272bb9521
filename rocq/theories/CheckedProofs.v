(** Proofs about the check before a solution. *)
From Coq Require Import String List Bool Lia Arith.
From Verif Require Import Base TopoModel TopoSpec TopoProofs CheckedModel CheckedSpec.
Import ListNotations.
Open Scope nat_scope.

Lemma init_tables : forall W n, n_conns (init_components W n) = n_conns n /\ n_comps (init_components W n) = n_comps n
  /\ n_checked (init_components W n) = n_checked n.
Proof.
  intros W n. unfold init_components. generalize (map snd (n_comps n)). intros ks. revert n.
  induction ks as [|k ks IH]; intros n; cbn; [repeat split|].
  destruct (IH (n_with_results n (sadd (w_class W k) (n_results n)) (n_checked n))) as (A & B & C).
  rewrite A, B, C. repeat split.
Qed.

Lemma check_sound : forall W branches n n', check_network W branches n = (n', None) ->
  connected W n' /\ n_checked n' = true /\ n_conns n' = n_conns n /\ n_comps n' = n_comps n.
Proof.
  intros W branches n n' H. unfold check_network in H. destruct (n_conns n) as [|p l] eqn:E; [discriminate|].
  destruct (check_conns W n) eqn:EC; [discriminate|].
  destruct (init_tables W n) as (A & B & C).
  destruct (check_components W _ (init_components W n)) eqn:EK; [discriminate|].
  destruct (branches _); [discriminate|]. inversion H; subst n'. cbn.
  apply check_conns_iff in EC. rewrite check_components_iff in EK. rewrite A, B in *.
  split; [|repeat split; congruence].
  unfold connected. cbn. rewrite A. split; [rewrite E; discriminate|]. split; [apply EC|]. split; [apply EC|].
  intros k Hk. apply has_comp_In in Hk. cbn in Hk. rewrite B in Hk. now apply EK.
Qed.

(** The check passes exactly for connected networks, if the branches can be built. *)
Lemma check_complete : forall W branches n, connected W n -> (forall m, branches m = None) ->
  exists n', check_network W branches n = (n', None).
Proof.
  intros W branches n (N & D1 & D2 & K) HB. unfold check_network. destruct (n_conns n) as [|p l] eqn:E; [congruence|].
  rewrite <- E in *. assert (C : check_conns W n = None) by (apply check_conns_iff; split; assumption). rewrite C.
  destruct (init_tables W n) as (A & B & _).
  assert (K' : check_components W (map snd (n_comps (init_components W n))) (init_components W n) = None).
  { apply check_components_iff. rewrite A, B. intros k Hk. apply K. now apply has_comp_In. }
  rewrite K', HB. now eexists.
Qed.

Lemma add_loop_unchecked : forall W args n, 
  n_checked (fst (add_conns_loop W args n)) = false \/ fst (add_conns_loop W args n) = n.
Proof.
  intros W args. induction args as [|[c|] args IH]; intros n; cbn; [now right| |now right].
  destruct (dmem (w_label W c) (n_conns n)); [now right|].
  destruct (IH (n_with_conns n (dset (w_label W c) c (n_conns n)) false)) as [H| ->]; left; [exact H|reflexivity].
Qed.

Lemma add_loop_nil : forall W args n, snd (add_conns_loop W args n) = None -> args <> [] ->
  n_checked (fst (add_conns_loop W args n)) = false.
Proof.
  intros W [|[c|] args] n H N; [congruence| |discriminate]. cbn in *.
  destruct (dmem (w_label W c) (n_conns n)); [discriminate|].
  destruct (add_loop_unchecked W args (n_with_conns n (dset (w_label W c) c (n_conns n)) false)) as [H'| ->]; [exact H'|reflexivity].
Qed.

Lemma add_comps_checked : forall W ks n, n_checked (fst (add_comps W ks n)) = n_checked n.
Proof.
  intros W ks. induction ks as [|k ks IH]; intros n; cbn; [reflexivity|].
  destruct (dget (w_clabel W k) (n_comps n)) as [k'|]; [destruct (Nat.eqb k' k); [apply IH|reflexivity]|].
  rewrite IH. reflexivity.
Qed.

Lemma add_unchecked : forall W order args n, set_order order ->
  n_checked (fst (add_conns W order args n)) = false \/ fst (add_conns W order args n) = n.
Proof.
  intros W order args n SO. unfold add_conns. destruct (add_conns_loop W args n) as [n' [e|]] eqn:E.
  - pose proof (add_loop_unchecked W args n) as H. rewrite E in H. exact H.
  - destruct args as [|a args].
    + cbn in *. inversion E; subst. right. destruct (order []) as [|x l] eqn:EO; [reflexivity|].
      assert (H : In x (order [])) by (rewrite EO; now left). apply (proj1 (proj2 (SO []) x)) in H. destruct H.
    + left. rewrite add_comps_checked. pose proof (add_loop_nil W (a :: args) n) as H. rewrite E in H. apply H; [reflexivity|discriminate].
Qed.

Lemma del_unchecked : forall W order cs n n', del_conns W order cs n = (n', None) -> n_checked n' = false.
Proof.
  intros W order cs n n' H. unfold del_conns in H. destruct (del_conns_loop W cs n) as [n1 [e|]]; [discriminate|].
  destruct (del_comps W _ n1) as [n2 [e|]]; [discriminate|]. now inversion H.
Qed.

Lemma run_invariant : forall W order branches a n, set_order order ->
  (forall cs, a = ADel cs -> snd (run W order branches a n) = None) ->
  (n_checked n = true -> connected W n) ->
  n_checked (fst (run W order branches a n)) = true -> connected W (fst (run W order branches a n)).
Proof.
  intros W order branches a n SO HD I. destruct a as [args|cs|]; cbn [run] in *.
  - destruct (add_unchecked W order args n SO) as [H| ->]; [congruence|exact I].
  - specialize (HD cs eq_refl). destruct (del_conns W order cs n) as [n' e] eqn:E. cbn in HD. subst e.
    apply del_unchecked in E. cbn. congruence.
  - unfold solve_check. destruct (n_checked n) eqn:C; [intros _; now apply I|].
    destruct (check_network W branches n) as [n' [e|]] eqn:E.
    + cbn. intros H. exfalso. unfold check_network in E. destruct (n_conns n); [congruence|].
      destruct (check_conns W n); [congruence|].
      destruct (init_tables W n) as (_ & _ & T).
      destruct (check_components W _ _); [inversion E; subst; congruence|].
      destruct (branches _); inversion E; subst; congruence.
    + intros _. now apply check_sound in E.
Qed.

Lemma solves_connected : forall W order branches l, set_order order -> deletes_fine W order branches l empty_net ->
  forall n', run W order branches ASolve (acts W order branches l empty_net) = (n', None) -> connected W n'.
Proof.
  intros W order branches l SO DF.
  assert (G : forall l n, deletes_fine W order branches l n -> (n_checked n = true -> connected W n) ->
     n_checked (acts W order branches l n) = true -> connected W (acts W order branches l n)).
  { clear l DF. induction l as [|a l IH]; intros n DF I; [exact I|]. destruct DF as [D1 D2]. cbn.
    apply IH; [exact D2|]. now apply run_invariant. }
  intros n' H. pose proof (G l empty_net DF) as G'. cbn [run] in H. unfold solve_check in H.
  destruct (n_checked (acts W order branches l empty_net)) eqn:C.
  - inversion H; subst. apply G'; [discriminate|exact eq_refl].
  - now apply check_sound in H.
Qed.

(** A change of the topology is always followed by a check. *)
Lemma change_checked : forall W order branches args n c, set_order order ->
  In (AConn c) args -> snd (add_conns W order args n) = None ->
  forall n', run W order branches ASolve (fst (add_conns W order args n)) = (n', None) ->
  check_network W branches (fst (add_conns W order args n)) = (n', None).
Proof.
  intros W order branches args n c SO Hc HN n' H.
  assert (C : n_checked (fst (add_conns W order args n)) = false).
  { unfold add_conns in *. destruct (add_conns_loop W args n) as [n1 [e|]] eqn:E; [discriminate|].
    rewrite add_comps_checked. pose proof (add_loop_nil W args n) as L. rewrite E in L. apply L; [reflexivity|].
    intros ->. destruct Hc. }
  cbn [run] in H. unfold solve_check in H. now rewrite C in H.
Qed.

Lemma rechecks : forall W branches n n', solve_check W branches n = (n', None) -> solve_check W branches n' = (n', None).
Proof.
  intros W branches n n' H. unfold solve_check in *. destruct (n_checked n) eqn:C.
  - inversion H; subst. now rewrite C.
  - apply check_sound in H. destruct H as (_ & -> & _). reflexivity.
Qed.

(** Source 0, pump 1, sink 2; connection 2 does not belong to the network. *)
Definition chW : world := {|
  w_class := fun k => nth k ["Source"; "Pump"; "Sink"]%string ""%string;
  w_clabel := fun k => nth k ["so"; "pu"; "si"]%string ""%string;
  w_inlets := fun k => nth k [[]; ["in1"]; ["in1"]]%string [];
  w_outlets := fun k => nth k [["out1"]; ["out1"]; []]%string [];
  w_label := fun c => nth c ["1"; "2"; "3"]%string ""%string;
  w_source := fun c => c; w_source_id := fun _ => "out1"%string;
  w_target := fun c => S c; w_target_id := fun _ => "in1"%string |}.

Lemma failed_delete : exists W order branches l n', set_order order
  /\ run W order branches ASolve (acts W order branches l empty_net) = (n', None) /\ ~ connected W n'.
Proof.
  exists chW, (nodup Nat.eq_dec), (fun _ => None), [AAdd [AConn 0; AConn 1]; ASolve; ADel [0; 2]]. eexists.
  split; [apply nodup_order|]. split; [reflexivity|].
  intros (_ & _ & _ & K). destruct (K 1) as [_ K2]; [exists "pu"%string; cbn; tauto|]. discriminate K2.
Qed.
