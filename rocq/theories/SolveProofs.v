(** Proofs about the Newton loop. *)
From Coq Require Import QArith Qabs Lqa.
From Verif Require Import Base SolveModel SolveSpec.
Open Scope nat_scope.
Open Scope list_scope.

Lemma flt_small n : flt n (Fin tol) = true <-> small n.
Proof.
  unfold small, tol. destruct n as [q| |]; cbn.
  - rewrite negb_true_iff. split.
    + intros H. exists q. split; [reflexivity|]. apply Qnot_le_lt. intros X. apply Qle_bool_iff in X. congruence.
    + intros (x & E & L). inversion E; subst. apply not_true_is_false. intros X. apply Qle_bool_iff in X.
      exact (Qlt_not_le _ _ L X).
  - split; [discriminate|]. intros (x & E & _). discriminate.
  - split; [discriminate|]. intros (x & E & _). discriminate.
Qed.

Lemma lastn2_snoc2 l a b : lastn 2 (l ++ [a; b]) = [a; b].
Proof.
  unfold lastn. rewrite app_length. cbn [length]. replace (length l + 2 - 2) with (length l) by lia.
  now rewrite skipn_app, skipn_all, Nat.sub_diag.
Qed.

Lemma nth_first {A} (d : A) m : forall N k, k < N -> nth k (firstn N m) d = nth k m d.
Proof.
  induction m as [|a m IH]; intros N k H; [now rewrite firstn_nil|].
  destruct N as [|N]; [lia|]. destruct k as [|k]; [reflexivity|]. cbn. apply IH. lia.
Qed.

Lemma nth_skip {A} (d : A) n : forall l k, nth k (skipn n l) d = nth (n + k) l d.
Proof.
  induction n as [|n IH]; intros l k; [reflexivity|]. destruct l as [|a l]; cbn; [destruct k; reflexivity|]. apply IH.
Qed.

Section P.
Context {S0 : Type}.
Variable step : S0 -> S0 * res (fnum * bool).

(** Everything about a run of the loop. *)
Record run_facts (min_iter max_iter : nat) (ld : option bool) (s : S0) (hist : list fnum) (o : outcome S0) (l : list (fnum * bool)) : Prop := {
  rf_hist : oc_hist o = hist ++ map fst l;
  rf_trace : oc_err o = None -> trace step s l (oc_state o);
  rf_len : length l <= max_iter;
  rf_ld : oc_err o = None -> oc_lindep o = match rev l with [] => ld | (_, d) :: _ => Some d end;
  rf_conv : oc_conv o = true -> oc_err o = None /\ oc_progress o = true /\ l <> [] /\
     oc_lindep o = Some false /\ min_iter <= length hist + length l /\
     forallb (fun n => flt n (Fin tol)) (lastn 2 (hist ++ map fst l)) = true;
  rf_noprog : oc_progress o = false -> oc_err o = None /\ oc_conv o = false /\
     stagnates (length (hist ++ map fst l) - 1) (hist ++ map fst l) = true;
  rf_unconv : oc_err o = None -> oc_conv o = false -> oc_progress o = true ->
     length l = max_iter \/ oc_lindep o = Some true;
  rf_early : forall k n d, nth_error l k = Some (n, d) -> S k < length l ->
     conv_test min_iter (length hist + k) (hist ++ map fst (firstn (S k) l)) = false /\ d = false /\
     stagnates (length hist + k) (hist ++ map fst (firstn (S k) l)) = false
}.

Lemma loop_facts min_iter fuel : forall iter hist ld s,
  length hist = iter ->
  exists l, run_facts min_iter fuel ld s hist (loop S0 step min_iter fuel iter hist ld s) l.
Proof.
  induction fuel as [|fuel IH]; intros iter hist ld s Hl; cbn [loop].
  - exists []. constructor; cbn [oc_hist oc_err oc_state oc_lindep oc_conv oc_progress map length rev].
    + now rewrite app_nil_r.
    + intros _. constructor.
    + lia.
    + reflexivity.
    + discriminate.
    + discriminate.
    + auto.
    + intros k n d H. destruct k; discriminate.
  - destruct (step s) as [s' [[n d]|e]] eqn:Es.
    2: { exists []. constructor; cbn [oc_hist oc_err oc_state oc_lindep oc_conv oc_progress map length rev].
         - now rewrite app_nil_r.
         - discriminate.
         - lia.
         - discriminate.
         - discriminate.
         - discriminate.
         - discriminate.
         - intros k n d H. destruct k; discriminate. }
    destruct (conv_test min_iter iter (hist ++ [n]) || d) eqn:Ec.
    { exists [(n, d)]. constructor; cbn [oc_hist oc_state oc_err oc_lindep oc_conv oc_progress map fst length rev app].
      - reflexivity.
      - intros _. econstructor; [exact Es|auto|constructor].
      - lia.
      - reflexivity.
      - intros Hd. destruct d; [discriminate|]. rewrite orb_false_r in Ec. unfold conv_test in Ec.
        apply andb_true_iff in Ec. destruct Ec as [E1 E2]. apply Nat.leb_le in E1.
        split; [auto|split; [auto|split; [discriminate|split; [auto|split; [lia|exact E2]]]]].
      - discriminate.
      - intros _ Hd _. destruct d; [auto|discriminate].
      - intros k n0 d0 H Hk. lia. }
    destruct (stagnates iter (hist ++ [n])) eqn:Est.
    { exists [(n, d)]. apply orb_false_iff in Ec. destruct Ec as [Ec ->].
      constructor; cbn [oc_hist oc_state oc_err oc_lindep oc_conv oc_progress map fst length rev app].
      - reflexivity.
      - intros _. econstructor; [exact Es|auto|constructor].
      - lia.
      - reflexivity.
      - discriminate.
      - intros _. split; [auto|split; [auto|]]. rewrite app_length. cbn [length].
        replace (length hist + 1 - 1) with iter by lia. exact Est.
      - intros _ _ H. discriminate.
      - intros k n0 d0 H Hk. lia. }
    apply orb_false_iff in Ec. destruct Ec as [Ec ->].
    destruct (IH (S iter) (hist ++ [n]) (Some false) s') as (l & F).
    { rewrite app_length. cbn. lia. }
    exists ((n, false) :: l). destruct F as [F1 F2 F3 F4 F5 F6 F7 F8].
    assert (HA : hist ++ map fst ((n, false) :: l) = (hist ++ [n]) ++ map fst l) by (cbn; now rewrite <- app_assoc).
    constructor.
    + rewrite HA. exact F1.
    + intros He. econstructor; [exact Es|discriminate|auto].
    + cbn [length]. lia.
    + intros He. rewrite (F4 He). cbn [rev]. destruct (rev l) as [|[? ?] ?]; reflexivity.
    + intros Hc. destruct (F5 Hc) as (A & B & C & D & E & G). rewrite HA.
      rewrite app_length in E. cbn [length] in E |- *.
      split; [auto|split; [auto|split; [discriminate|split; [auto|split; [lia|auto]]]]].
    + intros Hp. rewrite HA. apply F6; auto.
    + intros He Hc Hp. cbn [length]. destruct (F7 He Hc Hp); [left; lia|auto].
    + intros k n0 d0 H Hk. destruct k as [|k].
      * cbn in H. inversion H; subst n0 d0. cbn [firstn map fst]. rewrite Nat.add_0_r. rewrite Hl. auto.
      * cbn in H. destruct (F8 k n0 d0 H) as (A & B & C); [cbn in Hk; lia|].
        assert (E1 : length hist + S k = length (hist ++ [n]) + k) by (rewrite app_length; cbn; lia).
        assert (E2 : hist ++ map fst (firstn (S (S k)) ((n, false) :: l)) = (hist ++ [n]) ++ map fst (firstn (S k) l)).
        { rewrite firstn_cons. cbn [map fst]. now rewrite <- app_assoc. }
        rewrite E1, E2. auto.
Qed.

Lemma solve_loop_facts min_iter max_iter ld s :
  exists l, run_facts min_iter max_iter ld s [] (solve_loop S0 step min_iter max_iter ld s) l.
Proof. unfold solve_loop. apply loop_facts. reflexivity. Qed.

Lemma converged_sound min_iter max_iter ld s o : o = solve_loop S0 step min_iter max_iter ld s ->
  oc_conv o = true ->
  exists l, trace step s l (oc_state o) /\ oc_hist o = map fst l /\
    1 <= length l /\ min_iter <= length l <= max_iter /\ oc_lindep o = Some false /\ oc_err o = None /\
    small (last (map fst l) NaN) /\ (2 <= length l -> small (nth (length l - 2) (map fst l) NaN)).
Proof.
  intros -> Hc. destruct (solve_loop_facts min_iter max_iter ld s) as (l & F).
  destruct (rf_conv _ _ _ _ _ _ _ F Hc) as (A & B & C & D & E & G).
  exists l. cbn [app] in *. split; [now apply F|split; [apply F|]].
  assert (L : 1 <= length l) by (destruct l; [congruence|cbn; lia]).
  split; [lia|split; [split; [cbn in E; lia|apply F]|split; [auto|split; [auto|]]]].
  destruct (exists_last C) as (l' & [n d] & El). subst l. rewrite map_app in *. cbn [map fst] in *.
  rewrite last_last. destruct l' as [|x l'0] using rev_ind.
  - cbn in G. rewrite andb_true_r in G. apply flt_small in G. split; [exact G|]. cbn. lia.
  - rewrite map_app in *. cbn [map] in *. rewrite <- app_assoc in G. cbn [app] in G. rewrite lastn2_snoc2 in G.
    cbn in G. apply andb_true_iff in G. destruct G as [G1 G2]. rewrite andb_true_r in G2.
    apply flt_small in G1, G2. split; [exact G2|]. intros _.
    rewrite !app_length. cbn [length]. replace (length l'0 + 1 + 1 - 2) with (length l'0) by lia.
    rewrite <- app_assoc. cbn [app]. rewrite app_nth2 by (rewrite map_length; lia).
    rewrite map_length, Nat.sub_diag. exact G1.
Qed.

Lemma unconverged_reason min_iter max_iter ld s o : o = solve_loop S0 step min_iter max_iter ld s ->
  oc_conv o = false -> oc_err o = None ->
  oc_progress o = false \/ oc_lindep o = Some true \/ length (oc_hist o) = max_iter.
Proof.
  intros -> Hc He. destruct (solve_loop_facts min_iter max_iter ld s) as (l & F).
  destruct (oc_progress (solve_loop S0 step min_iter max_iter ld s)) eqn:Hp; [|auto].
  destruct (rf_unconv _ _ _ _ _ _ _ F He Hc Hp) as [H|H]; [|auto].
  right; right. rewrite (rf_hist _ _ _ _ _ _ _ F). cbn. now rewrite map_length.
Qed.

(** The loop stops at the first iteration that passes the test. *)
Lemma stops_at_first min_iter max_iter ld s o : o = solve_loop S0 step min_iter max_iter ld s ->
  forall k, S k < length (oc_hist o) -> min_iter <= S k ->
  ~ (small (nth k (oc_hist o) NaN) /\ (1 <= k -> small (nth (k - 1) (oc_hist o) NaN))).
Proof.
  intros -> k Hk Hm (Sm1 & Sm2). destruct (solve_loop_facts min_iter max_iter ld s) as (l & F).
  set (o := solve_loop S0 step min_iter max_iter ld s) in *.
  assert (Hh : oc_hist o = map fst l) by (rewrite (rf_hist _ _ _ _ _ _ _ F); reflexivity).
  rewrite Hh in *. rewrite map_length in Hk.
  destruct (nth_error l k) as [[n d]|] eqn:En.
  2: { apply nth_error_None in En. lia. }
  destruct (rf_early _ _ _ _ _ _ _ F k n d En Hk) as (A & _). cbn [app length Nat.add] in A.
  unfold conv_test in A. apply andb_false_iff in A. destruct A as [A|A].
  { apply Nat.leb_gt in A. lia. }
  assert (Nk : nth k (map fst l) NaN = n).
  { change NaN with (fst (NaN, false)). rewrite map_nth. rewrite (nth_error_nth _ _ _ En). reflexivity. }
  assert (Ef : firstn (S k) l = firstn k l ++ [(n, d)]).
  { clear -En. revert k En. induction l as [|a l IH]; intros [|k] En; cbn in *; try discriminate.
    - inversion En; reflexivity.
    - f_equal. apply IH; auto. }
  rewrite Ef, map_app in A. cbn [map fst] in A.
  destruct k as [|k].
  - cbn in A. rewrite andb_true_r in A. rewrite Nk in Sm1. apply flt_small in Sm1. congruence.
  - destruct (nth_error l k) as [[m c]|] eqn:Em.
    2: { apply nth_error_None in Em. lia. }
    assert (Nm : nth k (map fst l) NaN = m).
    { change NaN with (fst (NaN, false)). rewrite map_nth. rewrite (nth_error_nth _ _ _ Em). reflexivity. }
    assert (Eg : firstn (S k) l = firstn k l ++ [(m, c)]).
    { clear -Em. revert k Em. induction l as [|a l IH]; intros [|k] Em; cbn in *; try discriminate.
      - inversion Em; reflexivity.
      - f_equal. apply IH; auto. }
    rewrite Eg, map_app, <- app_assoc in A. cbn [map fst app] in A. rewrite lastn2_snoc2 in A. cbn in A.
    rewrite andb_true_r in A. rewrite Nk in Sm1. specialize (Sm2 ltac:(lia)).
    replace (S k - 1) with k in Sm2 by lia. rewrite Nm in Sm2. apply flt_small in Sm1, Sm2.
    rewrite Sm1, Sm2 in A. discriminate.
Qed.

(** Progress. *)
Lemma no_abort_while_falling min_iter max_iter ld s o : o = solve_loop S0 step min_iter max_iter ld s ->
  (forall k, S k < length (oc_hist o) -> falls (nth k (oc_hist o) NaN) (nth (S k) (oc_hist o) NaN)) ->
  oc_progress o = true.
Proof.
  intros -> H. destruct (solve_loop_facts min_iter max_iter ld s) as (l & F).
  set (o := solve_loop S0 step min_iter max_iter ld s) in *.
  destruct (oc_progress o) eqn:Hp; [auto|]. exfalso.
  destruct (rf_noprog _ _ _ _ _ _ _ F Hp) as (_ & _ & St).
  assert (Hh : oc_hist o = map fst l) by (rewrite (rf_hist _ _ _ _ _ _ _ F); reflexivity).
  cbn [app] in St. rewrite <- Hh in St. unfold stagnates in St.
  apply andb_true_iff in St. destruct St as [S1 S2]. apply Nat.ltb_lt in S1.
  apply andb_true_iff in S2. destruct S2 as [_ S2]. unfold at_end in S2.
  destruct (H (length (oc_hist o) - 2)) as (x & y & X & Y & Z); [lia|].
  replace (S (length (oc_hist o) - 2)) with (length (oc_hist o) - 1) in Y by lia.
  rewrite X, Y in S2. cbn in S2. apply Qle_bool_iff in S2. exact (Qlt_not_le _ _ Z S2).
Qed.

Lemma abort_only_after_41 min_iter max_iter ld s o : o = solve_loop S0 step min_iter max_iter ld s ->
  oc_progress o = false -> 42 <= length (oc_hist o) /\ oc_conv o = false /\
  forall k, length (oc_hist o) - 4 <= k < length (oc_hist o) ->
    fge (nth k (oc_hist o) NaN) (f95 (nth (length (oc_hist o) - 3) (oc_hist o) NaN)) = true.
Proof.
  intros -> Hp. destruct (solve_loop_facts min_iter max_iter ld s) as (l & F).
  set (o := solve_loop S0 step min_iter max_iter ld s) in *.
  destruct (rf_noprog _ _ _ _ _ _ _ F Hp) as (_ & Hc & St).
  assert (Hh : oc_hist o = map fst l) by (rewrite (rf_hist _ _ _ _ _ _ _ F); reflexivity).
  cbn [app] in St. rewrite <- Hh in St. unfold stagnates in St.
  apply andb_true_iff in St. destruct St as [S1 S2]. apply Nat.ltb_lt in S1.
  apply andb_true_iff in S2. destruct S2 as [S2 _].
  split; [lia|split; [auto|]]. intros k Hk. rewrite forallb_forall in S2. apply S2.
  replace (nth k (oc_hist o) NaN) with (nth (k - (length (oc_hist o) - 1 - 3)) (skipn (length (oc_hist o) - 1 - 3) (oc_hist o)) NaN).
  - apply nth_In. rewrite skipn_length. lia.
  - rewrite nth_skip. f_equal. lia.
Qed.

(** solve(). *)
Lemma solve_undetermined n_eq n_vars min_iter max_iter ld s : n_eq <> n_vars ->
  let r := solve S0 step n_eq n_vars min_iter max_iter ld s in
  oc_err (fst r) = Some TESPyNetworkError /\ oc_hist (fst r) = [] /\ oc_state (fst r) = s /\
  oc_conv (fst r) = false /\ snd r = false.
Proof.
  intros H. cbn zeta. unfold solve, determination.
  destruct (Nat.ltb n_vars n_eq) eqn:E1; [cbn; auto|].
  destruct (Nat.ltb n_eq n_vars) eqn:E2; [cbn; auto|].
  apply Nat.ltb_ge in E1, E2. lia.
Qed.

Lemma solve_determined n min_iter max_iter ld s : 1 <= max_iter ->
  fst (solve S0 step n n min_iter max_iter ld s) = solve_loop S0 step min_iter max_iter ld s.
Proof.
  intros Hm. unfold solve, determination. rewrite Nat.ltb_irrefl.
  destruct (solve_loop_facts min_iter max_iter ld s) as (l & F).
  set (o := solve_loop S0 step min_iter max_iter ld s) in *.
  destruct (oc_err o) eqn:He; [reflexivity|]. destruct (oc_lindep o) as [[|]|] eqn:Hd; [reflexivity..|].
  exfalso. assert (L := rf_ld _ _ _ _ _ _ _ F He). rewrite Hd in L.
  destruct (rev l) as [|[? ?] ?] eqn:Er; [|discriminate].
  assert (l = []) by (apply (f_equal (@rev _)) in Er; rewrite rev_involutive in Er; exact Er). subst l.
  destruct (oc_conv o) eqn:Hc.
  - destruct (rf_conv _ _ _ _ _ _ _ F Hc) as (_ & _ & X & _). congruence.
  - destruct (oc_progress o) eqn:Hp.
    + destruct (rf_unconv _ _ _ _ _ _ _ F He Hc Hp) as [X|X]; [cbn in X; lia|congruence].
    + destruct (rf_noprog _ _ _ _ _ _ _ F Hp) as (_ & _ & X). cbn in X. discriminate.
Qed.

Lemma postprocess_iff n_eq n_vars min_iter max_iter ld s :
  let r := solve S0 step n_eq n_vars min_iter max_iter ld s in
  snd r = true <-> oc_err (fst r) = None /\ oc_lindep (fst r) = Some false /\ oc_progress (fst r) = true.
Proof.
  cbn zeta. unfold solve. destruct (determination n_eq n_vars); [cbn; intuition discriminate|].
  set (o := solve_loop S0 step min_iter max_iter ld s).
  destruct (oc_err o) eqn:He.
  { cbn [fst snd]. rewrite He. intuition discriminate. }
  destruct (oc_lindep o) as [[|]|] eqn:Hd; cbn [fst snd].
  - rewrite Hd. intuition discriminate.
  - rewrite He, Hd. tauto.
  - cbn. intuition discriminate.
Qed.
End P.

(** The state before the last update has a small residual. *)
Lemma trace_last {S0} (step : S0 -> S0 * res (fnum * bool)) s l s' : trace step s l s' -> l <> [] ->
  exists s1 n d, step s1 = (s', Ok (n, d)) /\ n = last (map fst l) NaN.
Proof.
  induction 1 as [s|s s1 s2 n d l E D T IH]; intros H; [congruence|].
  destruct l as [|x l].
  - inversion T; subst. exists s, n, d. auto.
  - destruct IH as (s3 & m & b & A & B); [discriminate|]. exists s3, m, b. split; [auto|].
    rewrite B. cbn [map]. destruct (map fst l); reflexivity.
Qed.

Lemma converged_before_update {S0} (step : S0 -> S0 * res (fnum * bool)) min_iter max_iter ld s o :
  o = solve_loop S0 step min_iter max_iter ld s -> oc_conv o = true ->
  exists s1 n d, step s1 = (oc_state o, Ok (n, d)) /\ small n.
Proof.
  intros E Hc. destruct (converged_sound step _ _ _ _ _ E Hc) as (l & T & _ & L & _ & _ & _ & Sm & _).
  destruct (trace_last step _ _ _ T) as (s1 & n & d & A & B); [destruct l; [cbn in L; lia|discriminate]|].
  exists s1, n, d. split; [auto|]. now rewrite B.
Qed.

(** A square system x^2 + 1e-8 = 0 without any solution. *)
Definition f_bad (x : Q) : Q := (x * x + (1 # 100000000))%Q.
Definition df_bad (x : Q) : Q := (2 * x)%Q.
Definition x_bad : Q := (502733949 # 1000000000000)%Q.
Definition o_bad := solve_loop Q (newton_step f_bad df_bad) 4 50 None x_bad.
Lemma bad_converges : oc_conv o_bad = true /\ length (oc_hist o_bad) = 4 /\ Qle_bool 1000000 (Qabs (f_bad (oc_state o_bad))) = true.
Proof. vm_compute. auto. Qed.

Lemma bad_values : exists f df x,
  (forall y, 0 < f y)%Q /\
  let o := solve_loop Q (newton_step f df) 4 50 None x in
  oc_conv o = true /\ (1000000 <= Qabs (f (oc_state o)))%Q.
Proof.
  exists f_bad, df_bad, x_bad. destruct bad_converges as (A & _ & B). split; [|split].
  - intros y. unfold f_bad. nra.
  - exact A.
  - apply Qle_bool_iff. exact B.
Qed.

Lemma two_small {S0} (step : S0 -> S0 * res (fnum * bool)) min_iter max_iter ld s o :
  2 <= min_iter -> o = solve_loop S0 step min_iter max_iter ld s -> oc_conv o = true ->
  2 <= length (oc_hist o) /\ small (nth (length (oc_hist o) - 1) (oc_hist o) NaN) /\
  small (nth (length (oc_hist o) - 2) (oc_hist o) NaN).
Proof.
  intros Hm E Hc. destruct (converged_sound step _ _ _ _ _ E Hc) as (l & T & H & L & M & _ & _ & Sm & Sm2).
  rewrite H, map_length. split; [lia|split; [|apply Sm2; lia]].
  replace (nth (length l - 1) (map fst l) NaN) with (last (map fst l) NaN); [exact Sm|].
  destruct l as [|x l] using rev_ind; [cbn in L; lia|]. rewrite map_app, app_length. cbn [map length].
  rewrite last_last, app_nth2 by (rewrite map_length; lia). rewrite map_length.
  replace (length l + 1 - 1 - length l) with 0 by lia. reflexivity.
Qed.

Lemma standstill_stopped {S0} (step : S0 -> S0 * res (fnum * bool)) min_iter max_iter ld s o q :
  o = solve_loop S0 step min_iter max_iter ld s -> (0 <= q)%Q ->
  (forall k, k < length (oc_hist o) -> nth k (oc_hist o) NaN = Fin q) -> length (oc_hist o) <= 42.
Proof.
  intros -> Hq Hk. destruct (solve_loop_facts step min_iter max_iter ld s) as (l & F).
  set (o := solve_loop S0 step min_iter max_iter ld s) in *.
  assert (Hh : oc_hist o = map fst l) by (rewrite (rf_hist _ _ _ _ _ _ _ _ F); reflexivity).
  rewrite Hh in *. rewrite map_length in *.
  destruct (Nat.le_gt_cases (length l) 42) as [|G]; [auto|]. exfalso.
  destruct (nth_error l 41) as [[n d]|] eqn:En.
  2: { apply nth_error_None in En. lia. }
  destruct (rf_early _ _ _ _ _ _ _ _ F 41 n d En ltac:(lia)) as (_ & _ & St).
  cbn [app length Nat.add] in St.
  assert (Lf : length (map fst (firstn 42 l)) = 42) by (rewrite map_length, firstn_length; lia).
  assert (Af : forall k, k < 42 -> nth k (map fst (firstn 42 l)) NaN = Fin q).
  { intros k Hlt. rewrite <- firstn_map. rewrite <- (Hk k) by lia.
    now apply nth_first. }
  assert (X : fge (Fin q) (f95 (Fin q)) = true) by (cbn; apply Qle_bool_iff; lra).
  unfold stagnates in St. change (Nat.ltb 40 41) with true in St. cbn [andb] in St.
  apply andb_false_iff in St. unfold at_end in St. rewrite Lf in St. change (42 - 3) with 39 in St.
  change (42 - 1) with 41 in St. change (42 - 2) with 40 in St. rewrite !Af in St by lia.
  destruct St as [St|St]; [|congruence].
  assert (Y : forallb (fun n0 => fge n0 (f95 (Fin q))) (skipn (41 - 3) (map fst (firstn 42 l))) = true).
  { apply forallb_forall. intros x Hx. apply In_nth with (d := NaN) in Hx. destruct Hx as (k & K1 & K2).
    rewrite skipn_length, Lf in K1. rewrite nth_skip, Af in K2 by lia. subst x. exact X. }
  congruence.
Qed.
