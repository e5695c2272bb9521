From Coq Require Import Lqa Lia Morphisms.
From Verif Require Import StepModel UpdateSpec StepSpec UpdateProofs.
Open Scope Q_scope.

(* sums *)
Lemma sumn_ext n f g : (forall k, (k < n)%nat -> f k == g k) -> sumn n f == sumn n g.
Proof. induction n as [|n IH]; intros H; cbn; [lra|]. rewrite IH by (intros; apply H; lia). rewrite H by lia. lra. Qed.
Lemma sumn_add n f g : sumn n (fun k => f k + g k) == sumn n f + sumn n g.
Proof. induction n as [|n IH]; cbn; [lra|]. rewrite IH. lra. Qed.
Lemma sumn_scale n c f : sumn n (fun k => c * f k) == c * sumn n f.
Proof. induction n as [|n IH]; cbn; [lra|]. rewrite IH. lra. Qed.
Lemma sumn_zero n : sumn n (fun _ => 0) == 0.
Proof. induction n as [|n IH]; cbn; [lra|]. rewrite IH. lra. Qed.
Lemma sumn_swap n m (f : nat -> nat -> Q) : sumn n (fun i => sumn m (fun j => f i j)) == sumn m (fun j => sumn n (fun i => f i j)).
Proof.
  induction n as [|n IH]; cbn; [symmetry; apply sumn_zero|]. rewrite IH, <- sumn_add. reflexivity.
Qed.
Lemma sumn_pick n i (f : nat -> Q) : (i < n)%nat -> sumn n (fun j => (if Nat.eqb i j then 1 else 0) * f j) == f i.
Proof.
  induction n as [|n IH]; intros H; [lia|]. cbn. destruct (Nat.eqb_spec i n) as [->|N].
  - assert (Z : sumn n (fun j => (if Nat.eqb n j then 1 else 0) * f j) == 0).
    { rewrite <- (sumn_zero n). apply sumn_ext. intros k K. destruct (Nat.eqb_spec n k); [lia|]. lra. }
    rewrite Z. lra.
  - rewrite IH by lia. lra.
Qed.

Lemma nth_seq_map n (f : nat -> Q) k : (k < n)%nat -> nth k (map f (seq 0 n)) 0 = f k.
Proof. intros H. rewrite nth_indep with (d' := f 0%nat) by (rewrite map_length, seq_length; exact H). rewrite map_nth, seq_nth by exact H. reflexivity. Qed.

(** Jacobian times increments = negative residuals. *)
Lemma step_equation : forall inv n a inc, inverts inv -> matrix_inversion inv n a = (inc, false) ->
  length inc = n /\ forall i, (i < n)%nat -> sumn n (fun j => ar_jac a i j * nth j inc 0) == - ar_res a i.
Proof.
  intros inv n a inc HI E. unfold matrix_inversion in E. destruct (inv n (ar_jac a)) as [K|] eqn:EK; [|discriminate].
  injection E as <-. split; [now rewrite map_length, seq_length|]. intros i I.
  rewrite (sumn_ext n _ (fun j => sumn n (fun k => (ar_jac a i j * K j k) * - ar_res a k))).
  2:{ intros j J. rewrite nth_seq_map by exact J. rewrite <- sumn_scale. apply sumn_ext. intros. ring. }
  rewrite sumn_swap.
  rewrite (sumn_ext n _ (fun k => (if Nat.eqb i k then 1 else 0) * - ar_res a k)).
  2:{ intros k KN. rewrite <- (HI n _ _ EK i k I KN).
      rewrite (sumn_ext n _ (fun j => - ar_res a k * (ar_jac a i j * K j k))) by (intros; ring).
      rewrite sumn_scale. ring. }
  apply (sumn_pick n i (fun k => - ar_res a k)). exact I.
Qed.

Lemma uvar_eqb_eq x y : uvar_eqb x y = true <-> x = y.
Proof.
  destruct x, y; cbn; rewrite ?andb_true_iff, ?Nat.eqb_eq, ?String.eqb_eq; split; intros H; try discriminate; try (injection H; auto); try (destruct H); try congruence.
Qed.
Lemma column_in vars x j : column vars x = Some j -> In (x, j) vars.
Proof.
  induction vars as [|(y & k) l IH]; cbn; [discriminate|]. destruct (uvar_eqb x y) eqn:E; intros H; [|right; auto].
  apply uvar_eqb_eq in E as ->. injection H as ->. left; reflexivity.
Qed.
Lemma column_none vars x : column vars x = None -> ~ In x (map fst vars).
Proof.
  induction vars as [|(y & k) l IH]; cbn; [auto|]. destruct (uvar_eqb x y) eqn:E; [discriminate|]. intros H [->|I]; [|now apply IH].
  assert (T : uvar_eqb x x = true) by now apply uvar_eqb_eq. congruence.
Qed.

(** What happens to one quantity *)
Lemma step_value L inc vars s s' x : NoDup (map fst vars) -> Forall (fun e => (snd e < length inc)%nat) vars ->
  update_variables L inc vars s = (s', None) -> full_step inc vars s x ->
  num x s' == num x s + match column vars x with Some j => nth j inc 0 | None => 0 end.
Proof.
  intros ND FL U FS. destruct (column vars x) as [j|] eqn:C.
  - pose proof (column_in _ _ _ C) as I.
    assert (V : value x s' = Some (stepped L x (num x s) (nth j inc 0))).
    { unfold update_variables in U. clear FS C. revert s s' U I. induction vars as [|e vars IH]; intros s s' U I; [destruct I|].
      cbn [map] in ND. inversion ND as [|? ? N1 N2]; subst. inversion FL as [|? ? F1 F2]; subst. cbn [each] in U.
      destruct (andthen_ok _ _ _ U) as (s1 & E1 & E2). destruct I as [->|I].
      - pose proof (update_frame L inc vars s1 x N1) as F. unfold update_variables in F. rewrite E2 in F. cbn in F. rewrite F.
        cbn [snd fst] in *. unfold update_one in E1. cbn [fst snd] in E1, F1. rewrite (nth_error_nth' inc 0 F1) in E1. unfold num.
        destruct x as [b|b|b|b f|b]; cbn [value stepped] in *.
        + injection E1 as <-. cbn. rewrite nupd_eq. reflexivity.
        + destruct (Qeq_bool (v_p s b) 0); [discriminate|]. injection E1 as <-. cbn. rewrite nupd_eq. reflexivity.
        + injection E1 as <-. cbn. rewrite nupd_eq. reflexivity.
        + destruct (dget f (v_f s b)) as [q|]; [|discriminate]. injection E1 as <-. cbn. rewrite nupd_eq, dget_dset_eq. reflexivity.
        + injection E1 as <-. cbn. rewrite nupd_eq. reflexivity.
      - specialize (IH N2 F2 s1 s' E2 I). rewrite IH. f_equal. f_equal. unfold num.
        assert (O : value x s1 = value x s).
        { change s1 with (fst (s1, @None pyerr)). rewrite <- E1. apply update_one_other. intros <-. apply N1. change (fst e) with (fst (fst e, j)). now apply in_map. }
        now rewrite O. }
    unfold num at 1. rewrite V. destruct x as [b|b|b|b f|b]; cbn [stepped]; cbn [full_step] in FS; try (destruct FS; fail); try lra.
    destruct (FS j C) as [P D]. change (num (UP b) s) with (v_p s b). unfold pymax1.
    assert (Q1 : qlt 1 ((-2) * nth j inc 0 / v_p s b) = false).
    { apply qlt_false. apply Qle_shift_div_r; [exact P|]. lra. }
    rewrite Q1. field.
  - pose proof (update_frame L inc vars s x (column_none _ _ C)) as F. rewrite U in F. cbn in F. unfold num. rewrite F. lra.
Qed.

(** The change of a linear equation is its row times the increments *)
Lemma row_times n vars terms (g : nat -> Q) : Forall (fun e => (snd e < n)%nat) vars ->
  sumn n (fun j => coef vars terms j * g j)
  == fold_right Qplus 0 (map (fun t => snd t * match column vars (fst t) with Some j => g j | None => 0 end) terms).
Proof.
  intros F. induction terms as [|[x c] terms IH].
  - cbn. rewrite (sumn_ext n _ (fun _ => 0)) by (intros; lra). apply sumn_zero.
  - unfold coef in *. cbn [map fold_right fst snd].
    rewrite (sumn_ext n _ (fun j => (match column vars x with Some k => if Nat.eqb k j then c else 0 | None => 0 end) * g j
       + fold_right Qplus 0 (map (fun t => match column vars (fst t) with Some k => if Nat.eqb k j then snd t else 0 | None => 0 end) terms) * g j)).
    2:{ intros. rewrite Qmult_plus_distr_l. reflexivity. }
    rewrite sumn_add, IH. apply Qplus_comp; [|reflexivity]. destruct (column vars x) as [k|] eqn:C.
    + apply column_in in C. rewrite Forall_forall in F. specialize (F _ C). cbn in F.
      rewrite (sumn_ext n _ (fun j => c * ((if Nat.eqb k j then 1 else 0) * g j))).
      2:{ intros j _. destruct (Nat.eqb k j); ring. }
      rewrite sumn_scale, sumn_pick by exact F. reflexivity.
    + rewrite (sumn_ext n _ (fun _ => 0)) by (intros; lra). rewrite sumn_zero. lra.
Qed.
Lemma lin_change L inc vars s s' terms c : NoDup (map fst vars) -> Forall (fun e => (snd e < length inc)%nat) vars ->
  update_variables L inc vars s = (s', None) -> Forall (fun t => full_step inc vars s (fst t)) terms ->
  lin terms c s' == lin terms c s + fold_right Qplus 0 (map (fun t => snd t * match column vars (fst t) with Some j => nth j inc 0 | None => 0 end) terms).
Proof.
  intros ND FL U FS. unfold lin. induction FS as [|[x k] terms H FS IH]; cbn [map fold_right fst snd]; [lra|].
  rewrite (step_value L inc vars s s' x ND FL U H). lra.
Qed.

(** Every linear equation holds after the step. *)
Lemma linear_solved : forall inv L n vars a inc s s' i terms c,
  inverts inv -> unknowns_ok n vars -> matrix_inversion inv n a = (inc, false) ->
  newton_step inv L n vars a s = (s', None) -> (i < n)%nat ->
  ar_res a i == lin terms c s -> (forall j, (j < n)%nat -> ar_jac a i j == coef vars terms j) ->
  Forall (fun t => full_step inc vars s (fst t)) terms ->
  lin terms c s' == 0.
Proof.
  intros inv L n vars a inc s s' i terms c HI [ND FL] M U I R J FS.
  destruct (step_equation inv n a inc HI M) as [LI S]. unfold newton_step in U. rewrite M in U. cbn in U. subst n.
  rewrite (lin_change L inc vars s s' terms c ND FL U FS).
  rewrite <- (row_times (length inc) vars terms (fun j => nth j inc 0) FL).
  rewrite <- R, (sumn_ext (length inc) _ (fun j => ar_jac a i j * nth j inc 0)).
  - rewrite (S i I). lra.
  - intros j Hj. rewrite (J j Hj). reflexivity.
Qed.
Lemma flows_solved : forall inv L n vars a inc s s' i terms c,
  inverts inv -> unknowns_ok n vars -> matrix_inversion inv n a = (inc, false) ->
  newton_step inv L n vars a s = (s', None) -> (i < n)%nat ->
  ar_res a i == lin terms c s -> (forall j, (j < n)%nat -> ar_jac a i j == coef vars terms j) ->
  flows_and_enthalpies terms -> lin terms c s' == 0.
Proof.
  intros inv L n vars a inc s s' i terms c HI HU M U I R J FS. apply (linear_solved inv L n vars a inc s s' i terms c HI HU M U I R J).
  unfold flows_and_enthalpies in FS. revert FS. apply Forall_impl. intros t T. destruct (fst t); cbn; try exact Logic.I; contradiction.
Qed.

(** A step that changes nothing has found a solution; without inverse nothing changes. *)
Lemma no_change_solved : forall inv n a inc, inverts inv -> matrix_inversion inv n a = (inc, false) ->
  Forall (fun d => d == 0) inc -> forall i, (i < n)%nat -> ar_res a i == 0.
Proof.
  intros inv n a inc HI M F i I. destruct (step_equation inv n a inc HI M) as [LI S].
  assert (Z : sumn n (fun j => ar_jac a i j * nth j inc 0) == 0).
  { rewrite (sumn_ext n _ (fun _ => 0)); [apply sumn_zero|]. intros k K. rewrite Forall_forall in F.
    rewrite (F (nth k inc 0)); [lra|]. apply nth_In. lia. }
  rewrite (S i I) in Z. lra.
Qed.
Lemma singular_frozen : forall inv L n vars a s, inv n (ar_jac a) = None ->
  snd (matrix_inversion inv n a) = true /\ Forall (fun d => d == 0) (fst (matrix_inversion inv n a))
  /\ newton_step inv L n vars a s = (s, None).
Proof.
  intros inv L n vars a s H. unfold newton_step, matrix_inversion. rewrite H. cbn. split; [reflexivity|]. split; [|reflexivity].
  apply Forall_forall. intros x I. apply in_map_iff in I as (k & <- & _). lra.
Qed.

(* mass balance *)
Lemma fold_add l s r : fold_left (fun r a => r + v_m s a) l r == r + qsum (map (v_m s) l).
Proof. revert r. induction l as [|a l IH]; intros r; cbn; [lra|]. rewrite IH. unfold qsum. lra. Qed.
Lemma fold_sub l s r : fold_left (fun r a => r - v_m s a) l r == r - qsum (map (v_m s) l).
Proof. revert r. induction l as [|a l IH]; intros r; cbn; [lra|]. rewrite IH. unfold qsum. lra. Qed.
Definition node_terms (ins outs : list nat) : list (uvar * Q) := map (fun a => (UM a, 1)) ins ++ map (fun a => (UM a, -1)) outs.
Lemma sum_app l l' : fold_right Qplus 0 (l ++ l') == fold_right Qplus 0 l + fold_right Qplus 0 l'.
Proof. induction l as [|a l IH]; cbn; [lra|]. rewrite IH. lra. Qed.
Lemma node_lin ins outs s : node_mass ins outs s == lin (node_terms ins outs) 0 s.
Proof.
  unfold node_mass, lin, node_terms. rewrite fold_sub, fold_add, map_app, sum_app, !map_map. cbn [fst snd].
  assert (A : fold_right Qplus 0 (map (fun x => 1 * num (UM x) s) ins) == qsum (map (v_m s) ins)).
  { induction ins as [|a l IH]; cbn; [lra|]. rewrite IH. unfold qsum, num; cbn. lra. }
  assert (B : fold_right Qplus 0 (map (fun x => -1 * num (UM x) s) outs) == - qsum (map (v_m s) outs)).
  { induction outs as [|a l IH]; cbn; [lra|]. rewrite IH. unfold qsum, num; cbn. lra. }
  rewrite A, B. lra.
Qed.
Lemma write_none sum d J i j : (forall e, In e d -> snd (fst e) <> j) -> write_jac sum d J i j = J i j.
Proof.
  unfold write_jac. revert J. induction d as [|e d IH]; intros J H; cbn; [reflexivity|]. rewrite IH by (intros; apply H; right; assumption).
  unfold write_entry. assert (N : snd (fst e) <> j) by (apply H; left; reflexivity). destruct (Nat.eqb_spec j (snd (fst e))); [congruence|]. now rewrite andb_false_r.
Qed.
Lemma write_app sum d d' J : write_jac sum (d ++ d') J = write_jac sum d' (write_jac sum d J).
Proof. unfold write_jac. apply fold_left_app. Qed.
Lemma write_cons sum e d J : write_jac sum (e :: d) J = write_jac sum d (write_entry sum J e).
Proof. reflexivity. Qed.
Lemma coef_app vars t t' j : coef vars (t ++ t') j == coef vars t j + coef vars t' j.
Proof. unfold coef. rewrite map_app. apply sum_app. Qed.
Lemma coef_none vars v l j : (forall a, In a l -> column vars (UM a) <> Some j) -> coef vars (map (fun a => (UM a, v)) l) j == 0.
Proof.
  intros H. unfold coef. induction l as [|a l IH]; cbn [map fold_right fst snd]; [lra|]. rewrite IH by (intros; apply H; right; assumption).
  pose proof (H a (or_introl eq_refl)) as N. destruct (column vars (UM a)) as [k|]; [|lra]. destruct (Nat.eqb_spec k j); [subst; congruence|lra].
Qed.
(** one side of the balance: the entries written are the coefficients *)
Lemma side vars isv col v l J j : NoDup l ->
  (forall a, column vars (UM a) = if isv a : bool then Some (col a : nat) else None) ->
  (forall a b, isv a = true -> isv b = true -> col a = col b -> a = b) ->
  (exists a, In a l /\ isv a = true /\ col a = j) /\ write_jac 0 (map (fun a => ((0%nat, col a), v)) (filter isv l)) J 0 j = v
     /\ coef vars (map (fun a => (UM a, v)) l) j == v
  \/ (forall a, In a l -> column vars (UM a) <> Some j) /\ write_jac 0 (map (fun a => ((0%nat, col a), v)) (filter isv l)) J 0 j = J 0%nat j
     /\ coef vars (map (fun a => (UM a, v)) l) j == 0.
Proof.
  intros ND C INJ. destruct (existsb (fun a => isv a && Nat.eqb (col a) j) l) eqn:E.
  - left. apply existsb_exists in E as (a & I & E). apply andb_true_iff in E as [V E]. apply Nat.eqb_eq in E.
    split; [eauto|]. apply in_split in I as (l1 & l2 & ->). apply NoDup_remove in ND as [ND N].
    assert (O : forall b, In b (l1 ++ l2) -> column vars (UM b) <> Some j).
    { intros b B. rewrite C. destruct (isv b) eqn:VB; [|discriminate]. intros [= X]. apply N. replace a with b; [exact B|]. apply INJ; congruence. }
    split.
    + rewrite filter_app. cbn [filter]. rewrite V, map_app, write_app. cbn [map]. rewrite write_cons.
      rewrite write_none. { unfold write_entry. cbn. rewrite <- E, Nat.eqb_refl. reflexivity. }
      intros e He. apply in_map_iff in He as (b & <- & B). apply filter_In in B as [B VB]. cbn. intros X.
      apply (O b); [apply in_app_iff; auto|]. rewrite C, VB. congruence.
    + rewrite map_app, coef_app. cbn [map]. change ((UM a, v) :: map (fun a => (UM a, v)) l2) with ([(UM a, v)] ++ map (fun a => (UM a, v)) l2). rewrite coef_app.
      rewrite !coef_none by (intros; apply O, in_app_iff; auto). unfold coef. cbn. rewrite C, V, E, Nat.eqb_refl. lra.
  - right. assert (O : forall a, In a l -> column vars (UM a) <> Some j).
    { intros a I. rewrite C. destruct (isv a) eqn:V; [|discriminate]. intros [= X].
      assert (T : existsb (fun a => isv a && Nat.eqb (col a) j) l = true) by (apply existsb_exists; exists a; rewrite V, X, Nat.eqb_refl; auto). congruence. }
    split; [exact O|]. split; [|now apply coef_none].
    apply write_none. intros e He. apply in_map_iff in He as (b & <- & B). apply filter_In in B as [B VB]. cbn. intros X.
    apply (O b B). rewrite C, VB. congruence.
Qed.
Lemma nodup_r {A} (l l' : list A) : NoDup (l ++ l') -> NoDup l'.
Proof. induction l; cbn; [auto|]. intros H; inversion H; auto. Qed.
Lemma nodup_l {A} (l l' : list A) : NoDup (l ++ l') -> NoDup l.
Proof. induction l; cbn; [constructor|]. intros H; inversion H; subst. constructor; [|auto]. intros I. apply H2, in_app_iff. auto. Qed.
Lemma node_row vars isv col ins outs j : NoDup (ins ++ outs) ->
  (forall a, column vars (UM a) = if isv a : bool then Some (col a) else None) ->
  (forall a b, isv a = true -> isv b = true -> col a = col b -> a = b) ->
  write_jac 0 (node_jac isv col ins outs) (fun _ _ => 0) 0 j == coef vars (node_terms ins outs) j.
Proof.
  intros ND C INJ. unfold node_jac, node_terms. rewrite write_app, coef_app.
  assert (NDi : NoDup ins) by (exact (nodup_l _ _ ND)).
  assert (NDo : NoDup outs) by (exact (nodup_r _ _ ND)).
  destruct (side vars isv col 1 ins (fun _ _ => 0) j NDi C INJ) as [((a & A & V & E) & W & K)|(N & W & K)];
  destruct (side vars isv col (-1) outs (write_jac 0 (map (fun a => ((0%nat, col a), 1)) (filter isv ins)) (fun _ _ => 0)) j NDo C INJ) as [((a' & A' & V' & E') & W' & K')|(N' & W' & K')]; rewrite K, K', W', ?W; try lra.
  exfalso. assert (a = a') by (apply INJ; congruence). subst a'. apply in_split in A as (l1 & l2 & ->). rewrite <- app_assoc in ND. cbn in ND.
  apply NoDup_remove_2 in ND. apply ND. rewrite !in_app_iff. auto.
Qed.
Lemma node_solved : forall inv L n vars a inc s s' i isv col ins outs,
  inverts inv -> unknowns_ok n vars -> matrix_inversion inv n a = (inc, false) ->
  newton_step inv L n vars a s = (s', None) -> (i < n)%nat ->
  NoDup (ins ++ outs) ->
  (forall a, column vars (UM a) = if isv a : bool then Some (col a) else None) ->
  (forall a b, isv a = true -> isv b = true -> col a = col b -> a = b) ->
  ar_res a i == node_mass ins outs s ->
  (forall j, (j < n)%nat -> ar_jac a i j == write_jac 0 (node_jac isv col ins outs) (fun _ _ => 0) 0 j) ->
  balanced ins outs s'.
Proof.
  intros inv L n vars a inc s s' i isv col ins outs HI HU M U I ND C INJ R J.
  assert (Z : lin (node_terms ins outs) 0 s' == 0).
  { apply (flows_solved inv L n vars a inc s s' i (node_terms ins outs) 0 HI HU M U I).
    - rewrite R. apply node_lin.
    - intros j Hj. rewrite (J j Hj). apply node_row; assumption.
    - unfold flows_and_enthalpies, node_terms. apply Forall_forall. intros t T. apply in_app_iff in T as [T|T]; apply in_map_iff in T as (b & <- & _); exact Logic.I. }
  rewrite <- node_lin in Z. unfold node_mass in Z. rewrite fold_sub, fold_add in Z. unfold balanced. lra.
Qed.

(* pressures are relaxed *)
Definition w_J (i j : nat) : Q := match i, j with 0%nat, 0%nat => 1 | 0%nat, 1%nat => -1 | 1%nat, 0%nat => 1 | _, _ => 0 end.
Definition w_K (i j : nat) : Q := match i, j with 0%nat, 1%nat => 1 | 1%nat, 0%nat => -1 | 1%nat, 1%nat => 1 | _, _ => 0 end.
Definition w_p (k : nat) : Q := match k with 0%nat => 10 | _ => 4 end.
Definition w_s : vstate := {| v_m := fun _ => 0; v_p := w_p; v_h := fun _ => 0; v_f := fun _ => []; v_c := fun _ => 0; v_fd := fun _ => [] |}.
Definition w_L : limits := {| c_min := fun _ => 0; c_max := fun _ => 1 |}.
Definition w_vars : list (uvar * nat) := [(UP 0, 0%nat); (UP 1, 1%nat)].
Lemma w_inverse : right_inverse 2 w_J w_K.
Proof. intros [|[|i]] [|[|j]] I J; try lia; reflexivity. Qed.
Lemma pressure_relaxed : exists K a inc s s',
  right_inverse 2 (ar_jac a) K /\ matrix_inversion (fun _ _ => Some K) 2 a = (inc, false)
  /\ newton_step (fun _ _ => Some K) w_L 2 w_vars a s = (s', None)
  /\ 0 < v_p s 0%nat /\ 0 < v_p s 1%nat
  /\ (forall s0, lin [(UP 0, 1); (UP 1, -1)] 0 s0 == v_p s0 0%nat - v_p s0 1%nat)
  /\ ar_res a 0%nat == lin [(UP 0, 1); (UP 1, -1)] 0 s /\ (forall j, (j < 2)%nat -> ar_jac a 0%nat j == coef w_vars [(UP 0, 1); (UP 1, -1)] j)
  /\ ~ v_p s' 0%nat == v_p s' 1%nat.
Proof.
  exists w_K, {| ar_res := fun i => match i with 0%nat => 6 | _ => 9 end; ar_jac := w_J |}.
  eexists. exists w_s. eexists. split; [exact w_inverse|]. split; [reflexivity|]. split; [vm_compute; reflexivity|].
  split; [reflexivity|]. split; [reflexivity|]. split; [intros; unfold lin, num; cbn; lra|]. split; [reflexivity|]. split.
  - intros [|[|j]] J; try lia; reflexivity.
  - discriminate.
Qed.

(* printed line *)
Lemma columns_in name names k : In k (columns name names) <-> (k < length names)%nat /\ nth k names ""%string = name.
Proof. unfold columns. rewrite filter_In, in_seq, String.eqb_eq. intuition lia. Qed.
Lemma else_in names k : In k (columns_else names) <-> (k < length names)%nat
  /\ nth k names ""%string <> "m"%string /\ nth k names ""%string <> "p"%string /\ nth k names ""%string <> "h"%string /\ nth k names ""%string <> "fluid"%string.
Proof.
  unfold columns_else. rewrite filter_In, in_seq, negb_true_iff. split.
  - intros [H E]. assert (N : forall x, (x = "m" \/ x = "p" \/ x = "h" \/ x = "fluid")%string -> nth k names ""%string <> x).
    { intros x X Y. assert (T : existsb (Nat.eqb k) (columns "m" names ++ columns "p" names ++ columns "h" names ++ columns "fluid" names) = true).
      { apply existsb_exists. exists k. rewrite Nat.eqb_refl. split; [|reflexivity]. rewrite !in_app_iff, !columns_in. intuition (subst; auto). }
      congruence. }
    repeat split; try lia; apply N; auto.
  - intros (H & A & B & C & D). split; [lia|]. destruct (existsb _ _) eqn:E; [|reflexivity].
    apply existsb_exists in E as (x & I & E). apply Nat.eqb_eq in E as <-. rewrite !in_app_iff, !columns_in in I. tauto.
Qed.
Lemma norm_part inc (f g : nat -> bool) l : norm2 inc (filter f l) == norm2 inc (filter (fun k => f k && g k) l) + norm2 inc (filter (fun k => f k && negb (g k)) l).
Proof.
  unfold norm2. induction l as [|k l IH]; cbn [filter]; [cbn; lra|]. destruct (f k), (g k); cbn [andb negb filter map fold_right]; rewrite ?IH; lra.
Qed.
Lemma norm_ext inc (f g : nat -> bool) l : (forall k, In k l -> f k = g k) -> norm2 inc (filter f l) = norm2 inc (filter g l).
Proof. intros H. f_equal. apply filter_ext_in. exact H. Qed.
Lemma printed_total : forall inc names m p h f c,
  printed_increments false false inc names = Some [m; p; h; f; c] ->
  m + p + h + f + c == norm2 inc (seq 0 (length names)).
Proof.
  intros inc names m p h f c E. injection E as <- <- <- <- <-.
  set (l := seq 0 (length names)).
  pose (is x := fun k => String.eqb (nth k names ""%string) x).
  assert (A : norm2 inc l == norm2 inc (filter (fun _ => true) l)). { replace (filter (fun _ => true) l) with l; [reflexivity|]. clear. induction l; cbn; congruence. }
  rewrite A, (norm_part inc _ (is "m"%string)), (norm_part inc (fun k => true && negb (is "m"%string k)) (is "p"%string)).
  rewrite (norm_part inc (fun k => (true && negb (is "m"%string k)) && negb (is "p"%string k)) (is "h"%string)).
  rewrite (norm_part inc (fun k => ((true && negb (is "m"%string k)) && negb (is "p"%string k)) && negb (is "h"%string k)) (is "fluid"%string)).
  assert (X : forall a b c d e a' b' c' d' e' : Q, a == a' -> b == b' -> c == c' -> d == d' -> e == e' -> a + b + c + d + e == a' + (b' + (c' + (d' + e')))) by (intros; lra).
  apply X; unfold columns, columns_else; fold l; match goal with |- norm2 inc (filter ?u l) == norm2 inc (filter ?v l) => rewrite (norm_ext inc u v l); [reflexivity|] end; intros k I; unfold is; cbn [andb].
  - reflexivity.
  - destruct (String.eqb_spec (nth k names ""%string) "p"%string) as [->|]; [reflexivity|]. now rewrite andb_false_r.
  - destruct (String.eqb_spec (nth k names ""%string) "h"%string) as [->|]; [reflexivity|]. now rewrite andb_false_r.
  - destruct (String.eqb_spec (nth k names ""%string) "fluid"%string) as [->|]; [reflexivity|]. now rewrite andb_false_r.
  - assert (L : (k < length names)%nat) by (unfold l in I; apply in_seq in I; lia).
    destruct (negb (existsb (Nat.eqb k) (columns "m" names ++ columns "p" names ++ columns "h" names ++ columns "fluid" names))) eqn:E.
    + assert (In k (columns_else names)) as H by (unfold columns_else; apply filter_In; split; [apply in_seq; lia|exact E]).
      apply else_in in H as (_ & A1 & A2 & A3 & A4). apply String.eqb_neq in A1, A2, A3, A4. rewrite A1, A2, A3, A4. reflexivity.
    + symmetry. apply not_true_is_false. intros T. rewrite !andb_true_iff, !negb_true_iff, !String.eqb_neq in T. destruct T as (((A1 & A2) & A3) & A4).
      assert (H : In k (columns_else names)) by (apply else_in; auto). unfold columns_else in H. apply filter_In in H as [_ H]. congruence.
Qed.
Lemma printed_groups : forall names k,
  (forall name, In k (columns name names) <-> (k < length names)%nat /\ nth k names ""%string = name)
  /\ (In k (columns_else names) <-> (k < length names)%nat /\ ~ In (nth k names ""%string) ["m"; "p"; "h"; "fluid"]%string).
Proof.
  intros names k. split; [intros; apply columns_in|]. rewrite else_in. cbn. intuition.
Qed.
Lemma printed_nan : forall isnan lin_dep inc names, printed_increments isnan lin_dep inc names = None <-> isnan = true \/ lin_dep = true.
Proof. intros [] [] inc names; cbn; split; intros H; auto; try discriminate; destruct H; discriminate. Qed.

(** A system of linear equations is solved by one step. *)
Lemma linear_system_solved : forall inv L n vars a inc s s' (terms : nat -> list (uvar * Q)) (c : nat -> Q),
  inverts inv -> unknowns_ok n vars -> matrix_inversion inv n a = (inc, false) ->
  newton_step inv L n vars a s = (s', None) ->
  (forall i, (i < n)%nat -> flows_and_enthalpies (terms i) /\ ar_res a i == lin (terms i) (c i) s
     /\ forall j, (j < n)%nat -> ar_jac a i j == coef vars (terms i) j) ->
  forall i, (i < n)%nat -> lin (terms i) (c i) s' == 0.
Proof.
  intros inv L n vars a inc s s' terms c HI HU M U H i I. destruct (H i I) as (F & R & J).
  exact (flows_solved inv L n vars a inc s s' i (terms i) (c i) HI HU M U I R J F).
Qed.

(* a merge of 2 and 3 kg/s; only the flow at the outlet is unknown *)
Definition x_inv (n : nat) (J : nat -> nat -> Q) : option (nat -> nat -> Q) :=
  match n with 1%nat => if Qeq_bool (J 0 0)%nat 0 then None else Some (fun _ _ => / J 0%nat 0%nat) | _ => None end.
Lemma x_inverts : inverts x_inv.
Proof.
  intros n J K. unfold x_inv. destruct n as [|[|n]]; try discriminate. destruct (Qeq_bool (J 0 0)%nat 0) eqn:E; [discriminate|].
  intros [= <-] i j I J'. assert (i = 0%nat) by lia. assert (j = 0%nat) by lia. subst. cbn. apply Qeq_bool_neq in E.
  rewrite (Qmult_inv_r _ E). lra.
Qed.
Definition x_s : vstate := {| v_m := fun k => match k with 0%nat => 2 | 1%nat => 3 | _ => 1 end; v_p := w_p; v_h := fun _ => 0; v_f := fun _ => []; v_c := fun _ => 0; v_fd := fun _ => [] |}.
Definition x_vars : list (uvar * nat) := [(UM 2, 0%nat)].
Definition x_isv (a : nat) : bool := Nat.eqb a 2.
Definition x_arrays : arrays := {| ar_res := fun _ => node_mass [0;1]%nat [2%nat] x_s; ar_jac := write_jac 0 (node_jac x_isv (fun _ => 0%nat) [0;1]%nat [2%nat]) (fun _ _ => 0) |}.
