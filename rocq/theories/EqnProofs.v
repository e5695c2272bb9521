From Coq Require Import Reals List String Bool Arith Lra Lia.
From Verif Require Import Base EqnModel EqnSpec.
Import ListNotations.
Open Scope R_scope.

(* ---------------------------------------------------------------- equality *)
Lemma qty_eqb_eq x y : qty_eqb x y = true <-> x = y.
Proof.
  destruct x, y; simpl; split; intros H; try discriminate; try congruence;
  try (apply Nat.eqb_eq in H; subst; reflexivity);
  try (injection H as ->; apply Nat.eqb_refl).
  - apply andb_true_iff in H as [A B]. apply Nat.eqb_eq in A.
    apply String.eqb_eq in B. congruence.
  - injection H as -> ->. now rewrite Nat.eqb_refl, String.eqb_refl.
Qed.

Lemma qty_eqb_refl x : qty_eqb x x = true.
Proof. now apply qty_eqb_eq. Qed.

Lemma qty_eqb_sym x y : qty_eqb x y = qty_eqb y x.
Proof.
  destruct (qty_eqb x y) eqn:A.
  - apply qty_eqb_eq in A. subst. now rewrite qty_eqb_refl.
  - destruct (qty_eqb y x) eqn:B; auto. apply qty_eqb_eq in B. subst.
    rewrite qty_eqb_refl in A. discriminate.
Qed.

(* ------------------------------------------------------ partial derivatives *)
Definition delta (q k : qty) : R := if qty_eqb q k then 1 else 0.

Lemma upd_same e q : forall k, upd e q (e q) k = e k.
Proof.
  intros k. unfold upd. destruct (qty_eqb k q) eqn:A; auto.
  apply qty_eqb_eq in A. now subst.
Qed.

Lemma p_qty e q k : partial_is (fun e => e k) e q (delta q k).
Proof.
  unfold partial_is, delta, upd. rewrite (qty_eqb_sym q k).
  destruct (qty_eqb k q).
  - apply derivable_pt_lim_id.
  - apply derivable_pt_lim_const.
Qed.

Lemma p_const e q c : partial_is (fun _ => c) e q 0.
Proof. apply derivable_pt_lim_const. Qed.

Lemma p_ext f g e q d : (forall e, f e = g e) -> partial_is f e q d ->
  partial_is g e q d.
Proof.
  unfold partial_is, derivable_pt_lim. intros E H eps He.
  destruct (H eps He) as [dl P]. exists dl. intros h h0 hd.
  rewrite <- !E. now apply P.
Qed.

Lemma p_eq f e q d d' : partial_is f e q d -> d = d' -> partial_is f e q d'.
Proof. now intros ? <-. Qed.

Lemma p_add f g e q a b : partial_is f e q a -> partial_is g e q b ->
  partial_is (fun e => f e + g e) e q (a + b).
Proof. intros A B. exact (derivable_pt_lim_plus _ _ _ _ _ A B). Qed.

Lemma p_sub f g e q a b : partial_is f e q a -> partial_is g e q b ->
  partial_is (fun e => f e - g e) e q (a - b).
Proof. intros A B. exact (derivable_pt_lim_minus _ _ _ _ _ A B). Qed.

Lemma p_opp f e q a : partial_is f e q a -> partial_is (fun e => - f e) e q (- a).
Proof. intros A. exact (derivable_pt_lim_opp _ _ _ A). Qed.

Lemma f_upd_same : forall (f : env -> R) (H : forall e1 e2, (forall k, e1 k = e2 k) -> f e1 = f e2) e q,
  f (upd e q (e q)) = f e.
Proof. intros f H e q. apply H. apply upd_same. Qed.

(** Functions of the state through finitely many containers. *)
Definition respects (f : env -> R) : Prop :=
  forall e1 e2, (forall k, e1 k = e2 k) -> f e1 = f e2.

Lemma p_mul f g e q a b : respects f -> respects g ->
  partial_is f e q a -> partial_is g e q b ->
  partial_is (fun e => f e * g e) e q (a * g e + f e * b).
Proof.
  intros Rf Rg A B.
  pose proof (derivable_pt_lim_mult _ _ _ _ _ A B) as H. cbv beta in H.
  rewrite !f_upd_same in H by assumption. exact H.
Qed.

Lemma r_qty k : respects (fun e => e k). Proof. intros ? ? H; apply H. Qed.
Lemma r_const c : respects (fun _ => c). Proof. intros ? ? H; reflexivity. Qed.
Lemma r_add f g : respects f -> respects g -> respects (fun e => f e + g e).
Proof. intros A B e1 e2 H. now rewrite (A _ _ H), (B _ _ H). Qed.
Lemma r_sub f g : respects f -> respects g -> respects (fun e => f e - g e).
Proof. intros A B e1 e2 H. now rewrite (A _ _ H), (B _ _ H). Qed.
Lemma r_mul f g : respects f -> respects g -> respects (fun e => f e * g e).
Proof. intros A B e1 e2 H. now rewrite (A _ _ H), (B _ _ H). Qed.
Lemma r_opp f : respects f -> respects (fun e => - f e).
Proof. intros A e1 e2 H. now rewrite (A _ _ H). Qed.

(** A function whose containers do not include the one changed has derivative
    zero. *)
Lemma p_indep f e q : (forall t, f (upd e q t) = f e) -> partial_is f e q 0.
Proof.
  intros H. unfold partial_is, derivable_pt_lim. intros eps He.
  exists (mkposreal 1 Rlt_0_1). intros h h0 _. rewrite !H.
  replace ((f e - f e) / h - 0) with 0 by (field; exact h0).
  now rewrite Rabs_R0.
Qed.

Lemma p_acc_add (f : env -> conn -> R) (d : conn -> R) (r0 : env -> R) d0 l e q :
  (forall c, partial_is (fun e => f e c) e q (d c)) ->
  partial_is r0 e q d0 ->
  partial_is (fun e => acc_add (f e) l (r0 e)) e q (acc_add d l d0).
Proof.
  intros H. revert r0 d0. induction l as [|c l IH]; intros r0 d0 H0; simpl.
  - exact H0.
  - apply (IH (fun e => r0 e + f e c)). now apply p_add.
Qed.

Lemma p_acc_sub (f : env -> conn -> R) (d : conn -> R) (r0 : env -> R) d0 l e q :
  (forall c, partial_is (fun e => f e c) e q (d c)) ->
  partial_is r0 e q d0 ->
  partial_is (fun e => acc_sub (f e) l (r0 e)) e q (acc_sub d l d0).
Proof.
  intros H. revert r0 d0. induction l as [|c l IH]; intros r0 d0 H0; simpl.
  - exact H0.
  - apply (IH (fun e => r0 e - f e c)). now apply p_sub.
Qed.

Lemma acc_add_sum f l r0 : acc_add f l r0 = r0 + rsum (map f l).
Proof.
  revert r0. induction l as [|c l IH]; intros r0; simpl.
  - lra.
  - unfold acc_add in *. simpl. rewrite IH. lra.
Qed.

Lemma acc_sub_sum f l r0 : acc_sub f l r0 = r0 - rsum (map f l).
Proof.
  revert r0. induction l as [|c l IH]; intros r0; simpl.
  - lra.
  - unfold acc_sub in *. simpl. rewrite IH. lra.
Qed.

Lemma acc_sub_ext f g l r0 : (forall c, In c l -> f c = g c) ->
  acc_sub f l r0 = acc_sub g l r0.
Proof.
  intros H. rewrite !acc_sub_sum. f_equal. f_equal. apply map_ext_in. exact H.
Qed.

Ltac presp := unfold vm, vp, vh, vx, pval; cbv beta;
  repeat first [apply r_qty | apply r_const | apply r_add | apply r_sub
               | apply r_mul | apply r_opp ].

Ltac pstep :=
  first [ apply p_qty | apply p_const
        | eapply p_add | eapply p_sub | eapply p_opp
        | eapply p_mul; [ presp | presp | | ] ].
Ltac pderiv := repeat pstep.

(* ------------------------------------------------------------- rows of writes *)
Definition wsum (q : qty) (ws : list write) : R :=
  rsum (map (fun w => if qty_eqb q (fst w) then snd w else 0) ws).
Definition wcnt (q : qty) (ws : list write) : nat :=
  List.length (filter (fun w => qty_eqb q (fst w)) ws).

Lemma rsum_app a b : rsum (a ++ b) = rsum a + rsum b.
Proof. induction a; simpl; lra. Qed.

Lemma wsum_app q a b : wsum q (a ++ b) = wsum q a + wsum q b.
Proof. unfold wsum. now rewrite map_app, rsum_app. Qed.

Lemma wcnt_app q a b : wcnt q (a ++ b) = (wcnt q a + wcnt q b)%nat.
Proof. unfold wcnt. now rewrite filter_app, app_length. Qed.

Lemma wsum_flat {A} q (g : A -> list write) l :
  wsum q (flat_map g l) = rsum (map (fun a => wsum q (g a)) l).
Proof. induction l; simpl; auto. now rewrite wsum_app, IHl. Qed.

Lemma wcnt_flat {A} q (g : A -> list write) l :
  wcnt q (flat_map g l) = list_sum (map (fun a => wcnt q (g a)) l).
Proof. induction l; simpl; auto. now rewrite wcnt_app, IHl. Qed.

Lemma wcnt0_wsum q ws : wcnt q ws = 0%nat -> wsum q ws = 0.
Proof.
  unfold wcnt, wsum. induction ws as [|w ws IH]; simpl; auto.
  destruct (qty_eqb q (fst w)); simpl; intros H; [discriminate|].
  rewrite IH; auto. lra.
Qed.

Lemma run_writes_app r a b :
  run_writes r (a ++ b) = run_writes (run_writes r a) b.
Proof. unfold run_writes. now rewrite fold_left_app. Qed.

Lemma run_writes0 ws : forall r q, wcnt q ws = 0%nat -> run_writes r ws q = r q.
Proof.
  induction ws as [|w ws IH]; intros r q H; auto.
  unfold wcnt in H. simpl in H. destruct (qty_eqb q (fst w)) eqn:E; [discriminate|].
  simpl. change (run_writes (set_entry r w) ws q = r q). rewrite IH by exact H.
  unfold set_entry. now rewrite E.
Qed.

Lemma run_writes1 ws : forall r q, wcnt q ws = 1%nat ->
  run_writes r ws q = Some (wsum q ws).
Proof.
  induction ws as [|w ws IH]; intros r q H; [discriminate|].
  unfold wcnt in H. simpl in H.
  change (run_writes (set_entry r w) ws q = Some (wsum q (w :: ws))).
  unfold wsum. simpl. destruct (qty_eqb q (fst w)) eqn:E; simpl in H.
  - assert (Z : wcnt q ws = 0%nat) by (unfold wcnt; lia).
    rewrite run_writes0 by exact Z. unfold set_entry. rewrite E.
    fold (wsum q ws). rewrite (wcnt0_wsum q ws Z). f_equal. lra.
  - rewrite IH by exact H. f_equal. unfold wsum. lra.
Qed.

Lemma entry_wsum ws q : (wcnt q ws <= 1)%nat -> entry ws q = wsum q ws.
Proof.
  intros H. unfold entry. destruct (wcnt q ws) as [|[|n]] eqn:E; [| |lia].
  - rewrite run_writes0 by exact E. simpl. now rewrite wcnt0_wsum.
  - now rewrite run_writes1.
Qed.

Lemma wsum_wr isv q k v (H : isv q = true) :
  wsum q (wr (isv k) k v) = delta q k * v.
Proof.
  unfold wr, wsum, delta. destruct (qty_eqb q k) eqn:E.
  - apply qty_eqb_eq in E. subst k. rewrite H. simpl. rewrite qty_eqb_refl. lra.
  - destruct (isv k); simpl; [rewrite E|]; lra.
Qed.

Lemma is_variable_none isv k : is_variable isv None k = isv k.
Proof. unfold is_variable. apply andb_true_r. Qed.

Lemma wsum_wr_none isv q k v (H : isv q = true) :
  wsum q (wr (is_variable isv None k) k v) = delta q k * v.
Proof. rewrite is_variable_none. now apply wsum_wr. Qed.

Lemma wsum_wr_filt isv filt q k v (H : isv q = true) (F : filt q = false) :
  wsum q (wr (is_variable isv (Some filt) k) k v) = delta q k * v.
Proof.
  unfold wr, wsum, delta, is_variable. destruct (qty_eqb q k) eqn:E.
  - apply qty_eqb_eq in E. subst k. rewrite H, F. simpl. rewrite qty_eqb_refl. lra.
  - destruct (isv k && negb (filt k)); simpl; [rewrite E|]; lra.
Qed.

Lemma wsum_cons q w ws :
  wsum q (w :: ws) = (if qty_eqb q (fst w) then snd w else 0) + wsum q ws.
Proof. reflexivity. Qed.

Lemma wsum_single q k v : wsum q [(k, v)] = delta q k * v.
Proof. unfold wsum, delta. simpl. destruct (qty_eqb q k); lra. Qed.

Lemma wsum_nil q : wsum q [] = 0. Proof. reflexivity. Qed.

(** counting *)
Lemma wcnt_wr b q k v : (wcnt q (wr b k v) <= if qty_eqb q k then 1 else 0)%nat.
Proof.
  unfold wr, wcnt. destruct b; simpl; [destruct (qty_eqb q k); simpl; lia|].
  destruct (qty_eqb q k); lia.
Qed.

Definition ocount (x : nat) (l : list nat) : nat := count_occ Nat.eq_dec l x.
Arguments ocount : simpl never.

Lemma nodup_ocount l x : NoDup l -> (ocount x l <= 1)%nat.
Proof. intros H. now apply (proj1 (NoDup_count_occ Nat.eq_dec l) H). Qed.

Lemma ocount_cons x y l :
  ocount x (y :: l) = ((if Nat.eqb x y then 1 else 0) + ocount x l)%nat.
Proof.
  unfold ocount. simpl. destruct (Nat.eq_dec y x) as [->|N].
  - rewrite Nat.eqb_refl. reflexivity.
  - destruct (Nat.eqb x y) eqn:E; auto. apply Nat.eqb_eq in E. congruence.
Qed.

Lemma ocount_app x a b : ocount x (a ++ b) = (ocount x a + ocount x b)%nat.
Proof. unfold ocount. apply count_occ_app. Qed.

(** Gradient criterion: the true derivative is the sum of all assignments to the
    column; the dictionary keeps the last one. *)
Lemma gradient_by_sum isv f ws e :
  (forall q, isv q = true -> partial_is f e q (wsum q ws)) ->
  (forall q, isv q = true -> (wcnt q ws <= 1)%nat) ->
  row_is_gradient isv f ws e.
Proof.
  intros A B q Hq. rewrite entry_wsum by now apply B. now apply A.
Qed.

Lemma gradient_filt_by_sum isv filt f ws e :
  (forall q, isv q = true -> filt q = false -> partial_is f e q (wsum q ws)) ->
  (forall q, isv q = true -> (wcnt q ws <= 1)%nat) ->
  row_is_gradient_filtered isv filt f ws e.
Proof.
  intros A B q Hq Hf. rewrite entry_wsum by now apply B. now apply A.
Qed.

Lemma wcnt_wr_le b q k v : (wcnt q (wr b k v) <= if qty_eqb q k then 1 else 0)%nat.
Proof. exact (wcnt_wr b q k v). Qed.

Lemma rsum_ext {A} (f g : A -> R) l : (forall a, In a l -> f a = g a) ->
  rsum (map f l) = rsum (map g l).
Proof. intros H. f_equal. now apply map_ext_in. Qed.

(* ------------------------------------------------------------------- nodes *)
Lemma wcnt_pcol q P v :
  (wcnt q (wr_param P v) <= match q with QC _ => 1 | _ => 0 end)%nat.
Proof.
  destruct P; unfold wcnt; simpl; destruct q; simpl; try lia.
  destruct (Nat.eqb v1 v0); simpl; lia.
Qed.

Lemma wsum_pcol q P v : wsum q (wr_param P v)
  = match P with PVar w => delta q (QC w) | PVal _ => 0 end * v.
Proof. destruct P; unfold wr_param; rewrite ?wsum_single, ?wsum_nil; lra. Qed.

Section Rows.
Variable isv : qty -> bool.

Lemma node_mass_deriv_sum inl outl e q : isv q = true ->
  partial_is (node_mass_func inl outl) e q (wsum q (node_mass_writes isv inl outl)).
Proof.
  intros Hq. eapply p_eq.
  - unfold node_mass_func. apply p_acc_sub with (d := fun c => delta q (QM (cm c))).
    + intros c. unfold vm. apply p_qty.
    + apply p_acc_add with (d := fun c => delta q (QM (cm c))).
      * intros c. unfold vm. apply p_qty.
      * apply p_const.
  - rewrite acc_sub_sum, acc_add_sum. unfold node_mass_writes.
    rewrite wsum_app, !wsum_flat.
    rewrite (rsum_ext (fun a => wsum q (wr (isv (QM (cm a))) (QM (cm a)) 1))
               (fun c => delta q (QM (cm c)))).
    2:{ intros a _. rewrite wsum_wr by exact Hq. lra. }
    assert (E : rsum (map (fun a => wsum q (wr (isv (QM (cm a))) (QM (cm a)) (-1))) outl)
            = - rsum (map (fun c => delta q (QM (cm c))) outl)).
    { induction outl as [|o l IH]; simpl; [lra|].
      rewrite IH, wsum_wr by exact Hq. lra. }
    rewrite E. lra.
Qed.

Lemma node_mass_cnt inl outl q : NoDup (map cm (inl ++ outl)) ->
  (wcnt q (node_mass_writes isv inl outl) <= 1)%nat.
Proof.
  intros H. unfold node_mass_writes. rewrite wcnt_app.
  assert (A : forall v l, (wcnt q (flat_map (fun i => wr (isv (QM (cm i))) (QM (cm i)) v) l)
               <= match q with QM a => ocount a (map cm l) | _ => 0 end)%nat).
  { intros v l. induction l as [|c l IH]; [unfold wcnt; destruct q; simpl; lia|].
    simpl flat_map. rewrite wcnt_app.
    pose proof (wcnt_wr (isv (QM (cm c))) q (QM (cm c)) v) as W.
    destruct q; simpl in *; rewrite ?ocount_cons; lia. }
  pose proof (A 1 inl). pose proof (A (-1) outl).
  destruct q; simpl in *; try lia.
  pose proof (nodup_ocount _ a H) as N. rewrite map_app, ocount_app in N. lia.
Qed.

Lemma node_mass_gradient inl outl e : NoDup (map cm (inl ++ outl)) ->
  row_is_gradient isv (node_mass_func inl outl) (node_mass_writes isv inl outl) e.
Proof.
  intros H. apply gradient_by_sum.
  - intros q Hq. now apply node_mass_deriv_sum.
  - intros q _. now apply node_mass_cnt.
Qed.

(** two-container difference rows *)
Lemma diff_gradient a b e : a <> b ->
  row_is_gradient isv (fun e => e a - e b)
    (wr (isv a) a 1 ++ wr (isv b) b (-1)) e.
Proof.
  intros N. apply gradient_by_sum.
  - intros q Hq. eapply p_eq; [apply p_sub; apply p_qty|].
    rewrite wsum_app, !wsum_wr by exact Hq. lra.
  - intros q _. rewrite wcnt_app.
    pose proof (wcnt_wr (isv a) q a 1). pose proof (wcnt_wr (isv b) q b (-1)).
    destruct (qty_eqb q a) eqn:A, (qty_eqb q b) eqn:B; try lia.
    apply qty_eqb_eq in A. apply qty_eqb_eq in B. congruence.
Qed.

Lemma node_pressure_gradient i0 o e : cid i0 <> cid o ->
  row_is_gradient isv (fun e => vp e i0 - vp e o) (node_pressure_row isv i0 o) e.
Proof. intros N. apply diff_gradient. congruence. Qed.

Lemma splitter_energy_gradient i0 o e : cid i0 <> cid o ->
  row_is_gradient isv (fun e => vh e i0 - vh e o) (splitter_energy_row isv i0 o) e.
Proof. intros N. apply diff_gradient. congruence. Qed.

Ltac bycases q :=
  destruct q; simpl; repeat match goal with
   | |- context[Nat.eqb ?a ?b] => destruct (Nat.eqb a b)
   | |- context[String.eqb ?a ?b] => destruct (String.eqb a b)
   end; simpl; try lia.

Lemma merge_fluid_gradient inl o f e :
  NoDup (map cm (inl ++ [o])) -> NoDup (map cf (inl ++ [o])) ->
  row_is_gradient isv (merge_fluid_eq inl o f) (merge_fluid_writes isv inl o f e) e.
Proof.
  intros Nm Nf. apply gradient_by_sum.
  - intros q Hq. eapply p_eq.
    + unfold merge_fluid_eq.
      apply p_acc_add with
        (d := fun i => delta q (QF (cf i) f) * vm e i + vx e i f * delta q (QM (cm i))).
      * intros c. eapply p_mul; [presp|presp|apply p_qty|apply p_qty].
      * eapply p_mul; [presp|presp|apply p_opp;apply p_qty|apply p_qty].
    + rewrite acc_add_sum. unfold merge_fluid_writes.
      rewrite !wsum_app, wsum_flat, !wsum_wr by exact Hq.
      assert (E : rsum (map (fun a => wsum q (wr (isv (QM (cm a))) (QM (cm a)) (vx e a f) ++
           wr (isv (QF (cf a) f)) (QF (cf a) f) (vm e a))) inl)
        = rsum (map (fun i => delta q (QF (cf i) f) * vm e i
                              + vx e i f * delta q (QM (cm i))) inl)).
      { apply rsum_ext. intros a _. rewrite wsum_app, !wsum_wr by exact Hq. lra. }
      rewrite E.
      unfold vm, vx. lra.
  - intros q _. unfold merge_fluid_writes. rewrite !wcnt_app.
    assert (A : (wcnt q (flat_map (fun i =>
       wr (isv (QM (cm i))) (QM (cm i)) (vx e i f) ++
       wr (isv (QF (cf i) f)) (QF (cf i) f) (vm e i)) inl) <=
       match q with QM a => ocount a (map cm inl)
                  | QF a _ => ocount a (map cf inl) | _ => 0 end)%nat).
    { clear Nm Nf. induction inl as [|c l IH]; [unfold wcnt; destruct q; simpl; lia|].
      simpl flat_map. rewrite wcnt_app, wcnt_app.
      pose proof (wcnt_wr (isv (QM (cm c))) q (QM (cm c)) (vx e c f)) as W1.
      pose proof (wcnt_wr (isv (QF (cf c) f)) q (QF (cf c) f) (vm e c)) as W2.
      destruct q; simpl in *; rewrite ?ocount_cons; try lia.
      destruct (Nat.eqb a (cf c)); simpl in *; [destruct (String.eqb f0 f)|]; lia. }
    pose proof (wcnt_wr (isv (QM (cm o))) q (QM (cm o)) (- vx e o f)) as W1.
    pose proof (wcnt_wr (isv (QF (cf o) f)) q (QF (cf o) f) (- vm e o)) as W2.
    destruct q; simpl in *; try lia.
    + pose proof (nodup_ocount _ a Nm) as N. rewrite map_app, ocount_app in N.
      simpl in N. rewrite ocount_cons in N. lia.
    + pose proof (nodup_ocount _ a Nf) as N. rewrite map_app, ocount_app in N.
      simpl in N. rewrite ocount_cons in N.
      destruct (Nat.eqb a (cf o)); simpl in *; [destruct (String.eqb f0 f)|]; lia.
Qed.

Lemma energy_ports_cnt q (g1 g2 : conn -> R) l :
  (wcnt q (flat_map (fun i =>
       wr (isv (QM (cm i))) (QM (cm i)) (g1 i) ++
       wr (isv (QH (cid i))) (QH (cid i)) (g2 i)) l) <=
       match q with QM a => ocount a (map cm l)
                  | QH c => ocount c (map cid l) | _ => 0 end)%nat.
Proof.
  induction l as [|c l IH]; [unfold wcnt; destruct q; simpl; lia|].
  simpl flat_map. rewrite wcnt_app, wcnt_app.
  pose proof (wcnt_wr (isv (QM (cm c))) q (QM (cm c)) (g1 c)) as W1.
  pose proof (wcnt_wr (isv (QH (cid c))) q (QH (cid c)) (g2 c)) as W2.
  destruct q; simpl in *; rewrite ?ocount_cons; lia.
Qed.

Definition dE (q : qty) (e : env) (c : conn) : R :=
  delta q (QM (cm c)) * vh e c + vm e c * delta q (QH (cid c)).

Lemma p_mh e q c : partial_is (fun e => vm e c * vh e c) e q (dE q e c).
Proof. unfold dE, vm, vh. apply p_mul; [presp|presp|apply p_qty|apply p_qty]. Qed.

Lemma energy_plus_sum q e l : isv q = true ->
  wsum q (flat_map (fun i => wr (isv (QM (cm i))) (QM (cm i)) (vh e i) ++
       wr (isv (QH (cid i))) (QH (cid i)) (vm e i)) l) = rsum (map (dE q e) l).
Proof.
  intros Hq. rewrite wsum_flat. apply rsum_ext. intros a _.
  rewrite wsum_app, !wsum_wr by exact Hq. unfold dE. lra.
Qed.

Lemma energy_minus_sum q e l : isv q = true ->
  wsum q (flat_map (fun i => wr (isv (QM (cm i))) (QM (cm i)) (- vh e i) ++
       wr (isv (QH (cid i))) (QH (cid i)) (- vm e i)) l) = - rsum (map (dE q e) l).
Proof.
  intros Hq. induction l as [|c l IH]; [unfold wsum; simpl; lra|].
  simpl flat_map. simpl map. simpl rsum.
  rewrite wsum_app, wsum_app, !wsum_wr, IH by exact Hq. unfold dE. lra.
Qed.

Lemma droplet_energy_deriv_sum inl outl e q : isv q = true ->
  partial_is (droplet_energy_func inl outl) e q
    (wsum q (droplet_energy_writes isv inl outl e)).
Proof.
  intros Hq. eapply p_eq.
  - unfold droplet_energy_func. apply p_acc_sub with (d := dE q e).
    + intros c. apply p_mh.
    + apply p_acc_add with (d := dE q e); [|apply p_const]. intros c. apply p_mh.
  - rewrite acc_sub_sum, acc_add_sum. unfold droplet_energy_writes.
    rewrite wsum_app, energy_plus_sum, energy_minus_sum by exact Hq. lra.
Qed.

Lemma droplet_energy_cnt inl outl e q :
  NoDup (map cm (inl ++ outl)) -> NoDup (map cid (inl ++ outl)) ->
  (wcnt q (droplet_energy_writes isv inl outl e) <= 1)%nat.
Proof.
  intros Nm Nc. unfold droplet_energy_writes. rewrite wcnt_app.
  pose proof (energy_ports_cnt q (vh e) (vm e) inl) as A.
  pose proof (energy_ports_cnt q (fun c => - vh e c) (fun c => - vm e c) outl) as B.
  destruct q; try lia.
  - pose proof (nodup_ocount _ a Nm) as N. rewrite map_app, ocount_app in N. lia.
  - pose proof (nodup_ocount _ c Nc) as N. rewrite map_app, ocount_app in N. lia.
Qed.

Lemma droplet_energy_gradient inl outl e :
  NoDup (map cm (inl ++ outl)) -> NoDup (map cid (inl ++ outl)) ->
  row_is_gradient isv (droplet_energy_func inl outl)
    (droplet_energy_writes isv inl outl e) e.
Proof.
  intros Nm Nc. apply gradient_by_sum.
  - intros q Hq. now apply droplet_energy_deriv_sum.
  - intros q _. now apply droplet_energy_cnt.
Qed.

Lemma merge_energy_gradient inl o e :
  NoDup (map cm (inl ++ [o])) -> NoDup (map cid (inl ++ [o])) ->
  row_is_gradient isv (merge_energy_func inl o) (merge_energy_writes isv inl o e) e.
Proof.
  intros Nm Nc. apply gradient_by_sum.
  - intros q Hq. eapply p_eq.
    + unfold merge_energy_func. apply p_acc_add with (d := dE q e).
      * intros c. apply p_mh.
      * eapply p_mul; [presp|presp|apply p_opp;apply p_qty|apply p_qty].
    + rewrite acc_add_sum. unfold merge_energy_writes.
      rewrite !wsum_app, energy_plus_sum, !wsum_wr by exact Hq.
      unfold vh, vm. lra.
  - intros q _. unfold merge_energy_writes. rewrite !wcnt_app.
    pose proof (energy_ports_cnt q (vh e) (vm e) inl) as A.
    pose proof (wcnt_wr (isv (QM (cm o))) q (QM (cm o)) (- vh e o)) as W1.
    pose proof (wcnt_wr (isv (QH (cid o))) q (QH (cid o)) (- vm e o)) as W2.
    destruct q; simpl in W1, W2; try lia.
    + pose proof (nodup_ocount _ a Nm) as N.
      rewrite map_app, ocount_app in N. cbn [map] in N. rewrite ocount_cons in N. lia.
    + pose proof (nodup_ocount _ c Nc) as N.
      rewrite map_app, ocount_app in N. cbn [map] in N. rewrite ocount_cons in N. lia.
Qed.

Lemma separator_fluid_gradient i0 outl f e :
  NoDup (map cm (i0 :: outl)) -> NoDup (map cf (i0 :: outl)) ->
  row_is_gradient isv (separator_fluid_eq i0 outl f)
    (separator_fluid_writes isv i0 outl f e) e.
Proof.
  intros Nm Nf. apply gradient_by_sum.
  - intros q Hq.
    set (d := fun c => delta q (QF (cf c) f) * vm e c + vx e c f * delta q (QM (cm c))).
    eapply p_eq.
    + unfold separator_fluid_eq. apply p_acc_sub with (d := d).
      * intros c. unfold d, vm, vx. apply p_mul; [presp|presp|apply p_qty|apply p_qty].
      * eapply p_mul; [presp|presp|apply p_qty|apply p_qty].
    + rewrite acc_sub_sum. unfold separator_fluid_writes.
      rewrite !wsum_app, wsum_flat, wsum_wr_none, wsum_wr by exact Hq.
      assert (E : rsum (map (fun o => wsum q (wr (is_variable isv None (QM (cm o))) (QM (cm o)) (- vx e o f) ++
         wr (isv (QF (cf o) f)) (QF (cf o) f) (- vm e o))) outl) = - rsum (map d outl)).
      { clear Nm Nf. induction outl as [|o l IH]; simpl map; simpl rsum; [lra|].
        rewrite IH, wsum_app, wsum_wr_none, wsum_wr by exact Hq. unfold d. lra. }
      rewrite E. unfold vm, vx. lra.
  - intros q _. unfold separator_fluid_writes. rewrite !wcnt_app.
    assert (A : (wcnt q (flat_map (fun o =>
       wr (is_variable isv None (QM (cm o))) (QM (cm o)) (- vx e o f) ++
       wr (isv (QF (cf o) f)) (QF (cf o) f) (- vm e o)) outl) <=
       match q with QM a => ocount a (map cm outl)
                  | QF a _ => ocount a (map cf outl) | _ => 0 end)%nat).
    { clear Nm Nf. induction outl as [|c l IH]; [unfold wcnt; destruct q; simpl; lia|].
      simpl flat_map. rewrite wcnt_app, wcnt_app.
      pose proof (wcnt_wr (is_variable isv None (QM (cm c))) q (QM (cm c)) (- vx e c f)) as W1.
      pose proof (wcnt_wr (isv (QF (cf c) f)) q (QF (cf c) f) (- vm e c)) as W2.
      destruct q; simpl in *; rewrite ?ocount_cons; try lia.
      destruct (Nat.eqb a (cf c)); simpl in *; [destruct (String.eqb f0 f)|]; lia. }
    pose proof (wcnt_wr (is_variable isv None (QM (cm i0))) q (QM (cm i0)) (vx e i0 f)) as W1.
    pose proof (wcnt_wr (isv (QF (cf i0) f)) q (QF (cf i0) f) (vm e i0)) as W2.
    destruct q; simpl in W1, W2; try lia.
    + pose proof (nodup_ocount _ a Nm) as N. cbn [map] in N. rewrite ocount_cons in N. lia.
    + pose proof (nodup_ocount _ a Nf) as N. cbn [map] in N. rewrite ocount_cons in N.
      destruct (Nat.eqb a (cf i0)); simpl in *; [destruct (String.eqb f0 f)|]; lia.
Qed.

(** Fixed rows: bound every write, then count per kind of container. *)
Ltac wcnts q :=
  rewrite ?wcnt_app;
  repeat match goal with
  | |- context[wcnt q (wr ?b ?k ?v)] =>
      let W := fresh "W" in
      pose proof (wcnt_wr b q k v) as W;
      let n := fresh "n" in
      set (n := wcnt q (wr b k v)) in *; clearbody n
  end.

Ltac nodups H x :=
  let N := fresh "N" in
  pose proof (nodup_ocount _ x H) as N; cbn [map app] in N;
  rewrite ?ocount_cons in N.

Lemma wcnt_nil q : wcnt q [] = 0%nat. Proof. reflexivity. Qed.

Lemma drum_mass_gradient i0 i1 o0 o1 e :
  (if drum_loop i1 o0 then cm i0 <> cm o1
   else NoDup (map cm [i0; i1; o0; o1])) ->
  row_is_gradient isv (drum_mass_func i0 i1 o0 o1)
    (drum_mass_writes isv i0 i1 o0 o1) e.
Proof.
  unfold drum_mass_func, drum_mass_writes. destruct (drum_loop i1 o0); intros H.
  - apply diff_gradient. congruence.
  - now apply node_mass_gradient.
Qed.

Lemma drum_energy_gradient i0 i1 o0 o1 e :
  (if drum_loop i1 o0 then cm i0 = cm o1 /\ cm i0 <> cm o0
   else NoDup (map cm [i0; i1; o0; o1])) ->
  NoDup (map cid [i0; i1; o0; o1]) ->
  row_is_gradient isv (drum_energy_func i0 i1 o0 o1)
    (drum_energy_writes isv i0 i1 o0 o1 e) e.
Proof.
  unfold drum_energy_func, drum_energy_writes.
  destruct (drum_loop i1 o0) eqn:L; intros H Nc.
  - destruct H as [H1 H2]. apply gradient_by_sum.
    + intros q Hq. eapply p_eq.
      * apply p_add.
        -- apply p_mul; [presp|presp|apply p_sub; apply p_qty|apply p_qty].
        -- apply p_mul; [presp|presp|apply p_sub; apply p_qty|apply p_qty].
      * rewrite !wsum_app, !wsum_wr by exact Hq. unfold vm, vh. rewrite <- H1.
        lra.
    + intros q _. wcnts q. destruct q; simpl in *; try lia.
      * assert (N : NoDup [cm i0; cm o0]).
        { constructor; [intros [X|[]]; congruence|repeat constructor; intros []]. }
        nodups N a. unfold ocount at 1 in N0. simpl in N0. lia.
      * nodups Nc c. unfold ocount at 1 in N. simpl in N. lia.
  - now apply droplet_energy_gradient.
Qed.

(* --------------------------------------------------------------- components *)
Lemma flow_energy_gradient i o P e : cid i <> cid o ->
  (forall v, P = PVar v -> isv (QC v) = true) ->
  row_is_gradient isv (flow_energy_func i o P) (flow_energy_writes isv i o P e) e.
Proof.
  intros Nc HP. apply gradient_by_sum.
  - intros q Hq. eapply p_eq.
    + unfold flow_energy_func. apply p_sub.
      * apply p_mul; [presp|presp|apply p_qty|apply p_sub; apply p_qty].
      * instantiate (1 := match P with PVar v => delta q (QC v) | PVal _ => 0 end).
        destruct P; simpl; [apply p_qty|apply p_const].
    + unfold flow_energy_writes. rewrite !wsum_app, !wsum_wr by exact Hq.
      rewrite wsum_pcol. unfold vm, vh. destruct P; lra.
  - intros q _. unfold flow_energy_writes. rewrite !wcnt_app.
    pose proof (wcnt_pcol q P (-1)) as Wp.
    set (np := wcnt q (wr_param P (-1))) in *.
    clearbody np. wcnts q. destruct q; simpl in *; try lia.
    + destruct (Nat.eqb a (cm i)); lia.
    + destruct (Nat.eqb c (cid i)) eqn:A, (Nat.eqb c (cid o)) eqn:B; try lia.
      apply Nat.eqb_eq in A, B. congruence.
Qed.

Lemma hx_hot_gradient i o Q e : cid i <> cid o ->
  row_is_gradient isv (flow_energy_func i o (PVal Q)) (hx_hot_writes isv i o e) e.
Proof.
  intros Nc.
  assert (E : hx_hot_writes isv i o e = flow_energy_writes isv i o (PVal Q) e).
  { unfold hx_hot_writes, flow_energy_writes. now rewrite !is_variable_none, !app_nil_r. }
  rewrite E. apply flow_energy_gradient; [exact Nc|discriminate].
Qed.

Lemma hx_energy_deriv_sum filt i1 i2 o1 o2 e q :
  isv q = true -> filt q = false ->
  partial_is (hx_energy_func i1 i2 o1 o2) e q
    (wsum q (hx_energy_writes isv filt i1 i2 o1 o2 e)).
Proof.
  intros Hq Hf. eapply p_eq.
  - unfold hx_energy_func. apply p_add;
      (apply p_mul; [presp|presp|apply p_qty|apply p_sub; apply p_qty]).
  - unfold hx_energy_writes, hx_side_writes.
    rewrite !wsum_app, !wsum_wr_filt by assumption. unfold vm, vh. lra.
Qed.

Lemma hx_energy_gradient filt i1 i2 o1 o2 e :
  cm i1 <> cm i2 -> NoDup (map cid [i1; i2; o1; o2]) ->
  row_is_gradient_filtered isv filt (hx_energy_func i1 i2 o1 o2)
    (hx_energy_writes isv filt i1 i2 o1 o2 e) e.
Proof.
  intros Nm Nc. apply gradient_filt_by_sum.
  - intros q Hq Hf. now apply hx_energy_deriv_sum.
  - intros q _. unfold hx_energy_writes, hx_side_writes. wcnts q.
    destruct q; simpl in *; try lia.
    + destruct (Nat.eqb a (cm i1)) eqn:A, (Nat.eqb a (cm i2)) eqn:B; try lia.
      apply Nat.eqb_eq in A, B. congruence.
    + nodups Nc c. unfold ocount at 1 in N. simpl in N. lia.
Qed.

(** the value of the entry that survives when both sides share the container *)
Lemma hx_side_last r filt i o e :
  isv (QM (cm i)) = true -> filt (QM (cm i)) = false ->
  run_writes r (hx_side_writes isv filt i o e) (QM (cm i)) = Some (vh e o - vh e i).
Proof.
  intros V F. unfold hx_side_writes. rewrite run_writes_app.
  rewrite run_writes0.
  - unfold is_variable. rewrite V, F. simpl. unfold set_entry. simpl.
    now rewrite Nat.eqb_refl.
  - rewrite wcnt_app.
    pose proof (wcnt_wr (is_variable isv (Some filt) (QH (cid i))) (QM (cm i)) (QH (cid i)) (- vm e i)).
    pose proof (wcnt_wr (is_variable isv (Some filt) (QH (cid o))) (QM (cm i)) (QH (cid o)) (vm e i)).
    simpl in *. lia.
Qed.

Lemma hx_shared_entry filt i1 i2 o1 o2 e :
  isv (QM (cm i2)) = true -> filt (QM (cm i2)) = false ->
  entry (hx_energy_writes isv filt i1 i2 o1 o2 e) (QM (cm i2)) = vh e o2 - vh e i2.
Proof.
  intros V F. unfold entry, hx_energy_writes.
  now rewrite run_writes_app, hx_side_last.
Qed.

Lemma equal_rows_gradient (ports : list (conn * conn)) (e : env) k i o :
  nth_error ports k = Some (i, o) -> cid i <> cid o ->
  row_is_gradient isv (fun e => nth k (pressure_equality_func ports e) 0)
    (pressure_equality_row isv i o) e /\
  row_is_gradient isv (fun e => nth k (enthalpy_equality_func ports e) 0)
    (enthalpy_equality_row isv i o) e.
Proof.
  intros H N. split; intros q Hq.
  - apply p_ext with (f := fun e => vp e i - vp e o).
    + intros e0. unfold pressure_equality_func.
      symmetry. apply nth_error_nth. rewrite nth_error_map, H. reflexivity.
    + refine (diff_gradient (QP (cid i)) (QP (cid o)) e _ q Hq). congruence.
  - apply p_ext with (f := fun e => vh e i - vh e o).
    + intros e0. unfold enthalpy_equality_func.
      symmetry. apply nth_error_nth. rewrite nth_error_map, H. reflexivity.
    + refine (diff_gradient (QH (cid i)) (QH (cid o)) e _ q Hq). congruence.
Qed.

Lemma dp_gradient i o dp e : cid i <> cid o ->
  row_is_gradient isv (dp_func i o dp) (dp_writes isv i o) e.
Proof.
  intros N q Hq. eapply p_eq.
  - unfold dp_func. apply p_sub; [|apply p_const].
    refine (diff_gradient (QP (cid i)) (QP (cid o)) e _ q Hq). congruence.
  - unfold dp_writes. lra.
Qed.

Lemma ref_gradient q r factor delta0 e : q <> r ->
  row_is_gradient isv (ref_func q r factor delta0) (ref_writes isv q r factor) e.
Proof.
  intros N. apply gradient_by_sum.
  - intros k Hk. eapply p_eq.
    + unfold ref_func. apply p_sub; [apply p_qty|]. apply p_add; [|apply p_const].
      apply p_mul; [presp|presp|apply p_qty|apply p_const].
    + unfold ref_writes. rewrite wsum_app, !wsum_wr by exact Hk. lra.
  - intros k _. unfold ref_writes. rewrite wcnt_app.
    pose proof (wcnt_wr (isv q) k q 1). pose proof (wcnt_wr (isv r) k r (- factor)).
    destruct (qty_eqb k q) eqn:A, (qty_eqb k r) eqn:B; try lia.
    apply qty_eqb_eq in A. apply qty_eqb_eq in B. congruence.
Qed.
End Rows.
