(** Proofs about the assembly. *)
From Coq Require Import QArith.
From Verif Require Import Base AssemblyModel AssemblySpec.
Open Scope nat_scope.
Open Scope list_scope.

Definition getd (o : option Q) (d : Q) : Q := match o with Some v => v | None => d end.

Lemma write_res_in sum l f r : r < length l -> write_res sum l f (sum + r) = nth r l 0%Q.
Proof.
  intros H. unfold write_res.
  replace (Nat.leb sum (sum + r)) with true by (symmetry; apply Nat.leb_le; lia).
  replace (Nat.ltb (sum + r) (sum + length l)) with true by (symmetry; apply Nat.ltb_lt; lia).
  cbn. f_equal. lia.
Qed.
Lemma write_res_out sum l f i : i < sum \/ sum + length l <= i -> write_res sum l f i = f i.
Proof.
  intros H. unfold write_res.
  destruct (Nat.leb sum i) eqn:E1; destruct (Nat.ltb i (sum + length l)) eqn:E2; cbn; auto.
  apply Nat.leb_le in E1. apply Nat.ltb_lt in E2. lia.
Qed.

Lemma entry_None d r c : entry d r c = None <-> ~ In (r, c) (map fst d).
Proof.
  induction d as [|[[r' c'] v] d IH]; cbn; [tauto|].
  destruct (Nat.eqb r r' && Nat.eqb c c') eqn:E.
  - apply andb_true_iff in E. destruct E as [E1 E2]. apply Nat.eqb_eq in E1, E2. subst. split; [discriminate|].
    intros H; exfalso; auto.
  - rewrite IH. split; [|tauto]. intros H [H1|H1]; [|auto]. inversion H1; subst. rewrite !Nat.eqb_refl in E. discriminate.
Qed.
Lemma entry_In d r c v : entry d r c = Some v -> In ((r, c), v) d.
Proof.
  induction d as [|[[r' c'] w] d IH]; cbn; [discriminate|].
  destruct (Nat.eqb r r' && Nat.eqb c c') eqn:E; [|auto].
  apply andb_true_iff in E. destruct E as [E1 E2]. apply Nat.eqb_eq in E1, E2. intros H; inversion H; subst. auto.
Qed.

Lemma write_jac_in sum d : NoDup (map fst d) -> forall J r c,
  write_jac sum d J (sum + r) c = getd (entry d r c) (J (sum + r) c).
Proof.
  unfold write_jac. induction d as [|[[r' c'] v] d IH]; intros Hd J r c; cbn; [reflexivity|].
  inversion Hd as [|? ? Hn Hd']; subst. rewrite IH by auto.
  unfold write_entry. cbn [fst snd].
  destruct (Nat.eqb r r' && Nat.eqb c c') eqn:E.
  - apply andb_true_iff in E. destruct E as [E1 E2]. apply Nat.eqb_eq in E1, E2. subst.
    apply entry_None in Hn. rewrite Hn. cbn. rewrite (Nat.add_comm r' sum), !Nat.eqb_refl. reflexivity.
  - destruct (entry d r c); [reflexivity|]. cbn.
    replace (Nat.eqb (sum + r) (r' + sum)) with (Nat.eqb r r').
    + now rewrite E.
    + destruct (Nat.eqb r r') eqn:E1; symmetry; [apply Nat.eqb_eq in E1; apply Nat.eqb_eq; lia|apply Nat.eqb_neq in E1; apply Nat.eqb_neq; lia].
Qed.
Lemma write_jac_out sum d n : (forall r c v, In ((r, c), v) d -> r < n) -> forall J i c,
  i < sum \/ sum + n <= i -> write_jac sum d J i c = J i c.
Proof.
  unfold write_jac. induction d as [|[[r' c'] v] d IH]; intros Hr J i c Hi; cbn; [reflexivity|].
  rewrite IH; [|intros; eapply Hr; right; eauto|auto].
  unfold write_entry. cbn. assert (H := Hr r' c' v (or_introl eq_refl)).
  replace (Nat.eqb i (r' + sum)) with false; [reflexivity|]. symmetry. apply Nat.eqb_neq. lia.
Qed.

(** Effect of writing a list of objects to consecutive rows. *)
Definition layout (sum : nat) (os : list eqobj) (a b : arrays) : Prop :=
  (forall l1 o l2, os = l1 ++ o :: l2 -> forall r, r < eo_num o ->
     ar_res b (sum + total l1 + r) = nth r (eo_res o) 0%Q /\
     forall c, ar_jac b (sum + total l1 + r) c = getd (entry (eo_jac o) r c) (ar_jac a (sum + total l1 + r) c)) /\
  (forall i, i < sum \/ sum + total os <= i -> ar_res b i = ar_res a i /\ forall c, ar_jac b i c = ar_jac a i c).

Lemma total_cons o os : total (o :: os) = eo_num o + total os.
Proof. reflexivity. Qed.
Lemma total_app l l' : total (l ++ l') = total l + total l'.
Proof. unfold total. now rewrite map_app, list_sum_app. Qed.

Lemma layout_nil sum a : layout sum [] a a.
Proof. split; [|auto]. intros l1 o l2 H. destruct l1; discriminate. Qed.

Lemma layout_cons sum o os a b c : wf_obj o ->
  (forall i, ar_res b i = write_res sum (eo_res o) (ar_res a) i) ->
  (forall i j, ar_jac b i j = write_jac sum (eo_jac o) (ar_jac a) i j) ->
  layout (sum + eo_num o) os b c -> layout sum (o :: os) a c.
Proof.
  intros (W1 & W2 & W3) Hr Hj (L1 & L2). split.
  - intros l1 o' l2 H r Hlt. destruct l1 as [|o1 l1]; inversion H; subst.
    + cbn [total map list_sum]. unfold total. cbn. rewrite Nat.add_0_r.
      destruct (L2 (sum + r)) as (E1 & E2); [lia|]. rewrite E1, Hr, write_res_in by lia. split; [reflexivity|].
      intros j. rewrite E2, Hj. now apply write_jac_in.
    + destruct (L1 l1 o' l2 eq_refl r Hlt) as (E1 & E2). rewrite total_cons, Nat.add_assoc. split; [exact E1|].
      intros j. rewrite E2, Hj. rewrite (write_jac_out sum (eo_jac o1) (eo_num o1)); [reflexivity|auto|lia].
  - intros i Hi. rewrite total_cons in Hi. destruct (L2 i) as (E1 & E2); [lia|]. rewrite E1, Hr. split.
    + apply write_res_out. lia.
    + intros j. rewrite E2, Hj. apply (write_jac_out sum (eo_jac o) (eo_num o)); [auto|lia].
Qed.

Lemma solve_block_layout os : Forall wf_obj os -> (forall o, In o os -> has_unknown o) ->
  forall sum a, layout sum os a (solve_block sum os a).
Proof.
  induction os as [|o os IH]; intros W H sum a; cbn [solve_block]; [apply layout_nil|].
  inversion W as [|? ? W1 W2]; subst.
  destruct (eo_jac o) as [|e d] eqn:E.
  - destruct (H o (or_introl eq_refl)) as [Hn|Hn]; [|congruence].
    assert (L : length (eo_res o) = 0) by (destruct W1; congruence).
    eapply layout_cons; [exact W1| | |].
    3: { rewrite Hn, Nat.add_0_r. apply IH; [auto|]. intros; apply H; cbn; auto. }
    + intros i; reflexivity.
    + intros i j. rewrite E. reflexivity.
  - eapply layout_cons; [exact W1| | |].
    3: { apply IH; [auto|]. intros; apply H; cbn; auto. }
    + intros i; reflexivity.
    + intros i j. rewrite E. reflexivity.
Qed.

Lemma solve_busses_layout os : Forall wf_obj os -> (forall o, In o os -> eo_num o = 1) ->
  forall sum a, layout sum os a (solve_busses sum os a).
Proof.
  induction os as [|o os IH]; intros W H sum a; cbn [solve_busses]; [apply layout_nil|].
  inversion W as [|? ? W1 W2]; subst.
  assert (N := H o (or_introl eq_refl)).
  eapply layout_cons; [exact W1| | |].
  3: { rewrite N. apply IH; [auto|]. intros; apply H; cbn; auto. }
  - intros i; reflexivity.
  - intros i j; reflexivity.
Qed.

Lemma total_ones os : (forall o, In o os -> eo_num o = 1) -> total os = length os.
Proof.
  induction os as [|o os IH]; intros H; [reflexivity|]. rewrite total_cons, (H o (or_introl eq_refl)), IH; [reflexivity|].
  intros; apply H; cbn; auto.
Qed.

Lemma layout_outside sum os a b i : layout sum os a b -> i < sum \/ sum + total os <= i ->
  ar_res b i = ar_res a i /\ forall c, ar_jac b i c = ar_jac a i c.
Proof. intros (_ & L) H. now apply L. Qed.

Lemma layout_app sum l l' a b c : layout sum l a b -> layout (sum + total l) l' b c -> layout sum (l ++ l') a c.
Proof.
  intros (A1 & A2) (B1 & B2). split.
  - intros l1 o l2 H r Hr. apply app_eq_app in H. destruct H as (m & [(E1 & E2)|(E1 & E2)]).
    + destruct m as [|o' m].
      * cbn in E2. subst l'. rewrite app_nil_r in E1. subst l1.
        destruct (B1 [] o l2 eq_refl r Hr) as (X & Y). unfold total at 2 in X. cbn in X. rewrite Nat.add_0_r in X.
        split; [exact X|]. intros j. specialize (Y j). unfold total at 2 4 in Y. cbn in Y. rewrite Nat.add_0_r in Y. rewrite Y.
        f_equal. apply A2. lia.
      * inversion E2; subst o' l2. subst l.
        destruct (A1 l1 o m eq_refl r Hr) as (X & Y).
        assert (Hlt : sum + total l1 + r < sum + total (l1 ++ o :: m)) by (rewrite total_app, total_cons; lia).
        destruct (B2 (sum + total l1 + r)) as (Z1 & Z2); [lia|]. rewrite Z1. split; [exact X|].
        intros j. rewrite Z2. apply Y.
    + subst l1 l'. destruct (B1 m o l2 eq_refl r Hr) as (X & Y). rewrite total_app, Nat.add_assoc. split; [exact X|].
      intros j. rewrite Y. f_equal. apply A2. lia.
  - intros i Hi. rewrite total_app in Hi. destruct (B2 i) as (X & Y); [lia|]. destruct (A2 i) as (X' & Y'); [lia|].
    split; [congruence|]. intros j. now rewrite Y.
Qed.

(** Two blocks written in the opposite order give the same layout. *)
Lemma layout_swap sum l l' a b c : layout (sum + total l) l' a b -> layout sum l b c -> layout sum (l ++ l') a c.
Proof.
  intros (A1 & A2) (B1 & B2). split.
  - intros l1 o l2 H r Hr. apply app_eq_app in H. destruct H as (m & [(E1 & E2)|(E1 & E2)]).
    + destruct m as [|o' m].
      * cbn in E2. subst l'. rewrite app_nil_r in E1. subst l1.
        destruct (A1 [] o l2 eq_refl r Hr) as (X & Y). unfold total at 2 in X. cbn in X. rewrite Nat.add_0_r in X.
        destruct (B2 (sum + total l + r)) as (Z1 & Z2); [lia|]. rewrite Z1. split; [exact X|].
        intros j. specialize (Y j). unfold total at 2 4 in Y. cbn in Y. rewrite Nat.add_0_r in Y. now rewrite Z2.
      * inversion E2; subst o' l2. subst l.
        destruct (B1 l1 o m eq_refl r Hr) as (X & Y). split; [exact X|]. intros j. rewrite Y. f_equal.
        apply A2. rewrite total_app, total_cons. lia.
    + subst l1 l'. destruct (A1 m o l2 eq_refl r Hr) as (X & Y). rewrite total_app, Nat.add_assoc.
      destruct (B2 (sum + total l + total m + r)) as (Z1 & Z2); [lia|]. rewrite Z1. split; [exact X|].
      intros j. now rewrite Z2.
  - intros i Hi. rewrite total_app in Hi. destruct (B2 i) as (X & Y); [lia|]. destruct (A2 i) as (X' & Y'); [lia|].
    split; [congruence|]. intros j. now rewrite Y.
Qed.

Lemma assemble_layout n a : wf_snapshot n -> all_have_unknowns n -> layout 0 (objects n) a (assemble n a).
Proof.
  intros (W & N) H. unfold objects in *. rewrite !Forall_app in W. destruct W as (W1 & W2 & W3 & W4).
  unfold assemble, objects.
  assert (Tb : total (sn_busses n) = length (sn_busses n)) by (apply total_ones; intros; apply N, in_app_iff; auto).
  eapply layout_app.
  { apply solve_block_layout; [auto|]. intros o Ho. apply H. apply in_app_iff; auto. }
  cbn [Nat.add]. rewrite app_assoc.
  eapply layout_app.
  - eapply layout_swap.
    + apply solve_busses_layout; [auto|]. intros; apply N, in_app_iff; auto.
    + apply solve_block_layout; [auto|]. intros o Ho. apply H. rewrite !in_app_iff; auto.
  - rewrite total_app, Tb, Nat.add_assoc.
    apply solve_block_layout; [auto|]. intros o Ho. apply H. rewrite !in_app_iff; auto.
Qed.

Lemma assemble_rows n a : wf_snapshot n -> all_have_unknowns n ->
  (forall l1 o l2, objects n = l1 ++ o :: l2 -> forall r, r < eo_num o ->
     ar_res (assemble n a) (total l1 + r) = nth r (eo_res o) 0%Q /\
     (forall c v, entry (eo_jac o) r c = Some v -> ar_jac (assemble n a) (total l1 + r) c = v) /\
     (forall c, entry (eo_jac o) r c = None -> ar_jac (assemble n a) (total l1 + r) c = ar_jac a (total l1 + r) c)) /\
  (forall i, total (objects n) <= i -> ar_res (assemble n a) i = ar_res a i /\ forall c, ar_jac (assemble n a) i c = ar_jac a i c) /\
  total (objects n) = num_equations n.
Proof.
  intros W H. destruct (assemble_layout n a W H) as (L1 & L2). split; [|split].
  - intros l1 o l2 E r Hr. destruct (L1 l1 o l2 E r Hr) as (X & Y). cbn [Nat.add] in *. split; [exact X|split].
    + intros c v Ev. rewrite Y, Ev. reflexivity.
    + intros c Ev. rewrite Y, Ev. reflexivity.
  - intros i Hi. apply L2. cbn. lia.
  - destruct W as (_ & N). unfold objects, num_equations. rewrite !total_app.
    rewrite (total_ones (sn_busses n)), (total_ones (sn_udes n)); try (intros; apply N, in_app_iff; auto). lia.
Qed.

(** Every row below the total belongs to exactly one object. *)
Lemma row_owner os : forall i, i < total os -> exists l1 o l2 r, os = l1 ++ o :: l2 /\ r < eo_num o /\ i = total l1 + r.
Proof.
  induction os as [|o os IH]; intros i Hi; [unfold total in Hi; cbn in Hi; lia|].
  rewrite total_cons in Hi. destruct (Nat.ltb i (eo_num o)) eqn:E.
  - apply Nat.ltb_lt in E. exists [], o, os, i. split; [reflexivity|split; [auto|reflexivity]].
  - apply Nat.ltb_ge in E. destruct (IH (i - eo_num o)) as (l1 & o' & l2 & r & A & B & C); [lia|].
    exists (o :: l1), o', l2, r. split; [cbn; now rewrite A|split; [auto|]]. rewrite total_cons. lia.
Qed.
Lemma row_unique os l1 o l2 r l1' o' l2' r' : os = l1 ++ o :: l2 -> os = l1' ++ o' :: l2' -> r < eo_num o -> r' < eo_num o' ->
  total l1 + r = total l1' + r' -> l1 = l1' /\ o = o' /\ r = r'.
Proof.
  intros E E' Hr Hr' Ht. subst os. revert l1' E' Ht. induction l1 as [|a l1 IH]; intros l1' E' Ht.
  - destruct l1' as [|a' l1'].
    + inversion E'; subst. split; [auto|split; [auto|]]. cbn in Ht. lia.
    + inversion E'; subst. rewrite total_cons in Ht. unfold total in Ht at 1. cbn in Ht. lia.
  - destruct l1' as [|a' l1'].
    + inversion E'; subst. rewrite total_cons in Ht. unfold total in Ht at 2. cbn in Ht. lia.
    + inversion E'; subst. rewrite !total_cons in Ht. destruct (IH l1') as (A & B & C); auto; [lia|].
      subst. auto.
Qed.

(** Over the iterations. *)
Definition supported (n : snapshot) (a : arrays) : Prop :=
  forall l1 o l2, objects n = l1 ++ o :: l2 -> forall r c, r < eo_num o -> entry (eo_jac o) r c = None ->
  ar_jac a (total l1 + r) c = 0%Q.

Definition exact_rows (n : snapshot) (a : arrays) : Prop :=
  forall l1 o l2, objects n = l1 ++ o :: l2 -> forall r, r < eo_num o ->
  ar_res a (total l1 + r) = nth r (eo_res o) 0%Q /\ forall c, ar_jac a (total l1 + r) c = getd (entry (eo_jac o) r c) 0%Q.

Lemma supported_step n a : wf_snapshot n -> all_have_unknowns n -> supported n a -> exact_rows n (assemble n a).
Proof.
  intros W H S l1 o l2 E r Hr. destruct (assemble_rows n a W H) as (A & _). destruct (A l1 o l2 E r Hr) as (X & Y & Z).
  split; [exact X|]. intros c. destruct (entry (eo_jac o) r c) eqn:Ee; cbn.
  - now apply Y.
  - rewrite Z by auto. eapply S; eauto.
Qed.

Lemma Forall2_app_r {A B} (P : A -> B -> Prop) l m1 b m2 : Forall2 P l (m1 ++ b :: m2) ->
  exists l1 a l2, l = l1 ++ a :: l2 /\ P a b /\ Forall2 P l1 m1.
Proof.
  revert l. induction m1 as [|c m1 IH]; intros l H; inversion H; subst.
  - exists [], x, l0. split; [reflexivity|split; [auto|constructor]].
  - destruct (IH _ H4) as (l1 & a & l2 & E1 & E2 & E3). exists (x :: l1), a, l2. subst.
    split; [reflexivity|split; [auto|constructor; auto]].
Qed.

Lemma Forall2_total l l' (P : eqobj -> eqobj -> Prop) : (forall a b, P a b -> eo_num a = eo_num b) -> Forall2 P l l' -> total l = total l'.
Proof. intros HP H. induction H; [reflexivity|]. rewrite !total_cons, IHForall2. f_equal; auto. Qed.

Lemma exact_supported n n' a : grows n n' -> exact_rows n a -> supported n' a.
Proof.
  intros (G & _) X l1 o l2 E r c Hr He. rewrite E in G.
  destruct (Forall2_app_r _ _ _ _ _ G) as (m1 & p & m2 & E1 & (N & K) & F).
  assert (T : total m1 = total l1) by (eapply Forall2_total; [|exact F]; intros ? ? (Z & _); auto).
  rewrite <- T. destruct (X m1 p m2 E1 r) as (_ & Y); [lia|]. rewrite Y.
  replace (entry (eo_jac p) r c) with (@None Q); [reflexivity|]. symmetry. apply entry_None. apply entry_None in He. auto.
Qed.

Lemma last_cons {A} (ns : list A) : forall n n', last (n' :: ns) n = last ns n'.
Proof.
  induction ns as [|m ns IH]; intros n n'; [reflexivity|].
  change (last (n' :: m :: ns) n) with (last (m :: ns) n). now rewrite !IH.
Qed.

Lemma run_exact_from n ns a : exact_rows n a -> wf_snapshot n -> all_have_unknowns n ->
  Forall wf_snapshot ns -> Forall all_have_unknowns ns -> chain n ns ->
  exact_rows (last ns n) (fold_left (fun a n => assemble n a) ns a).
Proof.
  revert n a. induction ns as [|n' ns IH]; intros n a X W H Ws Hs C; cbn [fold_left]; [exact X|].
  inversion Ws; subst. inversion Hs; subst. destruct C as (G & C).
  replace (last (n' :: ns) n) with (last ns n').
  - apply IH; auto. apply supported_step; auto. eapply exact_supported; eauto.
  - symmetry. apply last_cons.
Qed.

Lemma run_exact n ns : Forall wf_snapshot (n :: ns) -> Forall all_have_unknowns (n :: ns) -> chain n ns ->
  forall l1 o l2, objects (last ns n) = l1 ++ o :: l2 -> forall r, r < eo_num o ->
  ar_res (run (n :: ns)) (total l1 + r) = nth r (eo_res o) 0%Q /\
  (forall c v, entry (eo_jac o) r c = Some v -> ar_jac (run (n :: ns)) (total l1 + r) c = v) /\
  (forall c, entry (eo_jac o) r c = None -> ar_jac (run (n :: ns)) (total l1 + r) c = 0%Q).
Proof.
  intros Ws Hs C l1 o l2 E r Hr. inversion Ws; subst. inversion Hs; subst.
  assert (X : exact_rows (last ns n) (run (n :: ns))).
  { unfold run. cbn [fold_left]. apply run_exact_from; auto. apply supported_step; auto.
    intros ? ? ? ? ? ? ? ?. reflexivity. }
  destruct (X l1 o l2 E r Hr) as (A & B). split; [exact A|split].
  - intros c v Ev. rewrite B, Ev. reflexivity.
  - intros c Ev. rewrite B, Ev. reflexivity.
Qed.

(** An object without unknowns leaves a zero row. *)
Definition used (os : list eqobj) : nat := total (filter (fun o => match eo_jac o with [] => false | _ => true end) os).

Lemma solve_block_used os : Forall wf_obj os -> forall sum a i c,
  i < sum \/ sum + used os <= i -> ar_jac (solve_block sum os a) i c = ar_jac a i c.
Proof.
  induction os as [|o os IH]; intros W sum a i c Hi; cbn [solve_block]; [reflexivity|].
  inversion W as [|? ? (W1 & W2 & W3) W4]; subst. unfold used in Hi. cbn [filter] in Hi.
  destruct (eo_jac o) as [|e d] eqn:E.
  - rewrite IH; auto.
  - rewrite total_cons in Hi. fold (used os) in Hi. rewrite IH; [|auto|lia]. cbn [ar_jac].
    rewrite (write_jac_out sum (e :: d) (eo_num o)); [reflexivity|auto|lia].
Qed.

Lemma used_cons o os : used (o :: os) = match eo_jac o with [] => 0 | _ => eo_num o end + used os.
Proof. unfold used. cbn [filter]. destruct (eo_jac o); reflexivity. Qed.

Lemma used_le os : used os <= total os.
Proof.
  induction os as [|o os IH]; [auto|]. rewrite used_cons, total_cons. destruct (eo_jac o); lia.
Qed.

Lemma used_lt os o : In o os -> eo_jac o = [] -> 0 < eo_num o -> used os < total os.
Proof.
  induction os as [|p os IH]; cbn [In]; intros H J N; [tauto|].
  rewrite used_cons, total_cons. assert (L := used_le os).
  destruct H as [->|H].
  - rewrite J. lia.
  - specialize (IH H J N). destruct (eo_jac p); lia.
Qed.

Lemma zero_row n a : wf_snapshot n -> (forall i c, ar_jac a i c = 0%Q) ->
  (exists o, In o (sn_comps n ++ sn_conns n ++ sn_udes n) /\ ~ has_unknown o) ->
  exists i, i < num_equations n /\ forall c, ar_jac (assemble n a) i c = 0%Q.
Proof.
  intros (W & N) Z (o & Ho & Hu). unfold objects in W. rewrite !Forall_app in W. destruct W as (W1 & W2 & W3 & W4).
  assert (J : eo_jac o = [] /\ 0 < eo_num o).
  { unfold has_unknown in Hu. destruct (eo_jac o); [|exfalso; apply Hu; right; discriminate].
    split; [auto|]. destruct (eo_num o); [exfalso; apply Hu; auto|lia]. }
  destruct J as (J & P).
  assert (Tu : total (sn_udes n) = length (sn_udes n)) by (apply total_ones; intros; apply N, in_app_iff; auto).
  assert (Tb : total (sn_busses n) = length (sn_busses n)) by (apply total_ones; intros; apply N, in_app_iff; auto).
  assert (Lb : forall sum a' i c, i < sum \/ sum + length (sn_busses n) <= i -> ar_jac (solve_busses sum (sn_busses n) a') i c = ar_jac a' i c).
  { intros sum a' i c Hi. rewrite <- Tb in Hi.
    eapply layout_outside; [apply solve_busses_layout; [auto|intros; apply N, in_app_iff; auto]|auto]. }
  assert (U1 := used_le (sn_comps n)). assert (U2 := used_le (sn_conns n)). assert (U3 := used_le (sn_udes n)).
  unfold num_equations, assemble. rewrite !in_app_iff in Ho. destruct Ho as [Ho|[Ho|Ho]].
  - assert (U := used_lt _ _ Ho J P). exists (used (sn_comps n)). split; [lia|]. intros c.
    rewrite solve_block_used by (auto; lia). rewrite solve_block_used by (auto; lia). rewrite Lb by lia.
    rewrite solve_block_used by (auto; lia). apply Z.
  - assert (U := used_lt _ _ Ho J P). exists (total (sn_comps n) + used (sn_conns n)). split; [lia|]. intros c.
    rewrite solve_block_used by (auto; lia). rewrite solve_block_used by (auto; lia). rewrite Lb by lia.
    rewrite solve_block_used by (auto; lia). apply Z.
  - assert (U := used_lt _ _ Ho J P).
    exists (total (sn_comps n) + total (sn_conns n) + length (sn_busses n) + used (sn_udes n)). split; [lia|]. intros c.
    rewrite solve_block_used by (auto; lia). rewrite solve_block_used by (auto; lia). rewrite Lb by lia.
    rewrite solve_block_used by (auto; lia). apply Z.
Qed.

(** Inside a component. *)
Definition gtotal (gs : list eqgroup) : nat := list_sum (map g_num gs).

Lemma slice_values_spec n l v : slice_values n l = Ok v -> length v = n.
Proof.
  unfold slice_values. destruct (Nat.eqb (length l) n) eqn:E.
  - apply Nat.eqb_eq in E. intros H; inversion H; subst; auto.
  - destruct l as [|a [|b l]]; try discriminate. intros H; inversion H; subst. apply repeat_length.
Qed.

Lemma entry_app d d' r c : entry (d ++ d') r c = match entry d r c with Some v => Some v | None => entry d' r c end.
Proof.
  induction d as [|[[r' c'] v] d IH]; cbn; [reflexivity|]. destruct (Nat.eqb r r' && Nat.eqb c c'); auto.
Qed.
Lemma entry_shift d s r c :
  entry (map (fun e => ((fst (fst e) + s, snd (fst e)), snd e)) d) r c = if Nat.leb s r then entry d (r - s) c else None.
Proof.
  induction d as [|[[r' c'] v] d IH]; cbn.
  - destruct (Nat.leb s r); reflexivity.
  - rewrite IH. destruct (Nat.leb s r) eqn:E.
    + apply Nat.leb_le in E.
      replace (Nat.eqb r (r' + s)) with (Nat.eqb (r - s) r'); [reflexivity|].
      destruct (Nat.eqb (r - s) r') eqn:E1; symmetry; [apply Nat.eqb_eq in E1; apply Nat.eqb_eq; lia|apply Nat.eqb_neq in E1; apply Nat.eqb_neq; lia].
    + apply Nat.leb_gt in E. replace (Nat.eqb r (r' + s)) with false; [reflexivity|]. symmetry; apply Nat.eqb_neq; lia.
Qed.

Lemma comp_solve_rows gs : (forall g r c v, In g gs -> In ((r, c), v) (g_jac g) -> r < g_num g) ->
  forall sum vs d, comp_solve sum gs = Ok (vs, d) ->
  length vs = gtotal gs /\
  (forall r c, entry d r c <> None -> sum <= r < sum + gtotal gs) /\
  forall l1 g l2, gs = l1 ++ g :: l2 -> forall r, r < g_num g ->
    (length (g_vals g) = g_num g -> nth (gtotal l1 + r) vs 0%Q = nth r (g_vals g) 0%Q) /\
    (length (g_vals g) = g_num g \/ length (g_vals g) = 1) /\
    forall c, entry d (sum + gtotal l1 + r) c = entry (g_jac g) r c.
Proof.
  induction gs as [|g gs IH]; intros W sum vs d; cbn [comp_solve].
  - intros H. inversion H; subst. split; [reflexivity|split; [cbn; tauto|]]. intros l1 ? ? E. destruct l1; discriminate.
  - destruct (if Nat.eqb (g_num g) 0 then Ok [] else slice_values (g_num g) (g_vals g)) as [v|e] eqn:Ev; [|discriminate].
    cbn [rbind]. destruct (comp_solve (sum + g_num g) gs) as [[vs' d']|e] eqn:Es; [|discriminate].
    cbn [rbind fst snd]. intros H. inversion H; subst vs d. clear H.
    destruct (IH (fun g' r c v Hg => W g' r c v (or_intror Hg)) _ _ _ Es) as (L & B & R).
    assert (Lv : length v = g_num g).
    { destruct (Nat.eqb (g_num g) 0) eqn:E0; [apply Nat.eqb_eq in E0; inversion Ev; subst; auto|now apply slice_values_spec in Ev]. }
    assert (Wg : forall r c, entry (g_jac g) r c <> None -> r < g_num g).
    { intros r c Hr. destruct (entry (g_jac g) r c) as [q|] eqn:E; [|congruence]. apply entry_In in E. eapply W; [left; reflexivity|eauto]. }
    split; [rewrite app_length, L, Lv; reflexivity|split].
    + intros r c. rewrite entry_app, entry_shift. unfold gtotal. cbn [map list_sum]. fold (gtotal gs).
      change (list_sum (g_num g :: map g_num gs)) with (g_num g + gtotal gs).
      destruct (Nat.leb sum r) eqn:E.
      * apply Nat.leb_le in E. destruct (entry (g_jac g) (r - sum) c) eqn:E2.
        -- intros _. assert (r - sum < g_num g) by (apply (Wg _ c); congruence). lia.
        -- intros X. apply B in X. lia.
      * intros X. apply B in X. lia.
    + intros l1 g' l2 E r Hr. destruct l1 as [|g1 l1]; inversion E; subst.
      * unfold gtotal. cbn [map list_sum fold_right]. cbn [Nat.add].
        change (list_sum []) with 0. rewrite Nat.add_0_r. cbn [Nat.add].
        destruct (Nat.eqb (g_num g') 0) eqn:E0; [apply Nat.eqb_eq in E0; lia|].
        split; [|split].
        -- intros Hl. unfold slice_values in Ev. rewrite Hl, Nat.eqb_refl in Ev. inversion Ev; subst. rewrite app_nth1 by lia. reflexivity.
        -- unfold slice_values in Ev. destruct (Nat.eqb (length (g_vals g')) (g_num g')) eqn:E1; [left; now apply Nat.eqb_eq|].
           right. destruct (g_vals g') as [|a [|b l]]; try discriminate. reflexivity.
        -- intros c. rewrite entry_app, entry_shift. replace (Nat.leb sum (sum + r)) with true by (symmetry; apply Nat.leb_le; lia).
           replace (sum + r - sum) with r by lia. destruct (entry (g_jac g') r c) eqn:E2; [reflexivity|].
           destruct (entry d' (sum + r) c) eqn:E3; [|reflexivity]. exfalso.
           assert (sum + g_num g' <= sum + r) by (apply (B (sum + r) c); congruence). lia.
      * destruct (R l1 g' l2 eq_refl r Hr) as (R1 & R2 & R3).
        change (gtotal (g1 :: l1)) with (g_num g1 + gtotal l1). split; [|split; [exact R2|]].
        -- intros Hl. rewrite app_nth2 by lia. rewrite <- (R1 Hl). f_equal. lia.
        -- intros c. rewrite entry_app, entry_shift.
           replace (Nat.leb sum (sum + (g_num g1 + gtotal l1) + r)) with true by (symmetry; apply Nat.leb_le; lia).
           destruct (entry (g_jac g1) (sum + (g_num g1 + gtotal l1) + r - sum) c) eqn:E2.
           { exfalso. assert (sum + (g_num g1 + gtotal l1) + r - sum < g_num g1) by (apply (Wg _ c); congruence). lia. }
           rewrite <- R3. f_equal. lia.
Qed.

(** ... and it works for every choice of matching functions. *)
Lemma comp_solve_ok gs sum : (forall g, In g gs -> length (g_vals g) = g_num g) ->
  exists d, comp_solve sum gs = Ok (flat_map g_vals gs, d).
Proof.
  revert sum. induction gs as [|g gs IH]; intros sum H; cbn [comp_solve flat_map]; [exists []; reflexivity|].
  destruct (IH (sum + g_num g)) as (d & E); [intros; apply H; cbn; auto|].
  assert (Hg := H g (or_introl eq_refl)).
  destruct (Nat.eqb (g_num g) 0) eqn:E0.
  - apply Nat.eqb_eq in E0. rewrite E0 in Hg. apply length_zero_iff_nil in Hg. cbn [rbind]. rewrite E. cbn [rbind fst snd].
    rewrite Hg. eexists. reflexivity.
  - unfold slice_values. rewrite Hg, Nat.eqb_refl. cbn [rbind]. rewrite E. cbn [rbind fst snd]. eexists. reflexivity.
Qed.

Lemma comp_solve_mismatch gs sum g : In g gs -> g_num g <> 0 -> length (g_vals g) <> g_num g -> length (g_vals g) <> 1 ->
  comp_solve sum gs = Err ValueError.
Proof.
  revert sum. induction gs as [|g' gs IH]; intros sum Hg N L1 L2; cbn [comp_solve]; [destruct Hg|].
  assert (SV : forall n l e, slice_values n l = Err e -> e = ValueError).
  { intros n l e. unfold slice_values. destruct (Nat.eqb _ _); [discriminate|]. destruct l as [|a [|b l]]; congruence. }
  destruct (if Nat.eqb (g_num g') 0 then Ok [] else slice_values (g_num g') (g_vals g')) as [v|e] eqn:Ev; cbn [rbind].
  - destruct Hg as [->|Hg].
    + exfalso. destruct (Nat.eqb (g_num g) 0) eqn:E0; [apply Nat.eqb_eq in E0; auto|].
      unfold slice_values in Ev. destruct (Nat.eqb (length (g_vals g)) (g_num g)) eqn:E1; [apply Nat.eqb_eq in E1; auto|].
      destruct (g_vals g) as [|a [|b l]]; try discriminate. cbn in L2. lia.
    + rewrite IH; auto.
  - destruct (Nat.eqb (g_num g') 0); [discriminate|]. apply SV in Ev. now subst.
Qed.

Lemma residual_kept n a l1 o l2 r : wf_snapshot n -> all_have_unknowns n ->
  objects n = l1 ++ o :: l2 -> r < eo_num o -> ar_res (assemble n a) (total l1 + r) = nth r (eo_res o) 0%Q.
Proof. intros W H E Hr. destruct (assemble_rows n a W H) as (A & _). now apply (A l1 o l2 E r Hr). Qed.

(** Decides well formedness of concrete objects. *)
Ltac wf_objs :=
  repeat (apply Forall_cons;
    [split; [reflexivity|split;
      [cbn; repeat (apply NoDup_cons; [cbn; intuition congruence|]); apply NoDup_nil
      |cbn; intros; repeat match goal with H : _ \/ _ |- _ => destruct H | H : False |- _ => destruct H end;
       match goal with H : _ = _ |- _ => inversion H; subst; lia end]]|]);
  apply Forall_nil.
