(** Lemmas about Sankey tables: removal of transit groups. *)
From Coq Require Import QArith Lia Lqa.
From Verif Require Import Base ExergyModel AnalysisModel SankeyModel SankeySpec.
Open Scope Q_scope.
Open Scope list_scope.

Lemma key_eqb_eq k k' : key_eqb k k' = true <-> k = k'.
Proof.
  unfold key_eqb. destruct k as [a b], k' as [a' b']. cbn. rewrite Bool.andb_true_iff, !String.eqb_eq. split; [intros (-> & ->); reflexivity|].
  intros H. injection H as -> ->. auto.
Qed.
Lemma key_eqb_neq k k' : k <> k' -> key_eqb k k' = false.
Proof. intros N. destruct (key_eqb k k') eqn:E; [|reflexivity]. apply key_eqb_eq in E. contradiction. Qed.
Lemma key_eqb_refl k : key_eqb k k = true.
Proof. now apply key_eqb_eq. Qed.

Lemma tget_In k v t : tget k t = Some v -> In (k, v) t.
Proof.
  induction t as [|(k', v') t IH]; cbn; [discriminate|]. destruct (key_eqb k k') eqn:E; intros H.
  - apply key_eqb_eq in E. subst. left. congruence.
  - right. now apply IH.
Qed.
Lemma In_tget k v t : rows_unique t -> In (k, v) t -> tget k t = Some v.
Proof.
  unfold rows_unique. induction t as [|(k', v') t IH]; cbn; [contradiction|]. intros U [E|I].
  - injection E as -> ->. now rewrite key_eqb_refl.
  - inversion U as [|? ? N U']; subst. rewrite key_eqb_neq; [now apply IH|]. intros ->. apply N. apply in_map_iff. exists (k', v). auto.
Qed.
Lemma tget_None k t : tget k t = None <-> ~ In k (map fst t).
Proof.
  induction t as [|(k', v') t IH]; cbn; [tauto|]. destruct (key_eqb k k') eqn:E.
  - apply key_eqb_eq in E. subst. split; [discriminate|]. intros N. exfalso. apply N. now left.
  - rewrite IH. split; intros H; [|tauto]. intros [->|I]; [|auto]. now rewrite key_eqb_refl in E.
Qed.

(** One table's part of the flow. *)
Definition colsum (c : column) (k : string * string) (t : table) : Q :=
  fold_right (fun r s => (if key_eqb k (fst r) then amount (cell c (snd r)) else 0) + s) 0 t.
Lemma inner_sum c k t s : fold_right (fun r s => (if key_eqb k (fst r) then amount (cell c (snd r)) else 0) + s) s t == colsum c k t + s.
Proof. unfold colsum. induction t as [|r t IH]; cbn; [lra|]. rewrite IH. lra. Qed.
Lemma flow_in_cons c k g t sk : flow_in c k ((g, t) :: sk) == colsum c k t + flow_in c k sk.
Proof. unfold flow_in at 1. cbn [fold_right snd]. rewrite inner_sum. reflexivity. Qed.
Lemma colsum_nil c k : colsum c k [] = 0.
Proof. reflexivity. Qed.
Lemma colsum_absent c k t : ~ In k (map fst t) -> colsum c k t == 0.
Proof.
  induction t as [|(k', v') t IH]; cbn; [reflexivity|]. intros N. fold (colsum c k t). rewrite key_eqb_neq by (intros ->; tauto). rewrite IH by tauto. lra.
Qed.
Lemma colsum_tget c k t : rows_unique t -> colsum c k t == match tget k t with Some v => amount (cell c v) | None => 0 end.
Proof.
  unfold rows_unique. induction t as [|(k', v') t IH]; cbn; [reflexivity|]. intros U. inversion U as [|? ? N U']; subst. fold (colsum c k t).
  destruct (key_eqb k k') eqn:E.
  - apply key_eqb_eq in E. subst. rewrite (colsum_absent c k' t N). lra.
  - rewrite (IH U'). lra.
Qed.
Lemma flow_dset c k g t sk : flow_in c k (dset g t sk) == flow_in c k sk - colsum c k (table_of g sk) + colsum c k t.
Proof.
  unfold table_of. induction sk as [|(g', t') sk IH].
  - cbn [dset dget]. rewrite flow_in_cons. rewrite colsum_nil. lra.
  - cbn [dset dget]. destruct (String.eqb g g') eqn:E.
    + rewrite !flow_in_cons. lra.
    + rewrite !flow_in_cons, IH. lra.
Qed.
Lemma flow_ddel c k g sk : flow_in c k (ddel g sk) == flow_in c k sk - colsum c k (table_of g sk).
Proof.
  unfold table_of. induction sk as [|(g', t') sk IH].
  - cbn [ddel dget]. rewrite colsum_nil. lra.
  - cbn [ddel dget]. destruct (String.eqb g g') eqn:E.
    + rewrite flow_in_cons. lra.
    + rewrite !flow_in_cons, IH. lra.
Qed.

(* ---------------------------------------------------------------- sums of tables *)

Lemma amount_vpadd c u w : amount (cell c (vpadd u w)) == amount (cell c u) + amount (cell c w).
Proof. destruct u as [[a b] d], w as [[a' b'] d']. destruct c; cbn; [destruct a, a'|destruct b, b'|destruct d, d']; cbn; lra. Qed.
Lemma tget_map k (f : string * string -> vec -> vec) t : tget k (map (fun r => (fst r, f (fst r) (snd r))) t) = option_map (f k) (tget k t).
Proof. induction t as [|(k', v') t IH]; cbn; [reflexivity|]. destruct (key_eqb k k') eqn:E; [|exact IH]. apply key_eqb_eq in E. now subst. Qed.
Lemma tget_app k a b : tget k (a ++ b) = match tget k a with Some v => Some v | None => tget k b end.
Proof. induction a as [|(k', v') a IH]; cbn; [reflexivity|]. destruct (key_eqb k k'); [reflexivity|exact IH]. Qed.
Lemma tget_filter k (p : string * string -> bool) t : tget k (filter (fun r => p (fst r)) t) = if p k then tget k t else None.
Proof.
  induction t as [|(k', v') t IH]; cbn; [now destruct (p k)|]. destruct (p k') eqn:P; cbn.
  - destruct (key_eqb k k') eqn:E; [|exact IH]. apply key_eqb_eq in E. subst. now rewrite P.
  - destruct (key_eqb k k') eqn:E; [|exact IH]. apply key_eqb_eq in E. subst. rewrite IH. now rewrite P.
Qed.
Lemma tget_add k a b : tget k (frame_add a b) = match tget k a, tget k b with Some u, Some w => Some (vpadd u w) | Some u, None => Some u | None, x => x end.
Proof.
  unfold frame_add. rewrite tget_app. rewrite (tget_map k (fun k v => match tget k b with Some w => vpadd v w | None => v end)).
  rewrite (tget_filter k (fun k => match tget k a with Some _ => false | None => true end)). destruct (tget k a), (tget k b); reflexivity.
Qed.
Lemma filter_unique p (t : table) : rows_unique t -> rows_unique (filter p t).
Proof.
  unfold rows_unique. induction t as [|r t IH]; cbn; [auto|]. intros U. inversion U as [|? ? N U']; subst. destruct (p r); cbn; [|auto]. constructor; [|auto].
  intros I. apply N. apply in_map_iff in I. destruct I as (x & E & I). apply filter_In in I. apply in_map_iff. exists x. tauto.
Qed.
Lemma add_unique a b : rows_unique a -> rows_unique b -> rows_unique (frame_add a b).
Proof.
  intros A B. unfold rows_unique, frame_add. rewrite map_app, map_map. cbn [fst]. rewrite (map_ext _ fst) by reflexivity.
  pose proof (filter_unique (fun r => match tget (fst r) a with Some _ => false | None => true end) b B) as FB. unfold rows_unique in FB, A.
  revert A. assert (D : forall k, In k (map fst a) -> ~ In k (map fst (filter (fun r => match tget (fst r) a with Some _ => false | None => true end) b))).
  { intros k I J. apply in_map_iff in J. destruct J as ((k', v') & E & J). cbn in E. subst k'. apply filter_In in J. destruct J as (_ & J). cbn in J. destruct (tget k a) eqn:T; [discriminate|]. apply tget_None in T. contradiction. }
  revert D. generalize (filter (fun r => match tget (fst r) a with Some _ => false | None => true end) b) FB. intros f F. clear - F. induction (map fst a) as [|k l IH]; cbn; intros D A; [exact F|].
  inversion A as [|? ? N A']; subst. constructor.
  - rewrite in_app_iff. intros [I|I]; [contradiction|]. exact (D k (or_introl eq_refl) I).
  - apply IH; [|exact A']. intros k' I. apply D. now right.
Qed.
Lemma tget_drop k g t : tget k (drop_target g t) = if String.eqb (fst k) g then None else tget k t.
Proof. unfold drop_target. rewrite (tget_filter k (fun k => negb (String.eqb (fst k) g))). destruct (String.eqb (fst k) g); reflexivity. Qed.

(* ------------------------------------------------------------------------ feeding *)

Lemma targets_in g t : smem g (targets t) = true <-> exists c v, In ((g, c), v) t.
Proof.
  rewrite smem_In. unfold targets. rewrite in_map_iff. split.
  - intros (((g', c), v) & E & I). cbn in E. subst. eauto.
  - intros (c & v & I). exists ((g, c), v). auto.
Qed.
Lemma sources_spec s g sk : In s (single_group_input g sk) <-> s <> g /\ feeds s g sk.
Proof.
  unfold single_group_input, feeds. rewrite in_map_iff. split.
  - intros ((s', t) & E & I). cbn in E. subst s'. apply filter_In in I. destruct I as (I & B). cbn in B. apply Bool.andb_true_iff in B. destruct B as (B & N). apply targets_in in B. destruct B as (c & v & B).
    apply Bool.negb_true_iff, String.eqb_neq in N. split; [exact N|]. exists t, c, v. auto.
  - intros (N & t & c & v & I & J). exists (s, t). split; [reflexivity|]. apply filter_In. split; [exact I|]. cbn. apply Bool.andb_true_iff. split; [apply targets_in; eauto|]. now apply Bool.negb_true_iff, String.eqb_neq.
Qed.
Lemma sources_nodup g sk : NoDup (keys sk) -> NoDup (single_group_input g sk).
Proof.
  unfold single_group_input, keys. generalize (fun e : string * table => smem g (targets (snd e)) && negb (String.eqb (fst e) g)). intros p. induction sk as [|e sk IH]; cbn; [auto|].
  intros U. inversion U as [|? ? N U']; subst. destruct (p e); cbn; [|auto]. constructor; [|auto]. intros I. apply N. apply in_map_iff in I. destruct I as (x & E & I). apply filter_In in I. apply in_map_iff. exists x. tauto.
Qed.
Lemma feeds_table s g sk : NoDup (keys sk) -> (feeds s g sk <-> exists c v, In ((g, c), v) (table_of s sk)).
Proof.
  intros U. unfold feeds, table_of. split.
  - intros (t & c & v & I & J). rewrite (In_dget s t sk U I). eauto.
  - intros (c & v & I). destruct (dget s sk) as [t|] eqn:D; [|contradiction]. exists t, c, v. split; [now apply dget_In|exact I].
Qed.
Lemma one_target_spec t : one_target t = true <-> exists x, In x (targets t) /\ forall y, In y (targets t) -> y = x.
Proof.
  unfold one_target. rewrite Nat.eqb_eq. assert (UI : forall l x, In x (unique l) <-> In x l).
  { induction l as [|y l IH]; cbn; [tauto|]. intros x. rewrite filter_In, IH. destruct (String.eqb_spec y x); cbn; [subst; intuition|]. intuition congruence. }
  assert (UN : forall l, NoDup (unique l)).
  { induction l as [|y l IH]; cbn; constructor.
    - rewrite filter_In. rewrite String.eqb_refl. cbn. intuition congruence.
    - now apply NoDup_filter. }
  split.
  - destruct (unique (targets t)) as [|x [|? ?]] eqn:E; try discriminate. intros _. exists x. split; [apply UI; rewrite E; now left|]. intros y I. apply UI in I. rewrite E in I. destruct I as [I|[]]. now symmetry.
  - intros (x & I & A). pose proof (UN (targets t)) as N. destruct (unique (targets t)) as [|a [|b l]] eqn:E; [apply UI in I; rewrite E in I; contradiction|reflexivity|].
    exfalso. inversion N as [|? ? NA _]; subst. apply NA. rewrite (A a), <- (A b); [now left| |]; apply UI; rewrite E; cbn; auto.
Qed.

(* -------------------------------------------------------------------------- steps *)

Section Steps.
Variable R : list string.
Definition can_bypass (g s : string) (sk : dict table) : Prop := ~ In g R /\ single_group_input g sk = [s] /\ one_target (table_of g sk) = true.
Definition can_drop (g : string) (sk : dict table) : Prop := ~ In g R /\ single_group_input g sk = [] /\ table_of g sk = [].
Inductive steps : dict table -> dict table -> Prop :=
| S_refl sk : steps sk sk
| S_bypass g s sk sk' : can_bypass g s sk -> steps (bypass g s sk) sk' -> steps sk sk'
| S_drop g sk sk' : can_drop g sk -> steps (ddel g sk) sk' -> steps sk sk'.

Lemma scan_steps again ks sk sk' : (forall a b, again a = Ok b -> steps a b) -> scan R again ks sk = Ok sk' -> steps sk sk'.
Proof.
  intros A. revert sk. induction ks as [|g ks IH]; cbn; intros sk H; [injection H as <-; constructor|].
  destruct (smem g R) eqn:M; [now apply IH|]. assert (NR : ~ In g R) by (intros I; apply smem_In in I; congruence).
  destruct (single_group_input g sk) as [|s [|s' l]] eqn:S.
  - destruct (table_of g sk) eqn:T; [|now apply IH]. eapply S_drop; [|apply IH; exact H]. repeat split; auto.
  - destruct (one_target (table_of g sk)) eqn:O; [|now apply IH]. eapply S_bypass; [|apply A; exact H]. repeat split; auto.
  - now apply IH.
Qed.
Lemma remove_steps fuel sk sk' : remove_transit fuel R sk = Ok sk' -> steps sk sk'.
Proof.
  revert sk sk'. induction fuel as [|fuel IH]; cbn; intros sk sk' H; [discriminate|]. eapply scan_steps; [|exact H]. exact IH.
Qed.

Lemma bypass_facts g s sk : NoDup (keys sk) -> can_bypass g s sk -> s <> g /\ feeds s g sk /\ In s (keys sk) /\ In g (keys sk).
Proof.
  intros U (N & S & O). assert (I : In s (single_group_input g sk)) by (rewrite S; now left). apply sources_spec in I. destruct I as (D & F). split; [exact D|]. split; [exact F|].
  destruct F as (t & c & v & I & _). split; [unfold keys; apply in_map_iff; exists (s, t); auto|]. apply one_target_spec in O. destruct O as (x & I' & _).
  unfold table_of in I'. destruct (dget g sk) as [t'|] eqn:E; [|contradiction]. apply dget_In in E. unfold keys. apply in_map_iff. exists (g, t'). auto.
Qed.
Lemma keys_bypass g s sk x : NoDup (keys sk) -> can_bypass g s sk -> (In x (keys (bypass g s sk)) <-> In x (keys sk) /\ x <> g).
Proof.
  intros U C. destruct (bypass_facts g s sk U C) as (D & F & IS & IG). unfold bypass.
  set (d := dset s (drop_target g (frame_add (table_of s sk) (table_of g sk))) sk). assert (UD : NoDup (keys d)) by (now apply NoDup_keys_dset). split.
  - intros I. split.
    + apply keys_ddel_incl in I. apply keys_dset in I. destruct I as [->|I]; auto.
    + intros ->. apply (proj1 (dget_None_notin g (ddel g d))) in I; [exact I|]. now apply dget_ddel_eq.
  - intros (I & N). destruct (in_dec string_dec x (keys (ddel g d))) as [J|J]; [exact J|]. apply dget_None_notin in J. rewrite dget_ddel_neq in J by auto. apply dget_None_notin in J. exfalso. apply J. apply keys_dset. now right.
Qed.
Lemma keys_drop g (sk : dict table) x : NoDup (keys sk) -> (In x (keys (ddel g sk)) <-> In x (keys sk) /\ x <> g).
Proof.
  intros U. split.
  - intros I. split; [now apply keys_ddel_incl in I|]. intros ->. apply (proj1 (dget_None_notin g (ddel g sk))) in I; [exact I|]. now apply dget_ddel_eq.
  - intros (I & N). destruct (in_dec string_dec x (keys (ddel g sk))) as [J|J]; [exact J|]. apply dget_None_notin in J. rewrite dget_ddel_neq in J by auto. apply dget_None_notin in J. contradiction.
Qed.
Lemma table_bypass g s sk x : s <> g -> x <> g -> NoDup (keys sk) ->
  table_of x (bypass g s sk) = if String.eqb x s then drop_target g (frame_add (table_of s sk) (table_of g sk)) else table_of x sk.
Proof.
  intros D N U. unfold bypass. unfold table_of at 1. rewrite dget_ddel_neq by auto. destruct (String.eqb_spec x s) as [->|E].
  - now rewrite dget_dset_eq.
  - rewrite dget_dset_neq by auto. reflexivity.
Qed.
Lemma table_drop g sk x : x <> g -> table_of x (ddel g sk) = table_of x sk.
Proof. intros N. unfold table_of. now rewrite dget_ddel_neq by auto. Qed.
Lemma proper_table sk x : proper sk -> rows_unique (table_of x sk).
Proof. intros (U & P). unfold table_of. destruct (dget x sk) as [t|] eqn:E; [apply (P x); now apply dget_In|constructor]. Qed.
Lemma proper_tables sk : NoDup (keys sk) -> (forall x, rows_unique (table_of x sk)) -> proper sk.
Proof. intros U A. split; [exact U|]. intros g t I. specialize (A g). unfold table_of in A. now rewrite (In_dget g t sk U I) in A. Qed.
Lemma absent_table x sk : ~ In x (keys sk) -> table_of x sk = [].
Proof. intros N. unfold table_of. apply dget_None_notin in N. now rewrite N. Qed.
Lemma proper_bypass g s sk : proper sk -> can_bypass g s sk -> proper (bypass g s sk).
Proof.
  intros P C. pose proof (proj1 P) as U. destruct (bypass_facts g s sk U C) as (D & F & IS & IG).
  assert (UB : NoDup (keys (bypass g s sk))) by (apply NoDup_keys_ddel, NoDup_keys_dset; exact U). apply proper_tables; [exact UB|]. intros x.
  destruct (string_dec x g) as [->|N].
  - rewrite absent_table; [constructor|]. rewrite (keys_bypass g s sk g U C). tauto.
  - rewrite (table_bypass g s sk x D N U). destruct (String.eqb x s); [|now apply proper_table]. apply filter_unique, add_unique; now apply proper_table.
Qed.
Lemma proper_drop g sk : proper sk -> proper (ddel g sk).
Proof.
  intros P. pose proof (proj1 P) as U. assert (UB : NoDup (keys (ddel g sk))) by (now apply NoDup_keys_ddel). apply proper_tables; [exact UB|]. intros x.
  destruct (string_dec x g) as [->|N].
  - rewrite absent_table; [constructor|]. rewrite (keys_drop g sk g U). tauto.
  - rewrite table_drop by auto. now apply proper_table.
Qed.

Lemma flow_bypass c k g s sk : proper sk -> can_bypass g s sk -> fst k <> g -> flow_in c k (bypass g s sk) == flow_in c k sk.
Proof.
  intros P C N. pose proof (proj1 P) as U. destruct (bypass_facts g s sk U C) as (D & F & IS & IG). unfold bypass. rewrite flow_ddel, flow_dset.
  assert (TG : table_of g (dset s (drop_target g (frame_add (table_of s sk) (table_of g sk))) sk) = table_of g sk) by (unfold table_of at 1; now rewrite dget_dset_neq by auto).
  rewrite TG. assert (E : colsum c k (drop_target g (frame_add (table_of s sk) (table_of g sk))) == colsum c k (table_of s sk) + colsum c k (table_of g sk)); [|rewrite E; lra].
  pose proof (proper_table sk s P) as US. pose proof (proper_table sk g P) as UG. rewrite (colsum_tget c k _ US), (colsum_tget c k _ UG). rewrite (colsum_tget c k (drop_target _ _)) by (apply filter_unique, add_unique; auto).
  rewrite tget_drop, tget_add. destruct (String.eqb_spec (fst k) g); [contradiction|]. destruct (tget k (table_of s sk)), (tget k (table_of g sk)); rewrite ?amount_vpadd; lra.
Qed.
Lemma flow_drop c k g sk : can_drop g sk -> flow_in c k (ddel g sk) == flow_in c k sk.
Proof. intros (_ & _ & T). rewrite flow_ddel, T. cbn. lra. Qed.

Lemma steps_keys sk sk' : proper sk -> steps sk sk' -> proper sk' /\ (forall x, In x (keys sk') -> In x (keys sk)) /\ (forall x, In x R -> In x (keys sk) -> In x (keys sk')).
Proof.
  intros P H. induction H as [sk|g s sk sk' C H IH|g sk sk' C H IH]; [auto| |].
  - pose proof (proj1 P) as U. destruct (IH (proper_bypass g s sk P C)) as (P' & A & B). split; [exact P'|]. split.
    + intros x I. apply A in I. now apply (keys_bypass g s sk x U C) in I.
    + intros x RX I. apply B; [exact RX|]. apply (keys_bypass g s sk x U C). split; [exact I|]. intros ->. destruct C as (C & _). contradiction.
  - pose proof (proj1 P) as U. destruct (IH (proper_drop g sk P)) as (P' & A & B). split; [exact P'|]. split.
    + intros x I. apply A in I. now apply (keys_drop g sk x U) in I.
    + intros x RX I. apply B; [exact RX|]. apply (keys_drop g sk x U). split; [exact I|]. intros ->. destruct C as (C & _). contradiction.
Qed.
Lemma steps_flow sk sk' c k : proper sk -> steps sk sk' -> In (fst k) (keys sk') -> flow_in c k sk' == flow_in c k sk.
Proof.
  intros P H. induction H as [sk|g s sk sk' C H IH|g sk sk' C H IH]; intros I; [reflexivity| |].
  - pose proof (proj1 P) as U. pose proof (proper_bypass g s sk P C) as P'. rewrite (IH P' I). apply flow_bypass; auto.
    destruct (steps_keys _ _ P' H) as (_ & A & _). apply A in I. now apply (keys_bypass g s sk _ U C) in I.
  - pose proof (proper_drop g sk P) as P'. rewrite (IH P' I). now apply flow_drop.
Qed.

Lemma feeds_bypass g s sk a b : NoDup (keys sk) -> can_bypass g s sk -> feeds a b (bypass g s sk) -> a <> g /\ b <> g /\ (feeds a b sk \/ a = s /\ feeds g b sk).
Proof.
  intros U C F. destruct (bypass_facts g s sk U C) as (D & _ & IS & IG). pose proof C as (_ & SG & _).
  assert (UB : NoDup (keys (bypass g s sk))) by (apply NoDup_keys_ddel, NoDup_keys_dset; exact U).
  assert (NA : a <> g). { intros ->. destruct F as (t & c & v & I & _). assert (K : In g (keys (bypass g s sk))) by (unfold keys; apply in_map_iff; exists (g, t); auto). apply (keys_bypass g s sk g U C) in K. tauto. }
  apply feeds_table in F; [|exact UB]. destruct F as (c & v & I). rewrite (table_bypass g s sk a D NA U) in I. destruct (String.eqb_spec a s) as [->|N].
  - unfold drop_target in I. apply filter_In in I. destruct I as (I & B). cbn in B. apply Bool.negb_true_iff, String.eqb_neq in B. split; [exact NA|]. split; [exact B|].
    unfold frame_add in I. apply in_app_iff in I. destruct I as [I|I].
    + left. apply feeds_table; [exact U|]. apply in_map_iff in I. destruct I as ((k' & v') & E & I). cbn in E. injection E as E1 _. subst k'. eauto.
    + right. split; [reflexivity|]. apply feeds_table; [exact U|]. apply filter_In in I. destruct I as (I & _). eauto.
  - assert (FA : feeds a b sk) by (apply feeds_table; eauto). split; [exact NA|]. split; [|now left]. intros ->. assert (J : In a (single_group_input g sk)) by (apply sources_spec; auto). rewrite SG in J. destruct J as [J|[]]. congruence.
Qed.
Lemma feeds_drop g sk a b : NoDup (keys sk) -> can_drop g sk -> feeds a b (ddel g sk) -> a <> g /\ b <> g /\ feeds a b sk.
Proof.
  intros U (_ & SG & T) F. assert (UB : NoDup (keys (ddel g sk))) by (now apply NoDup_keys_ddel).
  assert (NA : a <> g). { intros ->. destruct F as (t & c & v & I & _). assert (K : In g (keys (ddel g sk))) by (unfold keys; apply in_map_iff; exists (g, t); auto). apply (keys_drop g sk g U) in K. tauto. }
  apply feeds_table in F; [|exact UB]. rewrite table_drop in F by exact NA. apply feeds_table in F; [|exact U]. split; [exact NA|]. split; [|exact F].
  intros ->. assert (J : In a (single_group_input g sk)) by (apply sources_spec; auto). now rewrite SG in J.
Qed.
Lemma steps_closed sk sk' : proper sk -> steps sk sk' -> closed sk -> closed sk'.
Proof.
  intros P H. induction H as [sk|g s sk sk' C H IH|g sk sk' C H IH]; intros CL; [exact CL| |].
  - pose proof (proj1 P) as U. apply IH; [now apply proper_bypass|]. intros a b F. apply (feeds_bypass g s sk a b U C) in F. destruct F as (NA & NB & F). apply (keys_bypass g s sk b U C). split; [|exact NB].
    destruct F as [F|(_ & F)]; eapply CL; exact F.
  - pose proof (proj1 P) as U. apply IH; [now apply proper_drop|]. intros a b F. apply (feeds_drop g sk a b U C) in F. destruct F as (NA & NB & F). apply (keys_drop g sk b U). split; [|exact NB]. eapply CL; exact F.
Qed.

(* --------------------------------------------------------------------- termination *)

Lemma length_ddel {V} g (d : dict V) : (length (ddel g d) <= length d)%nat.
Proof. induction d as [|(k, v) d IH]; cbn; [lia|]. destruct (String.eqb g k); cbn; lia. Qed.
Lemma length_ddel_in {V} g (d : dict V) : In g (keys d) -> (S (length (ddel g d)) = length d)%nat.
Proof.
  unfold keys. induction d as [|(k, v) d IH]; cbn; [contradiction|]. destruct (String.eqb_spec g k) as [->|N]; [reflexivity|]. intros [->|I]; [contradiction|]. cbn. now rewrite (IH I).
Qed.
Lemma length_dset {V} g (v : V) d : In g (keys d) -> length (dset g v d) = length d.
Proof.
  unfold keys. induction d as [|(k, w) d IH]; cbn; [contradiction|]. destruct (String.eqb_spec g k) as [->|N]; [reflexivity|]. intros [->|I]; [contradiction|]. cbn. now rewrite (IH I).
Qed.
Lemma length_bypass g s sk : NoDup (keys sk) -> can_bypass g s sk -> (length (bypass g s sk) < length sk)%nat.
Proof.
  intros U C. destruct (bypass_facts g s sk U C) as (D & _ & IS & IG). unfold bypass. set (d := dset s _ sk). assert (I : In g (keys d)) by (apply keys_dset; now right).
  pose proof (length_ddel_in g d I) as L. assert (length d = length sk) by (now apply length_dset). lia.
Qed.
Lemma scan_total again n ks sk : proper sk -> (length sk <= n)%nat -> (forall a, proper a -> (length a < n)%nat -> exists b, again a = Ok b) -> exists sk', scan R again ks sk = Ok sk'.
Proof.
  intros P L A. revert sk P L. induction ks as [|g ks IH]; cbn; intros sk P L; [eauto|]. destruct (smem g R) eqn:M; [now apply IH|].
  assert (NR : ~ In g R) by (intros I; apply smem_In in I; congruence). destruct (single_group_input g sk) as [|s [|s' l]] eqn:S.
  - destruct (table_of g sk) eqn:T; [|now apply IH]. apply IH; [now apply proper_drop|]. pose proof (length_ddel g sk). lia.
  - destruct (one_target (table_of g sk)) eqn:O; [|now apply IH]. assert (C : can_bypass g s sk) by (repeat split; auto). apply A; [now apply proper_bypass|]. pose proof (length_bypass g s sk (proj1 P) C). lia.
  - now apply IH.
Qed.
Lemma remove_total fuel sk : proper sk -> (length sk < fuel)%nat -> exists sk', remove_transit fuel R sk = Ok sk'.
Proof.
  revert sk. induction fuel as [|fuel IH]; intros sk P L; [lia|]. cbn. apply (scan_total _ (length sk)); [exact P|lia|]. intros a PA LA. apply IH; [exact PA|lia].
Qed.

(* ------------------------------------------------------------------ what is left *)

Definition settled (g : string) (sk : dict table) : Prop :=
  match single_group_input g sk with
  | [_] => one_target (table_of g sk) = false
  | [] => table_of g sk <> []
  | _ => True
  end.
Lemma sources_drop g0 sk g : table_of g0 sk = [] -> single_group_input g (ddel g0 sk) = single_group_input g sk.
Proof.
  unfold table_of, single_group_input. intros T. set (p := fun e : string * table => (smem g (targets (snd e)) && negb (String.eqb (fst e) g))%bool).
  assert (P : forall k, p (k, []) = false) by reflexivity. clearbody p. induction sk as [|(k, t) sk IH]; [reflexivity|]. cbn [dget] in T. cbn [ddel filter]. destruct (String.eqb g0 k) eqn:E.
  - subst t. now rewrite P.
  - cbn [filter]. destruct (p (k, t)); cbn [map]; now rewrite (IH T).
Qed.
Lemma scan_settled again ks sk sk' pre : proper sk -> (forall x, In x (keys sk) -> In x pre \/ In x ks) ->
  (forall g, In g pre -> In g (keys sk) -> ~ In g R -> settled g sk) ->
  (forall a b, proper a -> again a = Ok b -> forall g, In g (keys b) -> ~ In g R -> settled g b) ->
  scan R again ks sk = Ok sk' -> forall g, In g (keys sk') -> ~ In g R -> settled g sk'.
Proof.
  intros P CV PR A. revert sk pre P CV PR. induction ks as [|g0 ks IH]; cbn; intros sk pre P CV PR H.
  - injection H as <-. intros g I N. apply PR; auto. destruct (CV g I) as [?|[]]; auto.
  - assert (SK : forall sk1, proper sk1 -> (forall x, In x (keys sk1) -> In x (keys sk)) -> (forall g, In g pre -> In g (keys sk1) -> ~ In g R -> settled g sk1) -> (In g0 (keys sk1) -> ~ In g0 R -> settled g0 sk1) ->
      scan R again ks sk1 = Ok sk' -> forall g, In g (keys sk') -> ~ In g R -> settled g sk').
    { intros sk1 P1 K1 PR1 G1 H1. apply (IH sk1 (g0 :: pre)); auto.
      - intros x I. destruct (CV x (K1 x I)) as [J|[->|J]]; cbn; auto.
      - intros g [<-|I] J N; auto. }
    destruct (smem g0 R) eqn:M.
    + apply (SK sk); auto. intros _ N. apply smem_In in M. contradiction.
    + assert (NR : ~ In g0 R) by (intros I; apply smem_In in I; congruence). destruct (single_group_input g0 sk) as [|s [|s' l]] eqn:S.
      * destruct (table_of g0 sk) eqn:T.
        -- pose proof (proj1 P) as U. apply (SK (ddel g0 sk)); auto.
           ++ now apply proper_drop.
           ++ intros x I. now apply keys_ddel_incl in I.
           ++ intros g I J N. apply (keys_drop g0 sk g U) in J. destruct J as (J & D). unfold settled. rewrite (sources_drop g0 sk g T), table_drop by exact D. apply PR; auto.
           ++ intros J. apply (keys_drop g0 sk g0 U) in J. tauto.
        -- apply (SK sk); auto. intros _ _. unfold settled. rewrite S, T. discriminate.
      * destruct (one_target (table_of g0 sk)) eqn:O.
        -- assert (C : can_bypass g0 s sk) by (repeat split; auto). apply (A (bypass g0 s sk)); [now apply proper_bypass|exact H].
        -- apply (SK sk); auto. intros _ _. unfold settled. now rewrite S.
      * apply (SK sk); auto. intros _ _. unfold settled. now rewrite S.
Qed.
Lemma remove_settled fuel sk sk' : proper sk -> remove_transit fuel R sk = Ok sk' -> forall g, In g (keys sk') -> ~ In g R -> settled g sk'.
Proof.
  revert sk sk'. induction fuel as [|fuel IH]; cbn; intros sk sk' P H; [discriminate|]. eapply (scan_settled _ (keys sk) sk sk' []); eauto. intros g [].
Qed.
End Steps.

Lemma settled_spec g sk : NoDup (keys sk) -> settled g sk -> ~ transit g sk /\ ~ isolated g sk.
Proof.
  intros U S. unfold settled in S. pose proof (sources_nodup g sk U) as ND. split.
  - intros ((s & NS & F & A) & (t & FT & B)). assert (E : single_group_input g sk = [s]).
    { destruct (single_group_input g sk) as [|a [|b l]] eqn:SG.
      - assert (I : In s (single_group_input g sk)) by (apply sources_spec; auto). now rewrite SG in I.
      - f_equal. assert (I : In a (single_group_input g sk)) by (rewrite SG; now left). apply sources_spec in I. now apply A.
      - exfalso. inversion ND as [|? ? NA _]; subst. apply NA. left. assert (I : In a (single_group_input g sk)) by (rewrite SG; now left). assert (J : In b (single_group_input g sk)) by (rewrite SG; right; now left).
        apply sources_spec in I, J. destruct I as (I1 & I2), J as (J1 & J2). now rewrite (A a I1 I2), (A b J1 J2). }
    rewrite E in S. assert (O : one_target (table_of g sk) = true); [|congruence]. apply one_target_spec. exists t. split.
    + apply feeds_table in FT; [|exact U]. apply smem_In, targets_in. exact FT.
    + intros y I. apply B. apply feeds_table; [exact U|]. apply targets_in. now apply smem_In.
  - intros (A & B). assert (E : single_group_input g sk = []).
    { destruct (single_group_input g sk) as [|a l] eqn:SG; [reflexivity|]. assert (I : In a (single_group_input g sk)) by (rewrite SG; now left). apply sources_spec in I. destruct I as (N & F). exfalso. exact (A a N F). }
    rewrite E in S. apply S. destruct (table_of g sk) as [|((t, c), v) r] eqn:T; [reflexivity|]. exfalso. apply (B t). apply feeds_table; [exact U|]. rewrite T. exists c, v. now left.
Qed.

(* --------------------------------------------------------------- the statements *)

Lemma transit_total R sk : proper sk -> exists sk', remove_transit (S (length sk)) R sk = Ok sk'.
Proof. intros P. apply remove_total; [exact P|lia]. Qed.
Lemma transit_flows fuel R sk sk' c k : proper sk -> remove_transit fuel R sk = Ok sk' -> In (fst k) (keys sk') -> flow_in c k sk' == flow_in c k sk.
Proof. intros P H. exact (steps_flow R sk sk' c k P (remove_steps R fuel sk sk' H)). Qed.
Lemma transit_kept fuel R sk sk' g : proper sk -> remove_transit fuel R sk = Ok sk' -> (In g (keys sk') -> In g (keys sk)) /\ (In g R -> In g (keys sk) -> In g (keys sk')).
Proof. intros P H. apply remove_steps in H. destruct (steps_keys R sk sk' P H) as (_ & A & B). split; auto. Qed.
Lemma transit_gone fuel R sk sk' g : proper sk -> remove_transit fuel R sk = Ok sk' -> In g (keys sk') -> ~ In g R -> ~ transit g sk' /\ ~ isolated g sk'.
Proof.
  intros P H I N. apply settled_spec; [|eapply remove_settled; eauto]. apply remove_steps in H. destruct (steps_keys R sk sk' P H) as (P' & _). exact (proj1 P').
Qed.
