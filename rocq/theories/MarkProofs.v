From Verif Require Import Base MassModel MassSpec MassProofs FluidModel FluidSpec FluidProofs MarkModel MarkSpec.
From Verif Require DocModel.
Open Scope nat_scope.
Open Scope string_scope.
Open Scope list_scope.

Lemma tables_get k fluids ms fs : labelled k -> forall c, In c (n_ids k) ->
  dget (n_label k c) (fst (write_tables k fluids ms fs)) = Some (conn_row k fluids ms fs c)
  /\ dget (n_label k c) (snd (write_tables k fluids ms fs)) = Some (ref_row k c).
Proof.
  intros L c I. unfold write_tables.
  assert (G : forall l t, incl l (n_ids k) -> In c l \/ (dget (n_label k c) (fst t) = Some (conn_row k fluids ms fs c) /\ dget (n_label k c) (snd t) = Some (ref_row k c)) ->
    let r := fold_left (fun t c => (dset (n_label k c) (conn_row k fluids ms fs c) (fst t), dset (n_label k c) (ref_row k c) (snd t))) l t in
    dget (n_label k c) (fst r) = Some (conn_row k fluids ms fs c) /\ dget (n_label k c) (snd r) = Some (ref_row k c)).
  { induction l as [|d l IH]; intros t J H; cbn [fold_left]; [destruct H as [[]|H]; exact H|].
    assert (D : In d (n_ids k)) by (apply J; now left). apply IH; [intros x X; apply J; now right|].
    destruct (Nat.eq_dec d c) as [->|N]; [right; cbn; rewrite !dget_dset_eq; auto|].
    destruct H as [[H|H]|H]; [congruence|now left|]. right. cbn [fst snd].
    assert (E : n_label k c <> n_label k d) by (intros E; apply N; symmetry; apply L; auto). rewrite !dget_dset_neq by auto. exact H. }
  apply G; [intros x X; exact X|now left].
Qed.
Lemma row_prop k fluids ms fs c v : In v fpd -> dget v (conn_row k fluids ms fs c) = Some (if String.eqb v "m" then m_is_set ms c else n_flag k c v).
Proof. intros I. unfold fpd in I. cbn in I. repeat (destruct I as [<-|I]; [reflexivity|]). contradiction. Qed.
Lemma dget_app_none {V} x (a b : dict V) : dget x a = None -> dget x (a ++ b) = dget x b.
Proof. induction a as [|[k v] a IH]; cbn; [auto|]. destruct (String.eqb x k); [discriminate|auto]. Qed.
Lemma dget_map_in {V} (g : string -> V) x l (b : dict V) : In x l -> dget x (map (fun f => (f, g f)) l ++ b) = Some (g x).
Proof.
  induction l as [|y l IH]; intros H; [destruct H|]. cbn. destruct (String.eqb x y) eqn:E; [apply String.eqb_eq in E; now subst|].
  destruct H as [->|H]; [rewrite String.eqb_refl in E; discriminate|auto].
Qed.
Lemma dget_map_none {V} (g : string -> V) x l : ~ In x l -> dget x (map (fun f => (f, g f)) l) = None.
Proof.
  induction l as [|y l IH]; intros H; [reflexivity|]. cbn. destruct (String.eqb x y) eqn:E; [apply String.eqb_eq in E; subst; exfalso; apply H; now left|].
  apply IH. intros Z. apply H. now right.
Qed.
Lemma row_fluid k fluids ms fs c f : fluids_ok fluids -> In f fluids -> dget f (conn_row k fluids ms fs c) = Some (smem f (fc_set (cont_of fs c))).
Proof.
  intros [_ F] I. destruct (F f I) as [N _]. unfold conn_row. rewrite dget_app_none by (now apply dget_map_none). now rewrite (dget_map_in (fun f => smem f (fc_set (cont_of fs c)))).
Qed.
Lemma row_balance k fluids ms fs c : fluids_ok fluids -> dget "balance" (conn_row k fluids ms fs c) = Some (n_balance k c).
Proof.
  intros [_ F]. unfold conn_row. rewrite dget_app_none by (apply dget_map_none; cbn; intuition discriminate).
  rewrite dget_app_none; [reflexivity|]. apply (dget_map_none (fun f => smem f (fc_set (cont_of fs c)))). intros I. destruct (F _ I) as [_ N]. now apply N.
Qed.
Lemma prepare_parts mref mbs fbs k fluids ms fs t : prepare mref mbs fbs k fluids ms fs = Ok t ->
  exists fs0 ms1 fs1, propagate (n_ids k) fs = (fs0, None) /\ presolve_massflow mref mbs ms = (ms1, None) /\ presolve_fluids fbs fs0 = (fs1, None)
  /\ t = write_tables k fluids ms1 fs1.
Proof.
  unfold prepare. destruct (propagate (n_ids k) fs) as [fs0 [e|]]; [discriminate|]. destruct (presolve_massflow mref mbs ms) as [ms1 [e|]]; [discriminate|].
  destruct (presolve_fluids fbs fs0) as [fs1 [e|]] eqn:E; [discriminate|]. intros H. injection H as <-. exists fs0, ms1, fs1. auto.
Qed.
Lemma mark_m mref mbs fbs k fluids ms fs t : labelled k -> mass_setup k mbs ms -> prepare mref mbs fbs k fluids ms fs = Ok t ->
  forall b c, In b mbs -> In c b -> (marked (fst t) (n_label k c) "m" = true <-> exists d, In d b /\ gives_m ms d).
Proof.
  intros L (ND & BO & OW & _) P b c B C. apply prepare_parts in P as (fs0 & ms1 & fs1 & _ & M & _ & ->).
  assert (I : In c (n_ids k)) by (destruct BO as (_ & _ & BO); apply BO, in_concat; eauto).
  unfold marked. rewrite (proj1 (tables_get k fluids ms1 fs1 L c I)), row_prop by (now left). cbn [String.eqb Ascii.eqb Bool.eqb].
  destruct (presolve_shares mref (n_ids k) mbs ms ms1 BO OW M) as (_ & _ & V & _). destruct (V b c B C) as [V1 V2].
  assert (E : m_is_set ms1 c = true <-> mspec ms1 c <> None).
  { unfold m_is_set, mspec. destruct (mc_set (ms_heap ms1 (ms_of ms1 c))); split; congruence. }
  change ((if String.eqb "m" "m" then m_is_set ms1 c else n_flag k c "m") = true <-> exists d, In d b /\ gives_m ms d). rewrite String.eqb_refl, E. split.
  - intros H. destruct (List.existsb (fun d => match mspec ms d with Some _ => true | None => false end) b) eqn:X.
    + apply existsb_exists in X as (d & D & X). exists d. split; [exact D|]. unfold gives_m. destruct (mspec ms d); congruence.
    + exfalso. apply H, V2. intros d D. destruct (mspec ms d) eqn:Y; [|reflexivity].
      assert (Z : existsb (fun d => match mspec ms d with Some _ => true | None => false end) b = true) by (apply existsb_exists; exists d; rewrite Y; auto). congruence.
  - intros (d & D & G). unfold gives_m in G. destruct (mspec ms d) as [q|] eqn:Y; [|congruence]. rewrite (V1 d q D Y). discriminate.
Qed.
Lemma mark_given mref mbs fbs k fluids ms fs t : labelled k -> fluids_ok fluids -> mass_setup k mbs ms -> fluid_setup k fbs fs -> prepare mref mbs fbs k fluids ms fs = Ok t ->
  forall c, In c (n_ids k) ->
  (gives_m ms c -> marked (fst t) (n_label k c) "m" = true)
  /\ (forall v, In v fpd -> v <> "m" -> marked (fst t) (n_label k c) v = n_flag k c v)
  /\ (forall f, In f fluids -> In f (fset fs c) -> marked (fst t) (n_label k c) f = true)
  /\ marked (fst t) (n_label k c) "balance" = n_balance k c
  /\ forall v, In v ref_cols -> marked (snd t) (n_label k c) v = n_ref k c v.
Proof.
  intros L F MS (SC & (OI & OT) & SEP & ND & NE & CV) P c I. pose proof P as P'. apply prepare_parts in P as (fs0 & ms1 & fs1 & PR & M & PF & ->).
  destruct (tables_get k fluids ms1 fs1 L c I) as [T1 T2].
  split; [|split; [|split; [|split]]].
  - intros G. pose proof MS as (_ & _ & _ & CB). destruct (CB c I) as (b & B & C). apply (mark_m mref mbs fbs k fluids ms fs _ L MS P' b c B C). eauto.
  - intros v V N. unfold marked. rewrite T1, row_prop by exact V. destruct (String.eqb v "m") eqn:E; [apply String.eqb_eq in E; contradiction|reflexivity].
  - intros f Ff S. unfold marked. rewrite T1, row_fluid by assumption.
    destruct (propagate_ok (n_ids k) fs fs0 SC PR) as (P1 & P2 & P3 & P4 & P5 & P6 & P7 & P8).
    assert (BC : forall b x, In b fbs -> In x b -> In x (n_ids k)) by (intros b x Hb Hx; apply CV, in_concat; eauto).
    assert (NB : forall b, In b fbs -> NoDup b).
    { intros b Hb. clear - ND Hb. induction fbs as [|b0 bs' IH]; [destruct Hb|]. cbn in ND. destruct (NoDup_app_inv _ _ ND) as (N1 & N2 & N3). destruct Hb as [<-|Hb]; auto. }
    destruct (presolve_fluids_ok fbs fs0 fs1 ND NE) as (Q1 & _); auto.
    { intros b Hb. apply P6; [auto|]. intros x Hx. eauto. }
    { intros b b' x y Hb Hb' Hx Hy D. assert (FV : forall z, In z (n_ids k) -> fc_val (cont_of fs0 z) = fc_val (cont_of fs z)).
      { intros z Hz. unfold cont_of. rewrite P8. now rewrite (proj1 (P1 z Hz)). }
      rewrite !FV by eauto. apply (SEP b b' x y); auto. }
    { intros x y Hx Hy E. apply CV in Hx, Hy. apply OI; auto. destruct (P1 x Hx) as (<- & _), (P1 y Hy) as (<- & _). auto. }
    apply CV, in_concat in I. destruct I as (b & B & C). destruct (Q1 b B) as (main & a & R1 & R2 & _ & _ & _ & _ & _ & R8).
    assert (S0 : In f (fset fs0 c)) by (destruct (P1 c (BC b c B C)) as (_ & _ & -> & _); exact S).
    destruct (R8 c f C S0) as (_ & _ & R9). unfold cont_of. rewrite (R2 c C). now apply smem_In.
  - unfold marked. now rewrite T1, row_balance.
  - intros v V. unfold marked. rewrite T2. unfold ref_row, ref_cols in *. cbn in V. repeat (destruct V as [<-|V]; [reflexivity|]). contradiction.
Qed.
