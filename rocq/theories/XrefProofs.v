(** Proofs about labels, references and figures of reports. *)
From Coq Require Import Ascii Lia.
From Verif Require Import Base XrefModel XrefSpec.
Open Scope string_scope.
Open Scope list_scope.

(* ------------------------------------------------------------- strings *)

Lemma app_assoc_s : forall a b c : string, ((a ++ b) ++ c = a ++ (b ++ c))%string.
Proof. induction a; intros; cbn; [reflexivity|rewrite IHa; reflexivity]. Qed.

Lemma app_inj_l : forall a b c : string, (a ++ b = a ++ c)%string -> b = c.
Proof. induction a; intros b c H; cbn in H; [exact H|injection H; apply IHa]. Qed.

Lemma app_len : forall a b : string, String.length (a ++ b) = (String.length a + String.length b)%nat.
Proof. induction a; intros; cbn; [reflexivity|rewrite IHa; reflexivity]. Qed.

Lemma app_inj_r : forall c a b : string, (a ++ c = b ++ c)%string -> a = b.
Proof.
  intros c a. induction a as [|x a IH]; intros b H.
  - destruct b as [|y b]; [reflexivity|].
    apply (f_equal String.length) in H. rewrite !app_len in H. cbn in H. lia.
  - destruct b as [|y b].
    + apply (f_equal String.length) in H. rewrite !app_len in H. cbn in H. lia.
    + cbn in H. injection H as E H. rewrite E, (IH b H). reflexivity.
Qed.

(** A name without underscore ends at the first underscore. *)
Lemma plain_split : forall a b x y, plain a -> plain b -> (a ++ "_" ++ x = b ++ "_" ++ y)%string -> a = b /\ x = y.
Proof.
  assert (T : forall c a, plain (String c a) -> plain a).
  { intros c a P u v E. apply (P (String c u) v). rewrite E. reflexivity. }
  induction a as [|c a IH]; intros b x y Pa Pb H.
  - destruct b as [|d b].
    + cbn in H. injection H as H. auto.
    + cbn in H. injection H as E H. subst d. destruct (Pb "" b). reflexivity.
  - destruct b as [|d b].
    + cbn in H. injection H as E H. subst c. destruct (Pa "" a). reflexivity.
    + cbn in H. injection H as E H. subst d.
      destruct (IH b x y (T _ _ Pa) (T _ _ Pb) H) as [E1 E2]. subst. auto.
Qed.

Fixpoint no_us (s : string) : bool :=
  match s with EmptyString => true | String a s => negb (Ascii.eqb a "_"%char) && no_us s end.
Lemma no_us_plain : forall s, no_us s = true -> plain s.
Proof.
  intros s H a b E. subst s. induction a as [|c a IH]; cbn in H.
  - discriminate H.
  - apply andb_true_iff in H. exact (IH (proj2 H)).
Qed.

Lemma eq_label_inj : forall a b x y, plain a -> plain b -> eq_label a x = eq_label b y -> a = b /\ x = y.
Proof. unfold eq_label. intros. apply plain_split; auto. Qed.

(* ----------------------------------------------------------- references *)

Lemma resolved_app : forall a b, resolved a -> resolved b -> resolved (a ++ b).
Proof.
  intros a b [A1 A2] [B1 B2]. split; intros x H; apply in_app_iff in H; destruct H as [H|H].
  - apply in_app_iff. auto.
  - apply in_app_iff. auto.
  - destruct (A2 x H) as (f & c & I). exists f, c. apply in_app_iff. auto.
  - destruct (B2 x H) as (f & c & I). exists f, c. apply in_app_iff. auto.
Qed.
Lemma resolved_flat : forall (A : Type) (g : A -> list item) l, (forall x, In x l -> resolved (g x)) -> resolved (flat_map g l).
Proof.
  intros A g l. induction l as [|x l IH]; intros H; cbn [flat_map].
  - split; intros x [].
  - apply resolved_app; [apply H; left; reflexivity|apply IH; intros; apply H; right; assumption].
Qed.

Lemma pair_resolved : forall (A : Type) (g : A -> string) l, resolved (map (fun x => RefEq (g x)) l ++ map (fun x => Eq (g x)) l).
Proof.
  intros A g l. split; intros x H; apply in_app_iff in H; destruct H as [H|H];
    apply in_map_iff in H; destruct H as (y & E & I); try discriminate E.
  injection E as E. subst x. apply in_app_iff. right. apply in_map_iff. exists y. auto.
Qed.

Lemma ude_figures_ref : forall k u cs i,
  (forall x, In (RefEq x) (ude_figures k u i cs) -> x = ude_ref u) /\ (forall x, ~ In (RefFig x) (ude_figures k u i cs)).
Proof.
  intros k u cs. induction cs as [|c cs IH]; intros i; cbn [ude_figures].
  - split; [intros x []|intros x []].
  - destruct (IH (S i)) as [A B]. split; intros x H; cbn [In app] in H.
    + destruct H as [H|[H|[H|H]]]; try discriminate H; [injection H; congruence|auto].
    + destruct H as [H|[H|[H|H]]]; try discriminate H. exact (B x H).
Qed.
Lemma ude_resolved : forall u, resolved (ude_items u).
Proof.
  intros u. unfold ude_items.
  destruct (ude_figures_ref "CharLine" u (u_lines u) 1) as [A1 B1].
  destruct (ude_figures_ref "CharMap" u (u_maps u) 1) as [A2 B2].
  split; intros x H.
  - assert (E : x = ude_ref u).
    { cbn [In app] in H. destruct H as [H|[H|H]]; try discriminate H; [injection H; congruence|].
      apply in_app_iff in H. destruct H; auto. }
    subst x. right. left. reflexivity.
  - exfalso. cbn [In app] in H. destruct H as [H|[H|H]]; try discriminate H.
    apply in_app_iff in H. destruct H as [H|H]; [exact (B1 x H)|exact (B2 x H)].
Qed.

Lemma constr_resolved : forall m, resolved (constr_items m).
Proof.
  intros m. unfold constr_items. split; intros x H; apply in_app_iff in H; destruct H as [H|H];
    apply in_flat_map in H; destruct H as (k & Ik & H).
  - destruct k as [l|l|l fs]; try destruct H. apply in_app_iff in H. destruct H as [H|H].
    + apply in_map_iff in H. destruct H as (? & E & _). discriminate E.
    + apply in_flat_map in H. destruct H as (y & _ & H). cbn in H. destruct H as [H|[H|[]]]; [discriminate H|].
      injection H as E. subst x. apply in_app_iff. right. apply in_flat_map. exists (Charted l). split; [exact Ik|left; reflexivity].
  - apply in_map_iff in H. destruct H as (? & E & _). discriminate E.
  - destruct k as [l|l|l fs]; try destruct H. apply in_app_iff in H. destruct H as [H|H].
    + apply in_map_iff in H. destruct H as (? & E & _). discriminate E.
    + apply in_flat_map in H. destruct H as (y & _ & H). cbn in H. destruct H as [H|[H|[]]]; discriminate H.
  - apply in_map_iff in H. destruct H as (? & E & _). discriminate E.
Qed.

Lemma element_spec : forall m x, In x (elements m) <-> element m x.
Proof.
  intros m x. unfold elements, element. rewrite in_flat_map. split.
  - intros ([g es] & I & H). apply in_map_iff in H. destruct H as ([y k] & E & J). cbn in E, J. subst y. exists g, es, k. auto.
  - intros (g & es & k & I & J). exists (g, es). split; [exact I|]. apply in_map_iff. exists (x, k). auto.
Qed.
Lemma smem_In : forall x l, smem x l = true <-> In x l.
Proof.
  intros x l. unfold smem. rewrite existsb_exists. split.
  - intros (y & I & E). apply String.eqb_eq in E. subst. exact I.
  - intros I. exists x. split; [exact I|apply String.eqb_refl].
Qed.
Lemma column_documented : forall m c, ~ element m c ->
  In (c, true) (c_params m ++ map fst (c_groups m) ++ map (fun c => fst c) (c_chars m)) -> In c (documented m).
Proof.
  intros m c N I. unfold documented, columns. apply in_map_iff. exists (c, true). split; [reflexivity|].
  apply filter_In. split; [|reflexivity]. apply filter_In. split; [exact I|]. cbn.
  destruct (smem c (elements m)) eqn:E; [|reflexivity].
  apply smem_In, element_spec in E. destruct (N E).
Qed.
Lemma charts_in : forall m p g k, charts_documented m -> In (p, g, k) (charts m) -> In g (documented m).
Proof.
  intros m p g k [D1 D2] I. unfold charts in I. apply in_app_iff in I. destruct I as [I|I].
  - apply in_map_iff in I. destruct I as ([[c d] k'] & E & J). cbn in E. injection E as <- <- <-.
    destruct (D1 c d k' J) as [-> N]. apply column_documented; [exact N|].
    apply in_app_iff. right. apply in_app_iff. right. apply in_map_iff. exists (c, true, k'). auto.
  - apply in_flat_map in I. destruct I as ([[g' d] es] & J & I). apply in_flat_map in I. destruct I as ([e [k'|]] & I' & I); [|destruct I].
    cbn in I. destruct I as [I|[]]. injection I as <- <- <-. cbn in I'.
    destruct (D2 g' d es e k' J I') as [-> N]. apply column_documented; [exact N|].
    apply in_app_iff. right. apply in_app_iff. left. apply in_map_iff. exists (g', true, es). auto.
Qed.

Lemma spec_resolved : forall m, charts_documented m -> resolved (spec_items m).
Proof.
  intros m D. unfold spec_items.
  assert (N : forall i, In i (flat_map (fun x => match x with (p, _, k) => map (drawn m k p) (c_comps m) end) (charts m)) -> exists f c, i = Plot f c).
  { intros i I. apply in_flat_map in I. destruct I as ([[p g] k] & _ & I). apply in_map_iff in I. destruct I as (l & E & _).
    unfold drawn in E. eauto. }
  apply resolved_app.
  { split; intros x H; destruct (N _ H) as (f & c & E); discriminate E. }
  destruct (c_comps m) as [|l0 ls] eqn:Ec; [split; intros x []|]. rewrite <- Ec. clear Ec.
  destruct (documented m) as [|d ds] eqn:Ed; [split; intros x []|]. rewrite <- Ed.
  split; intros x H; rewrite !in_app_iff in H; destruct H as [H|[H|H]].
  - apply in_map_iff in H. destruct H as (c & E & I). injection E as E. subst x.
    rewrite !in_app_iff. right. left. apply in_map_iff. exists c. auto.
  - apply in_map_iff in H. destruct H as (c & E & I). discriminate E.
  - apply in_flat_map in H. destruct H as ([[p g] k] & I & H). apply in_flat_map in H. destruct H as (l & _ & H).
    cbn in H. destruct H as [H|[H|[]]]; [discriminate H|]. injection H as E. subst x.
    rewrite !in_app_iff. right. left. apply in_map_iff. exists g. split; [reflexivity|eapply charts_in; eassumption].
  - apply in_map_iff in H. destruct H as (c & E & I). discriminate E.
  - apply in_map_iff in H. destruct H as (c & E & I). discriminate E.
  - apply in_flat_map in H. destruct H as ([[p g] k] & I & H). apply in_flat_map in H. destruct H as (l & _ & H).
    cbn in H. destruct H as [H|[H|[]]]; discriminate H.
Qed.

Definition covers (p : plotted) (l : list item) : Prop := forall c b x, In (c, b, x) p -> exists f c', In (Fig x f c') l.

Lemma find_chart_in : forall c b p x, find_chart c b p = Some x -> In (c, b, x) p.
Proof.
  intros c b p x. induction p as [|[[c' b'] y] p IH]; cbn [find_chart]; intros H; [discriminate|].
  destruct (Nat.eqb c c' && Bool.eqb b b') eqn:E.
  - apply andb_true_iff in E. destruct E as [E1 E2]. apply Nat.eqb_eq in E1. apply Bool.eqb_prop in E2.
    injection H as H. subst. left. reflexivity.
  - right. auto.
Qed.

Lemma bus_loop_refs : forall mode rows p pre i q, covers p pre -> bus_loop mode rows p = (i, q) ->
  covers q (pre ++ i) /\ (forall x, In (RefFig x) i -> exists f c, In (Fig x f c) (pre ++ i)) /\ (forall x, ~ In (RefEq x) i) /\ (forall x, ~ In (Eq x) i).
Proof.
  intros mode rows. induction rows as [|r rows IH]; intros p pre i q C H; cbn [bus_loop] in H.
  - injection H as <- <-. rewrite app_nil_r. split; [exact C|]. repeat split; intros x [].
  - destruct (w_const r); [exact (IH p pre i q C H)|].
    destruct (find_chart (w_char r) (w_base r) p) as [l|] eqn:E.
    + destruct (bus_loop mode rows p) as [i' q'] eqn:L. injection H as <- <-.
      destruct (IH p pre i' q' C L) as (C' & R & NR & NE). split; [|split; [|split]].
      * intros c b x I. destruct (C' c b x I) as (f & c' & J). exists f, c'.
        apply in_app_iff in J. apply in_app_iff. destruct J as [J|J]; [left; exact J|right; right; exact J].
      * intros x [I|I].
        -- injection I as ->. apply find_chart_in in E. destruct (C _ _ _ E) as (f & c & J). exists f, c. apply in_app_iff. left. exact J.
        -- destruct (R x I) as (f & c & J). exists f, c. apply in_app_iff in J. apply in_app_iff.
           destruct J as [J|J]; [left; exact J|right; right; exact J].
      * intros x [I|I]; [discriminate I|exact (NR x I)].
      * intros x [I|I]; [discriminate I|exact (NE x I)].
    + set (l := bus_label mode (w_comp r)) in *. set (f := bus_file mode (w_comp r)) in *.
      set (h := [Plot f (w_char r); Fig l f (w_char r); RefFig l]).
      destruct (bus_loop mode rows (p ++ [(w_char r, w_base r, l)])) as [i' q'] eqn:L. injection H as <- <-.
      assert (Cp : covers (p ++ [(w_char r, w_base r, l)]) (pre ++ h)).
      { intros c b x I. apply in_app_iff in I. destruct I as [I|[I|[]]].
        - destruct (C c b x I) as (g & d & J). exists g, d. apply in_app_iff. left. exact J.
        - injection I as <- <- <-. exists f, (w_char r). apply in_app_iff. right. right. left. reflexivity. }
      destruct (IH _ (pre ++ h) i' q' Cp L) as (C' & R & NR & NE).
      rewrite <- app_assoc in C', R. cbn [app] in C', R. split; [exact C'|split; [|split]].
      * intros x [I|[I|[I|I]]]; [discriminate I|discriminate I| |].
        -- injection I as ->. exists f, (w_char r). apply in_app_iff. right. right. left. reflexivity.
        -- exact (R x I).
      * intros x [I|[I|[I|I]]]; [discriminate I|discriminate I|discriminate I|exact (NR x I)].
      * intros x [I|[I|[I|I]]]; [discriminate I|discriminate I|discriminate I|exact (NE x I)].
Qed.

Definition total_items (b : bus) : list item :=
  if b_set b then match b_rows b with [] => [] | _ => [Eq (eq_label "Bus" "energy_flow_sum")] end else [].
Lemma total_items_eq : forall b i, In i (total_items b) -> i = Eq (eq_label "Bus" "energy_flow_sum").
Proof.
  intros b i. unfold total_items. destruct (b_set b); [|intros []]. destruct (b_rows b); [intros []|].
  intros [H|[]]. symmetry. exact H.
Qed.

Lemma bus_refs : forall mode bs p pre, covers p pre ->
  (forall x, In (RefFig x) (bus_items mode bs p) -> exists f c, In (Fig x f c) (pre ++ bus_items mode bs p)) /\
  (forall x, ~ In (RefEq x) (bus_items mode bs p)).
Proof.
  intros mode bs. induction bs as [|b bs IH]; intros p pre C; cbn [bus_items].
  - split; intros x [].
  - fold (total_items b). destruct (bus_loop mode (b_rows b) p) as [i q] eqn:L.
    assert (C0 : covers p (pre ++ total_items b)).
    { intros c d x I. destruct (C c d x I) as (f & e & J). exists f, e. apply in_app_iff. auto. }
    destruct (bus_loop_refs mode (b_rows b) p (pre ++ total_items b) i q C0 L) as (C' & R & NR & NE).
    destruct (IH q ((pre ++ total_items b) ++ i) C') as [A B]. rewrite <- !app_assoc in A. rewrite <- app_assoc in R. split.
    + intros x H. rewrite !in_app_iff in H. destruct H as [H|[H|H]].
      * apply total_items_eq in H. discriminate H.
      * destruct (R x H) as (f & c & J). exists f, c. rewrite !in_app_iff in *. tauto.
      * exact (A x H).
    + intros x H. rewrite !in_app_iff in H. destruct H as [H|[H|H]].
      * apply total_items_eq in H. discriminate H.
      * exact (NR x H).
      * exact (B x H).
Qed.

Lemma references_resolved : forall n, (forall m, In m (n_classes n) -> charts_documented m) -> resolved (report n).
Proof.
  intros n D. unfold report.
  apply resolved_app; [apply pair_resolved|].
  apply resolved_app; [apply pair_resolved|].
  apply resolved_app; [apply resolved_flat; intros; apply ude_resolved|].
  apply resolved_app.
  - apply resolved_flat. intros m I. apply resolved_app; [apply constr_resolved|apply spec_resolved; auto].
  - destruct (bus_refs (n_mode n) (n_busses n) [] []) as [A B]; [intros c b x []|].
    split; [intros x H; destruct (B x H)|exact A].
Qed.
