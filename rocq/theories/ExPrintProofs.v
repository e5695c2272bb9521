(** Proofs about printed exergy analyses. *)
From Coq Require Import QArith Permutation Sorting.Sorted.
From Verif Require Import Base ExPrintModel ExPrintSpec.
Open Scope string_scope.
Open Scope list_scope.

Lemma before_not_less : forall a b, before a b = true -> not_less a b.
Proof.
  intros a b H y D. unfold before in H. unfold destruction in *. rewrite D in H.
  destruct (snd a "E_D") as [[x |] |]; try discriminate H. exists x. split; [reflexivity |]. now apply Qle_bool_iff.
Qed.
Lemma before_total : forall a b, before a b = false -> not_less b a.
Proof.
  intros a b H y D. unfold before in H. unfold destruction in *. rewrite D in H.
  destruct (snd b "E_D") as [[x |] |]; try discriminate H. exists x. split; [reflexivity |].
  destruct (Qlt_le_dec x y) as [L | L]; [| exact L]. apply Qlt_le_weak, Qle_bool_iff in L. congruence.
Qed.
Lemma not_less_trans : forall a b c, not_less a b -> not_less b c -> not_less a c.
Proof.
  intros a b c H K z D. destruct (K z D) as (y & Dy & L). destruct (H y Dy) as (x & Dx & M).
  exists x. split; [exact Dx |]. now apply Qle_trans with y.
Qed.
Lemma insert_perm : forall r l, Permutation (r :: l) (insert r l).
Proof.
  induction l as [| x l IH]; [reflexivity |]. cbn [insert]. destruct (before r x); [reflexivity |].
  rewrite perm_swap. now apply perm_skip.
Qed.
Lemma insert_sorted : forall r l, descending l -> descending (insert r l).
Proof.
  induction l as [| x l IH]; intro S; [repeat constructor |]. cbn [insert]. inversion S as [| ? ? S' F]; subst.
  destruct (before r x) eqn:B.
  - constructor; [exact S |]. constructor; [now apply before_not_less |].
    eapply Forall_impl; [| exact F]. intros a. apply not_less_trans. now apply before_not_less.
  - constructor; [now apply IH |]. eapply Permutation_Forall; [apply insert_perm |].
    constructor; [now apply before_total | exact F].
Qed.
Lemma sorted_spec : forall l, Permutation l (sorted l) /\ descending (sorted l).
Proof.
  induction l as [| r l (P & S)]; [split; [reflexivity | constructor] |]. cbn [sorted fold_right]. split.
  - rewrite <- insert_perm. now apply perm_skip.
  - now apply insert_sorted.
Qed.
Lemma without_cols : forall names f c, In c (f_cols (without names f)) <-> In c (f_cols f) /\ ~ In c names.
Proof.
  intros names f c. unfold without. cbn [f_cols]. rewrite filter_In. destruct (smem c names) eqn:M.
  - apply smem_In in M. split; [intros (_ & X); discriminate X | tauto].
  - split; intros (A & _); (split; [exact A |]); [| reflexivity]. intro X. apply smem_In in X. congruence.
Qed.
Lemma sort_shows : forall b names f, In "E_D" (f_cols f) -> ~ In "E_D" names ->
  exists g, sort_frame b (without names f) = Ok g /\ shows b names f g.
Proof.
  intros b names f H N. unfold sort_frame. destruct b.
  - assert (M : smem "E_D" (f_cols (without names f)) = true) by (apply smem_In, without_cols; now split).
    rewrite M. eexists. split; [reflexivity |]. split; [apply without_cols |]. exact (sorted_spec (f_rows f)).
  - eexists. split; [reflexivity |]. split; [apply without_cols |]. reflexivity.
Qed.
Lemma sort_all : forall b f, In "E_D" (f_cols f) -> exists g, sort_frame b f = Ok g /\ shows b [] f g.
Proof.
  intros b f H. unfold sort_frame. destruct b.
  - assert (M : smem "E_D" (f_cols f) = true) by now apply smem_In. rewrite M. eexists. split; [reflexivity |].
    split; [intro c; cbn [f_cols In]; tauto |]. exact (sorted_spec (f_rows f)).
  - eexists. split; [reflexivity |]. split; [intro c; cbn [In]; tauto | reflexivity].
Qed.
Lemma section_ok : forall b t f, exists l, section b t (Ok f) = Ok l /\ l = if b then [(t, f)] else [].
Proof. intros b t f. destruct b; eexists; split; reflexivity. Qed.

Lemma part_printed : forall (b : bool) (t : string) (g : frame) (P : frame -> Prop) before after out, P g ->
  out = before ++ (if b then [(t, g)] else []) ++ after ->
  ~ In t (map fst before) -> ~ In t (map fst after) -> printed out t b P.
Proof.
  intros b t g P before after out HP -> NB NA. split.
  - intros ->. exists g. split; [| exact HP]. apply in_app_iff. right. apply in_app_iff. left. now left.
  - intros g' X. apply in_app_iff in X. destruct X as [X | X]; [exfalso; apply NB; now apply (in_map fst) in X |].
    apply in_app_iff in X. destruct X as [X | X]; [| exfalso; apply NA; now apply (in_map fst) in X].
    destruct b; [| destruct X]. destruct X as [X | []]. injection X as <-. now split.
Qed.
Lemma titles : forall (b : bool) (t : string) (g : frame) x, In x (map fst (if b then [(t, g)] else [])) -> x = t.
Proof. intros b t g x H. destruct b; [| destruct H]. destruct H as [H | []]. now symmetry. Qed.
Ltac away := let X := fresh "X" in intro X; rewrite ?map_app, ?in_app_iff in X;
  repeat (destruct X as [X | X]; [apply titles in X; discriminate X |]);
  first [destruct X; fail | apply titles in X; discriminate X].
Lemma print_spec : forall o d, has_E_D d -> exists out, print_results o d = Ok out
  /\ printed out "Connection specific physical exergy and chemical exergy" (p_conns o) (fun g => g = d_conns d)
  /\ printed out "Component exergy analysis" (p_comps o) (shows (p_sort o) ["group"] (d_comps d))
  /\ printed out "Bus exergy analysis" (p_busses o) (shows (p_sort o) ["group"; "base"] (d_busses d))
  /\ printed out "Aggregation of components and busses" (p_agg o) (shows (p_sort o) ["group"] (d_agg d))
  /\ printed out "Network exergy analysis" (p_network o) (fun g => g = d_network d)
  /\ printed out "Functional groups exergy flows" (p_groups o) (shows (p_sort o) [] (d_groups d)).
Proof.
  intros o d H.
  destruct (sort_shows (p_sort o) ["group"] (d_comps d)) as (g1 & E1 & S1); [apply H; cbn [In]; tauto | intros [X | []]; discriminate X |].
  destruct (sort_shows (p_sort o) ["group"; "base"] (d_busses d)) as (g2 & E2 & S2); [apply H; cbn [In]; tauto | intros [X | [X | []]]; discriminate X |].
  destruct (sort_shows (p_sort o) ["group"] (d_agg d)) as (g3 & E3 & S3); [apply H; cbn [In]; tauto | intros [X | []]; discriminate X |].
  destruct (sort_all (p_sort o) (d_groups d)) as (g4 & E4 & S4); [apply H; cbn [In]; tauto |].
  unfold print_results. rewrite E1, E2, E3, E4.
  set (t1 := "Connection specific physical exergy and chemical exergy"). set (t2 := "Component exergy analysis").
  set (t3 := "Bus exergy analysis"). set (t4 := "Aggregation of components and busses").
  set (t5 := "Network exergy analysis"). set (t6 := "Functional groups exergy flows").
  destruct (section_ok (p_conns o) t1 (d_conns d)) as (l1 & -> & L1). destruct (section_ok (p_comps o) t2 g1) as (l2 & -> & L2).
  destruct (section_ok (p_busses o) t3 g2) as (l3 & -> & L3). destruct (section_ok (p_agg o) t4 g3) as (l4 & -> & L4).
  destruct (section_ok (p_network o) t5 (d_network d)) as (l5 & -> & L5). destruct (section_ok (p_groups o) t6 g4) as (l6 & -> & L6).
  cbn [rbind]. eexists. split; [reflexivity |]. subst l1 l2 l3 l4 l5 l6.
  match goal with |- printed (?a ++ ?b ++ ?c ++ ?e ++ ?f ++ ?h) _ _ _ /\ _ => 
    split; [apply (part_printed _ _ (d_conns d) _ [] (b ++ c ++ e ++ f ++ h)); [reflexivity | reflexivity | intros [] | away] |];
    split; [apply (part_printed _ _ g1 _ a (c ++ e ++ f ++ h)); [exact S1 | reflexivity | away | away] |];
    split; [apply (part_printed _ _ g2 _ (a ++ b) (e ++ f ++ h)); [exact S2 | now rewrite <- !app_assoc | away | away] |];
    split; [apply (part_printed _ _ g3 _ (a ++ b ++ c) (f ++ h)); [exact S3 | now rewrite <- !app_assoc | away | away] |];
    split; [apply (part_printed _ _ (d_network d) _ (a ++ b ++ c ++ e) h); [reflexivity | now rewrite <- !app_assoc | away | away] |];
    apply (part_printed _ _ g4 _ (a ++ b ++ c ++ e ++ f) []); [exact S4 | now rewrite <- !app_assoc, app_nil_r | away | intros []]
  end.
Qed.

(** A default analysis of two components, one destroying little. *)
Definition row (q : option Q) : string -> cell := fun c => if String.eqb c "group" then Text "g" else Num q.
Definition small : data :=
  let f := {| f_cols := ["E_F"; "E_P"; "E_D"; "epsilon"; "group"]; f_rows := [("pump", row (Some 3)); ("sink", row None); ("turbine", row (Some 5000))] |} in
  {| d_conns := {| f_cols := ["e_PH"]; f_rows := [("1", row (Some 7))] |}; d_comps := f;
     d_busses := {| f_cols := f_cols f ++ ["base"]; f_rows := [] |}; d_agg := f;
     d_network := {| f_cols := ["E_F"; "E_P"; "E_D"; "E_L"]; f_rows := [("", row (Some 0))] |};
     d_groups := {| f_cols := ["E_in"; "E_out"; "E_D"]; f_rows := [("g", row (Some 5003))] |} |}.
Lemma small_printed : exists d out g r q, print_results defaults d = Ok out /\ In ("Component exergy analysis", g) out
  /\ In r (f_rows g) /\ destruction r q /\ q < 1000.
Proof.
  exists small. eexists. eexists. exists ("pump", row (Some 3)). exists 3. split; [reflexivity |].
  split; [right; left; reflexivity |]. split; [vm_compute; auto |]. split; [reflexivity |]. reflexivity.
Qed.
