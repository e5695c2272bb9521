(** Lemmas about mass flow branches. *)
From Coq Require Import Permutation Sorted QArith.
From Verif Require Import TopoModel TopoSpec TopoProofs BranchModel BranchSpec.
Open Scope nat_scope.
Open Scope string_scope.
Open Scope list_scope.

Lemma append_inj_l (p a b : string) : (p ++ a = p ++ b)%string -> a = b.
Proof. induction p as [|x p IH]; cbn; [auto|]. intros H. inversion H. auto. Qed.

Section P.
Variable W : world.
Variable n : net.
Hypothesis ACC : accepted W n.

Let cs := map snd (n_conns n).

Lemma acc_wf c : has_conn n c ->
  w_source W c <> w_target W c /\ In (w_source_id W c) (w_outlets W (w_source W c)) /\
  In (w_target_id W c) (w_inlets W (w_target W c)) /\ has_comp n (w_source W c) /\ has_comp n (w_target W c).
Proof.
  intros H. destruct ACC as (A & B & C & D & _). destruct D as (D & _).
  pose proof (create_conn_ok _ _ _ _ _ (D c H)) as (X & Y & Z).
  repeat split; auto; apply C; exists c; auto.
Qed.

Lemma acc_full k : has_comp n k -> fully_connected W n k.
Proof.
  destruct ACC as (A & B & C & D & E & F & _). apply checks_iff; auto.
Qed.

Lemma acc_ports k : has_comp n k -> ports_ok W k.
Proof. apply ACC. Qed.

Lemma same_in_port a b : has_conn n a -> has_conn n b -> w_target W a = w_target W b ->
  w_target_id W a = w_target_id W b -> a = b.
Proof.
  intros Ha Hb E1 E2. destruct (acc_wf a Ha) as (_ & _ & Hi & _ & Ht).
  destruct (acc_full _ Ht) as (_ & U). destruct (U _ Hi) as (c & _ & Uc).
  rewrite <- (Uc a); [apply Uc|]; repeat split; auto.
Qed.

Lemma same_out_port a b : has_conn n a -> has_conn n b -> w_source W a = w_source W b ->
  w_source_id W a = w_source_id W b -> a = b.
Proof.
  intros Ha Hb E1 E2. destruct (acc_wf a Ha) as (_ & Ho & _ & Hs & _).
  destruct (acc_full _ Hs) as (U & _). destruct (U _ Ho) as (c & _ & Uc).
  rewrite <- (Uc a); [apply Uc|]; repeat split; auto.
Qed.

(** A stream has at most one origin. *)
Lemma flow_pred_unique a b c : flow_next W n a c -> flow_next W n b c -> a = b.
Proof.
  intros (Ha & Hc & Ea & Ka) (Hb & _ & Eb & Kb).
  assert (E : w_target W a = w_target W b) by congruence. rewrite <- E in Kb.
  apply same_in_port; auto.
  destruct (acc_wf a Ha) as (_ & _ & Ia & _ & Hk).
  destruct (acc_wf b Hb) as (_ & _ & Ib & _ & _). rewrite <- E in Ib.
  pose proof (acc_ports _ Hk) as PO. unfold ports_ok in PO.
  destruct (kind_of W (w_target W a)); try contradiction.
  - destruct Ka as (s & A1 & A2), Kb as (t & B1 & B2).
    rewrite A2 in B2. apply append_inj_l in B2. subst t. congruence.
  - rewrite PO in Ia, Ib. cbn in Ia, Ib. intuition congruence.
  - congruence.
  - destruct Ka as ((s & A1 & A2) & _), Kb as ((t & B1 & B2) & _).
    rewrite A2 in B2. apply append_inj_l in B2. subst t. congruence.
  - destruct Ka, Kb. congruence.
  - destruct Ka, Kb. congruence.
Qed.

Lemma start_no_pred a b : starts W n b -> ~ flow_next W n a b.
Proof.
  intros (Hb & S) (Ha & _ & E & K). rewrite E in K.
  destruct (kind_of W (w_source W b)); try contradiction.
  - destruct K as ((s & K1 & K2) & [K|K]); rewrite K in K1; rewrite S in K2;
    inversion K1; inversion K2; congruence.
  - destruct K. congruence.
  - destruct K. destruct S; congruence.
Qed.

Lemma start_or_pred c : has_conn n c -> starts W n c \/ exists a, flow_next W n a c.
Proof.
  intros Hc. destruct (acc_wf c Hc) as (_ & Io & _ & Hk & _).
  pose proof (acc_ports _ Hk) as PO. unfold ports_ok in PO.
  destruct (acc_full _ Hk) as (_ & U).
  unfold starts, flow_next.
  destruct (kind_of W (w_source W c)) eqn:K; try (left; split; [auto|exact I]).
  - right. destruct PO as (ss & Ei & Eo). rewrite Eo in Io. apply in_map_iff in Io.
    destruct Io as (s & Es & Hs).
    destruct (U ("in" ++ s)%string) as (a & (Ha & Et & Ei') & _).
    { rewrite Ei. apply in_map_iff. exists s. auto. }
    exists a. rewrite Et, K. repeat split; auto. exists s. auto.
  - exfalso. destruct PO as (_ & Eo). rewrite Eo in Io. destruct Io.
  - right. destruct (U "in1"%string) as (a & (Ha & Et & Ei') & _); [rewrite PO; now left|].
    exists a. rewrite Et, K. auto.
  - right. destruct PO as (Ei & _). destruct (U "in1"%string) as (a & (Ha & Et & Ei') & _); [rewrite Ei; now left|].
    exists a. rewrite Et, K. auto.
  - destruct PO as (Ei & Eo). rewrite Eo in Io. cbn in Io. destruct Io as [Io|[Io|[Io|[]]]].
    + right. destruct (U "in1"%string) as (a & (Ha & Et & Ei') & _); [rewrite Ei; now left|].
      exists a. rewrite Et, K. repeat split; auto. exists "1"%string. auto.
    + right. destruct (U "in2"%string) as (a & (Ha & Et & Ei') & _); [rewrite Ei; right; now left|].
      exists a. rewrite Et, K. repeat split; auto. exists "2"%string. auto.
    + left. auto.
  - destruct PO as (Ei & Eo). rewrite Eo in Io. cbn in Io. destruct Io as [Io|[Io|[]]].
    + right. destruct (U "in1"%string) as (a & (Ha & Et & Ei') & _); [rewrite Ei; now left|].
      exists a. rewrite Et, K. auto.
    + left. auto.
  - destruct PO as (Ei & Eo). rewrite Eo in Io. cbn in Io. destruct Io as [Io|[Io|[Io|[]]]].
    + right. destruct (U "in1"%string) as (a & (Ha & Et & Ei') & _); [rewrite Ei; now left|].
      exists a. rewrite Et, K. auto.
    + left. auto.
    + left. auto.
Qed.

(* ---- counting steps ---- *)

Lemma steps_has a : forall i b, steps W n (S i) a b -> has_conn n a /\ has_conn n b.
Proof.
  induction i as [|i IH]; intros b (x & Hx & F).
  - cbn in Hx. subst x. split; apply F.
  - split; [apply (IH x Hx)|apply F].
Qed.

Lemma steps_app i j a b c : steps W n i a b -> steps W n j b c -> steps W n (j + i) a c.
Proof.
  revert c. induction j as [|j IH]; intros c H1 H2; cbn in *.
  - now subst.
  - destruct H2 as (x & H2 & F). exists x. auto.
Qed.

Lemma steps_same i : forall a b c, steps W n i a c -> steps W n i b c -> a = b.
Proof.
  induction i as [|i IH]; intros a b c H1 H2; cbn in *; [congruence|].
  destruct H1 as (x & H1 & F1), H2 as (y & H2 & F2).
  assert (x = y) by (eapply flow_pred_unique; eauto). subst y. eapply IH; eauto.
Qed.

Lemma steps_back i : forall j a b c, steps W n i a c -> steps W n (j + i) b c -> steps W n j b a.
Proof.
  induction i as [|i IH]; intros j a b c H1 H2.
  - cbn in H1. subst. now rewrite Nat.add_0_r in H2.
  - rewrite Nat.add_succ_r in H2. destruct H1 as (x & H1 & F1), H2 as (y & H2 & F2).
    assert (x = y) by (eapply flow_pred_unique; eauto). subst y. eapply IH; eauto.
Qed.

Lemma start_steps s i b : starts W n s -> steps W n (S i) b s -> False.
Proof. intros S (x & _ & F). eapply start_no_pred; eauto. Qed.

Lemma steps_from_start s i j b c : starts W n s -> steps W n i s c -> steps W n j b c -> j <= i.
Proof.
  intros S H1 H2. destruct (le_lt_dec j i) as [|L]; [auto|exfalso].
  replace j with ((j - i) + i) in H2 by lia.
  pose proof (steps_back i (j - i) s b c H1 H2) as H3.
  destruct (j - i) as [|d] eqn:E; [lia|]. eapply start_steps; eauto.
Qed.

Lemma starts_unique s s' i j c : starts W n s -> starts W n s' -> steps W n i s c -> steps W n j s' c ->
  s = s' /\ i = j.
Proof.
  intros S S' H1 H2.
  pose proof (steps_from_start s i j s' c S H1 H2). pose proof (steps_from_start s' j i s c S' H2 H1).
  assert (i = j) by lia. subst j. split; [eapply steps_same; eauto|auto].
Qed.

(* ---- paths from a start are short ---- *)

Inductive path (s : nat) : list nat -> Prop :=
| path1 : path s [s]
| path_S l d : path s l -> flow_next W n (last l 0) d -> path s (l ++ [d]).

Lemma path_nonempty s l : path s l -> l <> [].
Proof. induction 1; [discriminate|]. intros E. apply app_eq_nil in E. destruct E; discriminate. Qed.

Lemma last_app (l : list nat) x : last (l ++ [x]) 0 = x.
Proof. induction l as [|y l IH]; [auto|]. cbn. rewrite IH. destruct l; auto. Qed.

Lemma path_steps s l : path s l ->
  steps W n (pred (length l)) s (last l 0) /\
  forall x, In x l -> exists i, i < length l /\ steps W n i s x.
Proof.
  induction 1 as [|l d P (IH1 & IH2) F].
  - cbn. split; [auto|]. intros x [<-|[]]. exists 0. cbn. auto.
  - assert (L : length (l ++ [d]) = S (length l)) by (rewrite app_length; cbn; lia).
    assert (length l <> 0) by (pose proof (path_nonempty s l P); destruct l; [congruence|discriminate]).
    assert (SD : steps W n (length l) s d).
    { replace (length l) with (S (pred (length l))) by lia. exists (last l 0). auto. }
    rewrite L, last_app. cbn [pred]. split; [exact SD|].
    intros x Hx. apply in_app_iff in Hx. destruct Hx as [Hx|[<-|[]]].
    + destruct (IH2 x Hx) as (i & A & B). exists i. split; [lia|auto].
    + exists (length l). split; [lia|auto].
Qed.

Lemma path_NoDup s l : starts W n s -> path s l -> NoDup l /\ incl l cs.
Proof.
  intros S. induction 1 as [|l d P (IH1 & IH2) F].
  - split; [repeat constructor; auto|]. intros x [<-|[]]. apply has_conn_In. apply S.
  - destruct (path_steps s l P) as (A & B). assert (length l <> 0) by (pose proof (path_nonempty s l P); destruct l; [congruence|discriminate]).
    assert (SD : steps W n (length l) s d).
    { replace (length l) with (Datatypes.S (pred (length l))) by lia. exists (last l 0). auto. }
    split.
    + apply (Permutation_NoDup (l := d :: l)); [apply Permutation_cons_append|].
      constructor; [|auto]. intros Hd. destruct (B d Hd) as (i & Li & Si).
      pose proof (steps_from_start s i _ _ _ S Si SD). lia.
    + intros x Hx. apply in_app_iff in Hx. destruct Hx as [Hx|[<-|[]]]; [auto|].
      apply has_conn_In. apply F.
Qed.

(* ---- the successors the code computes ---- *)

Definition through (c : nat) : list nat :=
  let k := w_target W c in
  match index c (inl W n k) with
  | None => []
  | Some i => match nth_error (outl W n k) i with Some o => [o] | None => [] end
  end.

Definition nexts (c : nat) : list nat :=
  let k := w_target W c in
  match kind_of W k with
  | Sink | CycleCloser | Merge | Separator | Combustion => []
  | Through | Source => through c
  | Engine => if nmem c (skipn 2 (inl W n k)) then [] else through c
  | FuelCell | Electrolyzer =>
      match nth_error (inl W n k) 0 with
      | Some i0 => if Nat.eqb c i0 then through c else []
      | None => []
      end
  | Node => outl W n k
  | Drum => if String.eqb (w_target_id W c) "in2" then [] else outl W n k
  end.

Lemma In_outl k c : In c (outl W n k) <-> has_conn n c /\ w_source W c = k.
Proof.
  unfold outl. rewrite has_conn_In. split.
  - intros H. apply (Permutation_in _ (Permutation_sym (sort_perm _ _))) in H.
    apply filter_In in H. rewrite Nat.eqb_eq in H. auto.
  - intros H. apply (Permutation_in _ (sort_perm _ _)). apply filter_In. rewrite Nat.eqb_eq. auto.
Qed.

Lemma In_inl k c : In c (inl W n k) <-> has_conn n c /\ w_target W c = k.
Proof.
  unfold inl. rewrite has_conn_In. split.
  - intros H. apply (Permutation_in _ (Permutation_sym (sort_perm _ _))) in H.
    apply filter_In in H. rewrite Nat.eqb_eq in H. auto.
  - intros H. apply (Permutation_in _ (sort_perm _ _)). apply filter_In. rewrite Nat.eqb_eq. auto.
Qed.

Lemma NoDup_outl k : NoDup (outl W n k).
Proof.
  unfold outl. eapply Permutation_NoDup; [apply sort_perm|]. apply NoDup_filter.
  eapply NoDup_snd. apply ACC.
Qed.

Lemma NoDup_inl k : NoDup (inl W n k).
Proof.
  unfold inl. eapply Permutation_NoDup; [apply sort_perm|]. apply NoDup_filter.
  eapply NoDup_snd. apply ACC.
Qed.

Lemma index_nth x l i : index x l = Some i -> nth_error l i = Some x.
Proof.
  revert i. induction l as [|y l IH]; intros i; cbn; [discriminate|].
  destruct (Nat.eqb y x) eqn:E.
  - apply Nat.eqb_eq in E. intros H; inversion H; subst. reflexivity.
  - destruct (index x l) as [j|]; cbn; [|discriminate]. intros H; inversion H; subst. cbn. auto.
Qed.

Lemma nth_index x l i : NoDup l -> nth_error l i = Some x -> index x l = Some i.
Proof.
  revert i. induction l as [|y l IH]; intros i ND H; [destruct i; discriminate|]. cbn.
  inversion ND as [|? ? N1 N2]; subst. destruct i as [|i]; cbn in H.
  - inversion H; subst. now rewrite Nat.eqb_refl.
  - destruct (Nat.eqb y x) eqn:E.
    + apply Nat.eqb_eq in E. subst y. exfalso. apply N1. eapply nth_error_In; eauto.
    + now rewrite (IH i).
Qed.

Lemma sle_append p a b : sle (p ++ a)%string (p ++ b)%string <-> sle a b.
Proof.
  unfold sle, String.leb. induction p as [|x p IH]; cbn; [tauto|].
  replace (Ascii.compare x x) with Eq; [auto|]. unfold Ascii.compare. symmetry. apply N.compare_refl.
Qed.

Lemma Sorted_map_append p l : Sorted sle (map (fun s => p ++ s)%string l) <-> Sorted sle l.
Proof.
  induction l as [|x l IH]; cbn; [split; constructor|]. split; intros H; inversion H as [|? ? H1 H2]; subst.
  - constructor; [now apply IH|]. destruct l as [|y l]; [constructor|]. cbn in H2. inversion H2 as [|? ? H3]; subst.
    constructor. now apply sle_append in H3.
  - constructor; [now apply IH|]. destruct l as [|y l]; cbn; [constructor|]. inversion H2; subst.
    constructor. now apply sle_append.
Qed.

(** Inlets and outlets of a component passing streams through are listed in the
    same order, whatever their number. *)
Lemma through_paired k : has_comp n k -> kind_of W k = Through ->
  exists ss, map (w_target_id W) (inl W n k) = map (fun s => "in" ++ s)%string ss /\
             map (w_source_id W) (outl W n k) = map (fun s => "out" ++ s)%string ss.
Proof.
  intros Hk K. pose proof (acc_ports k Hk) as PO. unfold ports_ok in PO. rewrite K in PO.
  destruct PO as (ss & Ei & Eo).
  destruct ACC as (A & B & C & D & E & F & _).
  destruct (port_lists W n A C D E F k Hk) as (P1 & P2). rewrite Ei in P2. rewrite Eo in P1.
  destruct (Permutation_map_inv _ _ P2) as (s2 & E2 & Q2).
  destruct (Permutation_map_inv _ _ P1) as (s1 & E1 & Q1).
  exists s1. split; [|auto]. rewrite E2. f_equal.
  apply sorted_unique.
  - apply (Sorted_map_append "in"). rewrite <- E2. apply sort_sorted.
  - apply (Sorted_map_append "out"). rewrite <- E1. apply sort_sorted.
  - etransitivity; [apply Permutation_sym, Q2|exact Q1].
Qed.

(** Components with few ports: lists in port order. *)
Lemma small_ports k : has_comp n k ->
  (Sorted sle (w_outlets W k) -> map (w_source_id W) (outl W n k) = w_outlets W k) /\
  (Sorted sle (w_inlets W k) -> map (w_target_id W) (inl W n k) = w_inlets W k).
Proof. intros Hk. destruct ACC as (A & B & C & D & E & F & _). now apply port_order. Qed.

Ltac sorted_small := repeat constructor; vm_compute; reflexivity.

Lemma nth_out k i p : map (w_source_id W) (outl W n k) = p -> forall q, nth_error p i = Some q ->
  exists o, nth_error (outl W n k) i = Some o /\ has_conn n o /\ w_source W o = k /\ w_source_id W o = q.
Proof.
  intros E q Hq. rewrite <- E in Hq. rewrite nth_error_map in Hq.
  destruct (nth_error (outl W n k) i) as [o|] eqn:En; [|discriminate]. cbn in Hq. inversion Hq; subst q.
  exists o. apply nth_error_In in En as Hin. apply In_outl in Hin. tauto.
Qed.

Lemma nth_in k i p : map (w_target_id W) (inl W n k) = p -> forall q, nth_error p i = Some q ->
  exists o, nth_error (inl W n k) i = Some o /\ has_conn n o /\ w_target W o = k /\ w_target_id W o = q.
Proof.
  intros E q Hq. rewrite <- E in Hq. rewrite nth_error_map in Hq.
  destruct (nth_error (inl W n k) i) as [o|] eqn:En; [|discriminate]. cbn in Hq. inversion Hq; subst q.
  exists o. apply nth_error_In in En as Hin. apply In_inl in Hin. tauto.
Qed.

Lemma index_of c : has_conn n c -> exists i, index c (inl W n (w_target W c)) = Some i /\
  nth_error (inl W n (w_target W c)) i = Some c.
Proof.
  intros Hc. assert (H : In c (inl W n (w_target W c))) by (apply In_inl; auto).
  apply In_nth_error in H. destruct H as (i & H). exists i. split; [|auto].
  apply nth_index; [apply NoDup_inl|auto].
Qed.

Lemma through_at c i d : has_conn n c -> nth_error (inl W n (w_target W c)) i = Some c ->
  nth_error (outl W n (w_target W c)) i = Some d -> through c = [d].
Proof.
  intros Hc Hi Hd. unfold through. rewrite (nth_index c _ i (NoDup_inl _) Hi), Hd. reflexivity.
Qed.

(** The successors computed are those of the specification; index errors cannot occur. *)
Lemma nexts_spec c : has_conn n c -> forall d, In d (nexts c) <-> flow_next W n c d.
Proof.
  intros Hc d. destruct (acc_wf c Hc) as (_ & _ & Ii & _ & Hk).
  unfold nexts, flow_next. set (k := w_target W c) in *.
  pose proof (acc_ports k Hk) as PO. unfold ports_ok in PO.
  destruct (small_ports k Hk) as (SO & SI).
  destruct (kind_of W k) eqn:K; cbn zeta in PO.
  - (* Through *)
    destruct (through_paired k Hk K) as (ss & Ei & Eo).
    destruct (index_of c Hc) as (i & _ & Hi). fold k in Hi.
    assert (Ht : exists s, nth_error ss i = Some s /\ w_target_id W c = ("in" ++ s)%string).
    { pose proof (map_nth_error (w_target_id W) i _ Hi) as X. rewrite Ei, nth_error_map in X.
      destruct (nth_error ss i) as [s|]; [|discriminate]. exists s. cbn in X. inversion X. auto. }
    destruct Ht as (s & Hs & Es).
    destruct (nth_out k i _ Eo ("out" ++ s)%string) as (o & Ho & HoC & HoS & HoI).
    { rewrite nth_error_map, Hs. reflexivity. }
    rewrite (through_at c i o Hc Hi Ho). cbn. split.
    + intros [<-|[]]. repeat split; auto. exists s. auto.
    + intros (_ & Hd & Ed & (t & T1 & T2)). left. rewrite Es in T1. apply append_inj_l in T1. subst t.
      apply same_out_port; auto; congruence.
  - (* Source *)
    exfalso. destruct PO as (Ei & _). rewrite Ei in Ii. destruct Ii.
  - split; [intros []|tauto].
  - split; [intros []|tauto].
  - split; [intros []|tauto].
  - split; [intros []|tauto].
  - (* Node *)
    rewrite In_outl. split; [intros (A & B); repeat split; auto|]. intros (_ & A & B & _). auto.
  - (* Drum *)
    destruct PO as (Ei & Eo). rewrite Ei in Ii. cbn in Ii.
    destruct (String.eqb (w_target_id W c) "in2") eqn:E.
    + apply String.eqb_eq in E. split; [intros []|]. intros (_ & _ & _ & X). congruence.
    + apply String.eqb_neq in E. assert (w_target_id W c = "in1"%string) by intuition congruence.
      rewrite In_outl. split; [intros (A & B); repeat split; auto|]. intros (_ & A & B & _). auto.
  - split; [intros []|tauto].
  - (* Engine *)
    destruct PO as (Ei & Eo).
    assert (Li : map (w_target_id W) (inl W n k) = ["in1"; "in2"; "in3"; "in4"]%string).
    { rewrite SI; [auto|]. rewrite Ei. sorted_small. }
    assert (Lo : map (w_source_id W) (outl W n k) = ["out1"; "out2"; "out3"]%string).
    { rewrite SO; [auto|]. rewrite Eo. sorted_small. }
    destruct (nth_in k 0 _ Li "in1" eq_refl) as (i1 & A1 & B1 & C1 & D1).
    destruct (nth_in k 1 _ Li "in2" eq_refl) as (i2 & A2 & B2 & C2 & D2).
    destruct (nth_in k 2 _ Li "in3" eq_refl) as (i3 & A3 & B3 & C3 & D3).
    destruct (nth_in k 3 _ Li "in4" eq_refl) as (i4 & A4 & B4 & C4 & D4).
    destruct (nth_out k 0 _ Lo "out1" eq_refl) as (o1 & F1 & G1 & H1 & J1).
    destruct (nth_out k 1 _ Lo "out2" eq_refl) as (o2 & F2 & G2 & H2 & J2).
    assert (LL : length (inl W n k) = 4) by (rewrite <- (map_length (w_target_id W)), Li; reflexivity).
    destruct (inl W n k) as [|y1 [|y2 [|y3 [|y4 [|y5 l]]]]] eqn:EL; try discriminate LL.
    cbn in A1, A2, A3, A4. inversion A1; inversion A2; inversion A3; inversion A4; subst y1 y2 y3 y4.
    clear A1 A2 A3 A4. cbn [skipn].
    assert (Hcin : In c [i1; i2; i3; i4]) by (rewrite <- EL; apply In_inl; auto).
    destruct (nmem c [i3; i4]) eqn:E.
    + apply nmem_In in E. split; [intros []|].
      intros (_ & _ & _ & (_ & [X|X])); destruct E as [->|[->|[]]]; congruence.
    + assert (NE : ~ In c [i3; i4]) by (intros X; apply nmem_In in X; congruence).
      destruct Hcin as [X|[X|[X|[X|[]]]]]; try (exfalso; apply NE; rewrite X; cbn; auto; fail).
      * subst i1. rewrite (through_at c 0 o1 Hc); fold k; [|rewrite EL; reflexivity|auto]. cbn. split.
        -- intros [<-|[]]. repeat split; auto. exists "1"%string. auto.
        -- intros (_ & P & Q & ((t & T1 & T2) & _)). left. rewrite D1 in T1. change "in1"%string with ("in" ++ "1")%string in T1.
           apply append_inj_l in T1. subst t. apply same_out_port; auto; [congruence|]. rewrite T2. auto.
      * subst i2. rewrite (through_at c 1 o2 Hc); fold k; [|rewrite EL; reflexivity|auto]. cbn. split.
        -- intros [<-|[]]. repeat split; auto. exists "2"%string. auto.
        -- intros (_ & P & Q & ((t & T1 & T2) & _)). left. rewrite D2 in T1. change "in2"%string with ("in" ++ "2")%string in T1.
           apply append_inj_l in T1. subst t. apply same_out_port; auto; [congruence|]. rewrite T2. auto.
  - (* FuelCell *)
    destruct PO as (Ei & Eo).
    assert (Li : map (w_target_id W) (inl W n k) = ["in1"; "in2"; "in3"]%string).
    { rewrite SI; [auto|]. rewrite Ei. sorted_small. }
    assert (Lo : map (w_source_id W) (outl W n k) = ["out1"; "out2"]%string).
    { rewrite SO; [auto|]. rewrite Eo. sorted_small. }
    destruct (nth_in k 0 _ Li "in1" eq_refl) as (i1 & A1 & B1 & C1 & D1).
    destruct (nth_out k 0 _ Lo "out1" eq_refl) as (o1 & F1 & G1 & H1 & J1).
    rewrite A1. destruct (Nat.eqb c i1) eqn:E.
    + apply Nat.eqb_eq in E. subst i1. rewrite (through_at c 0 o1 Hc); auto. cbn. split.
      * intros [<-|[]]. repeat split; auto.
      * intros (_ & P & Q & R1 & R2). left. apply same_out_port; auto; congruence.
    + apply Nat.eqb_neq in E. split; [intros []|]. intros (_ & _ & _ & X & _). exfalso. apply E.
      apply same_in_port; auto; congruence.
  - (* Electrolyzer *)
    destruct PO as (Ei & Eo).
    assert (Li : map (w_target_id W) (inl W n k) = ["in1"; "in2"]%string).
    { rewrite SI; [auto|]. rewrite Ei. sorted_small. }
    assert (Lo : map (w_source_id W) (outl W n k) = ["out1"; "out2"; "out3"]%string).
    { rewrite SO; [auto|]. rewrite Eo. sorted_small. }
    destruct (nth_in k 0 _ Li "in1" eq_refl) as (i1 & A1 & B1 & C1 & D1).
    destruct (nth_out k 0 _ Lo "out1" eq_refl) as (o1 & F1 & G1 & H1 & J1).
    rewrite A1. destruct (Nat.eqb c i1) eqn:E.
    + apply Nat.eqb_eq in E. subst i1. rewrite (through_at c 0 o1 Hc); auto. cbn. split.
      * intros [<-|[]]. repeat split; auto.
      * intros (_ & P & Q & R1 & R2). left. apply same_out_port; auto; congruence.
    + apply Nat.eqb_neq in E. split; [intros []|]. intros (_ & _ & _ & X & _). exfalso. apply E.
      apply same_in_port; auto; congruence.
Qed.

Lemma through_NoDup c : NoDup (through c).
Proof.
  unfold through. destruct (index _ _); [|constructor]. destruct (nth_error _ _); repeat constructor; auto.
Qed.

Lemma nexts_NoDup c : NoDup (nexts c).
Proof.
  unfold nexts. destruct (kind_of W (w_target W c)); try constructor; try apply through_NoDup; try apply NoDup_outl.
  - destruct (String.eqb _ _); [constructor|apply NoDup_outl].
  - destruct (nmem _ _); [constructor|apply through_NoDup].
  - destruct (nth_error _ _); [|constructor]. destruct (Nat.eqb _ _); [apply through_NoDup|constructor].
  - destruct (nth_error _ _); [|constructor]. destruct (Nat.eqb _ _); [apply through_NoDup|constructor].
Qed.

(* ---- the tree of connections below one ---- *)

Fixpoint below (f : nat) (c : nat) : list nat :=
  match f with 0 => [] | S f' => flat_map (fun d => d :: below f' d) (nexts c) end.

(** Recursion from [c] needs less than [f] levels. *)
Fixpoint bounded (f : nat) (c : nat) : Prop :=
  match f with 0 => False | S f' => forall d, In d (nexts c) -> bounded f' d end.

Lemma path_bounded s : starts W n s -> forall f l, path s l -> length cs < f + length l -> bounded f (last l 0).
Proof.
  intros S. induction f as [|f IH]; intros l P L.
  - destruct (path_NoDup s l S P) as (A & B). pose proof (NoDup_incl_length A B). lia.
  - cbn. intros d Hd. destruct (path_NoDup s l S P) as (A & B).
    assert (Hl : has_conn n (last l 0)).
    { apply has_conn_In. apply B. pose proof (path_nonempty s l P) as X.
      destruct (exists_last X) as (l' & x & ->). rewrite last_app. apply in_app_iff. right. now left. }
    apply nexts_spec in Hd; [|auto].
    specialize (IH (l ++ [d])). rewrite last_app in IH. apply IH; [now constructor|].
    rewrite app_length. cbn. lia.
Qed.

Lemma start_bounded s f : starts W n s -> length cs < S f -> bounded (S f) s.
Proof. intros S L. apply (path_bounded s S (Datatypes.S f) [s]); [constructor|cbn; lia]. Qed.

Lemma below_steps : forall f c x, has_conn n c -> In x (below f c) -> exists j, steps W n (S j) c x.
Proof.
  induction f as [|f IH]; intros c x Hc H; cbn in H; [destruct H|].
  apply in_flat_map in H. destruct H as (d & Hd & H). apply nexts_spec in Hd; [|auto].
  destruct H as [<-|H].
  - exists 0. exists c. cbn. auto.
  - destruct (IH d x) as (j & Hj); [apply Hd|auto|]. exists (S j).
    replace (S (S j)) with (S j + 1) by lia. eapply steps_app; [|exact Hj]. exists c. cbn. auto.
Qed.

Lemma steps_below : forall f c, bounded f c -> has_conn n c -> forall j x, steps W n (S j) c x -> In x (below f c).
Proof.
  induction f as [|f IH]; intros c B Hc j x H; [destruct B|]. cbn in B |- *.
  (* the first step *)
  assert (X : exists d, flow_next W n c d /\ steps W n j d x).
  { clear -H. revert x H. induction j as [|j IH]; intros x (y & Hy & F).
    - cbn in Hy. subst y. exists x. cbn. auto.
    - destruct (IH y Hy) as (d & A & C). exists d. split; [auto|]. exists y. auto. }
  destruct X as (d & Fd & Sd). apply in_flat_map. exists d. split; [now apply nexts_spec|].
  destruct j as [|j]; [left; exact Sd|]. right. apply (IH d) with (j := j); auto.
  - apply B. now apply nexts_spec.
  - apply Fd.
Qed.

Lemma NoDup_flat_map {A B} (f : A -> list B) l : NoDup l -> (forall x, In x l -> NoDup (f x)) ->
  (forall x y z, In x l -> In y l -> In z (f x) -> In z (f y) -> x = y) -> NoDup (flat_map f l).
Proof.
  induction l as [|x l IH]; intros ND Hf Hd; cbn; [constructor|].
  inversion ND as [|? ? N1 N2]; subst.
  assert (R : NoDup (flat_map f l)).
  { apply IH; auto. - intros; apply Hf; now right. - intros a b z Ha Hb. apply Hd; now right. }
  clear IH. assert (D : forall z, In z (f x) -> ~ In z (flat_map f l)).
  { intros z Hz Hz'. apply in_flat_map in Hz'. destruct Hz' as (y & Hy & Hz'). apply N1.
    rewrite (Hd x y z); auto; [now left|now right]. }
  pose proof (Hf x (or_introl eq_refl)) as F. clear Hf Hd.
  induction (f x) as [|z fz IHz]; cbn; [auto|]. inversion F; subst. constructor.
  - intros H. apply in_app_iff in H. destruct H as [H|H]; [auto|]. apply (D z); [now left|auto].
  - apply IHz; auto. intros; apply D; now right.
Qed.

Lemma below_NoDup s : starts W n s -> forall f i c, steps W n i s c -> has_conn n c -> NoDup (c :: below f c).
Proof.
  intros S. induction f as [|f IH]; intros i c Hi Hc.
  - cbn. repeat constructor. auto.
  - constructor.
    + intros H. destruct (below_steps _ _ _ Hc H) as (j & Hj).
      pose proof (steps_app _ _ _ _ _ Hi Hj) as X. pose proof (steps_from_start s i _ _ _ S Hi X). lia.
    + cbn. apply NoDup_flat_map.
      * apply nexts_NoDup.
      * intros d Hd. apply nexts_spec in Hd; [|auto]. apply (IH (Datatypes.S i)); [exists c; auto|apply Hd].
      * intros a b x Ha Hb Xa Xb. apply nexts_spec in Ha, Hb; auto.
        assert (Y : forall d, flow_next W n c d -> In x (d :: below f d) -> exists j, steps W n j d x).
        { intros d Fd [<-|H]; [exists 0; reflexivity|]. destruct (below_steps f d x) as (j & Hj); [apply Fd|auto|]. eauto. }
        destruct (Y a Ha Xa) as (p & Hp). destruct (Y b Hb Xb) as (q & Hq).
        assert (Sa : steps W n (Datatypes.S i) s a) by (exists c; auto).
        assert (Sb : steps W n (Datatypes.S i) s b) by (exists c; auto).
        pose proof (steps_app _ _ _ _ _ Sa Hp) as X1. pose proof (steps_app _ _ _ _ _ Sb Hq) as X2.
        pose proof (steps_from_start s _ _ _ _ S X1 X2). pose proof (steps_from_start s _ _ _ _ S X2 X1).
        assert (p = q) by lia. subst q. eapply steps_same; eauto.
Qed.

(* ---- the recursion ---- *)

Definition cnt (x : nat) (l : list nat) : nat := count_occ Nat.eq_dec l x.

Lemma cnt_app x l l' : cnt x (l ++ l') = cnt x l + cnt x l'.
Proof. unfold cnt. apply count_occ_app. Qed.
Lemma cnt_cons x y l : cnt x (y :: l) = cnt x [y] + cnt x l.
Proof. change (y :: l) with ([y] ++ l). apply cnt_app. Qed.
Lemma cnt_nil x : cnt x [] = 0.
Proof. reflexivity. Qed.
Lemma cnt_self x : cnt x [x] = 1.
Proof. unfold cnt. cbn. destruct (Nat.eq_dec x x); congruence. Qed.
Lemma cnt_In x l : In x l <-> 1 <= cnt x l.
Proof. unfold cnt. pose proof (count_occ_In Nat.eq_dec l x). unfold gt, lt in H. exact H. Qed.
Lemma cnt_NoDup l : NoDup l <-> forall x, cnt x l <= 1.
Proof. unfold cnt. apply NoDup_count_occ. Qed.

Definition alls (d : dict branch) : list nat := branch_conns (get_all_subdictionaries d).
Definition allc (b : branch) : list nat := branch_conns (flatten_branch b).

Lemma flatten_eq cs0 ks subs : flatten_branch (Branch cs0 ks subs) = (cs0, ks) :: get_all_subdictionaries subs.
Proof.
  cbn. f_equal. unfold get_all_subdictionaries.
  induction subs as [|[l b] d IH]; cbn; [auto|]. now rewrite IH.
Qed.

Lemma allc_eq cs0 ks subs : allc (Branch cs0 ks subs) = cs0 ++ alls subs.
Proof. unfold allc. rewrite flatten_eq. reflexivity. Qed.

Lemma dset_fresh {V} l (b : V) d : dget l d = None -> dset l b d = d ++ [(l, b)].
Proof.
  induction d as [|[l' b'] d IH]; cbn; [auto|]. destruct (String.eqb l l'); [discriminate|].
  intros H. now rewrite IH.
Qed.

Lemma alls_snoc d l b : alls (d ++ [(l, b)]) = alls d ++ allc b.
Proof.
  unfold alls, allc, get_all_subdictionaries, branch_conns. rewrite flat_map_app, map_app, concat_app.
  cbn. now rewrite app_nil_r.
Qed.

(** Keys of a subbranch dictionary are labels of connections in it. *)
Definition labels_ok (d : dict branch) : Prop :=
  forall l, In l (keys d) -> exists x, In x (alls d) /\ has_conn n x /\ w_label W x = l.

Lemma label_inj x y : has_conn n x -> has_conn n y -> w_label W x = w_label W y -> x = y.
Proof.
  intros Hx Hy E. destruct ACC as (A & _).
  pose proof (proj2 (get_conn_iff W n (w_label W x) x A) (conj Hx eq_refl)) as P.
  pose proof (proj2 (get_conn_iff W n (w_label W x) y A) (conj Hy (eq_sym E))) as Q. congruence.
Qed.

Lemma labels_fresh d o : labels_ok d -> has_conn n o -> cnt o (alls d) = 0 -> dget (w_label W o) d = None.
Proof.
  intros L Ho C. apply dget_None_notin. intros H. destruct (L _ H) as (x & A & B & E).
  assert (x = o) by now apply label_inj. subst x. apply cnt_In in A. lia.
Qed.

Lemma labels_snoc d o b : labels_ok d -> has_conn n o -> In o (allc b) -> labels_ok (d ++ [(w_label W o, b)]).
Proof.
  intros L Ho Hb l H. unfold keys in H. rewrite map_app in H. apply in_app_iff in H.
  rewrite alls_snoc. destruct H as [H|[<-|[]]].
  - destruct (L l H) as (x & A & B & C). exists x. split; [apply in_app_iff; auto|auto].
  - exists o. split; [apply in_app_iff; auto|auto].
Qed.

Definition uniform (m : nat -> Q) (l : list nat) : Prop := forall x y, In x l -> In y l -> (m x == m y)%Q.
Definition uniforms (m : nat -> Q) (l : list (list nat * list nat)) : Prop := forall b, In b l -> uniform m (fst b).

Lemma uniforms_snoc m d l b : uniforms m (get_all_subdictionaries d) -> uniforms m (flatten_branch b) ->
  uniforms m (get_all_subdictionaries (d ++ [(l, b)])).
Proof.
  intros A B x Hx. unfold get_all_subdictionaries in Hx. rewrite flat_map_app in Hx. apply in_app_iff in Hx.
  destruct Hx as [Hx|Hx]; [now apply A|]. cbn in Hx. rewrite app_nil_r in Hx. now apply B.
Qed.

Lemma uniform_snoc m l c o : l <> [] -> last l 0 = c -> uniform m l -> (m c == m o)%Q -> uniform m (l ++ [o]).
Proof.
  intros Hne Hl U E.
  assert (Hc : In c l).
  { destruct (exists_last Hne) as (l' & z & ->). rewrite last_app in Hl. subst z. apply in_app_iff. right. now left. }
  assert (X : forall x, In x (l ++ [o]) -> (m x == m c)%Q).
  { intros x Hx. apply in_app_iff in Hx. destruct Hx as [Hx|[<-|[]]]; [now apply U|now rewrite E]. }
  intros x y Hx Hy. rewrite (X x Hx), (X y Hy). reflexivity.
Qed.

(** What a call of propagate achieves, given the state before it. *)
Definition post (conns : list nat) (subs : dict branch) (new : list nat) (r : res branch) : Prop :=
  exists conns' comps' subs', r = Ok (Branch conns' comps' subs') /\
    (forall x, cnt x conns' + cnt x (alls subs') = cnt x conns + cnt x (alls subs) + cnt x new) /\
    labels_ok subs' /\ conns' <> [] /\ last comps' 0 = w_target W (last conns' 0) /\
    (exists ext, conns' = conns ++ ext) /\
    (forall m, balanced W n m -> uniforms m (get_all_subdictionaries subs) -> uniform m conns ->
       uniforms m (get_all_subdictionaries subs') /\ uniform m conns').

Definition node_loop (f : nat) (k : nat) (conns comps : list nat) : list nat -> dict branch -> res branch :=
  fix loop os subs :=
  match os with
  | [] => Ok (Branch conns comps subs)
  | o :: os' =>
      rbind (propagate W n f [o] [k; w_target W o] [] (w_target W o)) (fun b =>
      loop os' (dset (w_label W o) b subs))
  end.

Definition goal (f : nat) : Prop := forall c conns comps subs,
  bounded f c -> has_conn n c -> conns <> [] -> last conns 0 = c -> last comps 0 = w_target W c ->
  (forall x, cnt x conns + cnt x (alls subs) + cnt x (below f c) <= 1) -> labels_ok subs ->
  post conns subs (below f c) (propagate W n f conns comps subs (w_target W c)).

(** A fresh branch starting with connection [o]. *)
Lemma fresh_branch f o k : goal f -> bounded f o -> has_conn n o -> (forall x, cnt x (o :: below f o) <= 1) ->
  exists conns' comps' subs',
    propagate W n f [o] [k; w_target W o] [] (w_target W o) = Ok (Branch conns' comps' subs') /\
    (forall x, cnt x (allc (Branch conns' comps' subs')) = cnt x (o :: below f o)) /\
    (exists ext, conns' = o :: ext) /\ last comps' 0 = w_target W (last conns' 0) /\
    (forall m, balanced W n m -> uniforms m (flatten_branch (Branch conns' comps' subs'))).
Proof.
  intros G B Ho C. destruct (G o [o] [k; w_target W o] []) as (c' & k' & s' & E & X & L & N & La & (ext & Ee) & M); auto.
  - discriminate.
  - intros x. specialize (C x). rewrite cnt_cons in C. change (alls []) with (@nil nat). rewrite cnt_nil. lia.
  - intros l [].
  - exists c', k', s'. split; [auto|]. split; [|split; [|split]].
    + intros x. rewrite allc_eq, cnt_app, X. change (alls []) with (@nil nat). rewrite cnt_nil, (cnt_cons x o (below f o)). lia.
    + exists ext. exact Ee.
    + auto.
    + intros m Bm. rewrite flatten_eq. destruct (M m Bm) as (P & Q).
      * intros b [].
      * intros x y [<-|[]] [<-|[]]. reflexivity.
      * intros b [<-|Hb]; [exact Q|]. now apply P.
Qed.

Lemma node_loop_ok f k conns comps c : goal f -> conns <> [] -> last conns 0 = c -> last comps 0 = w_target W c ->
  forall os subs, (forall o, In o os -> has_conn n o /\ bounded f o) ->
  (forall x, cnt x conns + cnt x (alls subs) + cnt x (flat_map (fun d => d :: below f d) os) <= 1) -> labels_ok subs ->
  post conns subs (flat_map (fun d => d :: below f d) os) (node_loop f k conns comps os subs).
Proof.
  intros G Hne Hl Hk. induction os as [|o os IH]; intros subs Hos C L;
    [cbn [node_loop flat_map]|change (node_loop f k conns comps (o :: os) subs) with (rbind (propagate W n f [o] [k; w_target W o] [] (w_target W o)) (fun b => node_loop f k conns comps os (dset (w_label W o) b subs)))].
  - exists conns, comps, subs. split; [auto|]. repeat split; auto.
    + now rewrite Hk, Hl.
    + exists []. now rewrite app_nil_r.
  - destruct (Hos o (or_introl eq_refl)) as (Ho & Bo).
    assert (Co : forall x, cnt x (o :: below f o) <= 1).
    { intros x. specialize (C x). cbn [flat_map] in C. rewrite cnt_app in C. lia. }
    destruct (fresh_branch f o k G Bo Ho Co) as (c1 & k1 & s1 & E1 & X1 & (e1 & Ee) & _ & M1).
    rewrite E1. cbn [rbind]. set (b := Branch c1 k1 s1) in *.
    assert (Fr : dget (w_label W o) subs = None).
    { apply labels_fresh; auto. specialize (C o). cbn [flat_map] in C. rewrite cnt_app, cnt_cons, cnt_self in C. lia. }
    rewrite (dset_fresh _ _ _ Fr).
    assert (Hin : In o (allc b)) by (apply cnt_In; rewrite X1, cnt_cons, cnt_self; lia).
    destruct (IH (subs ++ [(w_label W o, b)])) as (c2 & k2 & s2 & E2 & X2 & L2 & N2 & La2 & Ex2 & M2).
    + intros; apply Hos; now right.
    + intros x. rewrite alls_snoc, cnt_app, X1. specialize (C x). cbn [flat_map] in C. rewrite cnt_app in C. lia.
    + now apply labels_snoc.
    + exists c2, k2, s2. split; [auto|]. split; [|repeat split; auto; try apply M2; auto].
      * intros x. rewrite X2, alls_snoc, cnt_app, X1.
        change (flat_map (fun d => d :: below f d) (o :: os)) with ((o :: below f o) ++ flat_map (fun d => d :: below f d) os).
        rewrite (cnt_app x (o :: below f o)). lia.
      * apply uniforms_snoc; auto.
      * apply uniforms_snoc; auto.
Qed.

Lemma post_stop conns comps subs c : conns <> [] -> last conns 0 = c -> last comps 0 = w_target W c -> labels_ok subs ->
  post conns subs [] (Ok (Branch conns comps subs)).
Proof.
  intros Hne Hl Hk L. exists conns, comps, subs. split; [auto|].
  split; [intros x; rewrite cnt_nil; lia|]. split; [auto|]. split; [auto|]. split; [now rewrite Hk, Hl|].
  split; [exists []; now rewrite app_nil_r|]. auto.
Qed.

Lemma post_through f c o conns comps subs : goal f -> has_conn n c -> nexts c = [o] ->
  bounded f o -> conns <> [] -> last conns 0 = c ->
  (forall x, cnt x conns + cnt x (alls subs) + cnt x (o :: below f o) <= 1) -> labels_ok subs ->
  match kind_of W (w_target W c) with Node | Drum => False | _ => True end ->
  post conns subs (o :: below f o)
    (propagate W n f (conns ++ [o]) (comps ++ [w_target W o]) subs (w_target W o)).
Proof.
  intros G Hc Hn Bo Hne Hl C L K.
  assert (Fo : flow_next W n c o) by (apply nexts_spec; auto; rewrite Hn; now left).
  destruct (G o (conns ++ [o]) (comps ++ [w_target W o]) subs) as (c' & k' & s' & E & X & L' & N & La & (ext & Ee) & M); auto.
  - apply Fo.
  - intros H. apply app_eq_nil in H. destruct H; discriminate.
  - apply last_app.
  - apply last_app.
  - intros x. specialize (C x). rewrite cnt_app. rewrite cnt_cons in C. lia.
  - exists c', k', s'. split; [auto|]. split; [|split; [|split; [|split; [|split]]]]; auto.
    + intros x. rewrite X, cnt_app, (cnt_cons x o (below f o)). lia.
    + exists (o :: ext). rewrite Ee, <- app_assoc. reflexivity.
    + intros m Bm U1 U2. apply M; auto. eapply uniform_snoc; eauto.
      destruct Bm as (Bm & _). specialize (Bm c o Fo). destruct (kind_of W (w_target W c)); auto; contradiction.
Qed.

Lemma propagate_ok : forall f, goal f.
Proof.
  induction f as [|f G]; intros c conns comps subs B Hc Hne Hl Hk C L; [destruct B|].
  destruct (acc_wf c Hc) as (_ & _ & Ii & _ & Hcomp). set (k := w_target W c) in *.
  assert (Hsub : forall d, In d (nexts c) -> has_conn n d /\ bounded f d).
  { intros d Hd. split; [apply nexts_spec in Hd; [apply Hd|auto]|]. now apply B. }
  assert (IX : exists i, index c (inl W n k) = Some i) by (destruct (index_of c Hc) as (i & A & _); exists i; auto).
  destruct IX as (i & IX).
  (* straight passage *)
  assert (THR : match kind_of W k with Node | Drum => False | _ => True end -> nexts c = through c ->
    (exists o, nexts c = [o]) ->
    post conns subs (below (S f) c)
      (match index c (inl W n k) with
        | None => Err ValueError
        | Some i => rbind (item (outl W n k) i) (fun o =>
            propagate W n f (conns ++ [o])%list (comps ++ [w_target W o])%list subs (w_target W o))
        end)).
  { intros Kk Et (o & Eo). rewrite IX. unfold through in Et. fold k in Et. rewrite IX, Eo in Et.
    unfold item. destruct (nth_error (outl W n k) i) as [o'|]; [|discriminate]. inversion Et; subst o'. cbn [rbind].
    cbn [below] in C |- *. rewrite Eo in C |- *. cbn [flat_map] in C |- *. rewrite app_nil_r in C |- *.
    apply (post_through f c o); auto. apply Hsub. rewrite Eo. now left. }
  assert (STOP : nexts c = [] -> post conns subs (below (S f) c) (Ok (Branch conns comps subs))).
  { intros E. cbn [below]. rewrite E. cbn [flat_map]. apply (post_stop conns comps subs c); auto. }
  pose proof (acc_ports k Hcomp) as PO. unfold ports_ok in PO.
  destruct (small_ports k Hcomp) as (SO & SI).
  cbn [propagate]. rewrite Hl. fold k.
  assert (NX : nexts c = nexts c) by auto. unfold nexts at 2 in NX. fold k in NX.
  destruct (kind_of W k) eqn:K; cbv zeta in PO.
  - (* Through *) apply THR; auto.
    destruct (through_paired k Hcomp K) as (ss & Ei & Eo).
    destruct (index_of c Hc) as (j & J1 & J2). fold k in J1, J2.
    assert (j < length (outl W n k)).
    { rewrite <- (map_length (w_source_id W)), Eo, map_length, <- (map_length (fun s => "in" ++ s)%string ss), <- Ei, map_length.
      apply nth_error_Some. congruence. }
    destruct (nth_error (outl W n k) j) as [o|] eqn:Ej; [|apply nth_error_None in Ej; lia].
    exists o. rewrite NX. unfold through. fold k. now rewrite J1, Ej.
  - exfalso. destruct PO as (Ei & _). rewrite Ei in Ii. destruct Ii.
  - now apply STOP.
  - now apply STOP.
  - now apply STOP.
  - now apply STOP.
  - (* Node *)
    change (post conns subs (below (S f) c) (node_loop f k conns comps (outl W n k) subs)).
    cbn [below] in *. rewrite NX in *. apply (node_loop_ok f k conns comps c); auto.
  - (* Drum *)
    destruct PO as (Ei & Eo).
    destruct (String.eqb (w_target_id W c) "in2") eqn:E2; [now apply STOP|]. apply String.eqb_neq in E2.
    rewrite Ei in Ii. cbn in Ii. assert (I1 : w_target_id W c = "in1"%string) by intuition congruence.
    assert (Lo : map (w_source_id W) (outl W n k) = ["out1"; "out2"]%string).
    { rewrite SO; [auto|]. rewrite Eo. sorted_small. }
    destruct (nth_out k 0 _ Lo "out1" eq_refl) as (o1 & F1 & G1 & H1 & J1).
    destruct (nth_out k 1 _ Lo "out2" eq_refl) as (o2 & F2 & G2 & H2 & J2).
    assert (LL : length (outl W n k) = 2) by (rewrite <- (map_length (w_source_id W)), Lo; reflexivity).
    unfold item. rewrite F1, F2. cbn [rbind].
    assert (OL : outl W n k = [o1; o2]).
    { destruct (outl W n k) as [|y1 [|y2 [|y3 l]]]; try discriminate LL. cbn in F1, F2. congruence. }
    rewrite OL in NX. cbn [below] in C |- *. rewrite NX in C, Hsub |- *.
    cbn [flat_map] in C |- *. rewrite app_nil_r in C |- *.
    destruct (Hsub o1 (or_introl eq_refl)) as (_ & B1).
    destruct (Hsub o2 (or_intror (or_introl eq_refl))) as (_ & B2).
    assert (C1 : forall x, cnt x (o1 :: below f o1) <= 1) by (intros x; specialize (C x); rewrite cnt_app in C; lia).
    assert (C2 : forall x, cnt x (o2 :: below f o2) <= 1) by (intros x; specialize (C x); rewrite cnt_app in C; lia).
    destruct (fresh_branch f o1 k G B1 G1 C1) as (c1 & k1 & s1 & Eb1 & X1 & (e1 & Ee1) & La1 & M1).
    rewrite Eb1. cbn [rbind]. set (b1 := Branch c1 k1 s1) in *.
    assert (Hin1 : In o1 (allc b1)) by (apply cnt_In; rewrite X1, cnt_cons, cnt_self; lia).
    assert (Fr1 : dget (w_label W o1) subs = None).
    { apply labels_fresh; auto. specialize (C o1). rewrite cnt_app, (cnt_cons o1 o1), cnt_self in C. lia. }
    rewrite (dset_fresh _ _ _ Fr1).
    assert (L1 : labels_ok (subs ++ [(w_label W o1, b1)])) by now apply labels_snoc.
    destruct (Nat.eqb (last k1 0) k) eqn:Ek.
    + (* circulation closed *)
      apply Nat.eqb_eq in Ek. set (x1 := last c1 0) in *. rewrite Ek in La1.
      assert (N1 : c1 <> []) by (rewrite Ee1; discriminate).
      assert (Hx1 : In x1 c1).
      { destruct (exists_last N1) as (l' & z & Ez). unfold x1. rewrite Ez, last_app. apply in_app_iff. right. now left. }
      assert (Hx1' : In x1 (o1 :: below f o1)).
      { apply cnt_In. rewrite <- X1. unfold b1. rewrite allc_eq, cnt_app. apply cnt_In in Hx1. lia. }
      assert (Cx : has_conn n x1).
      { destruct Hx1' as [<-|H]; [auto|]. destruct (below_steps f o1 x1 G1 H) as (j & Hj). now apply steps_has in Hj. }
      assert (x1 <> c).
      { intros E. specialize (C c). rewrite cnt_app in C. rewrite E in Hx1'. apply cnt_In in Hx1'.
        assert (In c conns).
        { destruct (exists_last Hne) as (l' & z & Ez). rewrite Ez, last_app in Hl. subst z. rewrite Ez. apply in_app_iff. right. now left. }
        apply cnt_In in H. lia. }
      destruct (acc_wf x1 Cx) as (_ & _ & Ix & _ & _). rewrite <- La1, Ei in Ix. cbn in Ix.
      assert (Ix2 : w_target_id W x1 = "in2"%string).
      { destruct Ix as [Ix|[Ix|[]]]; [|auto]. exfalso. apply H. apply same_in_port; auto; try congruence. }
      destruct (G o2 (conns ++ [o2]) (comps ++ [w_target W o2]) (subs ++ [(w_label W o1, b1)]))
        as (c' & k' & s' & E & X & L' & N & La & (ext & Ee) & M); auto.
      * intros Hx. apply app_eq_nil in Hx. destruct Hx; discriminate.
      * apply last_app.
      * apply last_app.
      * intros x. specialize (C x). rewrite alls_snoc, !cnt_app, X1. rewrite cnt_app, (cnt_cons x o2) in C. lia.
      * exists c', k', s'. split; [auto|]. split; [|split; [|split; [|split; [|split]]]]; auto.
        -- intros x. rewrite X, alls_snoc, !cnt_app, X1, (cnt_cons x o2 (below f o2)). lia.
        -- exists (o2 :: ext). rewrite Ee, <- app_assoc. reflexivity.
        -- intros m Bm U1 U2. apply M; auto.
           ++ apply uniforms_snoc; auto.
           ++ eapply uniform_snoc; eauto.
              assert (Ux : (m o1 == m x1)%Q).
              { apply (M1 m Bm (c1, k1)); [unfold b1; rewrite flatten_eq; now left| |exact Hx1].
                cbn [fst]. rewrite Ee1. now left. }
              destruct Bm as (_ & Bm).
              assert (Bd : (m c + m x1 == m o1 + m o2)%Q).
              { apply (Bm k); [exact K|..]; repeat split; auto. }
              rewrite Ux in Bd. apply Qplus_inj_l with (z := m x1).
              rewrite Qplus_comm. exact Bd.
    + (* two subbranches *)
      destruct (fresh_branch f o2 k G B2 G2 C2) as (c2 & k2 & s2 & Eb2 & X2 & (e2 & Ee2) & La2 & M2).
      rewrite Eb2. cbn [rbind]. set (b2 := Branch c2 k2 s2) in *.
      assert (Hin2 : In o2 (allc b2)) by (apply cnt_In; rewrite X2, cnt_cons, cnt_self; lia).
      assert (Fr2 : dget (w_label W o2) (subs ++ [(w_label W o1, b1)]) = None).
      { apply labels_fresh; auto. rewrite alls_snoc, cnt_app, X1. specialize (C o2).
        rewrite cnt_app, (cnt_cons o2 o2), cnt_self in C. lia. }
      rewrite (dset_fresh _ _ _ Fr2).
      exists conns, comps, ((subs ++ [(w_label W o1, b1)]) ++ [(w_label W o2, b2)]).
      split; [auto|]. split; [|split; [|split; [|split; [|split]]]]; auto.
      * intros x. rewrite !alls_snoc, !cnt_app, X1, X2. lia.
      * now apply labels_snoc.
      * now rewrite Hk, Hl.
      * exists []. now rewrite app_nil_r.
      * intros m Bm U1 U2. split; [|auto]. apply uniforms_snoc; auto. apply uniforms_snoc; auto.
  - now apply STOP.
  - (* Engine *)
    destruct (nmem c (skipn 2 (inl W n k))) eqn:E; [now apply STOP|].
    apply THR; auto. rewrite NX.
    destruct PO as (Ei & Eo).
    assert (Li : map (w_target_id W) (inl W n k) = ["in1"; "in2"; "in3"; "in4"]%string).
    { rewrite SI; [auto|]. rewrite Ei. sorted_small. }
    assert (Lo : map (w_source_id W) (outl W n k) = ["out1"; "out2"; "out3"]%string).
    { rewrite SO; [auto|]. rewrite Eo. sorted_small. }
    assert (LI : length (inl W n k) = 4) by (rewrite <- (map_length (w_target_id W)), Li; reflexivity).
    assert (LL : length (outl W n k) = 3) by (rewrite <- (map_length (w_source_id W)), Lo; reflexivity).
    apply index_nth in IX as IN.
    assert (i < 2).
    { destruct (le_lt_dec 2 i) as [G2|]; [|auto]. exfalso.
      assert (In c (skipn 2 (inl W n k))); [|apply nmem_In in H; congruence].
      destruct (inl W n k) as [|y1 [|y2 l]]; try discriminate LI. destruct i as [|[|i]]; try lia. cbn in IN.
      cbn [skipn]. eapply nth_error_In; eauto. }
    destruct (nth_error (outl W n k) i) as [o|] eqn:Eo'; [|apply nth_error_None in Eo'; lia].
    exists o. unfold through. fold k. now rewrite IX, Eo'.
  - (* FuelCell *)
    destruct PO as (Ei & Eo).
    assert (Li : map (w_target_id W) (inl W n k) = ["in1"; "in2"; "in3"]%string).
    { rewrite SI; [auto|]. rewrite Ei. sorted_small. }
    assert (Lo : map (w_source_id W) (outl W n k) = ["out1"; "out2"]%string).
    { rewrite SO; [auto|]. rewrite Eo. sorted_small. }
    destruct (nth_in k 0 _ Li "in1" eq_refl) as (i1 & A1 & _).
    destruct (nth_out k 0 _ Lo "out1" eq_refl) as (o1 & F1 & _).
    unfold item at 1. rewrite A1 in *. cbn [rbind].
    destruct (Nat.eqb c i1) eqn:E; [|now apply STOP].
    apply THR; auto. rewrite NX. apply Nat.eqb_eq in E. subst i1.
    exists o1. apply (through_at c 0); auto.
  - (* Electrolyzer *)
    destruct PO as (Ei & Eo).
    assert (Li : map (w_target_id W) (inl W n k) = ["in1"; "in2"]%string).
    { rewrite SI; [auto|]. rewrite Ei. sorted_small. }
    assert (Lo : map (w_source_id W) (outl W n k) = ["out1"; "out2"; "out3"]%string).
    { rewrite SO; [auto|]. rewrite Eo. sorted_small. }
    destruct (nth_in k 0 _ Li "in1" eq_refl) as (i1 & A1 & _).
    destruct (nth_out k 0 _ Lo "out1" eq_refl) as (o1 & F1 & _).
    unfold item at 1. rewrite A1 in *. cbn [rbind].
    destruct (Nat.eqb c i1) eqn:E; [|now apply STOP].
    apply THR; auto. rewrite NX. apply Nat.eqb_eq in E. subst i1.
    exists o1. apply (through_at c 0); auto.
Qed.

(* ---- starting points ---- *)

Lemma start_conns_ok k : has_comp n k -> is_branch_source (kind_of W k) = true ->
  exists os, start_conns W n k = Ok os /\ NoDup os /\
    forall o, In o os <-> starts W n o /\ w_source W o = k.
Proof.
  intros Hk Hb. pose proof (acc_ports k Hk) as PO. unfold ports_ok in PO.
  destruct (small_ports k Hk) as (SO & SI).
  assert (PORT : forall o, has_conn n o -> w_source W o = k -> In (w_source_id W o) (w_outlets W k)).
  { intros o Ho <-. destruct (acc_wf o Ho) as (_ & A & _). exact A. }
  assert (ONE : w_outlets W k = ["out1"%string] ->
    match kind_of W k with Source | CycleCloser | Merge | Combustion => True | _ => False end ->
    exists os, rmap (fun o => [o]) (item (outl W n k) 0) = Ok os /\ NoDup os /\
    forall o, In o os <-> starts W n o /\ w_source W o = k).
  { intros Eo Kk.
    assert (Lo : map (w_source_id W) (outl W n k) = ["out1"]%string).
    { rewrite SO; [auto|]. rewrite Eo. sorted_small. }
    destruct (nth_out k 0 _ Lo "out1" eq_refl) as (o1 & F1 & G1 & H1 & J1).
    exists [o1]. unfold item. rewrite F1. split; [auto|]. split; [repeat constructor; auto|].
    intros o. unfold starts. split.
    - intros [<-|[]]. split; [|auto]. split; [auto|]. rewrite H1. revert Kk. destruct (kind_of W k); intros Kk; auto; destruct Kk.
    - intros ((A & _) & B). left. apply same_out_port; auto; [congruence|].
      pose proof (PORT o A B) as X. rewrite Eo in X. destruct X as [X|[]]. congruence. }
  unfold start_conns. destruct (kind_of W k) eqn:K; try discriminate Hb; cbv zeta in PO; try (apply ONE; [apply PO|auto]; fail).
  - exists (outl W n k). split; [auto|]. split; [apply NoDup_outl|].
    intros o. rewrite In_outl. unfold starts. split; [intros (A & B)|tauto]. repeat split; auto. now rewrite B, K.
  - destruct PO as (Ei & Eo).
    assert (Lo : map (w_source_id W) (outl W n k) = ["out1"; "out2"; "out3"]%string).
    { rewrite SO; [auto|]. rewrite Eo. sorted_small. }
    destruct (nth_out k 2 _ Lo "out3" eq_refl) as (o1 & F1 & G1 & H1 & J1).
    exists [o1]. unfold item. rewrite F1. split; [auto|]. split; [repeat constructor; auto|].
    intros o. unfold starts. split.
    + intros [<-|[]]. split; [|auto]. split; [auto|]. rewrite H1, K. auto.
    + intros ((A & X) & B). left. rewrite B, K in X. apply same_out_port; auto; congruence.
  - destruct PO as (Ei & Eo).
    assert (Lo : map (w_source_id W) (outl W n k) = ["out1"; "out2"]%string).
    { rewrite SO; [auto|]. rewrite Eo. sorted_small. }
    destruct (nth_out k 1 _ Lo "out2" eq_refl) as (o1 & F1 & G1 & H1 & J1).
    exists [o1]. unfold item. rewrite F1. split; [auto|]. split; [repeat constructor; auto|].
    intros o. unfold starts. split.
    + intros [<-|[]]. split; [|auto]. split; [auto|]. rewrite H1, K. auto.
    + intros ((A & X) & B). left. rewrite B, K in X. apply same_out_port; auto; congruence.
  - destruct PO as (Ei & Eo).
    assert (Lo : map (w_source_id W) (outl W n k) = ["out1"; "out2"; "out3"]%string).
    { rewrite SO; [auto|]. rewrite Eo. sorted_small. }
    destruct (nth_out k 0 _ Lo "out1" eq_refl) as (o1 & F1 & G1 & H1 & J1).
    destruct (nth_out k 1 _ Lo "out2" eq_refl) as (o2 & F2 & G2 & H2 & J2).
    destruct (nth_out k 2 _ Lo "out3" eq_refl) as (o3 & F3 & G3 & H3 & J3).
    pose proof (NoDup_outl k) as ND. pose proof (fun x => In_outl k x) as IO.
    assert (LL : length (outl W n k) = 3) by (rewrite <- (map_length (w_source_id W)), Lo; reflexivity).
    destruct (outl W n k) as [|y1 [|y2 [|y3 [|y4 l]]]]; try discriminate LL.
    cbn in F1, F2, F3. inversion F1; inversion F2; inversion F3; subst y1 y2 y3. cbn [skipn].
    exists [o2; o3]. split; [auto|]. split; [inversion ND; auto|].
    intros o. unfold starts. split.
    + intros [<-|[<-|[]]]; split; auto; split; auto; [rewrite H2, K|rewrite H3, K]; auto.
    + intros ((A & X) & B). rewrite B, K in X. destruct X as [X|X]; [left|right; left]; apply same_out_port; auto; congruence.
Qed.

Definition so (k : nat) : list nat := match start_conns W n k with Ok l => l | Err _ => [] end.
Definition tree (f : nat) (s : nat) : list nat := s :: below f s.

Lemma start_list_ok f k : length cs < f -> forall os bs, (forall o, In o os -> starts W n o) ->
  (forall x, cnt x (alls bs) + cnt x (flat_map (tree f) os) <= 1) -> labels_ok bs ->
  exists bs', start_list W n f k os bs = Ok bs' /\
    (forall x, cnt x (alls bs') = cnt x (alls bs) + cnt x (flat_map (tree f) os)) /\ labels_ok bs' /\
    (forall m, balanced W n m -> uniforms m (get_all_subdictionaries bs) -> uniforms m (get_all_subdictionaries bs')).
Proof.
  intros Hf. induction os as [|o os IH]; intros bs Hs C L; cbn [start_list].
  - exists bs. split; [auto|]. split; [intros x; cbn [flat_map]; rewrite cnt_nil; lia|auto].
  - pose proof (Hs o (or_introl eq_refl)) as So. assert (Ho : has_conn n o) by apply So.
    change (flat_map (tree f) (o :: os)) with ((o :: below f o) ++ flat_map (tree f) os) in *.
    assert (Bo : bounded f o) by (destruct f as [|f']; [lia|]; apply start_bounded; auto).
    assert (Co : forall x, cnt x (o :: below f o) <= 1) by (intros x; specialize (C x); rewrite cnt_app in C; lia).
    destruct (fresh_branch f o k (propagate_ok f) Bo Ho Co) as (c1 & k1 & s1 & E1 & X1 & _ & _ & M1).
    unfold start_one. rewrite E1. cbn [rbind]. set (b := Branch c1 k1 s1) in *.
    assert (Fr : dget (w_label W o) bs = None).
    { apply labels_fresh; auto. specialize (C o). rewrite cnt_app, (cnt_cons o o), cnt_self in C. lia. }
    rewrite (dset_fresh _ _ _ Fr).
    assert (Hin : In o (allc b)) by (apply cnt_In; rewrite X1, cnt_cons, cnt_self; lia).
    destruct (IH (bs ++ [(w_label W o, b)])) as (bs' & E2 & X2 & L2 & M2).
    + intros; apply Hs; now right.
    + intros x. rewrite alls_snoc, cnt_app, X1. specialize (C x). rewrite cnt_app in C. lia.
    + now apply labels_snoc.
    + exists bs'. split; [auto|]. split; [|split; [auto|]].
      * intros x. rewrite X2, alls_snoc, !cnt_app, X1. lia.
      * intros m Bm U. apply M2; auto. apply uniforms_snoc; auto.
Qed.

Lemma start_branches_ok f : length cs < f -> forall ks bs,
  (forall k, In k ks -> has_comp n k /\ is_branch_source (kind_of W k) = true) ->
  (forall x, cnt x (alls bs) + cnt x (flat_map (tree f) (flat_map so ks)) <= 1) -> labels_ok bs ->
  exists bs', start_branches W n f ks bs = Ok bs' /\
    (forall x, cnt x (alls bs') = cnt x (alls bs) + cnt x (flat_map (tree f) (flat_map so ks))) /\
    (forall m, balanced W n m -> uniforms m (get_all_subdictionaries bs) -> uniforms m (get_all_subdictionaries bs')).
Proof.
  intros Hf. induction ks as [|k ks IH]; intros bs Hk C L; cbn [start_branches].
  - exists bs. split; [auto|]. split; [intros x; cbn [flat_map]; rewrite cnt_nil; lia|auto].
  - destruct (Hk k (or_introl eq_refl)) as (Hc & Hb).
    destruct (start_conns_ok k Hc Hb) as (os & E & ND & So).
    assert (Es : so k = os) by (unfold so; now rewrite E).
    cbn [flat_map] in C |- *. rewrite Es in C |- *. rewrite flat_map_app in C |- *.
    rewrite E. cbn [rbind].
    destruct (start_list_ok f k Hf os bs) as (b1 & E1 & X1 & L1 & M1); auto.
    + intros o Ho. now apply So.
    + intros x. specialize (C x). rewrite cnt_app in C. lia.
    + rewrite E1. cbn [rbind].
      destruct (IH b1) as (b2 & E2 & X2 & M2); auto.
      * intros; apply Hk; now right.
      * intros x. specialize (C x). rewrite cnt_app in C. rewrite X1. lia.
      * exists b2. split; [auto|]. split; [|auto].
        intros x. rewrite X2, X1, cnt_app. lia.
Qed.

Definition source_comps : list nat := filter (fun k => is_branch_source (kind_of W k)) (map snd (n_comps n)).

Lemma source_comps_ok k : In k source_comps -> has_comp n k /\ is_branch_source (kind_of W k) = true.
Proof. unfold source_comps. rewrite filter_In. intros (A & B). split; [now apply has_comp_In|auto]. Qed.

Lemma NoDup_comps : NoDup (map snd (n_comps n)).
Proof.
  destruct ACC as (_ & (ND & L) & _). induction (n_comps n) as [|[l c] d IH]; cbn; [constructor|].
  cbn in ND. inversion ND as [|? ? A B]; subst. constructor.
  - intros H. apply in_map_iff in H. destruct H as ([l' c'] & E & H). cbn in E; subst c'.
    assert (l = l') by (rewrite <- (L l c (or_introl eq_refl)), <- (L l' c (or_intror H)); auto). subst l'.
    apply A. change l with (fst (l, c)). now apply in_map.
  - apply IH; [auto|]. intros; apply L; now right.
Qed.

Lemma In_starts s : In s (flat_map so source_comps) <-> starts W n s.
Proof.
  rewrite in_flat_map. split.
  - intros (k & Hk & Hs). apply source_comps_ok in Hk. destruct Hk as (A & B).
    destruct (start_conns_ok k A B) as (os & E & _ & So). unfold so in Hs. rewrite E in Hs. now apply So.
  - intros Hs. assert (Hc : has_conn n s) by apply Hs.
    destruct (acc_wf s Hc) as (_ & _ & _ & Hk & _).
    assert (Hb : is_branch_source (kind_of W (w_source W s)) = true).
    { destruct Hs as (_ & Hs). destruct (kind_of W (w_source W s)); auto; contradiction. }
    exists (w_source W s). split; [unfold source_comps; rewrite filter_In; split; [now apply has_comp_In|auto]|].
    destruct (start_conns_ok _ Hk Hb) as (os & E & _ & So). unfold so. rewrite E. apply So. auto.
Qed.

Lemma NoDup_starts : NoDup (flat_map so source_comps).
Proof.
  apply NoDup_flat_map.
  - apply NoDup_filter, NoDup_comps.
  - intros k Hk. apply source_comps_ok in Hk. destruct Hk as (A & B).
    destruct (start_conns_ok k A B) as (os & E & ND & _). unfold so. now rewrite E.
  - intros k k' x Hk Hk' Hx Hx'. apply source_comps_ok in Hk, Hk'. destruct Hk as (A & B), Hk' as (A' & B').
    destruct (start_conns_ok k A B) as (os & E & _ & So). destruct (start_conns_ok k' A' B') as (os' & E' & _ & So').
    unfold so in Hx, Hx'. rewrite E in Hx. rewrite E' in Hx'. apply So in Hx. apply So' in Hx'. destruct Hx, Hx'. congruence.
Qed.

Lemma tree_NoDup f : length cs < f -> NoDup (flat_map (tree f) (flat_map so source_comps)).
Proof.
  intros Hf. apply NoDup_flat_map; [apply NoDup_starts| |].
  - intros s Hs. apply In_starts in Hs. apply (below_NoDup s Hs f 0 s); [reflexivity|apply Hs].
  - intros s s' x Hs Hs' Hx Hx'. apply In_starts in Hs, Hs'.
    assert (R : forall t, starts W n t -> In x (tree f t) -> exists i, steps W n i t x).
    { intros t Ht [<-|H]; [exists 0; reflexivity|].
      destruct (below_steps f t x (proj1 Ht) H) as (j & Hj). eauto. }
    destruct (R s Hs Hx) as (i & Hi), (R s' Hs' Hx') as (j & Hj).
    exact (proj1 (starts_unique s s' i j x Hs Hs' Hi Hj)).
Qed.

Lemma create_ok f : length cs < f -> source_comps <> [] ->
  exists bs, create_branches W n f = Ok bs /\
    NoDup (branch_conns (massflow_branches bs)) /\
    (forall c, In c (branch_conns (massflow_branches bs)) <-> exists s i, starts W n s /\ steps W n i s c) /\
    (forall m, balanced W n m -> uniforms m (massflow_branches bs)).
Proof.
  intros Hf Hne. pose proof (tree_NoDup f Hf) as ND.
  destruct (start_branches_ok f Hf source_comps []) as (bs & E & X & M).
  - apply source_comps_ok.
  - intros x. change (alls []) with (@nil nat). rewrite cnt_nil. apply cnt_NoDup, ND.
  - intros l [].
  - exists bs. split.
    + unfold create_branches. fold source_comps. destruct source_comps; [congruence|auto].
    + change (alls []) with (@nil nat) in X. unfold massflow_branches. fold (alls bs). split; [|split].
      * apply cnt_NoDup. intros x. rewrite X, cnt_nil. apply cnt_NoDup, ND.
      * intros c. rewrite cnt_In, X, cnt_nil. cbn [plus]. rewrite <- cnt_In, in_flat_map. split.
        -- intros (s & Hs & Hc). apply In_starts in Hs. exists s. destruct Hc as [<-|Hc].
           ++ exists 0. split; [auto|reflexivity].
           ++ destruct (below_steps f s c (proj1 Hs) Hc) as (j & Hj). eauto.
        -- intros (s & i & Hs & Hi). exists s. split; [now apply In_starts|]. destruct i as [|i]; [left; exact Hi|right].
           destruct f as [|f']; [lia|]. eapply steps_below; eauto; [now apply start_bounded|apply Hs].
      * intros m Bm. apply M; auto. intros b [].
Qed.

Lemma create_none f : source_comps = [] -> create_branches W n f = Err TESPyNetworkError.
Proof. unfold create_branches. fold source_comps. now intros ->. Qed.

Lemma chain_length : loop_free W n -> forall i a c, has_conn n c -> steps W n i a c ->
  exists l, length l = S i /\ NoDup l /\ incl l cs /\ forall x, In x l -> exists j, steps W n j x c.
Proof.
  intros LF. induction i as [|i IH]; intros a c Hc Hs.
  - exists [c]. split; [auto|]. split; [repeat constructor; auto|]. split.
    + intros x [<-|[]]. now apply has_conn_In.
    + intros x [<-|[]]. exists 0. reflexivity.
  - destruct Hs as (x & Hs & Hf). destruct (IH a x) as (l & A & B & C & D); [apply Hf|auto|].
    exists (c :: l). split; [cbn; lia|]. split; [constructor; [|auto]|split].
    + intros H. destruct (D c H) as (j & Hj). apply (LF c j). exists x. auto.
    + intros y [<-|H]; [now apply has_conn_In|auto].
    + intros y [<-|H]; [exists 0; reflexivity|]. destruct (D y H) as (j & Hj). exists (S j), x. auto.
Qed.

Lemma back_chain : forall i c, has_conn n c ->
  (exists s j, starts W n s /\ steps W n j s c) \/ exists a, has_conn n a /\ steps W n i a c.
Proof.
  induction i as [|i IH]; intros c Hc; [right; exists c; split; [auto|reflexivity]|].
  destruct (IH c Hc) as [H|(a & Ha & H)]; [auto|].
  destruct (start_or_pred a Ha) as [S|(b & Hb)]; [left; eauto|].
  right. exists b. split; [apply Hb|]. replace (S i) with (i + 1) by lia. eapply steps_app; [|exact H].
  exists b. split; [reflexivity|auto].
Qed.

Lemma covers c : loop_free W n -> has_conn n c -> exists s i, starts W n s /\ steps W n i s c.
Proof.
  intros LF Hc. destruct (back_chain (length cs) c Hc) as [H|(a & Ha & H)]; [auto|exfalso].
  destruct (chain_length LF _ _ _ Hc H) as (l & A & B & C & _).
  pose proof (NoDup_incl_length B C). lia.
Qed.
End P.

Lemma fluid_flat d : concat (map snd (fluid_branches d)) = massflow_branches d.
Proof.
  unfold fluid_branches, massflow_branches. induction d as [|[l b] d IH]; [auto|].
  cbn [map concat fst snd]. rewrite IH. unfold get_all_subdictionaries at 3. cbn [flat_map snd].
  fold (get_all_subdictionaries d). f_equal. destruct b as [c k s]. now rewrite flatten_eq.
Qed.

(* ---- check_network ---- *)

Lemma init_components_frame W n :
  n_conns (init_components W n) = n_conns n /\ n_comps (init_components W n) = n_comps n.
Proof.
  unfold init_components. generalize (map snd (n_comps n)) as ks. intros ks. revert n.
  induction ks as [|k ks IH]; intros n; cbn [fold_left]; [auto|].
  destruct (IH (n_with_results n (sadd (w_class W k) (n_results n)) (n_checked n))) as (A & B). rewrite A, B. auto.
Qed.

Lemma create_branches_ext W n n' f : n_conns n' = n_conns n -> n_comps n' = n_comps n ->
  create_branches W n' f = create_branches W n f.
Proof. destruct n as [a b c d], n' as [a' b' c' d']. cbn [n_conns n_comps]. intros -> ->. reflexivity. Qed.

Lemma check_components_ext W ks n n' : n_conns n' = n_conns n -> check_components W ks n' = check_components W ks n.
Proof. intros E. induction ks as [|k ks IH]; cbn; [auto|]. now rewrite E, IH. Qed.

(** A successful check accepted the topology and built the branches. *)
Lemma check_network_ok W f n n' bs : conns_ok W n -> comps_ok W n -> mirrored W n -> world_ok W n ->
  (forall k, has_comp n k -> ports_ok W k) -> check_network W f n = (n', Ok bs) ->
  accepted W n /\ create_branches W n f = Ok bs /\ n_conns n' = n_conns n /\ n_comps n' = n_comps n /\ n_checked n' = true.
Proof.
  intros A B C D E H. unfold check_network in H. destruct (n_conns n) eqn:EC; [inversion H|].
  rewrite <- EC in *. destruct (check_conns W n) eqn:E1; [inversion H|].
  destruct (init_components_frame W n) as (F1 & F2).
  rewrite F2, (check_components_ext W _ n _ F1) in H.
  destruct (check_components W (map snd (n_comps n)) n) eqn:E2; [inversion H|].
  rewrite (create_branches_ext W n _ f F1 F2) in H.
  destruct (create_branches W n f) eqn:E3; [|inversion H]. inversion H; subst.
  repeat split; auto; try apply A; try apply B; try apply C; try apply D.
Qed.

Lemma check_network_frame W f n : n_conns (fst (check_network W f n)) = n_conns n /\
  n_comps (fst (check_network W f n)) = n_comps n.
Proof.
  unfold check_network. destruct (n_conns n) eqn:EC; [cbn; auto|]. rewrite <- EC.
  destruct (check_conns W n); [cbn; auto|]. destruct (init_components_frame W n) as (F1 & F2).
  destruct (check_components _ _ _); [cbn; auto|]. destruct (create_branches _ _ _); cbn; auto.
Qed.

(* ---- statements about check_network ---- *)

Lemma check_outcome W n f : sound_net W n -> length (n_conns n) < f ->
  let r := snd (check_network W f n) in (exists bs, r = Ok bs) \/ r = Err TESPyNetworkError.
Proof.
  intros (A & B & C & D & E) Hf r. unfold r, check_network. destruct (n_conns n) eqn:EC; [auto|]. rewrite <- EC in *.
  destruct (check_conns W n) as [e|] eqn:E1.
  { cbn. right. f_equal. unfold check_conns in E1.
    destruct (has_duplicate (map (out_port W) _)); [congruence|].
    destruct (has_duplicate (map (in_port W) _)); congruence. }
  destruct (init_components_frame W n) as (F1 & F2).
  rewrite F2, (check_components_ext W _ n _ F1).
  destruct (check_components W (map snd (n_comps n)) n) as [e|] eqn:E2.
  { cbn. right. f_equal. revert E2. generalize (map snd (n_comps n)). intros l.
    induction l as [|k l IH]; cbn; [discriminate|].
    destruct (negb _); [congruence|]. destruct (negb _); [congruence|]. auto. }
  rewrite (create_branches_ext W n _ f F1 F2).
  assert (ACC : accepted W n) by (repeat split; auto; try apply A; try apply B; try apply C; try apply D).
  destruct (source_comps W n) eqn:ES.
  - rewrite (create_none W n f ES). cbn. auto.
  - destruct (create_ok W n ACC f) as (bs & Hb & _); [now rewrite map_length|congruence|].
    rewrite Hb. cbn. eauto.
Qed.

Lemma check_branches W n f n' bs : sound_net W n -> length (n_conns n) < f -> check_network W f n = (n', Ok bs) ->
  NoDup (branch_conns (massflow_branches bs)) /\
  (forall c, In c (branch_conns (massflow_branches bs)) <-> on_stream W n c) /\
  (forall m, balanced W n m -> forall b, In b (massflow_branches bs) -> forall c d, In c (fst b) -> In d (fst b) -> (m c == m d)%Q).
Proof.
  intros (A & B & C & D & E) Hf H.
  destruct (check_network_ok W f n n' bs A B C D E H) as (ACC & Hb & _).
  assert (ES : source_comps W n <> []).
  { intros ES. rewrite (create_none W n f ES) in Hb. discriminate. }
  destruct (create_ok W n ACC f) as (bs' & Hb' & N & R & U); [now rewrite map_length|auto|].
  rewrite Hb in Hb'. inversion Hb'; subst bs'. split; [auto|]. split; [exact R|].
  intros m Bm b Hin c d Hc Hd. exact (U m Bm b Hin c d Hc Hd).
Qed.

Lemma check_covers W n f n' bs : sound_net W n -> length (n_conns n) < f -> check_network W f n = (n', Ok bs) ->
  loop_free W n -> forall c, has_conn n c -> In c (branch_conns (massflow_branches bs)).
Proof.
  intros SN Hf H LF c Hc. apply (check_branches W n f n' bs SN Hf H).
  destruct SN as (A & B & C & D & E).
  destruct (check_network_ok W f n n' bs A B C D E H) as (ACC & _). now apply covers.
Qed.

(* ---- witnesses ---- *)

Definition mkW (cls clab : list string) (ins outs : list (list string)) (lab : list string)
  (ends : list (nat * string * nat * string)) : world := {|
  w_class := fun k => nth k cls ""%string; w_clabel := fun k => nth k clab ""%string;
  w_inlets := fun k => nth k ins []; w_outlets := fun k => nth k outs [];
  w_label := fun c => nth c lab ""%string;
  w_source := fun c => fst (fst (fst (nth c ends (0, "", 0, "")%string)));
  w_source_id := fun c => snd (fst (fst (nth c ends (0, "", 0, "")%string)));
  w_target := fun c => snd (fst (nth c ends (0, "", 0, "")%string));
  w_target_id := fun c => snd (nth c ends (0, "", 0, "")%string) |}.

(** Source 0 -> Sink 1, and a closed loop of Pump 2 and Pipe 3. *)
Definition loopW : world := mkW ["Source"; "Sink"; "Pump"; "Pipe"]%string ["so"; "si"; "pu"; "pi"]%string
  [[]; ["in1"]; ["in1"]; ["in1"]]%string [["out1"]; []; ["out1"]; ["out1"]]%string ["a"; "b"; "c"]%string
  [(0, "out1", 1, "in1"); (2, "out1", 3, "in1"); (3, "out1", 2, "in1")]%string.
Definition loopN : net := history loopW (nodup Nat.eq_dec) (fun n => n) [TopoSpec.Add (map AConn [0; 1; 2])] empty_net.

(** Source 0 -> Drum 1 -> Sink 3, circulation through SimpleHeatExchanger 2. *)
Definition drumW : world := mkW ["Source"; "Drum"; "SimpleHeatExchanger"; "Sink"]%string ["so"; "dr"; "ev"; "si"]%string
  [[]; ["in1"; "in2"]; ["in1"]; ["in1"]]%string [["out1"]; ["out1"; "out2"]; ["out1"]; []]%string ["a"; "b"; "c"; "d"]%string
  [(0, "out1", 1, "in1"); (1, "out1", 2, "in1"); (2, "out1", 1, "in2"); (1, "out2", 3, "in1")]%string.
Definition drumN : net := history drumW (nodup Nat.eq_dec) (fun n => n) [TopoSpec.Add (map AConn [0; 1; 2; 3])] empty_net.

Lemma small_world W n args : n = history W (nodup Nat.eq_dec) (fun n => n) [TopoSpec.Add args] empty_net ->
  add_conns W (nodup Nat.eq_dec) args empty_net = (n, None) ->
  (forall c, In c (arg_conns args) ->
     create_conn W (w_source W c) (w_source_id W c) (w_target W c) (w_target_id W c) = None /\
     ports_ok W (w_source W c) /\ ports_ok W (w_target W c)) ->
  (forall k, NoDup (w_outlets W k) /\ NoDup (w_inlets W k)) -> sound_net W n.
Proof.
  intros En E P ND. destruct (empty_mirrored W) as (A & B).
  assert (I : conns_ok W n) by (rewrite En; apply history_conns_ok; [split; auto|apply empty_conns_ok]).
  assert (M : mirrored W n) by (apply (add_conns_mirrored W (nodup Nat.eq_dec) args empty_net); auto using nodup_order, empty_conns_ok).
  assert (HC : forall c, has_conn n c -> In c (arg_conns args)).
  { intros c Hc. apply (add_conns_effect W (nodup Nat.eq_dec) args empty_net n (empty_conns_ok W) E) in Hc.
    destruct Hc as [(l & [])|Hc]; auto. }
  split; [auto|]. split; [rewrite En; apply history_comps_ok; auto; [split; auto|apply empty_conns_ok]|].
  split; [auto|]. split; [split; [intros c Hc; now apply P, HC|auto]|].
  intros k Hk. apply M in Hk. destruct Hk as (c & Hc & [<-|<-]); apply P, HC, Hc.
Qed.

Ltac small_ports_tac := repeat (match goal with
  | |- NoDup [] => constructor
  | |- NoDup (_ :: _) => constructor; [cbn; intuition discriminate|]
  end).

Lemma loop_sound : sound_net loopW loopN.
Proof.
  apply small_world with (args := map AConn [0; 1; 2]); [reflexivity|vm_compute; reflexivity| |].
  - intros c Hc. cbn in Hc. destruct Hc as [<-|[<-|[<-|[]]]]; (split; [reflexivity|split]); cbn; auto;
      exists ["1"%string]; auto.
  - intros k. do 4 (destruct k as [|k]; [cbn; split; small_ports_tac|]). cbn. destruct k; cbn; split; constructor.
Qed.

Lemma drum_sound : sound_net drumW drumN.
Proof.
  apply small_world with (args := map AConn [0; 1; 2; 3]); [reflexivity|vm_compute; reflexivity| |].
  - intros c Hc. cbn in Hc. destruct Hc as [<-|[<-|[<-|[<-|[]]]]]; (split; [reflexivity|split]); cbn; auto;
      exists ["1"%string]; auto.
  - intros k. do 4 (destruct k as [|k]; [cbn; split; small_ports_tac|]). cbn. destruct k; cbn; split; constructor.
Qed.

Lemma loop_uncovered : exists W n f n' bs c, sound_net W n /\ length (n_conns n) < f /\
  check_network W f n = (n', Ok bs) /\ has_conn n c /\ ~ In c (branch_conns (massflow_branches bs)).
Proof.
  exists loopW, loopN, 10, (fst (check_network loopW 10 loopN)), [("a"%string, Branch [0] [0; 1] [])], 1.
  split; [apply loop_sound|]. split; [vm_compute; lia|]. split; [vm_compute; reflexivity|].
  split; [exists "b"%string; vm_compute; auto|]. vm_compute. intuition discriminate.
Qed.
