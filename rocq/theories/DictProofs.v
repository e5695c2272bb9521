(** Lemmas about merge_dicts. *)
From Verif Require Import DictModel DictSpec.

Lemma tree_ind' (P : tree -> Prop) :
  (forall z, P (Leaf z)) ->
  (forall d, (forall k t, In (k, t) d -> P t) -> P (Node d)) ->
  forall t, P t.
Proof.
  intros HL HN. fix IH 1. intros [z|d]; [apply HL|]. apply HN.
  assert (F : Forall (fun kt => P (snd kt)) d).
  { induction d as [|[k t] d IHd]; constructor; [apply IH|apply IHd]. }
  intros k t H. rewrite Forall_forall in F. apply (F _ H).
Qed.

(** The loop of merge_dicts on an accumulator that is a dictionary. *)
Fixpoint go (acc : tree) (l : list (string * tree)) : res tree :=
  match l with
  | [] => Ok acc
  | (k, v) :: l' =>
      match acc with
      | Leaf _ => Err (match v with Node _ => AttributeError | Leaf _ => TypeError end)
      | Node d =>
          match v with
          | Node _ => rbind (merge_dicts (getd k d) v) (fun s => go (Node (dset k s d)) l')
          | Leaf _ => go (Node (dset k v d)) l'
          end
      end
  end.

Lemma merge_go t1 kvs : merge_dicts t1 (Node kvs) = go t1 kvs.
Proof.
  cbn [merge_dicts]. revert t1. induction kvs as [|[k v] kvs IH]; intros t1; [reflexivity|].
  destruct t1 as [z|d]; [reflexivity|]. cbn [go]. destruct v as [z|d2]; [apply IH|].
  destruct (merge_dicts (getd k d) (Node d2)); cbn [rbind]; [apply IH|reflexivity].
Qed.

(** One key of the result. *)
Definition entry (d : dict tree) (k : string) (v : tree) : res tree :=
  match v with Leaf _ => Ok v | Node _ => merge_dicts (getd k d) v end.

Lemma go_node_spec kvs : forall d r,
  NoDup (keys kvs) -> go (Node d) kvs = Ok r ->
  exists dr, r = Node dr /\
    forall k, match dget k kvs with
              | None => dget k dr = dget k d
              | Some v => exists s, entry d k v = Ok s /\ dget k dr = Some s
              end.
Proof.
  induction kvs as [|[k v] kvs IH]; intros d r Hn H.
  - cbn in H. inversion H; subst. exists d. split; [auto|]. intros k; reflexivity.
  - cbn [keys map fst] in Hn. inversion Hn as [|? ? Hk Hn']; subst.
    assert (Hk' : dget k kvs = None) by (now apply dget_None_notin).
    assert (X : exists s, entry d k v = Ok s /\ go (Node (dset k s d)) kvs = Ok r).
    { cbn [go] in H. destruct v as [z|d2]; [exists (Leaf z); auto|].
      cbn [entry]. destruct (merge_dicts (getd k d) (Node d2)) as [s|e]; [|discriminate].
      exists s; auto. }
    destruct X as (s & Hs & Hgo). apply IH in Hgo; [|auto].
    destruct Hgo as (dr & -> & Hdr). exists dr. split; [auto|]. intros k'.
    specialize (Hdr k'). cbn [dget]. destruct (String.eqb k' k) eqn:E.
    + apply String.eqb_eq in E; subst k'. rewrite Hk' in Hdr. rewrite dget_dset_eq in Hdr.
      exists s; auto.
    + apply String.eqb_neq in E.
      destruct (dget k' kvs) as [v'|].
      * destruct Hdr as (s' & Hs' & Hg). exists s'. split; [|auto].
        destruct v'; cbn [entry] in *; auto. unfold getd in *.
        rewrite dget_dset_neq in Hs' by auto. auto.
      * rewrite dget_dset_neq in Hdr by auto. auto.
Qed.

Lemma go_node_ok kvs : forall d,
  NoDup (keys kvs) -> (forall k v, In (k, v) kvs -> exists s, entry d k v = Ok s) ->
  exists r, go (Node d) kvs = Ok r.
Proof.
  induction kvs as [|[k v] kvs IH]; intros d Hn H; [eexists; reflexivity|].
  cbn [keys map fst] in Hn. inversion Hn as [|? ? Hk Hn']; subst.
  destruct (H k v (or_introl eq_refl)) as (s & Hs).
  assert (G : exists r, go (Node (dset k s d)) kvs = Ok r).
  { apply IH; [auto|]. intros k' v' Hin. destruct (H k' v' (or_intror Hin)) as (s' & Hs').
    exists s'. destruct v' as [|]; cbn [entry] in *; auto. unfold getd in *.
    rewrite dget_dset_neq; auto. intros ->. apply Hk. change k with (fst (k, Node d0)). now apply in_map. }
  destruct G as (r & Hr). exists r. cbn [go]. destruct v as [z|d2]; cbn [entry] in Hs.
  - inversion Hs; subst; auto.
  - rewrite Hs. auto.
Qed.

Lemma go_node_err kvs : forall d k v,
  NoDup (keys kvs) -> In (k, v) kvs -> is_ok (entry d k v) = false -> is_ok (go (Node d) kvs) = false.
Proof.
  intros d k v Hn Hin He. destruct (go (Node d) kvs) as [r|e] eqn:E; [|auto].
  apply go_node_spec in E; [|auto]. destruct E as (dr & _ & H). specialize (H k).
  rewrite (In_dget _ _ _ Hn Hin) in H. destruct H as (s & Hs & _). rewrite Hs in He. discriminate.
Qed.

Lemma value_at_cons k p d :
  value_at (k :: p) (Node d) = match dget k d with Some t => value_at p t | None => None end.
Proof. unfold value_at. cbn [at_path]. destruct (dget k d); auto. Qed.

Lemma value_at_nil t : value_at [] t = match t with Leaf z => Some z | _ => None end.
Proof. reflexivity. Qed.

Lemma value_at_cons_leaf k p z : value_at (k :: p) (Leaf z) = None.
Proof. reflexivity. Qed.

Lemma value_at_cons_empty p : value_at p (Node []) = None.
Proof. destruct p; reflexivity. Qed.

Lemma prefix_nil p : prefix_of [] p.
Proof. exists p; auto. Qed.

Lemma prefix_cons k q p : prefix_of (k :: q) (k :: p) <-> prefix_of q p.
Proof.
  split; intros (s & H); exists s; cbn in *; [injection H; auto|congruence].
Qed.

Lemma prefix_nil_inv q : prefix_of q [] -> q = [].
Proof. intros (s & H). symmetry in H. now apply app_eq_nil in H. Qed.

Lemma prefix_cons_inv q k p : prefix_of q (k :: p) -> q = [] \/ exists q', q = k :: q' /\ prefix_of q' p.
Proof.
  intros (s & H). destruct q as [|x q]; [auto|]. right. cbn in H. injection H; intros; subst.
  exists q. split; [auto|exists s; auto].
Qed.

Definition overrides (t1 t2 : tree) (p : list string) (z : Z) : Prop :=
  value_at p t2 = Some z \/
  (value_at p t1 = Some z /\ forall q, prefix_of q p -> value_at q t2 = None).

Lemma merge_values t2 : wf_dict t2 -> forall t1 r,
  merge_dicts t1 t2 = Ok r ->
  forall p z, value_at p r = Some z <-> overrides t1 t2 p z.
Proof.
  induction t2 as [z2|kvs IH] using tree_ind'; intros Hw t1 r H; [discriminate|].
  rewrite merge_go in H. inversion Hw as [|? Hn Hsub]; subst.
  destruct t1 as [z1|d].
  - (* a leaf as first argument: only an empty dictionary can be merged into it *)
    destruct kvs as [|[k v] kvs]; [|cbn in H; discriminate].
    cbn in H. inversion H; subst. intros p z. unfold overrides.
    split.
    + intros Hv. right. split; [auto|]. intros q _. apply value_at_cons_empty.
    + intros [Hv|[Hv _]]; [rewrite value_at_cons_empty in Hv; discriminate|auto].
  - apply go_node_spec in H; [|auto]. destruct H as (dr & -> & Hdr).
    intros p z. destruct p as [|k p].
    + unfold overrides. rewrite !value_at_nil. split; [discriminate|]. intros [?|[? _]]; discriminate.
    + unfold overrides. rewrite !value_at_cons. specialize (Hdr k).
      assert (Hpre : (forall q, prefix_of q (k :: p) -> value_at q (Node kvs) = None) <->
                     (forall q, prefix_of q p ->
                        match dget k kvs with Some v => value_at q v | None => None end = None)).
      { split; intros Hq q Hp.
        - rewrite <- value_at_cons. apply Hq. now apply prefix_cons.
        - apply prefix_cons_inv in Hp. destruct Hp as [->|(q' & -> & Hp)]; [reflexivity|].
          rewrite value_at_cons. auto. }
      rewrite Hpre. clear Hpre.
      destruct (dget k kvs) as [v|] eqn:Ek.
      * destruct Hdr as (s & Hs & ->). destruct v as [zv|dv]; cbn [entry] in Hs.
        -- inversion Hs; subst s. split; [auto|]. intros [Hv|[_ Hq]]; [auto|].
           specialize (Hq [] (prefix_nil p)). discriminate.
        -- pose proof (dget_In _ _ _ Ek) as Hin.
           rewrite (IH _ _ Hin (Hsub _ _ Hin) _ _ Hs p z). unfold overrides.
           unfold getd. destruct (dget k d) as [t|]; [tauto|]. rewrite value_at_cons_empty.
           split; [intros [?|[? _]]; [auto|discriminate]|intros [?|[? _]]; [auto|discriminate]].
      * rewrite Hdr. split; [intros Hv; right; split; auto|]. intros [?|[? _]]; [discriminate|auto].
Qed.

Lemma merge_keys kvs d r : NoDup (keys kvs) ->
  merge_dicts (Node d) (Node kvs) = Ok r ->
  exists dr, r = Node dr /\ forall k, In k (keys dr) <-> In k (keys d) \/ In k (keys kvs).
Proof.
  intros Hn H. rewrite merge_go in H. apply go_node_spec in H; [|auto].
  destruct H as (dr & -> & Hdr). exists dr. split; [auto|]. intros k. specialize (Hdr k).
  rewrite <- !dmem_In. unfold dmem. destruct (dget k kvs).
  - destruct Hdr as (s & _ & ->). tauto.
  - rewrite Hdr. destruct (dget k d); intuition discriminate.
Qed.

Lemma conflict_cons k t1 v d1 d2 :
  dget k d1 = Some t1 -> dget k d2 = Some v -> conflict t1 v -> conflict (Node d1) (Node d2).
Proof.
  intros H1 H2 (p & k' & A & B). exists (k :: p), k'. rewrite value_at_cons, H1. split; [auto|].
  cbn [app at_path]. rewrite H2. auto.
Qed.

Lemma conflict_cons_inv d1 d2 :
  conflict (Node d1) (Node d2) ->
  exists k t1 v, dget k d1 = Some t1 /\ dget k d2 = Some v /\ conflict t1 v.
Proof.
  intros (p & k' & A & B). destruct p as [|k p]; [cbn in A; congruence|].
  rewrite value_at_cons in A. cbn [app at_path] in B.
  destruct (dget k d1) as [t1|] eqn:E1; [|congruence].
  destruct (dget k d2) as [v|] eqn:E2; [|congruence].
  exists k, t1, v. repeat split; auto. exists p, k'. auto.
Qed.

Lemma no_conflict_empty t : ~ conflict (Node []) t.
Proof. intros (p & k & A & _). rewrite value_at_cons_empty in A. congruence. Qed.

Lemma merge_ok_iff kvs : wf_dict (Node kvs) -> forall t1,
  is_ok (merge_dicts t1 (Node kvs)) = false <-> conflict t1 (Node kvs).
Proof.
  remember (Node kvs) as t2 eqn:Et. revert kvs Et.
  induction t2 as [z2|d2 IH] using tree_ind'; intros kvs Et Hw t1; [discriminate|].
  injection Et; intros ->. rewrite merge_go. inversion Hw as [|? Hn Hsub]; subst.
  destruct t1 as [z1|d].
  - destruct kvs as [|[k v] kvs].
    + cbn. split; [discriminate|]. intros (p & k & A & B). destruct p as [|x p]; cbn in *; congruence.
    + cbn. split; [|auto]. intros _. exists [], k. cbn. rewrite String.eqb_refl. split; discriminate.
  - split.
    + intros He.
      assert (D : (forall k v, In (k, v) kvs -> exists s, entry d k v = Ok s) \/
                  exists k v, In (k, v) kvs /\ is_ok (entry d k v) = false).
      { clear. induction kvs as [|[k v] kvs IHk]; [left; intros ? ? []|].
        destruct (entry d k v) as [s|e] eqn:E.
        - destruct IHk as [IHk|(k' & v' & Hin & He)].
          + left. intros k' v' [H|H]; [injection H; intros; subst; eauto|auto].
          + right. exists k', v'. split; [now right|auto].
        - right. exists k, v. split; [now left|now rewrite E]. }
      destruct D as [D|(k & v & Hin & Hb)].
      * apply go_node_ok in D; [|auto]. destruct D as (r & Hr). rewrite Hr in He. discriminate.
      * destruct v as [z|dv]; [discriminate|]. cbn [entry] in Hb.
        rewrite (IH _ _ Hin dv eq_refl (Hsub _ _ Hin)) in Hb. unfold getd in Hb.
        destruct (dget k d) as [t|] eqn:E; [|now apply no_conflict_empty in Hb].
        eapply conflict_cons; eauto. now apply In_dget.
    + intros Hc. apply conflict_cons_inv in Hc. destruct Hc as (k & t & v & E1 & E2 & Hc).
      pose proof (dget_In _ _ _ E2) as Hin.
      eapply go_node_err; [auto|exact Hin|].
      destruct v as [z|dv].
      * exfalso. destruct Hc as (p & k' & A & B). destruct p as [|x p]; cbn in B; congruence.
      * cbn [entry]. unfold getd. rewrite E1. apply (IH _ _ Hin dv eq_refl (Hsub _ _ Hin)). auto.
Qed.
