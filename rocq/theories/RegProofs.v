(** Lemmas about registries. *)
From Verif Require Import RegModel RegSpec.
Open Scope nat_scope.
Open Scope list_scope.

Definition table_ok (label : nat -> string) (d : dict nat) : Prop :=
  NoDup (keys d) /\ forall l o, In (l, o) d -> label o = l.

Lemma In_dset_fresh {V} (l k : string) (x y : V) d : dget l d = None ->
  (In (k, y) (dset l x d) <-> In (k, y) d \/ (k = l /\ y = x)).
Proof.
  induction d as [|[k1 v1] d IH]; cbn; intros H.
  - split; [intros [A|[]]; inversion A; auto|]. intros [[]|[-> ->]]; auto.
  - destruct (String.eqb l k1) eqn:E; [discriminate|]. cbn. rewrite IH; [|auto]. tauto.
Qed.

Lemma In_ddel {V} (k l : string) (x : V) d : NoDup (keys d) ->
  (In (k, x) (ddel l d) <-> In (k, x) d /\ k <> l).
Proof.
  induction d as [|[k1 v1] d IH]; cbn [ddel]; intros H; [cbn; tauto|].
  inversion H as [|? ? H1 H2]; subst. destruct (String.eqb l k1) eqn:E.
  - apply String.eqb_eq in E; subst. split.
    + intros A. split; [now right|]. intros ->. apply H1. change k1 with (fst (k1, x)). now apply in_map.
    + intros ([A|A] & B); [inversion A; congruence|auto].
  - apply String.eqb_neq in E. cbn. rewrite IH; [|auto]. split.
    + intros [A|A]; [inversion A; subst; auto|tauto].
    + tauto.
Qed.

Lemma dmem_false {V} k (d : dict V) : dmem k d = false <-> dget k d = None.
Proof. unfold dmem. destruct (dget k d); split; congruence. Qed.

Lemma table_add label d o : table_ok label d -> dmem (label o) d = false -> table_ok label (dset (label o) o d).
Proof.
  intros (A & B) H. apply dmem_false in H. split; [now apply NoDup_keys_dset|].
  intros l x Hx. apply (In_dset_fresh _ _ _ _ _ H) in Hx. destruct Hx as [Hx|(-> & ->)]; auto.
Qed.

Lemma table_del label d l : table_ok label d -> table_ok label (ddel l d).
Proof.
  intros (A & B). split; [now apply NoDup_keys_ddel|]. intros k x H. apply In_ddel in H; [apply B, H|auto].
Qed.

Lemma table_inj label d a b : table_ok label d -> (exists l, In (l, a) d) -> (exists l, In (l, b) d) ->
  label a = label b -> a = b.
Proof.
  intros (A & B) (l & H) (l' & H') E.
  assert (X : dget (label a) d = Some a) by (apply In_dget; [auto|]; rewrite (B _ _ H); auto).
  assert (Y : dget (label a) d = Some b) by (rewrite E; apply In_dget; [auto|]; rewrite (B _ _ H'); auto).
  congruence.
Qed.

Lemma table_get label d l o : table_ok label d -> (dget l d = Some o <-> (exists l, In (l, o) d) /\ label o = l).
Proof.
  intros (A & B). split.
  - intros H. apply dget_In in H. split; [eauto|auto].
  - intros ((l' & H) & E). rewrite (B _ _ H) in E. subst. now apply In_dget.
Qed.

Section L.
Variable ulabel blabel : nat -> string.

Definition reg_ok (r : reg) : Prop := table_ok ulabel (r_ude r) /\ table_ok blabel (r_bus r).

Lemma add_ude_ok args : forall r, reg_ok r -> reg_ok (fst (add_ude ulabel args r)) /\
  r_bus (fst (add_ude ulabel args r)) = r_bus r /\ r_results (fst (add_ude ulabel args r)) = r_results r.
Proof.
  induction args as [|[u|] args IH]; intros r I; cbn [add_ude]; auto.
  destruct (dmem (ulabel u) (r_ude r)) eqn:E; [auto|].
  destruct (IH (r_with_ude r (dset (ulabel u) u (r_ude r)))) as (A & B & C); [|auto].
  destruct I as (I1 & I2). split; [now apply table_add|auto].
Qed.

Lemma add_ude_effect args : forall r r', reg_ok r -> add_ude ulabel args r = (r', None) ->
  forall u, has_ude r' u <-> has_ude r u \/ In u (objs args).
Proof.
  induction args as [|[x|] args IH]; intros r r' I H u; cbn [add_ude] in H; try discriminate.
  - inversion H; subst. cbn. tauto.
  - destruct (dmem (ulabel x) (r_ude r)) eqn:E; [discriminate|].
    match type of H with _ _ _ ?r1 = _ => assert (I' : reg_ok r1) by (destruct I as (I1 & I2); split; [now apply table_add|auto]) end.
    rewrite (IH _ _ I' H u).
    cbn [objs flat_map app In]. fold (objs args). unfold has_ude. cbn [r_with_ude r_ude]. apply dmem_false in E.
    split.
    + intros [(l & A)|A]; [|auto]. apply (In_dset_fresh _ _ _ _ _ E) in A. destruct A as [A|(-> & ->)]; eauto.
    + intros [(l & A)|[->|A]]; auto; left; eexists; apply (In_dset_fresh _ _ _ _ _ E); eauto.
Qed.

Lemma del_ude_ok us : forall r, reg_ok r -> reg_ok (fst (del_ude ulabel us r)) /\
  r_bus (fst (del_ude ulabel us r)) = r_bus r /\ r_results (fst (del_ude ulabel us r)) = r_results r.
Proof.
  induction us as [|u us IH]; intros r I; cbn [del_ude]; auto.
  destruct (dmem (ulabel u) (r_ude r)) eqn:E; [|auto].
  destruct (IH (r_with_ude r (ddel (ulabel u) (r_ude r)))) as (A & B & C); [|auto].
  destruct I as (I1 & I2). split; [now apply table_del|auto].
Qed.

Lemma del_ude_effect us : forall r r', reg_ok r -> del_ude ulabel us r = (r', None) ->
  forall u, has_ude r' u <-> has_ude r u /\ ~ In (ulabel u) (map ulabel us).
Proof.
  induction us as [|x us IH]; intros r r' I H u; cbn [del_ude] in H.
  - inversion H; subst. cbn. tauto.
  - destruct (dmem (ulabel x) (r_ude r)) eqn:E; [|discriminate].
    match type of H with _ _ _ ?r1 = _ => assert (I' : reg_ok r1) by (destruct I as (I1 & I2); split; [now apply table_del|auto]) end.
    rewrite (IH _ _ I' H u).
    unfold has_ude. cbn [r_with_ude r_ude map In]. destruct I as ((I1 & I2) & _).
    assert (X : (exists l, In (l, u) (ddel (ulabel x) (r_ude r))) <-> (exists l, In (l, u) (r_ude r)) /\ ulabel x <> ulabel u).
    { split.
      - intros (l & A). apply In_ddel in A; [|auto]. destruct A as (A & B). split; [eauto|]. rewrite (I2 _ _ A). auto.
      - intros ((l & A) & B). exists l. apply In_ddel; [auto|]. split; [auto|]. rewrite <- (I2 _ _ A). auto. }
    rewrite X. tauto.
Qed.

Lemma del_ude_own us r r' : reg_ok r -> (forall u, In u us -> has_ude r u) -> del_ude ulabel us r = (r', None) ->
  forall u, has_ude r' u <-> has_ude r u /\ ~ In u us.
Proof.
  intros I Hin H u. rewrite (del_ude_effect us r r' I H u). split; intros (A & B); split; auto.
  - intros C. apply B. now apply in_map.
  - intros C. apply in_map_iff in C. destruct C as (x & E & C). apply B.
    rewrite <- (table_inj ulabel (r_ude r) x u (proj1 I) (Hin x C) A E). auto.
Qed.

Lemma check_busses_none a r : check_busses blabel a r = None -> exists b, a = AObj b /\ dmem (blabel b) (r_bus r) = false.
Proof.
  destruct a as [b|]; cbn; [|discriminate]. destruct (existsb _ _); [discriminate|].
  destruct (dmem (blabel b) (r_bus r)) eqn:E; [discriminate|]. eauto.
Qed.

Lemma add_busses_ok args : forall r, reg_ok r -> reg_ok (fst (add_busses blabel args r)) /\
  r_ude (fst (add_busses blabel args r)) = r_ude r /\
  (forall k, ~ In k (map blabel (objs args)) -> dget k (r_results (fst (add_busses blabel args r))) = dget k (r_results r)).
Proof.
  induction args as [|a args IH]; intros r I; cbn [add_busses]; auto.
  destruct (check_busses blabel a r) eqn:E; [auto|].
  apply check_busses_none in E. destruct E as (b & -> & E).
  destruct (IH (r_with_bus r (dset (blabel b) b (r_bus r)) (dset (blabel b) TBus (r_results r)))) as (A & B & C).
  - destruct I as (I1 & I2). split; [auto|now apply table_add].
  - split; [auto|]. split; [auto|]. intros k Hk. cbn [objs flat_map app map In] in Hk. fold (objs args) in Hk.
    rewrite C; [|tauto]. cbn. apply dget_dset_neq. intuition.
Qed.

Lemma add_busses_effect args : forall r r', reg_ok r -> add_busses blabel args r = (r', None) ->
  forall u, has_bus r' u <-> has_bus r u \/ In u (objs args).
Proof.
  induction args as [|a args IH]; intros r r' I H u; cbn [add_busses] in H; try discriminate.
  - inversion H; subst. cbn. tauto.
  - destruct (check_busses blabel a r) eqn:E; [discriminate|].
    apply check_busses_none in E. destruct E as (x & -> & E).
    match type of H with _ _ _ ?r1 = _ => assert (I' : reg_ok r1) by (destruct I as (I1 & I2); split; [auto|now apply table_add]) end.
    rewrite (IH _ _ I' H u).
    cbn [objs flat_map app In]. fold (objs args). unfold has_bus. cbn [r_with_bus r_bus]. apply dmem_false in E.
    split.
    + intros [(l & A)|A]; [|auto]. apply (In_dset_fresh _ _ _ _ _ E) in A. destruct A as [A|(-> & ->)]; eauto.
    + intros [(l & A)|[->|A]]; auto; left; eexists; apply (In_dset_fresh _ _ _ _ _ E); eauto.
Qed.

Lemma existsb_bus b r : existsb (Nat.eqb b) (map snd (r_bus r)) = true <-> has_bus r b.
Proof.
  rewrite existsb_exists. unfold has_bus. split.
  - intros (x & A & B). apply Nat.eqb_eq in B. subst x. apply in_map_iff in A. destruct A as ([l b'] & E & A).
    cbn in E. subst. eauto.
  - intros (l & A). exists b. split; [|apply Nat.eqb_refl]. change b with (snd (l, b)). now apply in_map.
Qed.

Lemma del_busses_ok bs : forall r, reg_ok r -> reg_ok (fst (del_busses blabel bs r)) /\
  r_ude (fst (del_busses blabel bs r)) = r_ude r /\
  (forall k, ~ In k (map blabel bs) -> dget k (r_results (fst (del_busses blabel bs r))) = dget k (r_results r)).
Proof.
  induction bs as [|b bs IH]; intros r I; cbn [del_busses]; auto.
  destruct (existsb (Nat.eqb b) (map snd (r_bus r))) eqn:E.
  - assert (I' : forall t, reg_ok (r_with_bus r (ddel (blabel b) (r_bus r)) t)).
    { intros t. destruct I as (I1 & I2). split; [auto|now apply table_del]. }
    destruct (dmem (blabel b) (r_results r)) eqn:E2.
    + destruct (IH _ (I' (ddel (blabel b) (r_results r)))) as (A & B & C). split; [auto|]. split; [auto|].
      intros k Hk. cbn [map In] in Hk. rewrite C; [|tauto]. cbn. apply dget_ddel_neq. intuition.
    + cbn. split; [apply I'|]. auto.
  - destruct (IH r I) as (A & B & C). split; [auto|]. split; [auto|]. intros k Hk. cbn in Hk. apply C. tauto.
Qed.

Lemma del_busses_effect bs : forall r r', reg_ok r -> del_busses blabel bs r = (r', None) ->
  forall u, has_bus r' u <-> has_bus r u /\ ~ In u bs.
Proof.
  induction bs as [|x bs IH]; intros r r' I H u; cbn [del_busses] in H.
  - inversion H; subst. cbn. tauto.
  - destruct (existsb (Nat.eqb x) (map snd (r_bus r))) eqn:E.
    + destruct (dmem (blabel x) (r_results r)) eqn:E2; [|discriminate].
      match type of H with _ _ _ ?r1 = _ => assert (I' : reg_ok r1) by (destruct I as (I1 & I2); split; [auto|now apply table_del]) end.
    rewrite (IH _ _ I' H u).
      unfold has_bus. cbn [r_with_bus r_bus In]. apply existsb_bus in E. destruct I as (_ & I).
      assert (X : (exists l, In (l, u) (ddel (blabel x) (r_bus r))) <-> (exists l, In (l, u) (r_bus r)) /\ x <> u).
      { pose proof I as (I1 & I2). split.
        - intros (l & A). apply In_ddel in A; [|auto]. destruct A as (A & B). split; [eauto|]. intros ->.
          apply B. symmetry. auto.
        - intros ((l & A) & B). exists l. apply In_ddel; [auto|]. split; [auto|]. intros ->. apply B.
          apply (table_inj blabel (r_bus r)); eauto. symmetry; auto. }
      rewrite X. tauto.
    + rewrite (IH r r' I H u). cbn [In]. split; [|tauto]. intros (A & B). split; [auto|]. intros [->|C]; [|auto].
      apply existsb_bus in A. congruence.
Qed.

Lemma init_tables_frame cl r : r_ude (init_tables cl r) = r_ude r /\ r_bus (init_tables cl r) = r_bus r.
Proof. auto. Qed.

Lemma run_rop_ok o r : reg_ok r -> reg_ok (fst (run_rop ulabel blabel o r)).
Proof.
  intros I. destruct o; cbn [run_rop].
  - now apply add_ude_ok. - now apply del_ude_ok. - now apply add_busses_ok. - now apply del_busses_ok. - exact I.
Qed.

Lemma rhistory_ok ops : reg_ok (rhistory ulabel blabel ops).
Proof.
  unfold rhistory. assert (G : forall r, reg_ok r -> reg_ok (fold_left (fun r o => fst (run_rop ulabel blabel o r)) ops r)).
  { induction ops as [|o ops IH]; intros r I; cbn; [auto|]. apply IH, run_rop_ok, I. }
  apply G. split; (split; [constructor|intros l x []]).
Qed.

Lemma registry_unique ops : let r := rhistory ulabel blabel ops in
  (forall l u, dget l (r_ude r) = Some u <-> has_ude r u /\ ulabel u = l) /\
  (forall l b, dget l (r_bus r) = Some b <-> has_bus r b /\ blabel b = l) /\
  NoDup (map fst (r_ude r)) /\ NoDup (map fst (r_bus r)).
Proof.
  intros r. destruct (rhistory_ok ops) as (A & B). fold r in A, B.
  split; [intros; now apply table_get|]. split; [intros; now apply table_get|]. split; [apply A|apply B].
Qed.

Lemma rhistory_effects ops : let r := rhistory ulabel blabel ops in
  (forall args r', add_ude ulabel args r = (r', None) -> forall u, has_ude r' u <-> has_ude r u \/ In u (objs args)) /\
  (forall us r', (forall u, In u us -> has_ude r u) -> del_ude ulabel us r = (r', None) ->
     forall u, has_ude r' u <-> has_ude r u /\ ~ In u us) /\
  (forall args r', add_busses blabel args r = (r', None) -> forall b, has_bus r' b <-> has_bus r b \/ In b (objs args)) /\
  (forall bs r', del_busses blabel bs r = (r', None) -> forall b, has_bus r' b <-> has_bus r b /\ ~ In b bs).
Proof.
  intros r. pose proof (rhistory_ok ops) as I. fold r in I. split; [|split; [|split]]; intros.
  - now apply add_ude_effect. - now apply del_ude_own. - now apply add_busses_effect. - now apply del_busses_effect.
Qed.

Lemma rop_frame ops : let r := rhistory ulabel blabel ops in
  (forall args, r_bus (fst (add_ude ulabel args r)) = r_bus r /\ r_results (fst (add_ude ulabel args r)) = r_results r) /\
  (forall us, r_bus (fst (del_ude ulabel us r)) = r_bus r /\ r_results (fst (del_ude ulabel us r)) = r_results r) /\
  (forall args, r_ude (fst (add_busses blabel args r)) = r_ude r) /\
  (forall bs, r_ude (fst (del_busses blabel bs r)) = r_ude r).
Proof.
  intros r. pose proof (rhistory_ok ops) as I. fold r in I. split; [|split; [|split]]; intros.
  - apply add_ude_ok; auto. - apply del_ude_ok; auto. - apply add_busses_ok; auto. - apply del_busses_ok; auto.
Qed.

Lemma results_partial ops : let r := rhistory ulabel blabel ops in
  (forall args k, ~ In k (map blabel (objs args)) -> dget k (r_results (fst (add_busses blabel args r))) = dget k (r_results r)) /\
  (forall bs k, ~ In k (map blabel bs) -> dget k (r_results (fst (del_busses blabel bs r))) = dget k (r_results r)).
Proof.
  intros r. pose proof (rhistory_ok ops) as I. fold r in I. split; intros.
  - apply add_busses_ok; auto. - apply del_busses_ok; auto.
Qed.
End L.

Lemma results_clobbered : exists ulabel blabel ops b,
  let r := rhistory ulabel blabel ops in
  dget "Pump"%string (r_results r) = Some TClass /\
  snd (add_busses blabel [AObj b] r) = None /\
  dget "Pump"%string (r_results (fst (add_busses blabel [AObj b] r))) = Some TBus /\
  dget "Pump"%string (r_results (fst (del_busses blabel [b] (fst (add_busses blabel [AObj b] r))))) = None.
Proof.
  exists (fun _ => ""%string), (fun _ => "Pump"%string), [Prepare ["Pump"%string]], 0. vm_compute. auto.
Qed.

(* ---- components of a bus ---- *)

Lemma bget_bset_eq k v t : bget k (bset k v t) = Some v.
Proof.
  induction t as [|[k' v'] t IH]; cbn; [now rewrite Nat.eqb_refl|].
  destruct (Nat.eqb k k') eqn:E; cbn; rewrite E; auto.
Qed.

Lemma bget_bset_neq k k' v t : k <> k' -> bget k (bset k' v t) = bget k t.
Proof.
  intros H. induction t as [|[k1 v1] t IH]; cbn.
  - apply Nat.eqb_neq in H. now rewrite H.
  - destruct (Nat.eqb k' k1) eqn:E; cbn; [|now rewrite IH].
    apply Nat.eqb_eq in E. subst. apply Nat.eqb_neq in H. now rewrite H.
Qed.

Lemma bset_keys k v t x : In x (map fst (bset k v t)) <-> x = k \/ In x (map fst t).
Proof.
  induction t as [|[k1 v1] t IH]; cbn; [intuition|].
  destruct (Nat.eqb k k1) eqn:E; cbn; [apply Nat.eqb_eq in E; subst; intuition|]. rewrite IH. intuition.
Qed.

Lemma bset_NoDup k v t : NoDup (map fst t) -> NoDup (map fst (bset k v t)).
Proof.
  induction t as [|[k1 v1] t IH]; cbn; intros H; [repeat constructor; auto|].
  inversion H as [|? ? A B]; subst. destruct (Nat.eqb k k1) eqn:E; cbn; constructor; auto.
  rewrite bset_keys. apply Nat.eqb_neq in E. intuition.
Qed.

Lemma add_comps_NoDup args : forall t, NoDup (map fst t) -> NoDup (map fst (fst (add_comps args t))).
Proof.
  induction args as [|[[[c|]|] items|] args IH]; intros t H; cbn [add_comps]; auto.
  destruct (row_items items default_row) as [w [e|]]; [now apply bset_NoDup|]. now apply IH, bset_NoDup.
Qed.

Lemma bhistory_NoDup calls : NoDup (map fst (bhistory calls)).
Proof.
  unfold bhistory. assert (G : forall t, NoDup (map fst t) -> NoDup (map fst (fold_left (fun t a => fst (add_comps a t)) calls t))).
  { induction calls as [|a calls IH]; intros t H; cbn; [auto|]. now apply IH, add_comps_NoDup. }
  apply G. constructor.
Qed.

Lemma row_items_given items : forall w w', NoDup (keys items) -> row_items items w = (w', None) ->
  b_param w' = given items "param" as_param (b_param w) /\
  b_pref w' = given items "P_ref" as_pref (b_pref w) /\
  b_char w' = given items "char" as_char (b_char w) /\
  b_base w' = given items "base" as_base (b_base w).
Proof.
  unfold given. induction items as [|[k v] items IH]; intros w w' ND H; cbn [row_items] in H.
  - inversion H; subst. cbn. auto.
  - inversion ND as [|? ? Nk Nd]; subst.
    assert (NG : dget k items = None) by now apply dget_None_notin.
    destruct (row_item k v w) as [w1|e] eqn:E; [|discriminate]. specialize (IH w1 w' Nd H). clear H.
    unfold row_item in E. cbn [dget].
    destruct (String.eqb k "param") eqn:K1; [apply String.eqb_eq in K1; subst k|
     destruct (String.eqb k "char") eqn:K2; [apply String.eqb_eq in K2; subst k|
      destruct (String.eqb k "P_ref") eqn:K3; [apply String.eqb_eq in K3; subst k|
       destruct (String.eqb k "base") eqn:K4; [apply String.eqb_eq in K4; subst k|]]]].
    1-4: destruct v as [q|s|c| |]; cbn; try discriminate E;
      try (destruct (smem s ["bus"%string; "component"%string]); [|discriminate E]);
      inversion E; subst w1; clear E; cbn [b_param b_pref b_char b_base] in IH; rewrite NG in IH; tauto.
    inversion E; subst w1. rewrite (String.eqb_sym "param"), (String.eqb_sym "P_ref"), (String.eqb_sym "char"), (String.eqb_sym "base").
    now rewrite K1, K2, K3, K4.
Qed.

Lemma add_one t c items t' : NoDup (keys items) -> add_comps [BDict (Some (Some c)) items] t = (t', None) ->
  exists w, bget c t' = Some w /\
    b_param w = given items "param" as_param None /\ b_pref w = given items "P_ref" as_pref None /\
    b_char w = given items "char" as_char COwn /\ b_base w = given items "base" as_base "component"%string.
Proof.
  intros ND H. cbn in H. destruct (row_items items default_row) as [w [e|]] eqn:E; inversion H; subst.
  exists w. rewrite bget_bset_eq. split; [auto|]. exact (row_items_given items default_row w ND E).
Qed.

Lemma add_comps_frame args : forall t c, (forall items, ~ In (BDict (Some (Some c)) items) args) ->
  bget c (fst (add_comps args t)) = bget c t.
Proof.
  induction args as [|[[[x|]|] items|] args IH]; intros t c H; cbn [add_comps]; auto.
  assert (x <> c) by (intros ->; apply (H items); now left).
  destruct (row_items items default_row) as [w [e|]]; cbn [fst].
  - now apply bget_bset_neq, not_eq_sym.
  - rewrite IH; [now apply bget_bset_neq, not_eq_sym|]. intros it Hin. apply (H it). now right.
Qed.
