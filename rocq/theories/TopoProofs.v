(** Lemmas about the connection and component tables. *)
From Coq Require Import Permutation Sorted.
From Verif Require Import TopoModel TopoSpec.
Open Scope string_scope.

Ltac inv H := inversion H; subst; clear H.

(* ---- generic facts ---- *)

Lemma nmem_In x l : nmem x l = true <-> In x l.
Proof.
  unfold nmem. rewrite existsb_exists. split.
  - intros (y & H & E). apply Nat.eqb_eq in E. now subst.
  - intros H. exists x. split; [auto|apply Nat.eqb_refl].
Qed.

Lemma In_ddel {V} (k l : string) (x : V) d : NoDup (keys d) ->
  (In (k, x) (ddel l d) <-> In (k, x) d /\ k <> l).
Proof.
  induction d as [|[k1 v1] d IH]; cbn [ddel]; intros H; [cbn; tauto|].
  inversion H as [|? ? H1 H2]; subst. destruct (String.eqb l k1) eqn:E.
  - apply String.eqb_eq in E; subst k1. cbn. split.
    + intros A. split; [auto|]. intros ->. apply H1. change l with (fst (l, x)). now apply in_map.
    + intros ([A|A] & B); [congruence|auto].
  - apply String.eqb_neq in E. cbn. rewrite (IH H2). split.
    + intros [A|A]; [|tauto]. split; [auto|]. congruence.
    + tauto.
Qed.

Lemma In_dset_fresh {V} (l k : string) (x y : V) d : dget l d = None ->
  (In (k, y) (dset l x d) <-> In (k, y) d \/ (k = l /\ y = x)).
Proof.
  induction d as [|[k1 v1] d IH]; cbn; intros H.
  - split; [intros [A|[]]; inv A; auto|]. intros [[]|[-> ->]]; auto.
  - destruct (String.eqb l k1) eqn:E; [discriminate|]. cbn. rewrite (IH H). tauto.
Qed.

Lemma dmem_false {V} k (d : dict V) : dmem k d = false <-> dget k d = None.
Proof. unfold dmem. destruct (dget k d); split; congruence. Qed.

(* ---- C13: connections ---- *)

Lemma get_conn_iff W n l c : conns_ok W n ->
  (get_conn n l = Some c <-> has_conn n c /\ w_label W c = l).
Proof.
  intros (ND & L). unfold get_conn. split.
  - intros H. apply dget_In in H. split; [exists l; auto|auto].
  - intros ((l' & H) & E). assert (l' = l) by (rewrite <- (L _ _ H); auto). subst l'. now apply In_dget.
Qed.

Lemma add_loop_ok W args : forall n, conns_ok W n ->
  let n' := fst (add_conns_loop W args n) in
  conns_ok W n' /\ n_comps n' = n_comps n /\ n_results n' = n_results n /\
  (forall c, has_conn n c -> has_conn n' c) /\
  (forall c, has_conn n' c -> has_conn n c \/ In c (arg_conns args)).
Proof.
  induction args as [|a args IH]; intros n I; cbn [add_conns_loop].
  - cbn. tauto.
  - destruct a as [c|]; [|cbn; tauto].
    destruct (dmem (w_label W c) (n_conns n)) eqn:E; [cbn; tauto|].
    apply dmem_false in E.
    set (n1 := n_with_conns n (dset (w_label W c) c (n_conns n)) false).
    assert (I1 : conns_ok W n1).
    { destruct I as (ND & L). split; [now apply NoDup_keys_dset|]. intros l x H. cbn in H.
      apply In_dset_fresh in H; [|auto]. destruct H as [H|[-> ->]]; auto. }
    destruct (IH n1 I1) as (A & B & C & D & F). split; [auto|]. split; [auto|]. split; [auto|]. split.
    + intros x (l & H). apply D. exists l. cbn. apply In_dset_fresh; auto.
    + intros x H. destruct (F x H) as [(l & H1)|H1].
      * cbn in H1. apply In_dset_fresh in H1; [|auto]. destruct H1 as [H1|[_ ->]]; [left; exists l; auto|right; now left].
      * right. cbn. auto.
Qed.

Lemma add_loop_all W args : forall n, snd (add_conns_loop W args n) = None ->
  forall c, In c (arg_conns args) -> has_conn (fst (add_conns_loop W args n)) c.
Proof.
  induction args as [|a args IH]; intros n H c Hc; cbn [add_conns_loop] in *; [destruct Hc|].
  destruct a as [c1|]; [|discriminate].
  destruct (dmem (w_label W c1) (n_conns n)) eqn:E; [discriminate|]. apply dmem_false in E.
  cbn in Hc. destruct Hc as [->|Hc].
  - clear IH. set (n1 := n_with_conns _ _ _) in *.
    assert (X : forall args n, has_conn n c -> has_conn (fst (add_conns_loop W args n)) c).
    { clear. induction args as [|a args IH]; intros n Hh; cbn [add_conns_loop]; [auto|].
      destruct a as [c1|]; [|auto]. destruct (dmem (w_label W c1) (n_conns n)) eqn:E; [auto|].
      apply dmem_false in E. apply IH. destruct Hh as (l & Hh). exists l. cbn. apply In_dset_fresh; auto. }
    apply X. exists (w_label W c). cbn. apply In_dset_fresh; auto.
  - apply IH; auto.
Qed.

Lemma add_comps_frame W cps : forall n, n_conns (fst (add_comps W cps n)) = n_conns n
  /\ n_results (fst (add_comps W cps n)) = n_results n.
Proof.
  induction cps as [|k cps IH]; intros n; cbn [add_comps]; [auto|].
  destruct (dget (w_clabel W k) (n_comps n)) as [k'|].
  - destruct (Nat.eqb k' k); auto.
  - apply (IH (n_with_comps n (dset (w_clabel W k) k (n_comps n)))).
Qed.

Lemma del_comps_frame W cps : forall n, n_conns (fst (del_comps W cps n)) = n_conns n
  /\ n_results (fst (del_comps W cps n)) = n_results n.
Proof.
  induction cps as [|k cps IH]; intros n; cbn [del_comps]; [auto|].
  destruct (nmem k (ends W (map snd (n_conns n)))); [auto|].
  destruct (dmem (w_clabel W k) (n_comps n)); [|auto]. cbv zeta.
  destruct (smem _ _); [|auto]. apply (IH (n_with_comps n (ddel (w_clabel W k) (n_comps n)))).
Qed.

Lemma conns_ok_ext W n n' : n_conns n' = n_conns n -> conns_ok W n -> conns_ok W n'.
Proof. unfold conns_ok. now intros ->. Qed.

Lemma has_conn_ext n n' c : n_conns n' = n_conns n -> (has_conn n' c <-> has_conn n c).
Proof. unfold has_conn. now intros ->. Qed.

Lemma del_loop_ok W cs : forall n, conns_ok W n ->
  let n' := fst (del_conns_loop W cs n) in
  conns_ok W n' /\ n_comps n' = n_comps n /\ n_results n' = n_results n /\
  (forall c, has_conn n' c -> has_conn n c) /\
  (forall c, has_conn n c -> ~ In (w_label W c) (map (w_label W) cs) -> has_conn n' c) /\
  (snd (del_conns_loop W cs n) = None -> forall c, has_conn n' c -> ~ In (w_label W c) (map (w_label W) cs)).
Proof.
  induction cs as [|c cs IH]; intros n I; cbn [del_conns_loop].
  - cbn. tauto.
  - destruct (dmem (w_label W c) (n_conns n)) eqn:E; [|cbn; intuition discriminate].
    set (n1 := n_with_conns n (ddel (w_label W c) (n_conns n)) (n_checked n)).
    destruct I as (ND & L).
    assert (X : forall x, has_conn n1 x <-> has_conn n x /\ w_label W x <> w_label W c).
    { intros x. split.
      - intros (l & H). cbn in H. apply In_ddel in H; [|auto]. destruct H as (H & N).
        split; [exists l; auto|]. rewrite (L _ _ H). auto.
      - intros ((l & H) & N). exists l. cbn. apply In_ddel; [auto|]. split; [auto|].
        rewrite <- (L _ _ H). auto. }
    assert (I1 : conns_ok W n1).
    { split; [now apply NoDup_keys_ddel|]. intros l x H. cbn in H. apply In_ddel in H; [|auto].
      apply L. tauto. }
    destruct (IH n1 I1) as (A & B & C & D & F & G). repeat split; auto; try apply A.
    + intros x Hx. apply D in Hx. apply X in Hx. tauto.
    + intros x Hx Hn. cbn [map In] in Hn. apply F; [|tauto]. apply X. split; [auto|].
      intros Hq; apply Hn; left; auto.
    + intros Hs x Hx. cbn [map In]. intros [Hq|Hq].
      * apply D in Hx. apply X in Hx. destruct Hx as (_ & Hx). auto.
      * exact (G Hs x Hx Hq).
Qed.

Lemma add_conns_conns W order args n : n_conns (fst (add_conns W order args n)) = n_conns (fst (add_conns_loop W args n)).
Proof.
  unfold add_conns. destruct (add_conns_loop W args n) as [n' [e|]]; [auto|]. apply add_comps_frame.
Qed.

Lemma del_conns_conns W order cs n : n_conns (fst (del_conns W order cs n)) = n_conns (fst (del_conns_loop W cs n)).
Proof.
  unfold del_conns. destruct (del_conns_loop W cs n) as [n' [e|]]; [auto|].
  pose proof (del_comps_frame W (order (ends W cs)) n') as (A & _).
  destruct (del_comps W (order (ends W cs)) n') as [n'' [e|]]; auto.
Qed.

Lemma run_op_conns_ok W order check o n : check_frame check -> conns_ok W n ->
  conns_ok W (fst (run_op W order check o n)).
Proof.
  intros Hc I. destruct o as [args|cs|]; cbn [run_op].
  - eapply conns_ok_ext; [apply add_conns_conns|]. apply add_loop_ok; auto.
  - eapply conns_ok_ext; [apply del_conns_conns|]. apply del_loop_ok; auto.
  - eapply conns_ok_ext; [apply Hc|auto].
Qed.

Lemma history_conns_ok W order check ops : check_frame check -> forall n, conns_ok W n ->
  conns_ok W (history W order check ops n).
Proof.
  intros Hc. unfold history. induction ops as [|o ops IH]; intros n I; cbn; [auto|].
  apply IH. now apply run_op_conns_ok.
Qed.

Lemma empty_conns_ok W : conns_ok W empty_net.
Proof. split; [constructor|intros l c []]. Qed.

Lemma add_conns_effect W order args n n' : conns_ok W n -> add_conns W order args n = (n', None) ->
  forall c, has_conn n' c <-> has_conn n c \/ In c (arg_conns args).
Proof.
  intros I H c. pose proof (add_conns_conns W order args n) as E. rewrite H in E. cbn in E.
  rewrite (has_conn_ext _ _ c E). destruct (add_loop_ok W args n I) as (_ & _ & _ & A & B).
  split; [auto|]. intros [C|C]; [auto|]. apply add_loop_all; [|auto].
  unfold add_conns in H. destruct (add_conns_loop W args n) as [n1 [e|]]; [discriminate|reflexivity].
Qed.

Lemma del_conns_effect W order cs n n' : conns_ok W n -> del_conns W order cs n = (n', None) ->
  (forall c, In c cs -> has_conn n c) ->
  forall c, has_conn n' c <-> has_conn n c /\ ~ In c cs.
Proof.
  intros I H Hin c. pose proof (del_conns_conns W order cs n) as E. rewrite H in E. cbn in E.
  rewrite (has_conn_ext _ _ c E). destruct (del_loop_ok W cs n I) as (_ & _ & _ & A & B & C).
  assert (S : snd (del_conns_loop W cs n) = None).
  { unfold del_conns in H. destruct (del_conns_loop W cs n) as [n1 [e|]]; [discriminate|reflexivity]. }
  split.
  - intros D. split; [auto|]. intros F. apply (C S c D). now apply in_map.
  - intros (D & F). apply B; [auto|]. intros G. apply in_map_iff in G. destruct G as (c' & G1 & G2).
    apply F. assert (c' = c); [|now subst].
    pose proof (proj2 (get_conn_iff W n (w_label W c) c I) (conj D eq_refl)) as P.
    pose proof (proj2 (get_conn_iff W n (w_label W c) c' I) (conj (Hin c' G2) G1)) as Q.
    congruence.
Qed.

(* ---- C14: components ---- *)

Lemma add_comps_ok W cps : forall n, comps_ok W n ->
  let n' := fst (add_comps W cps n) in
  comps_ok W n' /\ (forall k, has_comp n k -> has_comp n' k) /\
  (forall k, has_comp n' k -> has_comp n k \/ In k cps) /\
  (snd (add_comps W cps n) = None -> forall k, In k cps -> has_comp n' k).
Proof.
  induction cps as [|k cps IH]; intros n I; cbn [add_comps].
  - cbn. intuition.
  - destruct (dget (w_clabel W k) (n_comps n)) as [k'|] eqn:E.
    + destruct (Nat.eqb k' k) eqn:Ek.
      * apply Nat.eqb_eq in Ek; subst k'. destruct (IH n I) as (A & B & C & D).
        repeat split; auto; try apply A.
        -- intros x Hx. destruct (C x Hx); [auto|right; now right].
        -- intros S x [->|Hx]; [|auto]. apply B. apply dget_In in E. eexists; eauto.
      * cbn. repeat split; try apply I; auto. discriminate.
    + set (n1 := n_with_comps n (dset (w_clabel W k) k (n_comps n))).
      assert (I1 : comps_ok W n1).
      { destruct I as (ND & L). split; [now apply NoDup_keys_dset|]. intros l x H. cbn in H.
        apply In_dset_fresh in H; [|auto]. destruct H as [H|[-> ->]]; auto. }
      assert (X : forall x, has_comp n1 x <-> has_comp n x \/ x = k).
      { intros x. split.
        - intros (l & H). cbn in H. apply In_dset_fresh in H; [|auto]. destruct H as [H|[_ ->]]; [left; exists l|]; auto.
        - intros [(l & H)| ->]; [exists l|exists (w_clabel W k)]; cbn; apply In_dset_fresh; auto. }
      destruct (IH n1 I1) as (A & B & C & D). repeat split; auto; try apply A.
      * intros x Hx. apply B. apply X. auto.
      * intros x Hx. destruct (C x Hx) as [H|H]; [|right; now right]. apply X in H.
        destruct H as [H| ->]; [auto|right; now left].
      * intros S x [->|Hx]; [|auto]. apply B. apply X. auto.
Qed.

Lemma In_ends W cs k : In k (ends W cs) <-> exists c, In c cs /\ (w_source W c = k \/ w_target W c = k).
Proof.
  unfold ends. rewrite in_flat_map. split; intros (c & A & B); exists c; cbn in *; intuition.
Qed.

Lemma attached_ends W n k : attached W n k <-> In k (ends W (map snd (n_conns n))).
Proof.
  rewrite In_ends. unfold attached, has_conn. split.
  - intros (c & (l & H) & E). exists c. split; [|auto]. change c with (snd (l, c)). now apply in_map.
  - intros (c & H & E). apply in_map_iff in H. destruct H as ([l c'] & A & B). cbn in A; subst c'.
    exists c. split; [exists l; auto|auto].
Qed.

Lemma del_comps_ok W cps : forall n, comps_ok W n -> comps_ok W (fst (del_comps W cps n)).
Proof.
  induction cps as [|k cps IH]; intros n I; cbn [del_comps]; [auto|].
  destruct (nmem k (ends W (map snd (n_conns n)))); [auto|].
  destruct (dmem (w_clabel W k) (n_comps n)); [|auto]. cbv zeta.
  assert (I1 : comps_ok W (n_with_comps n (ddel (w_clabel W k) (n_comps n)))).
  { destruct I as (ND & L). split; [now apply NoDup_keys_ddel|]. intros l x H. cbn in H.
    apply In_ddel in H; [|auto]. apply L. tauto. }
  destruct (smem _ _); [|auto]. now apply IH.
Qed.

Lemma del_comps_effect W cps : forall n, comps_ok W n -> NoDup cps -> (forall k, In k cps -> has_comp n k) ->
  snd (del_comps W cps n) = None ->
  forall x, has_comp (fst (del_comps W cps n)) x <-> has_comp n x /\ (attached W n x \/ ~ In x cps).
Proof.
  induction cps as [|k cps IH]; intros n I ND Hin S x; cbn [del_comps] in *.
  - cbn. tauto.
  - inversion ND as [|? ? Hk ND']; subst.
    destruct (nmem k (ends W (map snd (n_conns n)))) eqn:E.
    + apply nmem_In, attached_ends in E. rewrite IH; auto; [|intros; apply Hin; now right].
      cbn [In]. split; [|tauto]. intros (A & [B|B]); [tauto|]. split; [auto|].
      destruct (Nat.eq_dec k x) as [->|Nx]; [auto|tauto].
    + assert (En : ~ attached W n k) by (intros H; apply attached_ends, nmem_In in H; congruence).
      destruct (dmem (w_clabel W k) (n_comps n)) eqn:Em; [|discriminate]. cbv zeta in *.
      set (n1 := n_with_comps n (ddel (w_clabel W k) (n_comps n))) in *.
      destruct I as (NDc & L).
      assert (U : forall y, has_comp n y -> w_clabel W y = w_clabel W k -> y = k).
      { intros y (l & Hx) El. destruct (Hin k (or_introl eq_refl)) as (l' & Hk').
        rewrite (L _ _ Hx), (L _ _ Hk') in El. subst l'.
        apply In_dget in Hx; [|auto]. apply In_dget in Hk'; [|auto]. congruence. }
      assert (X : forall y, has_comp n1 y <-> has_comp n y /\ y <> k).
      { intros y. split.
        - intros (l & H). cbn in H. apply In_ddel in H; [|auto]. destruct H as (H & N).
          split; [exists l; auto|]. intros ->. rewrite (L _ _ H) in N. auto.
        - intros ((l & H) & N). exists l. cbn. apply In_ddel; [auto|]. split; [auto|].
          intros El. apply N. apply U; [exists l; auto|]. rewrite (L _ _ H). auto. }
      assert (I1 : comps_ok W n1).
      { split; [now apply NoDup_keys_ddel|]. intros l y H. cbn in H. apply In_ddel in H; [|auto]. apply L. tauto. }
      destruct (smem (w_class W k) (n_results n1)); [|discriminate].
      rewrite IH; auto.
      * rewrite X. change (attached W n1 x) with (attached W n x). cbn [In]. split.
        -- intros ((A & B) & C). split; [auto|]. destruct C as [C|C]; [auto|]. right. intros [D|D]; auto.
        -- intros (A & B). assert (x <> k) by (intros ->; tauto). tauto.
      * intros y Hy. apply X. split; [apply Hin; now right|]. intros ->. auto.
Qed.

Lemma comps_ok_ext W n n' : n_comps n' = n_comps n -> comps_ok W n -> comps_ok W n'.
Proof. unfold comps_ok. now intros ->. Qed.

Lemma add_conns_loop_comps W args n : conns_ok W n ->
  n_comps (fst (add_conns_loop W args n)) = n_comps n.
Proof. intros I. apply add_loop_ok. auto. Qed.

Lemma run_op_comps_ok W order check o n : check_frame check -> conns_ok W n -> comps_ok W n ->
  comps_ok W (fst (run_op W order check o n)).
Proof.
  intros Hc I J. destruct o as [args|cs|]; cbn [run_op].
  - unfold add_conns. pose proof (add_conns_loop_comps W args n I) as E.
    destruct (add_conns_loop W args n) as [n' [e|]]; cbn [fst] in *.
    + eapply comps_ok_ext; eauto.
    + apply add_comps_ok. eapply comps_ok_ext; eauto.
  - unfold del_conns. destruct (del_loop_ok W cs n I) as (_ & E & _).
    destruct (del_conns_loop W cs n) as [n' [e|]]; cbn [fst] in *.
    + eapply comps_ok_ext; eauto.
    + pose proof (del_comps_ok W (order (ends W cs)) n') as X.
      destruct (del_comps W (order (ends W cs)) n') as [n'' [e|]]; cbn [fst] in *.
      * apply X. eapply comps_ok_ext; eauto.
      * eapply comps_ok_ext with (n := n''); [reflexivity|]. apply X. eapply comps_ok_ext; eauto.
  - eapply comps_ok_ext; [apply Hc|auto].
Qed.

Lemma history_comps_ok W order check ops : check_frame check -> forall n, conns_ok W n -> comps_ok W n ->
  comps_ok W (history W order check ops n).
Proof.
  intros Hc. unfold history. induction ops as [|o ops IH]; intros n I J; cbn; [auto|].
  apply IH; [now apply run_op_conns_ok|now apply run_op_comps_ok].
Qed.

Lemma add_conns_mirrored W order args n n' : set_order order -> conns_ok W n -> comps_ok W n -> mirrored W n ->
  add_conns W order args n = (n', None) -> mirrored W n'.
Proof.
  intros Ho I J M H k. pose proof (add_conns_effect W order args n n' I H) as EC.
  unfold add_conns in H. pose proof (add_conns_loop_comps W args n I) as E.
  destruct (add_conns_loop W args n) as [n1 [e|]]; [discriminate|]. cbn [fst] in E.
  destruct (add_comps_ok W (order (ends W (arg_conns args))) n1) as (A & B & C & D).
  { eapply comps_ok_ext; eauto. }
  rewrite H in *. cbn [fst snd] in *.
  assert (T : attached W n' k <-> attached W n k \/ In k (ends W (arg_conns args))).
  { rewrite In_ends. unfold attached. split.
    - intros (c & Hc & Ek). apply EC in Hc. destruct Hc as [Hc|Hc]; [left|right]; exists c; auto.
    - intros [(c & Hc & Ek)|(c & Hc & Ek)]; exists c; split; auto; apply EC; auto. }
  rewrite T. split.
  - intros Hk. apply C in Hk. destruct Hk as [Hk|Hk].
    + left. apply M. unfold has_comp in *. now rewrite E in Hk.
    + right. now apply (Ho _).
  - intros [Hk|Hk].
    + apply B. apply M in Hk. unfold has_comp in *. now rewrite E.
    + apply D; [auto|]. now apply (Ho _).
Qed.

Lemma del_conns_mirrored W order cs n n' : set_order order -> conns_ok W n -> comps_ok W n -> mirrored W n ->
  (forall c, In c cs -> has_conn n c) -> del_conns W order cs n = (n', None) -> mirrored W n'.
Proof.
  intros Ho I J M Hin H k. pose proof (del_conns_effect W order cs n n' I H Hin) as EC.
  unfold del_conns in H. destruct (del_loop_ok W cs n I) as (_ & E & _).
  destruct (del_conns_loop W cs n) as [n1 [e|]]; [discriminate|]. cbn [fst] in E.
  destruct (del_comps_frame W (order (ends W cs)) n1) as (F & _).
  pose proof (del_comps_effect W (order (ends W cs)) n1) as X.
  destruct (del_comps W (order (ends W cs)) n1) as [n2 [e|]]; [discriminate|].
  inv H. cbn [fst snd] in *.
  assert (Y : has_comp n2 k <-> has_comp n1 k /\ (attached W n1 k \/ ~ In k (order (ends W cs)))).
  { apply X; auto.
    - eapply comps_ok_ext; eauto.
    - apply Ho.
    - intros y Hy. apply (proj1 (proj2 (Ho _) _)) in Hy. apply In_ends in Hy. destruct Hy as (c & Hc & Ek).
      unfold has_comp. rewrite E. apply M. exists c. split; auto. }
  change (has_comp n2 k <-> attached W n2 k). rewrite Y.
  assert (Q : attached W n2 k <-> attached W n1 k).
  { unfold attached, has_conn. now rewrite F. }
  rewrite Q. split.
  - intros (A & [B|B]); [auto|].
    assert (A' : attached W n k) by (apply M; unfold has_comp in *; now rewrite <- E).
    destruct A' as (c & Hc & Ek). apply Q. exists c. split; [|auto].
    apply (EC c). split; [auto|]. intros Hcs. apply B. apply (Ho _). apply In_ends. exists c. auto.
  - intros A. split; [|auto]. unfold has_comp. rewrite E. apply M.
    apply Q in A. destruct A as (c & Hc & Ek). exists c. split; [|auto]. now apply (EC c).
Qed.

Lemma clean_mirrored W order check ops : set_order order -> check_frame check -> forall n,
  conns_ok W n -> comps_ok W n -> mirrored W n -> clean W order check ops n ->
  mirrored W (history W order check ops n).
Proof.
  intros Ho Hc. unfold history. induction ops as [|o ops IH]; intros n I J M C; cbn [fold_left]; [auto|].
  destruct C as (C1 & C2 & C3). apply IH; auto.
  - now apply run_op_conns_ok.
  - now apply run_op_comps_ok.
  - destruct o as [args|cs|]; cbn [run_op] in *.
    + destruct (add_conns W order args n) as [n' e] eqn:E. cbn in C1 |- *. subst e.
      eapply add_conns_mirrored; eauto.
    + destruct (del_conns W order cs n) as [n' e] eqn:E. cbn in C1 |- *. subst e.
      eapply del_conns_mirrored; eauto.
    + cbn. destruct (Hc n) as (A & B). intros k. unfold has_comp, attached, has_conn. rewrite A, B. apply M.
Qed.

Lemma empty_mirrored W : comps_ok W empty_net /\ mirrored W empty_net.
Proof.
  split; [split; [constructor|intros l c []]|].
  intros k. split; [intros (l & [])|intros (c & (l & []) & _)].
Qed.

(* ---- C15: ports ---- *)

Lemma port_eqb_eq a b : port_eqb a b = true <-> a = b.
Proof.
  destruct a as [a1 a2], b as [b1 b2]. unfold port_eqb. cbn.
  rewrite andb_true_iff, Nat.eqb_eq, String.eqb_eq. split; [intros [-> ->]; auto|]. intros H; inv H; auto.
Qed.

Lemma has_duplicate_NoDup l : has_duplicate l = false <-> NoDup l.
Proof.
  induction l as [|x l IH]; cbn; [split; [constructor|auto]|].
  rewrite orb_false_iff, IH. split.
  - intros (A & B). constructor; [|auto]. intros H.
    assert (existsb (port_eqb x) l = true); [|congruence]. apply existsb_exists. exists x. split; [auto|now apply port_eqb_eq].
  - intros H. inv H. split; [|auto]. destruct (existsb (port_eqb x) l) eqn:E; [|auto].
    apply existsb_exists in E. destruct E as (y & A & B). apply port_eqb_eq in B. subst. tauto.
Qed.

Lemma check_conns_iff W n : check_conns W n = None <->
  NoDup (map (out_port W) (map snd (n_conns n))) /\ NoDup (map (in_port W) (map snd (n_conns n))).
Proof.
  unfold check_conns. rewrite <- !has_duplicate_NoDup.
  destruct (has_duplicate (map (out_port W) _)), (has_duplicate (map (in_port W) _)); intuition discriminate.
Qed.

Lemma check_components_iff W n ks : check_components W ks n = None <->
  forall k, In k ks ->
    length (filter (fun c => Nat.eqb (w_source W c) k) (map snd (n_conns n))) = length (w_outlets W k) /\
    length (filter (fun c => Nat.eqb (w_target W c) k) (map snd (n_conns n))) = length (w_inlets W k).
Proof.
  induction ks as [|k ks IH]; cbn [check_components]; [split; [intros _ k []|auto]|].
  unfold count_if.
  destruct (Nat.eqb _ (length (w_outlets W k))) eqn:E1; cbn [negb].
  - destruct (Nat.eqb _ (length (w_inlets W k))) eqn:E2; cbn [negb].
    + apply Nat.eqb_eq in E1, E2. rewrite IH. split.
      * intros H x [<-|Hx]; auto.
      * intros H x Hx. apply H. now right.
    + apply Nat.eqb_neq in E2. split; [discriminate|]. intros H. destruct (H k (or_introl eq_refl)); tauto.
  - apply Nat.eqb_neq in E1. split; [discriminate|]. intros H. destruct (H k (or_introl eq_refl)); tauto.
Qed.

(** A finite set of objects with distinct port names out of [ports] uses every
    port exactly once iff there are as many objects as ports. *)
Lemma ports_pigeonhole (cs : list nat) (f : nat -> string) (ports : list string) :
  NoDup cs -> NoDup ports -> (forall c, In c cs -> In (f c) ports) ->
  (NoDup (map f cs) /\ length cs = length ports <->
   forall p, In p ports -> exists! c, In c cs /\ f c = p).
Proof.
  intros NDc NDp Hin. split.
  - intros (ND & L) p Hp.
    assert (I : incl ports (map f cs)).
    { apply NoDup_length_incl; [auto|rewrite map_length; lia|].
      intros q Hq. apply in_map_iff in Hq. destruct Hq as (c & <- & Hc). auto. }
    specialize (I p Hp). apply in_map_iff in I. destruct I as (c & E & Hc). exists c. split; [auto|].
    intros c' (Hc' & E'). subst p. clear -ND Hc Hc' E'.
    induction cs as [|x cs IH]; [destruct Hc|]. cbn in ND. inv ND.
    destruct Hc as [->|Hc], Hc' as [->|Hc']; auto.
    + exfalso. apply H1. rewrite <- E'. now apply in_map.
    + exfalso. apply H1. rewrite E'. now apply in_map.
  - intros H.
    assert (ND : NoDup (map f cs)).
    { clear -NDc Hin H. assert (INJ : forall c c', In c cs -> In c' cs -> f c = f c' -> c = c').
      { intros c c' Hc Hc' E. destruct (H (f c) (Hin c Hc)) as (x & _ & U).
        rewrite <- (U c (conj Hc eq_refl)). apply U. auto. }
      clear Hin H. induction cs as [|x cs IH]; cbn; [constructor|]. inv NDc. constructor.
      - intros A. apply in_map_iff in A. destruct A as (y & E & Hy).
        apply H1. rewrite (INJ x y); auto; [now left|now right].
      - apply IH; [auto|]. intros c c' Hc Hc'. apply INJ; now right. }
    split; [auto|]. apply Nat.le_antisymm.
    + rewrite <- (map_length f). apply NoDup_incl_length; [auto|]. intros q Hq. apply in_map_iff in Hq.
      destruct Hq as (c & <- & Hc). auto.
    + rewrite <- (map_length f cs). apply NoDup_incl_length; [auto|]. intros p Hp.
      destruct (H p Hp) as (c & (Hc & E) & _). rewrite <- E. now apply in_map.
Qed.

Lemma NoDup_map_pair (l : list nat) (f : nat -> nat) (g : nat -> string) :
  NoDup (map (fun c => (f c, g c)) l) <->
  NoDup l /\ forall k, NoDup (map g (filter (fun c => Nat.eqb (f c) k) l)).
Proof.
  induction l as [|x l IH]; cbn; [split; [intros _; split; [constructor|intros; constructor]|constructor]|].
  split.
  - intros H. inv H. apply IH in H3. destruct H3 as (A & B). split.
    + constructor; [|auto]. intros C. apply H2. apply in_map_iff. exists x. auto.
    + intros k. destruct (Nat.eqb (f x) k) eqn:E; [|auto]. cbn. constructor; [|auto].
      intros C. apply H2. apply in_map_iff in C. destruct C as (y & Ey & Hy). apply filter_In in Hy.
      destruct Hy as (Hy & Ek). apply Nat.eqb_eq in E, Ek. apply in_map_iff. exists y. split; [congruence|auto].
  - intros (A & B). inv A. constructor.
    + intros C. apply in_map_iff in C. destruct C as (y & Ey & Hy). inv Ey.
      specialize (B (f x)). rewrite Nat.eqb_refl in B. cbn in B. inversion B as [|? ? B1 B2]; subst. apply B1.
      apply in_map_iff. exists y. split; [auto|]. apply filter_In. split; [auto|]. apply Nat.eqb_eq. auto.
    + apply IH. split; [auto|]. intros k. specialize (B k). destruct (Nat.eqb (f x) k); [|auto].
      cbn in B. now inv B.
Qed.

Lemma NoDup_snd {W n} : conns_ok W n -> NoDup (map snd (n_conns n)).
Proof.
  intros (ND & L). induction (n_conns n) as [|[l c] d IH]; cbn; [constructor|].
  cbn in ND. inv ND. constructor.
  - intros H. apply in_map_iff in H. destruct H as ([l' c'] & E & H). cbn in E; subst c'.
    apply H1. assert (l' = l).
    { rewrite <- (L l' c (or_intror H)). apply L. now left. }
    subst l'. change l with (fst (l, c)). now apply in_map.
  - apply IH; auto. intros; apply L; now right.
Qed.

Lemma has_conn_In n c : has_conn n c <-> In c (map snd (n_conns n)).
Proof.
  unfold has_conn. rewrite in_map_iff. split.
  - intros (l & H). exists (l, c). auto.
  - intros ([l c'] & E & H). cbn in E; subst. exists l; auto.
Qed.

Lemma has_comp_In n k : has_comp n k <-> In k (map snd (n_comps n)).
Proof.
  unfold has_comp. rewrite in_map_iff. split.
  - intros (l & H). exists (l, k). auto.
  - intros ([l k'] & E & H). cbn in E; subst. exists l; auto.
Qed.

Lemma create_conn_ok W a p b q : create_conn W a p b q = None ->
  a <> b /\ In p (w_outlets W a) /\ In q (w_inlets W b).
Proof.
  unfold create_conn. destruct (Nat.eqb a b) eqn:E; [discriminate|]. apply Nat.eqb_neq in E.
  destruct (smem p (w_outlets W a)) eqn:E1; [|discriminate].
  destruct (smem q (w_inlets W b)) eqn:E2; [|discriminate]. apply smem_In in E1, E2. auto.
Qed.

Lemma checks_iff W n : conns_ok W n -> mirrored W n -> world_ok W n ->
  (check_conns W n = None /\ check_components W (map snd (n_comps n)) n = None <->
   forall k, has_comp n k -> fully_connected W n k).
Proof.
  intros I M (WC & WP). rewrite check_conns_iff, check_components_iff.
  set (cs := map snd (n_conns n)).
  assert (NDcs : NoDup cs) by (eapply NoDup_snd; eauto).
  assert (P1 : forall k c, In c (filter (fun c => Nat.eqb (w_source W c) k) cs) <-> has_conn n c /\ w_source W c = k).
  { intros k c. rewrite filter_In, Nat.eqb_eq, has_conn_In. tauto. }
  assert (P2 : forall k c, In c (filter (fun c => Nat.eqb (w_target W c) k) cs) <-> has_conn n c /\ w_target W c = k).
  { intros k c. rewrite filter_In, Nat.eqb_eq, has_conn_In. tauto. }
  assert (Q1 : forall k, (NoDup (map (w_source_id W) (filter (fun c => Nat.eqb (w_source W c) k) cs)) /\
                          length (filter (fun c => Nat.eqb (w_source W c) k) cs) = length (w_outlets W k)) <->
                         forall p, In p (w_outlets W k) -> exists! c, uses_outlet W n k p c).
  { intros k. rewrite ports_pigeonhole; [|now apply NoDup_filter|apply WP|].
    - unfold uses_outlet. split; intros H p Hp; destruct (H p Hp) as (c & (A & B) & U); exists c.
      + apply P1 in A. split; [tauto|]. intros c' (X & Y & Z). apply U. split; [apply P1; auto|auto].
      + split; [split; [apply P1; tauto|tauto]|]. intros c' (X & Y). apply P1 in X. apply U. tauto.
    - intros c Hc. apply P1 in Hc. destruct Hc as (Hc & <-). apply WC in Hc. now apply create_conn_ok in Hc. }
  assert (Q2 : forall k, (NoDup (map (w_target_id W) (filter (fun c => Nat.eqb (w_target W c) k) cs)) /\
                          length (filter (fun c => Nat.eqb (w_target W c) k) cs) = length (w_inlets W k)) <->
                         forall p, In p (w_inlets W k) -> exists! c, uses_inlet W n k p c).
  { intros k. rewrite ports_pigeonhole; [|now apply NoDup_filter|apply WP|].
    - unfold uses_inlet. split; intros H p Hp; destruct (H p Hp) as (c & (A & B) & U); exists c.
      + apply P2 in A. split; [tauto|]. intros c' (X & Y & Z). apply U. split; [apply P2; auto|auto].
      + split; [split; [apply P2; tauto|tauto]|]. intros c' (X & Y). apply P2 in X. apply U. tauto.
    - intros c Hc. apply P2 in Hc. destruct Hc as (Hc & <-). apply WC in Hc. now apply create_conn_ok in Hc. }
  unfold out_port, in_port. rewrite !NoDup_map_pair. split.
  - intros (((_ & A) & (_ & B)) & C) k Hk. apply has_comp_In in Hk. specialize (C k Hk).
    split; [apply Q1|apply Q2]; split; auto; apply C.
  - intros H. split; [split; (split; [auto|])|].
    + intros k. destruct (filter (fun c => Nat.eqb (w_source W c) k) cs) as [|x l] eqn:E; [constructor|].
      rewrite <- E. apply Q1. apply H. apply M.
      exists x. assert (X : In x (filter (fun c => Nat.eqb (w_source W c) k) cs)) by (rewrite E; now left).
      apply P1 in X. tauto.
    + intros k. destruct (filter (fun c => Nat.eqb (w_target W c) k) cs) as [|x l] eqn:E; [constructor|].
      rewrite <- E. apply Q2. apply H. apply M.
      exists x. assert (X : In x (filter (fun c => Nat.eqb (w_target W c) k) cs)) by (rewrite E; now left).
      apply P2 in X. tauto.
    + intros k Hk. apply has_comp_In in Hk. apply H in Hk. destruct Hk as (A & B).
      apply Q1 in A. apply Q2 in B. tauto.
Qed.

(* ---- order of the connection lists ---- *)

Lemma leb_trans : forall a b c, String.leb a b = true -> String.leb b c = true -> String.leb a c = true.
Proof.
  unfold String.leb. induction a as [|x a IH]; intros [|y b] [|z c]; cbn; auto; try discriminate.
  destruct (Ascii.compare x y) eqn:E1; try discriminate; destruct (Ascii.compare y z) eqn:E2; try discriminate; intros A B.
  - apply Ascii.compare_eq_iff in E1, E2. subst.
    replace (Ascii.compare z z) with Eq; [eapply IH; eauto|]. symmetry.
    unfold Ascii.compare. apply N.compare_refl.
  - apply Ascii.compare_eq_iff in E1. subst. now rewrite E2.
  - apply Ascii.compare_eq_iff in E2. subst. now rewrite E1.
  - unfold Ascii.compare in *. rewrite N.compare_lt_iff in E1, E2.
    assert (X : N.compare (Ascii.N_of_ascii x) (Ascii.N_of_ascii z) = Lt) by (apply N.compare_lt_iff; lia).
    now rewrite X.
Qed.

Definition sle (a b : string) : Prop := String.leb a b = true.

Lemma insert_perm key c l : Permutation (c :: l) (insert_by key c l).
Proof.
  induction l as [|x l IH]; cbn; [auto|]. destruct (String.leb (key c) (key x)); [auto|].
  etransitivity; [apply perm_swap|]. now constructor.
Qed.

Lemma sort_perm key l : Permutation l (sort_by key l).
Proof.
  induction l as [|x l IH]; cbn; [auto|].
  etransitivity; [apply perm_skip, IH|]. apply insert_perm.
Qed.

Lemma insert_sorted key c l : Sorted sle (map key l) -> Sorted sle (map key (insert_by key c l)).
Proof.
  induction l as [|x l IH]; cbn; intros H; [auto|].
  destruct (String.leb (key c) (key x)) eqn:E; cbn.
  - constructor; [auto|]. constructor. exact E.
  - inv H. constructor; [auto|].
    assert (X : sle (key x) (key c)) by (destruct (String.leb_total (key c) (key x)); [congruence|auto]).
    destruct l as [|y l]; cbn; [constructor; auto|]. destruct (String.leb (key c) (key y)); cbn; constructor; auto.
    now inv H3.
Qed.

Lemma sort_sorted key l : Sorted sle (map key (sort_by key l)).
Proof. induction l as [|x l IH]; cbn; [constructor|]. now apply insert_sorted. Qed.

Lemma sorted_unique : forall l1 l2 : list string, Sorted sle l1 -> Sorted sle l2 -> Permutation l1 l2 -> l1 = l2.
Proof.
  assert (T : Relations_1.Transitive sle) by (intros a b c; apply leb_trans).
  induction l1 as [|x l1 IH]; intros l2 S1 S2 P.
  - apply Permutation_nil in P. now subst.
  - destruct l2 as [|y l2]; [apply Permutation_sym, Permutation_nil in P; discriminate|].
    assert (x = y).
    { apply String.leb_antisym.
      - apply Sorted_StronglySorted in S1; [|auto]. inv S1.
        assert (In y (x :: l1)) by (eapply Permutation_in; [apply Permutation_sym, P|now left]).
        destruct H as [->|H]; [destruct (String.leb_total y y); auto|]. rewrite Forall_forall in H2. now apply H2.
      - apply Sorted_StronglySorted in S2; [|auto]. inv S2.
        assert (In x (y :: l2)) by (eapply Permutation_in; [apply P|now left]).
        destruct H as [->|H]; [destruct (String.leb_total x x); auto|]. rewrite Forall_forall in H2. now apply H2. }
    subst y. f_equal. apply IH; [now inv S1|now inv S2|]. eapply Permutation_cons_inv; eauto.
Qed.

Lemma ports_perm (W : world) (n : net) (key : nat -> string) (fltr : nat -> bool) (ports : list string) :
  let l := filter fltr (map snd (n_conns n)) in
  NoDup (map key l) -> length l = length ports -> (forall c, In c l -> In (key c) ports) ->
  Permutation (map key (sort_by key l)) ports.
Proof.
  intros l ND L Hin. transitivity (map key l).
  - apply Permutation_map, Permutation_sym, sort_perm.
  - apply NoDup_Permutation_bis; [auto|rewrite map_length; lia|].
    intros q Hq. apply in_map_iff in Hq. destruct Hq as (c & <- & Hc). auto.
Qed.

Lemma port_lists W n : conns_ok W n -> mirrored W n -> world_ok W n ->
  check_conns W n = None -> check_components W (map snd (n_comps n)) n = None ->
  forall k, has_comp n k ->
    Permutation (map (w_source_id W) (outl W n k)) (w_outlets W k) /\
    Permutation (map (w_target_id W) (inl W n k)) (w_inlets W k).
Proof.
  intros I M (WC & WP) H1 H2 k Hk.
  apply check_conns_iff in H1. destruct H1 as (A & B).
  rewrite check_components_iff in H2. apply has_comp_In in Hk. destruct (H2 k Hk) as (C & D).
  unfold out_port in A. unfold in_port in B. apply NoDup_map_pair in A, B.
  split; apply ports_perm; auto; try apply A; try apply B; intros c Hc; apply filter_In in Hc;
  destruct Hc as (Hc & E); apply Nat.eqb_eq in E; subst k; apply has_conn_In in Hc; apply WC in Hc;
  now apply create_conn_ok in Hc.
Qed.

Lemma port_order W n : conns_ok W n -> mirrored W n -> world_ok W n ->
  check_conns W n = None -> check_components W (map snd (n_comps n)) n = None ->
  forall k, has_comp n k ->
    (Sorted sle (w_outlets W k) -> map (w_source_id W) (outl W n k) = w_outlets W k) /\
    (Sorted sle (w_inlets W k) -> map (w_target_id W) (inl W n k) = w_inlets W k).
Proof.
  intros I M WO H1 H2 k Hk. destruct (port_lists W n I M WO H1 H2 k Hk) as (A & B).
  split; intros S; apply sorted_unique; auto; apply sort_sorted.
Qed.

(* ---- rejected additions ---- *)

Lemma add_conns_subset W order args n : set_order order -> conns_ok W n -> comps_ok W n ->
  (forall k, has_comp n k -> attached W n k) ->
  let n' := fst (add_conns W order args n) in
  (forall c, has_conn n c -> has_conn n' c) /\ (forall k, has_comp n' k -> attached W n' k).
Proof.
  intros Ho I J M n'. destruct (add_loop_ok W args n I) as (_ & E & _ & A & B).
  assert (MONO : forall c, has_conn n c -> has_conn n' c).
  { intros c Hc. apply (has_conn_ext _ _ c (add_conns_conns W order args n)). auto. }
  split; [auto|]. intros k Hk.
  assert (ATT : has_comp n k -> attached W n' k).
  { intros H. destruct (M k H) as (c & Hc & Ec). exists c. auto. }
  unfold n', add_conns in *. destruct (add_conns_loop W args n) as [n1 [e|]] eqn:EL; cbn [fst] in *.
  - apply ATT. unfold has_comp in *. now rewrite E in Hk.
  - assert (J1 : comps_ok W n1) by (eapply comps_ok_ext; eauto).
    destruct (add_comps_ok W (order (ends W (arg_conns args))) n1 J1) as (_ & _ & C & _).
    destruct (C k Hk) as [H|H].
    + apply ATT. unfold has_comp in *. now rewrite E in H.
    + pose proof (proj1 (proj2 (Ho (ends W (arg_conns args))) k) H) as H2. clear H. rename H2 into H. apply In_ends in H. destruct H as (c & Hc & Ec). exists c. split; [|auto].
      apply (has_conn_ext _ _ c (proj1 (add_comps_frame W _ n1))).
      pose proof (add_loop_all W args n) as L. rewrite EL in L. apply L; auto.
Qed.

(* ---- statements over histories ---- *)

Lemma history_labels W order check ops : check_frame check ->
  let n := history W order check ops empty_net in
  NoDup (map fst (n_conns n)) /\
  forall c d, has_conn n c -> has_conn n d -> w_label W c = w_label W d -> c = d.
Proof.
  intros Hc n. pose proof (history_conns_ok W order check ops Hc empty_net (empty_conns_ok W)) as I. fold n in I.
  split; [apply I|]. intros c d A B E.
  pose proof (proj2 (get_conn_iff W n (w_label W c) c I) (conj A eq_refl)) as P.
  pose proof (proj2 (get_conn_iff W n (w_label W c) d I) (conj B (eq_sym E))) as Q. congruence.
Qed.

Lemma history_get_conn W order check ops l c : check_frame check ->
  let n := history W order check ops empty_net in
  get_conn n l = Some c <-> has_conn n c /\ w_label W c = l.
Proof. intros Hc n. apply get_conn_iff, history_conns_ok; auto. apply empty_conns_ok. Qed.

Lemma history_added W order check ops args n' : check_frame check ->
  let n := history W order check ops empty_net in
  add_conns W order args n = (n', None) ->
  forall c, has_conn n' c <-> has_conn n c \/ In c (arg_conns args).
Proof. intros Hc n H. eapply add_conns_effect; eauto. apply history_conns_ok; auto. apply empty_conns_ok. Qed.

Lemma history_removed W order check ops cs n' : check_frame check ->
  let n := history W order check ops empty_net in
  (forall c, In c cs -> has_conn n c) -> del_conns W order cs n = (n', None) ->
  forall c, has_conn n' c <-> has_conn n c /\ ~ In c cs.
Proof. intros Hc n Hin H. eapply del_conns_effect; eauto. apply history_conns_ok; auto. apply empty_conns_ok. Qed.

Lemma del_loop_unknown W cs : forall n c, In c cs -> dget (w_label W c) (n_conns n) = None -> snd (del_conns_loop W cs n) = Some KeyError.
Proof.
  induction cs as [|x cs IH]; intros n c I H; [destruct I|]. cbn [del_conns_loop]. destruct (dmem (w_label W x) (n_conns n)) eqn:E; [|reflexivity].
  destruct I as [->|I]; [unfold dmem in E; now rewrite H in E|]. apply IH with c; [exact I|]. cbn [n_conns n_with_conns].
  destruct (String.eqb_spec (w_label W c) (w_label W x)) as [D|D]; [|rewrite dget_ddel_neq; auto]. unfold dmem in E. rewrite <- D, H in E. discriminate.
Qed.
Lemma history_unknown W order check ops cs c : check_frame check ->
  let n := history W order check ops empty_net in
  In c cs -> (forall c', has_conn n c' -> w_label W c' <> w_label W c) -> snd (del_conns W order cs n) = Some KeyError.
Proof.
  intros Hc n I H. assert (X : snd (del_conns_loop W cs n) = Some KeyError).
  { apply del_loop_unknown with c; [exact I|]. destruct (dget (w_label W c) (n_conns n)) as [c'|] eqn:E; [|reflexivity]. exfalso.
    assert (G : get_conn n (w_label W c) = Some c') by exact E. apply history_get_conn in G; [|exact Hc]. destruct G as [G1 G2]. exact (H c' G1 G2). }
  unfold del_conns. destruct (del_conns_loop W cs n) as [n' [e|]]; cbn in X; [injection X as ->; reflexivity|discriminate].
Qed.

Lemma history_mirrored W order check ops : set_order order -> check_frame check ->
  clean W order check ops empty_net ->
  let n := history W order check ops empty_net in
  forall k, has_comp n k <-> attached W n k.
Proof.
  intros Ho Hc C n. destruct (empty_mirrored W) as (A & B). apply clean_mirrored; auto. apply empty_conns_ok.
Qed.

Lemma history_get_comp W order check ops l k : check_frame check ->
  let n := history W order check ops empty_net in
  get_comp n l = Some k <-> has_comp n k /\ w_clabel W k = l.
Proof.
  intros Hc n. assert (J : comps_ok W n).
  { apply history_comps_ok; auto; [apply empty_conns_ok|apply empty_mirrored]. }
  destruct J as (ND & L). unfold get_comp. split.
  - intros H. apply dget_In in H. split; [exists l; auto|auto].
  - intros ((l' & H) & E). rewrite (L _ _ H) in E. subst l'. now apply In_dget.
Qed.

Lemma port_lists_full W n : conns_ok W n -> mirrored W n -> world_ok W n ->
  check_conns W n = None -> check_components W (map snd (n_comps n)) n = None ->
  forall k, has_comp n k ->
    (forall p c, In p (w_outlets W k) -> (uses_outlet W n k p c <-> In c (outl W n k) /\ w_source_id W c = p)) /\
    (forall p c, In p (w_inlets W k) -> (uses_inlet W n k p c <-> In c (inl W n k) /\ w_target_id W c = p)) /\
    NoDup (outl W n k) /\ NoDup (inl W n k) /\
    (Sorted sle (w_outlets W k) -> map (w_source_id W) (outl W n k) = w_outlets W k) /\
    (Sorted sle (w_inlets W k) -> map (w_target_id W) (inl W n k) = w_inlets W k).
Proof.
  intros I M WO C1 C2 k Hk. destruct (port_order W n I M WO C1 C2 k Hk) as (PO & PI).
  split; [|split; [|split; [|split; [|split]]]]; auto.
  - intros p c _. unfold uses_outlet, outl. rewrite has_conn_In.
    rewrite <- (Permutation_in' eq_refl (sort_perm (w_source_id W) _)), filter_In, Nat.eqb_eq. tauto.
  - intros p c _. unfold uses_inlet, inl. rewrite has_conn_In.
    rewrite <- (Permutation_in' eq_refl (sort_perm (w_target_id W) _)), filter_In, Nat.eqb_eq. tauto.
  - unfold outl. eapply Permutation_NoDup; [apply sort_perm|]. apply NoDup_filter, (NoDup_snd I).
  - unfold inl. eapply Permutation_NoDup; [apply sort_perm|]. apply NoDup_filter, (NoDup_snd I).
Qed.

(* ---- witnesses ---- *)

(** Source 0 -> Pump 1 -> Sink 2, connections 0 and 1. *)
Definition exW : world := {|
  w_class := fun k => nth k ["Source"; "Pump"; "Sink"]%string "";
  w_clabel := fun k => nth k ["so"; "pu"; "si"]%string "";
  w_inlets := fun k => nth k [[]; ["in1"]; ["in1"]]%string [];
  w_outlets := fun k => nth k [["out1"]; ["out1"]; []]%string [];
  w_label := fun c => nth c ["1"; "2"]%string "";
  w_source := fun c => c; w_source_id := fun _ => "out1"%string;
  w_target := fun c => S c; w_target_id := fun _ => "in1"%string |}.

Lemma nodup_order : set_order (nodup Nat.eq_dec).
Proof. intros l. split; [apply NoDup_nodup|]. intros x. apply nodup_In. Qed.

Lemma add_out_of_step : exists W order args n,
  set_order order /\ conns_ok W n /\ comps_ok W n /\ mirrored W n /\
  snd (add_conns W order args n) = Some TypeError /\ ~ mirrored W (fst (add_conns W order args n)).
Proof.
  exists exW, (nodup Nat.eq_dec), [AConn 0; AOther], empty_net. destruct (empty_mirrored exW) as (A & B).
  split; [apply nodup_order|]. split; [apply empty_conns_ok|]. split; [auto|]. split; [auto|]. split; [reflexivity|].
  intros M. destruct (proj2 (M 0)) as (l & []).
  exists 0. split; [exists "1"%string; cbn; auto|]. left. reflexivity.
Qed.

Lemma del_out_of_step : exists W order args cs,
  let n := fst (add_conns W order args empty_net) in
  set_order order /\ snd (add_conns W order args empty_net) = None /\ (forall c, In c cs -> has_conn n c) /\
  snd (del_conns W order cs n) = Some KeyError /\ ~ mirrored W (fst (del_conns W order cs n)).
Proof.
  exists exW, (nodup Nat.eq_dec), [AConn 0; AConn 1], [0; 1]. cbv zeta.
  split; [apply nodup_order|]. split; [reflexivity|]. split; [|split; [reflexivity|]].
  - intros c [<-|[<-|[]]]; [exists "1"%string|exists "2"%string]; vm_compute; auto.
  - intros M. destruct (proj1 (M 2)) as (c & (l & H) & _).
    + exists "si"%string. vm_compute. auto.
    + vm_compute in H. exact H.
Qed.

(** Sources 1..10 feed the ten inlets of the merge 0, which feeds sink 11. *)
Definition tenW : world := {|
  w_class := fun k => if Nat.eqb k 0 then "Merge"%string else if Nat.eqb k 11 then "Sink"%string else "Source"%string;
  w_clabel := fun k => nth k ["m"; "1"; "2"; "3"; "4"; "5"; "6"; "7"; "8"; "9"; "10"; "s"]%string "";
  w_inlets := fun k => if Nat.eqb k 0
    then ["in1"; "in2"; "in3"; "in4"; "in5"; "in6"; "in7"; "in8"; "in9"; "in10"]%string
    else if Nat.eqb k 11 then ["in1"]%string else [];
  w_outlets := fun k => if Nat.eqb k 11 then [] else ["out1"]%string;
  w_label := fun c => nth c ["m"; "1"; "2"; "3"; "4"; "5"; "6"; "7"; "8"; "9"; "10"; "s"]%string "";
  w_source := fun c => c; w_source_id := fun _ => "out1"%string;
  w_target := fun c => if Nat.eqb c 0 then 11 else 0;
  w_target_id := fun c => if Nat.eqb c 0 then "in1"%string else
    nth c [""; "in1"; "in2"; "in3"; "in4"; "in5"; "in6"; "in7"; "in8"; "in9"; "in10"]%string "" |}.

Definition tenN : net := history tenW (nodup Nat.eq_dec) (fun n => n) [Add (map AConn (seq 0 11))] empty_net.

Lemma port_order_ten : exists W n k,
  conns_ok W n /\ mirrored W n /\ world_ok W n /\
  check_conns W n = None /\ check_components W (map snd (n_comps n)) n = None /\ has_comp n k /\
  map (w_target_id W) (inl W n k) <> w_inlets W k.
Proof.
  exists tenW, tenN, 0.
  assert (E : add_conns tenW (nodup Nat.eq_dec) (map AConn (seq 0 11)) empty_net = (tenN, None)) by (vm_compute; reflexivity).
  destruct (empty_mirrored tenW) as (A & B).
  split; [|split; [|split; [|split; [|split; [|split]]]]].
  - unfold tenN. apply history_conns_ok; [split; auto|apply empty_conns_ok].
  - apply (add_conns_mirrored tenW (nodup Nat.eq_dec) (map AConn (seq 0 11)) empty_net); auto using nodup_order, empty_conns_ok.
  - split.
    + intros c (l & H). vm_compute in H.
      repeat (destruct H as [H|H]; [inversion H; subst; reflexivity|]). destruct H.
    + intros k. split; unfold tenW; cbn [w_outlets w_inlets].
      * destruct (Nat.eqb k 11); repeat constructor; auto.
      * destruct (Nat.eqb k 0); [|destruct (Nat.eqb k 11); repeat constructor; auto].
        repeat (constructor; [cbn; intuition discriminate|]). constructor.
  - vm_compute. reflexivity.
  - vm_compute. reflexivity.
  - exists "m"%string. vm_compute. repeat (first [left; reflexivity | right]).
  - vm_compute. intros H. discriminate.
Qed.
