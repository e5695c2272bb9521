(** Proofs about mixtures. *)
From Coq Require Import QArith Qabs Lqa Lia.
From Verif Require Import Base NewtonModel NewtonSpec NewtonProofs MixModel MixSpec.
Open Scope Q_scope.

(* ----------------------------------------------------------------- sums *)

Lemma sumd_nil : forall V (g : string -> V -> Q), sumd [] g = 0.
Proof. reflexivity. Qed.
Lemma sumd_cons : forall V k v (d : dict V) g, sumd ((k, v) :: d) g = g k v + sumd d g.
Proof. reflexivity. Qed.
Lemma sumd_ext_in : forall V (d : dict V) g g', (forall k v, In (k, v) d -> g k v == g' k v) -> sumd d g == sumd d g'.
Proof.
  induction d as [| [k v] d IH]; intros g g' H; [reflexivity |]. rewrite !sumd_cons.
  rewrite (H k v (or_introl eq_refl)), (IH g g'); [reflexivity |]. intros. apply H. now right.
Qed.
Lemma sumd_plus : forall V (d : dict V) g g', sumd d (fun k v => g k v + g' k v) == sumd d g + sumd d g'.
Proof. induction d as [| [k v] d IH]; intros; [reflexivity |]. rewrite !sumd_cons, IH. ring. Qed.
Lemma sumd_scale : forall V (d : dict V) g c, sumd d (fun k v => g k v * c) == sumd d g * c.
Proof. induction d as [| [k v] d IH]; intros; [rewrite !sumd_nil; ring |]. rewrite !sumd_cons, IH. ring. Qed.
Lemma sumd_nonneg : forall V (d : dict V) g, (forall k v, In (k, v) d -> 0 <= g k v) -> 0 <= sumd d g.
Proof.
  induction d as [| [k v] d IH]; intros g H; [rewrite sumd_nil; lra |]. rewrite sumd_cons.
  pose proof (H k v (or_introl eq_refl)). specialize (IH g (fun k' v' I => H k' v' (or_intror I))). lra.
Qed.
Lemma sumd_pos : forall V (d : dict V) a m, (forall k v, In (k, v) d -> 0 <= a k v /\ 0 < m k v) ->
  0 < sumd d a -> 0 < sumd d (fun k v => a k v * m k v).
Proof.
  induction d as [| [k v] d IH]; intros a m H P; [rewrite sumd_nil in P; lra |]. rewrite sumd_cons in *.
  destruct (H k v (or_introl eq_refl)) as (A & M).
  assert (H' : forall k' v', In (k', v') d -> 0 <= a k' v' /\ 0 < m k' v') by (intros; apply H; now right).
  assert (N : 0 <= sumd d (fun k v => a k v * m k v)).
  { apply sumd_nonneg. intros k' v' I. destruct (H' k' v' I). apply Qmult_le_0_compat; lra. }
  destruct (Qlt_le_dec 0 (a k v)) as [L | L].
  - assert (0 < a k v * m k v) by (apply Qmult_lt_0_compat; auto). lra.
  - assert (E : a k v == 0) by lra. specialize (IH a m H'). rewrite E in *. lra.
Qed.
Lemma sumd_map : forall V W (f : string * V -> W) (d : dict V) (g : string -> W -> Q),
  sumd (map (fun e => (fst e, f e)) d) g = sumd d (fun k v => g k (f (k, v))).
Proof. induction d as [| [k v] d IH]; intros; [reflexivity |]. cbn [map fst]. rewrite !sumd_cons, IH. reflexivity. Qed.
Lemma dget_In : forall V k v (d : dict V), dget k d = Some v -> In (k, v) d.
Proof.
  induction d as [| [k' v'] d IH]; cbn; [discriminate |]. destruct (String.eqb_spec k k') as [-> | N].
  - intro E. injection E as ->. now left.
  - intro E. right. auto.
Qed.
Lemma In_dget : forall V k v (d : dict V), NoDup (keys d) -> In (k, v) d -> dget k d = Some v.
Proof.
  induction d as [| [k' v'] d IH]; cbn; [tauto |]. intros ND [E | I].
  - injection E as -> ->. now rewrite String.eqb_refl.
  - inversion ND; subst. destruct (String.eqb_spec k k') as [-> | N]; [| auto].
    exfalso. apply H1. change k' with (fst (k', v)). apply in_map_iff. eexists; split; [reflexivity | exact I].
Qed.
Lemma dget_map : forall V W (f : string * V -> W) (d : dict V) k,
  dget k (map (fun e => (fst e, f e)) d) = option_map (fun v => f (k, v)) (dget k d).
Proof.
  induction d as [| [k' v'] d IH]; intro k; cbn; [reflexivity |].
  destruct (String.eqb_spec k k') as [-> | N]; [reflexivity | apply IH].
Qed.
Lemma keys_map : forall V W (f : string * V -> W) (d : dict V), keys (map (fun e => (fst e, f e)) d) = keys d.
Proof. intros. unfold keys. rewrite map_map. apply map_ext. reflexivity. Qed.
Lemma dset_map : forall V k (v : V) (d : dict V), NoDup (keys d) -> In k (keys d) ->
  dset k v d = map (fun e => (fst e, if String.eqb (fst e) k then v else snd e)) d.
Proof.
  induction d as [| [k' v'] d IH]; cbn; intros ND I; [destruct I |]. inversion ND; subst.
  destruct (String.eqb_spec k k') as [-> | N].
  - rewrite String.eqb_refl. f_equal. rewrite <- (map_id d) at 1. apply map_ext_in. intros [k2 v2] I2. cbn.
    destruct (String.eqb_spec k2 k') as [-> | _]; [| reflexivity].
    exfalso. apply H1. apply in_map_iff. exists (k', v2). auto.
  - destruct (String.eqb_spec k' k) as [E | _]; [congruence |]. f_equal. apply IH; auto. destruct I; [congruence | auto].
Qed.
Lemma sumd_split : forall V (d : dict V) w vw g, NoDup (keys d) -> dget w d = Some vw ->
  sumd d g == g w vw + sumd d (fun k v => if String.eqb k w then 0 else g k v).
Proof.
  induction d as [| [k v] d IH]; intros w vw g ND D; [discriminate D |]. rewrite !sumd_cons. cbn in D.
  inversion ND; subst. destruct (String.eqb_spec w k) as [-> | N].
  - injection D as ->. rewrite String.eqb_refl.
    rewrite (sumd_ext_in _ d (fun k0 v0 => if String.eqb k0 k then 0 else g k0 v0) g); [ring |].
    intros k0 v0 I. destruct (String.eqb_spec k0 k) as [-> | _]; [| reflexivity].
    exfalso. apply H1. apply in_map_iff. exists (k, v0). auto.
  - destruct (String.eqb_spec k w) as [E | _]; [congruence |]. rewrite (IH w vw g H2 D). ring.
Qed.

Lemma total_acc : forall l a, fold_left Qplus l a == a + fold_right Qplus 0 l.
Proof. induction l as [| x l IH]; intro a; cbn [fold_left fold_right]; [ring |]. rewrite IH. ring. Qed.
Lemma total_sum : forall V (d : dict V) g, total (map (fun e => g (fst e) (snd e)) d) == sumd d g.
Proof.
  intros. unfold total. rewrite total_acc. induction d as [| [k v] d IH]; [reflexivity |].
  rewrite sumd_cons. cbn [map fold_right fst snd]. rewrite <- IH. ring.
Qed.
Lemma rmapM_ok : forall A B (f : A -> res B) g l, (forall a, In a l -> f a = Ok (g a)) -> rmapM f l = Ok (map g l).
Proof.
  induction l as [| a l IH]; intro H; [reflexivity |]. cbn. rewrite (H a (or_introl eq_refl)). cbn.
  rewrite IH; [reflexivity |]. intros. apply H. now right.
Qed.
Lemma qdiv_ok : forall a b, ~ b == 0 -> qdiv a b = Ok (a / b).
Proof.
  intros a b N. unfold qdiv. destruct (Qeq_bool b 0) eqn:E; [| reflexivity].
  exfalso. apply N. now apply Qeq_bool_iff.
Qed.
Lemma qdiv_inv : forall a b c, qdiv a b = Ok c -> c = a / b /\ ~ b == 0.
Proof.
  intros a b c. unfold qdiv. destruct (Qeq_bool b 0) eqn:E; [discriminate |]. intro H. injection H as <-.
  split; [reflexivity |]. intro X. apply Qeq_bool_iff in X. congruence.
Qed.

(* -------------------------------------------------------- molar fractions *)

Definition flow_total (fd : fluids) : Q := total (map (fun e => amount (snd e)) fd).
Definition fraction (fd : fluids) (e : string * entry) : Q := amount (snd e) / flow_total fd.

Lemma flow_moles : forall fd, flow_total fd == moles fd.
Proof. intro fd. apply (total_sum entry fd (fun _ e => amount e)). Qed.
Lemma valid_in : forall fd k e, valid fd -> In (k, e) fd -> 0 < w_M (e_wr e) /\ 0 <= e_frac e.
Proof. intros fd k e (ND & P & _) I. apply (P k). now apply In_dget. Qed.
Lemma amount_nonneg : forall fd k e, valid fd -> In (k, e) fd -> 0 <= amount e.
Proof.
  intros fd k e V I. destruct (valid_in _ _ _ V I). unfold amount, Qdiv.
  apply Qmult_le_0_compat; [assumption |]. apply Qlt_le_weak. now apply Qinv_lt_0_compat.
Qed.
Lemma moles_pos : forall fd, valid fd -> 0 < moles fd.
Proof.
  intros fd V. unfold moles, amount, Qdiv. apply (sumd_pos _ fd (fun _ e => e_frac e) (fun _ e => / w_M (e_wr e))).
  - intros k e I. destruct (valid_in _ _ _ V I). split; [assumption | now apply Qinv_lt_0_compat].
  - destruct V as (_ & _ & S). rewrite S. lra.
Qed.
Lemma molar_eq : forall fd, valid fd -> molar_fractions fd = Ok (map (fun e => (fst e, fraction fd e)) fd).
Proof.
  intros fd V. unfold molar_fractions.
  rewrite (rmapM_ok _ _ _ (fun e => (fst e, amount (snd e)))).
  2:{ intros [k e] I. cbn [fst snd]. rewrite qdiv_ok; [reflexivity |]. destruct (valid_in _ _ _ V I). lra. }
  cbn [rbind]. rewrite map_map. cbn [snd].
  rewrite (rmapM_ok _ _ _ (fun e => (fst e, snd e / flow_total fd))).
  - rewrite map_map. reflexivity.
  - intros x _. fold (flow_total fd). rewrite qdiv_ok; [reflexivity |].
    rewrite flow_moles. pose proof (moles_pos fd V). lra.
Qed.
Lemma fraction_moles : forall fd e, valid fd -> fraction fd e * moles fd == amount (snd e).
Proof. intros fd e V. unfold fraction. rewrite flow_moles. pose proof (moles_pos fd V). field. lra. Qed.
Lemma fraction_eq : forall fd e, valid fd -> fraction fd e == amount (snd e) / moles fd.
Proof. intros fd e V. unfold fraction. now rewrite flow_moles. Qed.
Lemma fractions_sum : forall fd, valid fd -> sumd fd (fun k e => fraction fd (k, e)) == 1.
Proof.
  intros fd V. pose proof (moles_pos fd V) as P.
  rewrite (sumd_ext_in _ fd _ (fun k e => amount e * / moles fd)).
  2:{ intros. rewrite fraction_eq by assumption. reflexivity. }
  rewrite sumd_scale. fold (moles fd). field. lra.
Qed.
Lemma fraction_nonneg : forall fd k e, valid fd -> In (k, e) fd -> 0 <= fraction fd (k, e).
Proof.
  intros fd k e V I. rewrite fraction_eq by assumption. unfold Qdiv. apply Qmult_le_0_compat.
  - now apply (amount_nonneg fd k).
  - apply Qlt_le_weak, Qinv_lt_0_compat. now apply moles_pos.
Qed.

Lemma mass_of : forall fd (y : string * entry -> Q), NoDup (keys fd) ->
  exists M, molar_mass_mixture fd (map (fun e => (fst e, y e)) fd) = Ok M
  /\ M == sumd fd (fun k e => y (k, e) * w_M (e_wr e)).
Proof.
  intros fd y ND. unfold molar_mass_mixture.
  assert (E : rmapM (fun x => rmap (fun e => snd x * w_M (e_wr e)) (at_key (fst x) fd)) (map (fun e => (fst e, y e)) fd)
              = Ok (map (fun e => y e * w_M (e_wr (snd e))) fd)).
  { assert (G : forall l, (forall z, In z l -> In z fd) ->
      rmapM (fun x => rmap (fun e => snd x * w_M (e_wr e)) (at_key (fst x) fd)) (map (fun e => (fst e, y e)) l)
              = Ok (map (fun e => y e * w_M (e_wr (snd e))) l)).
    { induction l as [| [k e] l IH]; intro S; [reflexivity |]. cbn [map rmapM fst snd].
      unfold at_key at 1. rewrite (In_dget _ k e fd ND) by (apply S; now left). cbn [rmap rbind].
      rewrite IH by (intros; apply S; now right). reflexivity. }
    apply G. auto. }
  rewrite E. cbn [rmap]. eexists. split; [reflexivity |].
  rewrite <- (total_sum _ fd (fun k e => y (k, e) * w_M (e_wr e))).
  rewrite (map_ext (fun e => y (fst e, snd e) * w_M (e_wr (snd e))) (fun e => y e * w_M (e_wr (snd e)))); [reflexivity |].
  now intros [k e].
Qed.
Lemma mixture_mass : forall fd, valid fd ->
  sumd fd (fun k e => fraction fd (k, e) * w_M (e_wr e)) == / moles fd.
Proof.
  intros fd V. pose proof (moles_pos fd V) as P.
  rewrite (sumd_ext_in _ fd _ (fun k e => e_frac e * / moles fd)).
  - rewrite sumd_scale. destruct V as (_ & _ & S). rewrite S. ring.
  - intros k e I. rewrite fraction_eq by assumption. cbn [snd]. unfold amount.
    destruct (valid_in _ _ _ V I). field. split; lra.
Qed.

Lemma molar_spec : forall fd, valid fd -> exists xs M,
  molar_fractions fd = Ok xs /\ keys xs = keys fd /\ sumd xs (fun _ x => x) == 1
  /\ molar_mass_mixture fd xs = Ok M /\ M * moles fd == 1
  /\ forall k e, dget k fd = Some e -> exists x, dget k xs = Some x
     /\ 0 <= x <= 1 /\ x * moles fd == amount e /\ x * w_M (e_wr e) == e_frac e * M.
Proof.
  intros fd V. destruct (mass_of fd (fraction fd)) as (M & EM & QM); [apply V |].
  rewrite mixture_mass in QM by assumption. pose proof (moles_pos fd V) as P.
  exists (map (fun e => (fst e, fraction fd e)) fd), M. split; [now apply molar_eq |].
  split; [apply keys_map |]. split; [rewrite sumd_map; now apply fractions_sum |].
  split; [exact EM |]. split; [rewrite QM; field; lra |].
  intros k e D. exists (fraction fd (k, e)). pose proof (dget_In _ _ _ _ D) as I.
  split; [rewrite dget_map, D; reflexivity |].
  split. { split; [now apply fraction_nonneg |].
    pose proof (fractions_sum fd V) as S. rewrite (sumd_split _ fd k e _ (proj1 V) D) in S.
    assert (0 <= sumd fd (fun k0 v => if String.eqb k0 k then 0 else fraction fd (k0, v))).
    { apply sumd_nonneg. intros k0 v I0. destruct (String.eqb k0 k); [lra |]. now apply fraction_nonneg. }
    lra. }
  split; [now apply (fraction_moles fd (k, e)) |].
  rewrite QM, fraction_eq by assumption. cbn [snd]. unfold amount. destruct (valid_in _ _ _ V I). field. split; lra.
Qed.

(* ----------------------------------------------------------- condensation *)

Section Wet.
Variables (p T : Q) (fd : fluids) (water : string) (ew : entry).
Hypothesis V : valid fd.
Hypothesis C : condenses p T fd water ew.

Let ps := w_psat (e_wr ew) T.
Let xw := fraction fd (water, ew).
Let wgas := (1 - xw) / (p / ps - 1).
Let liquid := xw - wgas.
Let gas (e : string * entry) : Q := if String.eqb (fst e) water then wgas / (1 - liquid) else fraction fd e / (1 - liquid).

Lemma water_in_fd : In (water, ew) fd.
Proof. apply dget_In, C. Qed.
Lemma xw_moles : xw * moles fd == amount ew.
Proof. apply (fraction_moles fd (water, ew) V). Qed.
Lemma ps_pos : 0 < ps.
Proof. apply C. Qed.
Lemma oversaturated : ps < p * xw.
Proof.
  destruct C as (_ & _ & _ & _ & O). pose proof (moles_pos fd V) as P. fold ps in O.
  rewrite <- xw_moles in O. apply (Qmult_lt_r _ _ _ P). lra.
Qed.
Lemma xw_nonneg : 0 <= xw.
Proof. apply fraction_nonneg; [exact V | apply water_in_fd]. Qed.
Lemma xw_lt_1 : xw < 1.
Proof.
  pose proof (fractions_sum fd V) as S. destruct C as (D & L & _).
  rewrite (sumd_split _ fd water ew _ (proj1 V) D) in S. fold xw in S.
  assert (O : 0 < sumd fd (fun k e => (if String.eqb k water then 0 else e_frac e) * (/ w_M (e_wr e) * / moles fd))).
  { apply (sumd_pos _ fd (fun k e => if String.eqb k water then 0 else e_frac e) (fun k e => / w_M (e_wr e) * / moles fd)).
    - intros k e I. destruct (valid_in _ _ _ V I). split; [destruct (String.eqb k water); lra |].
      apply Qmult_lt_0_compat; apply Qinv_lt_0_compat; [assumption | now apply moles_pos].
    - pose proof (proj2 (proj2 V)) as F. rewrite (sumd_split _ fd water ew _ (proj1 V) D) in F. lra. }
  rewrite (sumd_ext_in _ fd _ (fun k e => if String.eqb k water then 0 else fraction fd (k, e))) in O.
  - lra.
  - intros k e I. destruct (String.eqb k water); [ring |]. rewrite fraction_eq by exact V. cbn [snd]. unfold amount.
    destruct (valid_in _ _ _ V I). pose proof (moles_pos fd V). field. split; lra.
Qed.
Lemma p_gt_ps : ps < p.
Proof.
  pose proof oversaturated. pose proof xw_lt_1. pose proof xw_nonneg. pose proof ps_pos.
  destruct (Qlt_le_dec ps p) as [L | L]; [exact L |]. exfalso.
  assert (p * xw <= ps * xw). { apply Qmult_le_compat_r; assumption. }
  assert (ps * xw <= ps * 1). { rewrite !(Qmult_comm ps). apply Qmult_le_compat_r; lra. }
  lra.
Qed.
Lemma ratio : p / ps - 1 == (p - ps) / ps /\ 0 < p / ps - 1.
Proof.
  pose proof ps_pos. pose proof p_gt_ps. split; [field; lra |].
  assert (E : p / ps - 1 == (p - ps) * / ps) by (field; lra). rewrite E.
  apply Qmult_lt_0_compat; [lra | now apply Qinv_lt_0_compat].
Qed.
Lemma wgas_eq : wgas == (1 - xw) * ps / (p - ps).
Proof.
  unfold wgas. pose proof ps_pos. pose proof p_gt_ps. destruct ratio as (E & _). rewrite E. field. split; lra.
Qed.
Lemma wgas_pos : 0 < wgas.
Proof.
  unfold wgas, Qdiv. apply Qmult_lt_0_compat; [pose proof xw_lt_1; lra |].
  apply Qinv_lt_0_compat. apply ratio.
Qed.
Lemma gas_sum_eq : (1 - liquid) * (p - ps) == (1 - xw) * p.
Proof. unfold liquid. rewrite wgas_eq. pose proof p_gt_ps. field. lra. Qed.
Lemma gas_sum_pos : 0 < 1 - liquid.
Proof. unfold liquid. pose proof wgas_pos. pose proof xw_lt_1. lra. Qed.
Lemma liquid_pos : 0 < liquid.
Proof.
  unfold liquid. rewrite wgas_eq. pose proof p_gt_ps as G. pose proof oversaturated as O.
  assert (E : xw - (1 - xw) * ps / (p - ps) == (p * xw - ps) * / (p - ps)) by (field; lra).
  rewrite E. apply Qmult_lt_0_compat; [lra | apply Qinv_lt_0_compat; lra].
Qed.
Lemma gas_water : gas (water, ew) = wgas / (1 - liquid).
Proof. unfold gas. cbn [fst]. now rewrite String.eqb_refl. Qed.
Lemma gas_nonneg : forall k e, In (k, e) fd -> 0 <= gas (k, e).
Proof.
  intros k e I. unfold gas, Qdiv. cbn [fst]. pose proof (Qinv_lt_0_compat _ gas_sum_pos).
  destruct (String.eqb k water); apply Qmult_le_0_compat; try lra.
  - pose proof wgas_pos. lra.
  - now apply fraction_nonneg.
Qed.
Lemma gas_sum : sumd fd (fun k e => gas (k, e)) == 1.
Proof.
  pose proof gas_sum_pos as G. destruct C as (D & _).
  rewrite (sumd_split _ fd water ew _ (proj1 V) D), gas_water.
  rewrite (sumd_ext_in _ fd _ (fun k e => (if String.eqb k water then 0 else fraction fd (k, e)) * / (1 - liquid))).
  2:{ intros k e _. unfold gas. cbn [fst]. destruct (String.eqb k water); [ring | reflexivity]. }
  rewrite sumd_scale. pose proof (fractions_sum fd V) as S.
  rewrite (sumd_split _ fd water ew _ (proj1 V) D) in S. fold xw in S.
  assert (E : sumd fd (fun k e => if String.eqb k water then 0 else fraction fd (k, e)) == 1 - xw) by lra.
  rewrite E. unfold liquid in *. field. lra.
Qed.
(** molar mass of the gas *)
Lemma gas_mass : exists Mg, molar_mass_mixture fd (map (fun e => (fst e, gas e)) fd) = Ok Mg
  /\ 0 < Mg /\ Mg * (1 - liquid) == / moles fd - liquid * w_M (e_wr ew)
  /\ Mg == sumd fd (fun k e => gas (k, e) * w_M (e_wr e)).
Proof.
  destruct (mass_of fd gas (proj1 V)) as (Mg & EM & QM). exists Mg. split; [exact EM |].
  split. { rewrite QM. apply (sumd_pos _ fd (fun k e => gas (k, e)) (fun k e => w_M (e_wr e))).
    - intros k e I. split; [now apply gas_nonneg |]. apply (valid_in _ _ _ V I).
    - rewrite gas_sum. lra. }
  split; [| exact QM]. pose proof gas_sum_pos as G. destruct C as (D & _).
  rewrite QM. rewrite (sumd_split _ fd water ew _ (proj1 V) D), gas_water.
  rewrite (sumd_ext_in _ fd _ (fun k e => (if String.eqb k water then 0 else fraction fd (k, e) * w_M (e_wr e)) * / (1 - liquid))).
  2:{ intros k e _. unfold gas. cbn [fst]. destruct (String.eqb k water); [ring | unfold Qdiv; ring]. }
  rewrite sumd_scale. pose proof (mixture_mass fd V) as S.
  rewrite (sumd_split _ fd water ew _ (proj1 V) D) in S. fold xw in S.
  assert (E : sumd fd (fun k e => if String.eqb k water then 0 else fraction fd (k, e) * w_M (e_wr e))
              == / moles fd - xw * w_M (e_wr ew)) by lra.
  rewrite E. pose proof (moles_pos fd V). unfold liquid in *. field. split; lra.
Qed.

Lemma wet_eq : exists M Mg,
  M * moles fd == 1 /\ 0 < Mg
  /\ Mg * (1 - liquid) == M - liquid * w_M (e_wr ew)
  /\ Mg == sumd fd (fun k e => gas (k, e) * w_M (e_wr e))
  /\ cond_check p T fd water = Ok
     {| c_mass_gas := map (fun e => (fst e, gas e / Mg * w_M (e_wr (snd e)))) fd;
        c_molar_gas := map (fun e => (fst e, gas e)) fd;
        c_mass_liquid := liquid * w_M (e_wr ew) / M; c_molar_liquid := liquid |}.
Proof.
  destruct (mass_of fd (fraction fd) (proj1 V)) as (M & EM & QM). rewrite mixture_mass in QM by exact V.
  destruct gas_mass as (Mg & EG & PG & BG & SG). pose proof (moles_pos fd V) as P.
  exists M, Mg. split; [rewrite QM; field; lra |]. split; [exact PG |]. split; [rewrite BG, QM; reflexivity |].
  split; [exact SG |].
  unfold cond_check. rewrite molar_eq by exact V. cbn [rbind]. destruct C as (D & L & B & PS & O).
  unfold at_key at 1. rewrite D. cbn [rbind]. rewrite B. unfold at_key at 1. rewrite dget_map, D. cbn [option_map rbind].
  fold xw ps.
  destruct (Qle_bool (p * xw) ps) eqn:LE.
  { exfalso. apply Qle_bool_iff in LE. pose proof oversaturated. lra. }
  cbn [negb]. rewrite qdiv_ok by (pose proof ps_pos; lra). cbn [rbind].
  rewrite qdiv_ok by (pose proof (proj2 ratio); lra). cbn [rbind]. fold wgas. fold liquid.
  assert (G := gas_sum_pos).
  rewrite (rmapM_ok _ _ _ (fun x => (fst x, snd x / (1 - liquid)))) by (intros x _; rewrite qdiv_ok by lra; reflexivity).
  cbn [rbind]. rewrite qdiv_ok by lra. cbn [rbind]. rewrite map_map. cbn [fst snd].
  rewrite dset_map.
  2:{ rewrite (keys_map _ _ (fun e => fraction fd e / (1 - liquid))). apply V. }
  2:{ rewrite (keys_map _ _ (fun e => fraction fd e / (1 - liquid))). apply in_map_iff. exists (water, ew). split; [reflexivity | apply water_in_fd]. }
  rewrite map_map. cbn [fst snd].
  change (map (fun e : string * entry => (fst e, if String.eqb (fst e) water then wgas / (1 - liquid) else fraction fd e / (1 - liquid))) fd)
    with (map (fun e : string * entry => (fst e, gas e)) fd).
  rewrite EM. cbn [rbind]. rewrite qdiv_ok.
  2:{ rewrite QM. pose proof (Qinv_lt_0_compat _ P). lra. }
  cbn [rbind]. rewrite EG. cbn [rbind].
  assert (R : forall l, (forall z, In z l -> In z fd) ->
    rmapM (fun x => rbind (at_key (fst x) fd) (fun e => rmap (fun q => (fst x, q * w_M (e_wr e))) (qdiv (snd x) Mg)))
      (map (fun e => (fst e, gas e)) l) = Ok (map (fun e => (fst e, gas e / Mg * w_M (e_wr (snd e)))) l)).
  { induction l as [| [k e] l IH]; intro S; [reflexivity |]. cbn [map rmapM fst snd].
    unfold at_key at 1. rewrite (In_dget _ k e fd (proj1 V)) by (apply S; now left). cbn [rbind].
    rewrite qdiv_ok by lra. cbn [rmap rbind]. rewrite IH by (intros; apply S; now right). reflexivity. }
  rewrite R by auto. cbn [rbind]. reflexivity.
Qed.

Lemma wet_spec : exists xs c, molar_fractions fd = Ok xs /\ cond_check p T fd water = Ok c
  /\ 0 < c_molar_liquid c < 1 /\ 0 < c_mass_liquid c < 1
  /\ sumd (c_molar_gas c) (fun _ x => x) == 1 /\ sumd (c_mass_gas c) (fun _ x => x) == 1
  /\ p * value water (c_molar_gas c) == w_psat (e_wr ew) T
  /\ c_molar_liquid c + (1 - c_molar_liquid c) * value water (c_molar_gas c) == value water xs
  /\ c_mass_liquid c + (1 - c_mass_liquid c) * value water (c_mass_gas c) == e_frac ew
  /\ forall k e, dget k fd = Some e -> k <> water ->
     (1 - c_molar_liquid c) * value k (c_molar_gas c) == value k xs
     /\ (1 - c_mass_liquid c) * value k (c_mass_gas c) == e_frac e.
Proof.
  destruct wet_eq as (M & Mg & MM & PG & BG & SG & E). pose proof (moles_pos fd V) as P.
  eexists. eexists. split; [apply molar_eq, V |]. split; [exact E |].
  cbn [c_molar_liquid c_mass_liquid c_molar_gas c_mass_gas].
  pose proof gas_sum_pos as G. pose proof liquid_pos as LP. pose proof gas_sum_eq as GE.
  pose proof p_gt_ps as PP. pose proof ps_pos as PSP. pose proof wgas_pos as WP.
  assert (D := proj1 C). destruct (valid_in _ _ _ V water_in_fd) as (MW & FW).
  assert (PM : 0 < M). { assert (X : M == / moles fd) by (apply (Qmult_inj_r _ _ (moles fd)); [lra |]; rewrite MM; field; lra).
    rewrite X. now apply Qinv_lt_0_compat. }
  assert (XW : xw * w_M (e_wr ew) == e_frac ew * M).
  { pose proof xw_moles as X. unfold amount in X. apply (Qmult_inj_r _ _ (moles fd)); [lra |].
    assert (Y1 : xw * w_M (e_wr ew) * moles fd == (xw * moles fd) * w_M (e_wr ew)) by ring.
    assert (Y2 : e_frac ew * M * moles fd == e_frac ew * (M * moles fd)) by ring.
    rewrite Y1, Y2, X, MM. field. lra. }
  split; [split; lra |].
  split. { split.
    - unfold Qdiv. apply Qmult_lt_0_compat; [apply Qmult_lt_0_compat; assumption | now apply Qinv_lt_0_compat].
    - apply (Qmult_lt_r _ _ M PM). unfold Qdiv.
      assert (X : liquid * w_M (e_wr ew) * / M * M == liquid * w_M (e_wr ew)) by (field; lra). rewrite X.
      pose proof (Qmult_lt_0_compat _ _ PG G). lra. }
  split; [rewrite sumd_map; apply gas_sum |].
  split. { rewrite (sumd_map _ _ (fun e => gas e / Mg * w_M (e_wr (snd e)))). cbn [snd].
    rewrite (sumd_ext_in _ fd _ (fun k e => gas (k, e) * w_M (e_wr e) * / Mg)).
    - rewrite sumd_scale, <- SG. field. lra.
    - intros. unfold Qdiv. ring. }
  unfold value. rewrite !(dget_map _ _ gas), !(dget_map _ _ (fun e => gas e / Mg * w_M (e_wr (snd e)))), !(dget_map _ _ (fraction fd)), !D.
  cbn [option_map snd]. rewrite gas_water.
  split. { rewrite wgas_eq. apply (Qmult_inj_r _ _ ((1 - liquid) * (p - ps))).
    - pose proof (Qmult_lt_0_compat (1 - liquid) (p - ps) G ltac:(lra)). lra.
    - fold ps. assert (X : p * ((1 - xw) * ps / (p - ps) / (1 - liquid)) * ((1 - liquid) * (p - ps)) == (1 - xw) * p * ps)
        by (field; split; lra).
      rewrite X, <- GE. ring. }
  split; [unfold liquid in *; fold xw; field; lra |].
  assert (KEY : forall y m, y * (1 - liquid) / (1 - liquid) == y /\
     (1 - liquid * w_M (e_wr ew) / M) * (y / (1 - liquid) / Mg * m) == y * m / M).
  { intros y m. split; [field; lra |].
    assert (X : 1 - liquid * w_M (e_wr ew) / M == Mg * (1 - liquid) / M) by (rewrite BG; field; lra).
    rewrite X. field. repeat split; lra. }
  split. { rewrite (proj2 (KEY wgas (w_M (e_wr ew)))).
    assert (X : liquid * w_M (e_wr ew) / M + wgas * w_M (e_wr ew) / M == (liquid + wgas) * w_M (e_wr ew) / M) by (field; lra).
    rewrite X. assert (Y : liquid + wgas == xw) by (unfold liquid; ring). rewrite Y, XW. field. lra. }
  intros k e Dk N. rewrite !(dget_map _ _ gas), !(dget_map _ _ (fun e => gas e / Mg * w_M (e_wr (snd e)))), !(dget_map _ _ (fraction fd)), !Dk.
  cbn [option_map snd]. unfold gas. cbn [fst]. destruct (String.eqb_spec k water) as [X | _]; [congruence |].
  split; [field; lra |]. rewrite (proj2 (KEY _ _)).
  pose proof (fraction_moles fd (k, e) V) as X. cbn [snd] in X. unfold amount in X.
  destruct (valid_in _ _ _ V (dget_In _ _ _ _ Dk)) as (MK & _).
  apply (Qmult_inj_r _ _ (M * moles fd)); [rewrite MM; lra |].
  assert (Y : fraction fd (k, e) * w_M (e_wr e) / M * (M * moles fd) == (fraction fd (k, e) * moles fd) * w_M (e_wr e)) by (field; lra).
  rewrite Y, X, MM. field. lra.
Qed.
End Wet.
