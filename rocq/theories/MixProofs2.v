(** Proofs about mixtures: property functions, inversion, derivatives. *)
From Coq Require Import QArith Qabs Lqa Lia.
From Verif Require Import Base NewtonModel NewtonSpec NewtonProofs MixModel MixSpec MixProofs.
Open Scope Q_scope.

Lemma sum_fluids_ok : forall f g fd, (forall k e, In (k, e) fd -> larger (e_frac e) = true -> f k e = Ok (g k e)) ->
  forall acc, exists s, sum_fluids f fd acc = Ok s
  /\ s == acc + sumd fd (fun k e => if larger (e_frac e) then g k e else 0).
Proof.
  intros f g. induction fd as [| [k e] fd IH]; intros H acc; cbn [sum_fluids].
  - exists acc. split; [reflexivity |]. rewrite sumd_nil. ring.
  - rewrite sumd_cons. assert (H' : forall k e, In (k, e) fd -> larger (e_frac e) = true -> f k e = Ok (g k e))
      by (intros; apply H; [now right | assumption]).
    destruct (larger (e_frac e)) eqn:L.
    + rewrite (H k e (or_introl eq_refl) L). cbn [rbind]. destruct (IH H' (acc + g k e)) as (s & E & Q).
      exists s. split; [exact E |]. rewrite Q. ring.
    + destruct (IH H' acc) as (s & E & Q). exists s. split; [exact E |]. rewrite Q. ring.
Qed.

Lemma larger_iff : forall x, larger x = true <-> (1 # 1000000) < x.
Proof.
  intro x. unfold larger. destruct (Qle_bool x (1 # 1000000)) eqn:E; cbn.
  - apply Qle_bool_iff in E. split; [discriminate | lra].
  - split; [| reflexivity]. intros _. destruct (Qlt_le_dec (1 # 1000000) x) as [L | L]; [exact L |].
    apply Qle_bool_iff in L. congruence.
Qed.

(** Nothing condenses above the critical temperature or below saturation. *)
Lemma dry_spec : forall p T fd water ew, valid fd -> dget water fd = Some ew ->
  (w_below (e_wr ew) T = false \/ p * amount ew <= w_psat (e_wr ew) T * moles fd) ->
  exists xs, molar_fractions fd = Ok xs /\ cond_check p T fd water = Ok
    {| c_mass_gas := map (fun e => (fst e, e_frac (snd e))) fd; c_molar_gas := xs; c_mass_liquid := 0; c_molar_liquid := 0 |}.
Proof.
  intros p T fd water ew V D H. eexists. split; [now apply molar_eq |]. unfold cond_check.
  rewrite molar_eq by exact V. cbn [rbind]. unfold at_key at 1. rewrite D. cbn [rbind].
  destruct (w_below (e_wr ew) T) eqn:B; [| reflexivity]. destruct H as [H | H]; [discriminate H |].
  unfold at_key. rewrite dget_map, D. cbn [option_map rbind].
  pose proof (moles_pos fd V) as P. pose proof (fraction_moles fd (water, ew) V) as X. cbn [snd] in X.
  assert (L : p * fraction fd (water, ew) <= w_psat (e_wr ew) T).
  { apply (Qmult_le_r _ _ (moles fd) P). assert (Y : p * fraction fd (water, ew) * moles fd == p * (fraction fd (water, ew) * moles fd)) by ring.
    rewrite Y, X. exact H. }
  apply Qle_bool_iff in L. rewrite L. reflexivity.
Qed.



Section Cond.
Variables (names : list string) (p T : Q) (fd : fluids) (water : string) (ew : entry) (c : condensed).
Hypothesis V : valid fd.
Hypothesis C : condenses p T fd water ew.
Hypothesis W : water_in names fd = Some water.
Hypothesis E : cond_check p T fd water = Ok c.

Lemma water_larger : larger (e_frac ew) = true.
Proof.
  unfold water_in in W. destruct (find _ fd) as [[k e] |] eqn:F; [| discriminate W]. cbn in W. injection W as ->.
  apply find_some in F as (I & B). cbn in B. apply andb_true_iff in B as (_ & B).
  destruct C as (D & _). rewrite (In_dget _ _ _ _ (proj1 V) I) in D.
  injection D as <-. exact B.
Qed.

Lemma gas_lookup : forall k e, In (k, e) fd -> exists mg xg,
  dget k (c_mass_gas c) = Some mg /\ dget k (c_molar_gas c) = Some xg.
Proof.
  intros k e I. destruct (wet_eq p T fd water ew V C) as (M & Mg & _ & _ & _ & _ & X). rewrite X in E. injection E as <-.
  cbn [c_mass_gas c_molar_gas]. pose proof (In_dget _ _ _ _ (proj1 V) I) as D.
  do 2 eexists. split.
  - match goal with |- dget k (map (fun e => (fst e, @?f e)) fd) = _ => rewrite (dget_map _ _ f fd k), D end. reflexivity.
  - match goal with |- dget k (map (fun e => (fst e, @?f e)) fd) = _ => rewrite (dget_map _ _ f fd k), D end. reflexivity.
Qed.

(** Both sums have the form liquid + vapour + the other gases. *)
Lemma cond_sum : forall (q0 q1 : Q) (qg : entry -> Q -> Q),
  exists s, sum_fluids (fun k e =>
        rbind (at_key k (c_mass_gas c)) (fun mg =>
        if String.eqb k water then Ok (q0 * c_mass_liquid c + q1 * mg * (1 - c_mass_liquid c))
        else rmap (fun x => qg e x * mg * (1 - c_mass_liquid c)) (at_key k (c_molar_gas c)))) fd 0 = Ok s
  /\ s == q0 * c_mass_liquid c + q1 * (e_frac ew - c_mass_liquid c)
          + sum_others fd water (fun k e => e_frac e * qg e (value k (c_molar_gas c))).
Proof.
  intros q0 q1 qg. destruct (wet_spec p T fd water ew V C) as (xs & c' & _ & E' & _ & _ & _ & _ & _ & _ & MW & MO).
  rewrite E in E'. injection E' as <-.
  set (ml := c_mass_liquid c) in *.
  edestruct (sum_fluids_ok (fun k e =>
        rbind (at_key k (c_mass_gas c)) (fun mg =>
        if String.eqb k water then Ok (q0 * ml + q1 * mg * (1 - ml))
        else rmap (fun x => qg e x * mg * (1 - ml)) (at_key k (c_molar_gas c))))
     (fun k e => if String.eqb k water then q0 * ml + q1 * value k (c_mass_gas c) * (1 - ml)
                 else qg e (value k (c_molar_gas c)) * value k (c_mass_gas c) * (1 - ml)) fd) as (s & ES & QS).
  { intros k e I _. destruct (gas_lookup k e I) as (mg & xg & DM & DX). unfold at_key, value. rewrite DM, DX. cbn [rbind rmap].
    destruct (String.eqb k water); reflexivity. }
  exists s. split; [exact ES |]. rewrite QS.
  assert (D := proj1 C). rewrite (sumd_split _ fd water ew _ (proj1 V) D). rewrite water_larger, String.eqb_refl.
  unfold sum_others.
  rewrite (sumd_ext_in _ fd _ (fun k e => if larger (e_frac e) && negb (String.eqb k water) then e_frac e * qg e (value k (c_molar_gas c)) else 0)).
  - rewrite <- MW. ring.
  - intros k e I. destruct (String.eqb_spec k water) as [X | X]; [rewrite andb_false_r; reflexivity |].
    rewrite andb_true_r. destruct (larger (e_frac e)); [| reflexivity].
    destruct (MO k e (In_dget _ _ _ _ (proj1 V) I) X) as (_ & M). rewrite <- M. ring.
Qed.
End Cond.

Lemma enthalpy_cond : forall names p T fd water ew, valid fd -> condenses p T fd water ew ->
  water_in names fd = Some water -> exists c, cond_check p T fd water = Ok c
  /\ ((1 # 1000000) < c_mass_liquid c -> exists h, h_ideal_cond names p T fd = Ok h
      /\ h == c_mass_liquid c * w_hQT (e_wr ew) 0 T + (e_frac ew - c_mass_liquid c) * w_hQT (e_wr ew) 1 T
              + sum_others fd water (fun k e => e_frac e * w_hpT (e_wr e) (p * value k (c_molar_gas c)) T)).
Proof.
  intros names p T fd water ew V C W. destruct (wet_spec p T fd water ew V C) as (xs & c & _ & E & _).
  exists c. split; [exact E |]. intro L. unfold h_ideal_cond. rewrite W, E. cbn [rbind].
  apply larger_iff in L. rewrite L. cbn [negb].
  destruct (cond_sum names p T fd water ew c V C W E (w_hQT (e_wr ew) 0 T) (w_hQT (e_wr ew) 1 T)
     (fun e x => w_hpT (e_wr e) (p * x) T)) as (s & ES & QS).
  exists s. split; [| rewrite QS; ring]. rewrite <- ES. assert (D := proj1 C).
  assert (G : forall l acc, (forall z, In z l -> In z fd) ->
    sum_fluids (fun k e => rbind (at_key k (c_mass_gas c)) (fun mg =>
        if String.eqb k water then Ok (w_hQT (e_wr e) 0 T * c_mass_liquid c + w_hQT (e_wr e) 1 T * mg * (1 - c_mass_liquid c))
        else rmap (fun x => w_hpT (e_wr e) (p * x) T * mg * (1 - c_mass_liquid c)) (at_key k (c_molar_gas c)))) l acc
    = sum_fluids (fun k e => rbind (at_key k (c_mass_gas c)) (fun mg =>
        if String.eqb k water then Ok (w_hQT (e_wr ew) 0 T * c_mass_liquid c + w_hQT (e_wr ew) 1 T * mg * (1 - c_mass_liquid c))
        else rmap (fun x => w_hpT (e_wr e) (p * x) T * mg * (1 - c_mass_liquid c)) (at_key k (c_molar_gas c)))) l acc).
  { induction l as [| [k e] l IH]; intros acc S; [reflexivity |]. cbn [sum_fluids].
    rewrite <- !(fun a => IH a (fun z I => S z (or_intror I))).
    destruct (larger (e_frac e)); [| reflexivity]. destruct (at_key k (c_mass_gas c)); cbn [rbind]; [| reflexivity].
    destruct (String.eqb_spec k water) as [-> | N].
    - pose proof (In_dget _ _ _ _ (proj1 V) (S _ (or_introl eq_refl))) as D'. rewrite D in D'. injection D' as <-.
      cbn [rbind]. apply IH. intros; apply S; now right.
    - destruct (rmap _ _); cbn [rbind]; [| reflexivity]. apply IH. intros; apply S; now right. }
  apply G. auto.
Qed.
Lemma entropy_cond : forall names p T fd water ew, valid fd -> condenses p T fd water ew ->
  water_in names fd = Some water -> exists c s, cond_check p T fd water = Ok c
  /\ s_ideal_cond names p T fd = Ok s
  /\ s == c_mass_liquid c * w_sQT (e_wr ew) 0 T + (e_frac ew - c_mass_liquid c) * w_sQT (e_wr ew) 1 T
              + sum_others fd water (fun k e => e_frac e * w_spT (e_wr e) (p * value k (c_molar_gas c)) T).
Proof.
  intros names p T fd water ew V C W. destruct (wet_spec p T fd water ew V C) as (xs & c & _ & E & _ & L & _).
  exists c. unfold s_ideal_cond. rewrite W, E. cbn [rbind].
  destruct (Qeq_bool (c_mass_liquid c) 0) eqn:Z; [apply Qeq_bool_iff in Z; lra |].
  destruct (cond_sum names p T fd water ew c V C W E (w_sQT (e_wr ew) 0 T) (w_sQT (e_wr ew) 1 T)
     (fun e x => w_spT (e_wr e) (p * x) T)) as (s & ES & QS).
  exists s. split; [reflexivity |]. split; [| rewrite QS; ring]. rewrite <- ES. assert (D := proj1 C).
  assert (G : forall l acc, (forall z, In z l -> In z fd) ->
    sum_fluids (fun k e => rbind (at_key k (c_mass_gas c)) (fun mg =>
        if String.eqb k water then Ok (w_sQT (e_wr e) 0 T * c_mass_liquid c + w_sQT (e_wr e) 1 T * mg * (1 - c_mass_liquid c))
        else rmap (fun x => w_spT (e_wr e) (p * x) T * mg * (1 - c_mass_liquid c)) (at_key k (c_molar_gas c)))) l acc
    = sum_fluids (fun k e => rbind (at_key k (c_mass_gas c)) (fun mg =>
        if String.eqb k water then Ok (w_sQT (e_wr ew) 0 T * c_mass_liquid c + w_sQT (e_wr ew) 1 T * mg * (1 - c_mass_liquid c))
        else rmap (fun x => w_spT (e_wr e) (p * x) T * mg * (1 - c_mass_liquid c)) (at_key k (c_molar_gas c)))) l acc).
  { induction l as [| [k e] l IH]; intros acc S; [reflexivity |]. cbn [sum_fluids].
    rewrite <- !(fun a => IH a (fun z I => S z (or_intror I))).
    destruct (larger (e_frac e)); [| reflexivity]. destruct (at_key k (c_mass_gas c)); cbn [rbind]; [| reflexivity].
    destruct (String.eqb_spec k water) as [-> | N].
    - pose proof (In_dget _ _ _ _ (proj1 V) (S _ (or_introl eq_refl))) as D'. rewrite D in D'. injection D' as <-.
      cbn [rbind]. apply IH. intros; apply S; now right.
    - destruct (rmap _ _); cbn [rbind]; [| reflexivity]. apply IH. intros; apply S; now right. }
  apply G. auto.
Qed.

(** The ideal gas law carries over from the fluids to the mixture. *)
Lemma ideal_gas : forall R p T fd, valid fd -> 0 < R -> 0 < p -> 0 < T ->
  (forall k e, dget k fd = Some e -> (e_frac e == 0 \/ (1 # 1000000) < e_frac e)
     /\ forall pp, w_dpT (e_wr e) pp T == pp * w_M (e_wr e) / (R * T)) ->
  exists v xs M, v_ideal p T fd = Ok v /\ molar_fractions fd = Ok xs /\ molar_mass_mixture fd xs = Ok M
  /\ v == R * T / (p * M).
Proof.
  intros R p T fd V HR HP HT H. pose proof (moles_pos fd V) as P.
  destruct (mass_of fd (fraction fd) (proj1 V)) as (M & EM & QM). rewrite mixture_mass in QM by exact V.
  destruct (sum_fluids_ok (fun k e => rmap (fun x => w_dpT (e_wr e) (p * x) T) (at_key k (map (fun e => (fst e, fraction fd e)) fd)))
     (fun k e => w_dpT (e_wr e) (p * fraction fd (k, e)) T) fd) with (acc := 0) as (s & ES & QS).
  { intros k e I _. unfold at_key. rewrite dget_map, (In_dget _ _ _ _ (proj1 V) I). reflexivity. }
  assert (X : s == p * / (R * T) * / moles fd).
  { rewrite QS. rewrite (sumd_ext_in _ fd _ (fun k e => fraction fd (k, e) * w_M (e_wr e) * (p * / (R * T)))).
    - rewrite sumd_scale, mixture_mass by exact V. ring.
    - intros k e I. destruct (H k e (In_dget _ _ _ _ (proj1 V) I)) as (F & G). destruct (larger (e_frac e)) eqn:L.
      + rewrite G. field. pose proof (Qmult_lt_0_compat _ _ HR HT). split; lra.
      + destruct F as [F | F]; [| apply larger_iff in F; congruence].
        rewrite fraction_eq by exact V. cbn [snd]. unfold amount. rewrite F.
        destruct (valid_in _ _ _ V I). pose proof (Qmult_lt_0_compat _ _ HR HT). field. repeat split; lra. }
  pose proof (Qinv_lt_0_compat _ P) as IP. pose proof (Qmult_lt_0_compat _ _ HR HT) as RT.
  assert (PS : 0 < s). { rewrite X. repeat apply Qmult_lt_0_compat; try assumption. now apply Qinv_lt_0_compat. }
  exists (1 / s), (map (fun e => (fst e, fraction fd e)) fd), M.
  split. { unfold v_ideal. rewrite molar_eq by exact V. cbn [rbind]. rewrite ES. cbn [rbind]. apply qdiv_ok. lra. }
  split; [now apply molar_eq |]. split; [exact EM |]. rewrite X, QM. field. repeat split; lra.
Qed.
