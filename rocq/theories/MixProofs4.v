(** Proofs about mixtures: formulas of the mixing rules, difference quotients. *)
From Coq Require Import QArith Qabs Lqa Lia.
From Verif Require Import Base NewtonModel NewtonSpec NewtonProofs MixModel MixSpec MixSpec2 MixProofs MixProofs2 MixProofs3.
Open Scope Q_scope.

Lemma molar_at : forall fd k e, valid fd -> In (k, e) fd ->
  at_key k (map (fun e => (fst e, fraction fd e)) fd) = Ok (fraction fd (k, e))
  /\ value k (map (fun e => (fst e, fraction fd e)) fd) = fraction fd (k, e).
Proof.
  intros fd k e V I. unfold at_key, value. rewrite (dget_map _ _ (fraction fd)), (In_dget _ _ _ _ (proj1 V) I). auto.
Qed.

Lemma molar_sum : forall fd (f : Q -> string -> entry -> Q), valid fd -> exists xs s, molar_fractions fd = Ok xs
  /\ sum_fluids (fun k e => rmap (fun x => f x k e) (at_key k xs)) fd 0 = Ok s
  /\ s == sum_present fd (fun k e => f (value k xs) k e).
Proof.
  intros fd f V. eexists. rewrite molar_eq by exact V.
  destruct (sum_fluids_ok (fun k e => rmap (fun x => f x k e) (at_key k (map (fun e => (fst e, fraction fd e)) fd)))
    (fun k e => f (value k (map (fun e => (fst e, fraction fd e)) fd)) k e) fd) with (acc := 0) as (s & E & Q).
  { intros k e I _. destruct (molar_at fd k e V I) as (A & B). rewrite A, B. reflexivity. }
  exists s. refine (conj eq_refl (conj E _)). rewrite Q. unfold sum_present. ring.
Qed.
Lemma sum_present_ext : forall fd g g', (forall k e, In (k, e) fd -> g k e == g' k e) -> sum_present fd g == sum_present fd g'.
Proof.
  intros fd g g' H. unfold sum_present. apply sumd_ext_in. intros k e I. destruct (larger (e_frac e)); [auto | reflexivity].
Qed.

Lemma ideal_formulas : forall p T fd, valid fd -> exists xs h s, molar_fractions fd = Ok xs
  /\ h_ideal p T fd = Ok h /\ s_ideal p T fd = Ok s
  /\ h == sum_present fd (fun k e => e_frac e * w_hpT (e_wr e) (p * value k xs) T)
  /\ s == sum_present fd (fun k e => e_frac e * w_spT (e_wr e) (p * value k xs) T).
Proof.
  intros p T fd V.
  destruct (molar_sum fd (fun x k e => w_hpT (e_wr e) (p * x) T * e_frac e) V) as (xs & h & X & H & QH).
  destruct (molar_sum fd (fun x k e => w_spT (e_wr e) (p * x) T * e_frac e) V) as (xs' & s & X' & S & QS).
  rewrite X in X'. injection X' as <-. exists xs, h, s.
  unfold h_ideal, s_ideal. rewrite X. cbn [rbind].
  refine (conj eq_refl (conj H (conj S (conj _ _)))).
  - rewrite QH. apply sum_present_ext. intros. ring.
  - rewrite QS. apply sum_present_ext. intros. ring.
Qed.

Lemma forced_gas_formula : forall p T fd, valid fd -> exists xs h hw, molar_fractions fd = Ok xs
  /\ h_forced_gas p T fd = Ok h
  /\ (forall e, dget "H2O"%string fd = Some e -> forced_water (e_wr e) (p * value "H2O"%string xs) T hw)
  /\ h == sum_present fd (fun k e => e_frac e *
            (if String.eqb k "H2O" then hw else w_hpT (e_wr e) (p * value k xs) T)).
Proof.
  intros p T fd V.
  pose (f := fun (x : Q) (k : string) (e : entry) =>
    let pp := p * x in let w := e_wr e in
    if String.eqb k "H2O" && Qle_bool (w_pmin w) pp then
      if Qle_bool T (w_Tsat w pp) then w_hQT w 1 T * e_frac e else w_hpT w pp T * e_frac e
    else w_hpT w pp T * e_frac e).
  destruct (molar_sum fd f V) as (xs & h & X & H & QH).
  pose (hw := match dget "H2O"%string fd with
              | Some e => let pp := p * value "H2O"%string xs in
                  if Qle_bool (w_pmin (e_wr e)) pp && Qle_bool T (w_Tsat (e_wr e) pp) then w_hQT (e_wr e) 1 T
                  else w_hpT (e_wr e) pp T
              | None => 0
              end).
  exists xs, h, hw. unfold h_forced_gas. rewrite X. cbn [rbind]. refine (conj eq_refl (conj H (conj _ _))).
  - intros e D. unfold hw. rewrite D. cbv zeta.
    set (pp := p * value "H2O"%string xs). unfold forced_water.
    destruct (Qle_bool (w_pmin (e_wr e)) pp) eqn:A; cbn [andb].
    + apply Qle_bool_iff in A. destruct (Qle_bool T (w_Tsat (e_wr e) pp)) eqn:B.
      * apply Qle_bool_iff in B. split; [reflexivity |]. split; intros; lra.
      * assert (~ T <= w_Tsat (e_wr e) pp) by (intro Y; apply Qle_bool_iff in Y; congruence).
        split; [intros; contradiction |]. split; [reflexivity |]. intros; lra.
    + assert (~ w_pmin (e_wr e) <= pp) by (intro Y; apply Qle_bool_iff in Y; congruence).
      split; [intros; contradiction |]. split; [intros; contradiction |]. reflexivity.
  - rewrite QH. apply sum_present_ext. intros k e I. unfold f. cbv zeta.
    destruct (String.eqb_spec k "H2O") as [-> | N]; cbn [andb]; [| ring].
    unfold hw. rewrite (In_dget _ _ _ _ (proj1 V) I). cbv zeta.
    destruct (Qle_bool (w_pmin (e_wr e)) _); cbn [andb]; [| ring].
    destruct (Qle_bool T _); ring.
Qed.

Lemma incompressible_formulas : forall p T fd,
  (forall k e, In (k, e) fd -> ~ w_dpT (e_wr e) p T == 0) -> exists h s v m,
  h_incompressible p T fd = Ok h /\ s_incompressible p T fd = Ok s /\ v_incompressible p T fd = Ok v
  /\ viscosity_incompressible p T fd = Ok m
  /\ h == sum_present fd (fun _ e => e_frac e * w_hpT (e_wr e) p T)
  /\ s == sum_present fd (fun _ e => e_frac e * w_spT (e_wr e) p T)
  /\ v == sum_present fd (fun _ e => e_frac e / w_dpT (e_wr e) p T)
  /\ m == sum_present fd (fun _ e => e_frac e * w_vis (e_wr e) p T).
Proof.
  intros p T fd ND. unfold h_incompressible, s_incompressible, v_incompressible, viscosity_incompressible.
  destruct (sum_fluids_ok (fun (_ : string) e => Ok (w_hpT (e_wr e) p T * e_frac e)) (fun _ e => w_hpT (e_wr e) p T * e_frac e) fd (fun _ _ _ _ => eq_refl) 0) as (h & H & QH).
  destruct (sum_fluids_ok (fun (_ : string) e => Ok (w_spT (e_wr e) p T * e_frac e)) (fun _ e => w_spT (e_wr e) p T * e_frac e) fd (fun _ _ _ _ => eq_refl) 0) as (s & S & QS).
  destruct (sum_fluids_ok (fun (_ : string) e => Ok (w_vis (e_wr e) p T * e_frac e)) (fun _ e => w_vis (e_wr e) p T * e_frac e) fd (fun _ _ _ _ => eq_refl) 0) as (m & M & QM).
  destruct (sum_fluids_ok (fun (_ : string) e => rmap (fun v => v * e_frac e) (qdiv 1 (w_dpT (e_wr e) p T)))
     (fun _ e => 1 / w_dpT (e_wr e) p T * e_frac e) fd) with (acc := 0) as (v & W & QV).
  { intros k e I _. rewrite qdiv_ok by (apply (ND k e I)). reflexivity. }
  exists h, s, v, m. refine (conj H (conj S (conj W (conj M (conj _ (conj _ (conj _ _))))))).
  - rewrite QH, Qplus_0_l. apply sum_present_ext. intros. ring.
  - rewrite QS, Qplus_0_l. apply sum_present_ext. intros. ring.
  - rewrite QV, Qplus_0_l. apply (sum_present_ext fd (fun _ e => 1 / w_dpT (e_wr e) p T * e_frac e)). intros. unfold Qdiv. ring.
  - rewrite QM, Qplus_0_l. apply sum_present_ext. intros. ring.
Qed.

Lemma viscosity_formula : forall (root : Q -> Q) p T fd, valid fd -> (forall m, 0 < m -> 0 < root m) ->
  (exists k e, In (k, e) fd /\ larger (e_frac e) = true) -> exists xs m, molar_fractions fd = Ok xs
  /\ viscosity_ideal root p T fd = Ok m
  /\ m * sum_present fd (fun k e => value k xs * root (w_M (e_wr e)))
     == sum_present fd (fun k e => value k xs * root (w_M (e_wr e)) * w_vis (e_wr e) p T).
Proof.
  intros root p T fd V RP (k0 & e0 & I0 & L0).
  destruct (molar_sum fd (fun x _ e => x * root (w_M (e_wr e)) * w_vis (e_wr e) p T) V) as (xs & a & X & A & QA).
  destruct (molar_sum fd (fun x _ e => x * root (w_M (e_wr e))) V) as (xs' & b & X' & B & QB).
  rewrite X in X'. injection X' as <-. unfold viscosity_ideal. rewrite X. cbn [rbind].
  rewrite A. cbn [rbind]. rewrite B. cbn [rbind].
  assert (P : 0 < b).
  { rewrite QB. unfold sum_present.
    pose proof (In_dget _ _ _ _ (proj1 V) I0) as D0. rewrite (sumd_split _ fd k0 e0 _ (proj1 V) D0). rewrite L0.
    assert (XS := X). rewrite molar_eq in XS by exact V. injection XS as <-.
    assert (NN : forall k e, In (k, e) fd -> 0 <= value k (map (fun e => (fst e, fraction fd e)) fd)).
    { intros k e I. rewrite (proj2 (molar_at fd k e V I)). now apply fraction_nonneg. }
    assert (0 < value k0 (map (fun e => (fst e, fraction fd e)) fd) * root (w_M (e_wr e0))).
    { apply Qmult_lt_0_compat.
      - rewrite (proj2 (molar_at fd k0 e0 V I0)), fraction_eq by exact V. cbn [snd]. unfold amount, Qdiv.
        apply larger_iff in L0. destruct (valid_in _ _ _ V I0) as (M0 & _).
        apply Qmult_lt_0_compat; [apply Qmult_lt_0_compat; [lra | now apply Qinv_lt_0_compat] |].
        apply Qinv_lt_0_compat. now apply moles_pos.
      - apply RP. apply (valid_in _ _ _ V I0). }
    assert (0 <= sumd fd (fun k v => if String.eqb k k0 then 0 else if larger (e_frac v)
        then value k (map (fun e => (fst e, fraction fd e)) fd) * root (w_M (e_wr v)) else 0)).
    { apply sumd_nonneg. intros k e I. destruct (String.eqb k k0); [lra |]. destruct (larger (e_frac e)); [| lra].
      apply Qmult_le_0_compat; [now apply (NN k e) |]. apply Qlt_le_weak, RP, (valid_in _ _ _ V I). }
    lra. }
  rewrite qdiv_ok by lra. exists xs, (a / b). refine (conj eq_refl (conj eq_refl _)). rewrite <- QB, <- QA. field. lra.
Qed.

(* ------------------------------------------------------------ wet volume *)

Lemma volume_cond : forall names p T fd water ew, valid fd -> condenses p T fd water ew ->
  water_in names fd = Some water -> exists c, cond_check p T fd water = Ok c
  /\ let d := c_mass_liquid c * w_dQT (e_wr ew) 0 T + (1 - c_mass_liquid c) *
        (w_dQT (e_wr ew) 1 T + sum_others fd water (fun k e => w_dpT (e_wr e) (p * value k (c_molar_gas c)) T)) in
     (~ d == 0 -> exists v, v_ideal_cond names p T fd = Ok v /\ v * d == 1)
     /\ (d == 0 -> v_ideal_cond names p T fd = Err ZeroDivisionError).
Proof.
  intros names p T fd water ew V C W.
  destruct (wet_spec p T fd water ew V C) as (xs & c & _ & E & _ & ML & _).
  exists c. split; [exact E |]. cbv zeta. unfold v_ideal_cond. rewrite W, E. cbn [rbind].
  destruct (Qeq_bool (c_mass_liquid c) 0) eqn:Z; [apply Qeq_bool_iff in Z; lra |].
  assert (LW : larger (e_frac ew) = true) by (exact (water_larger names p T fd water ew V C W)).
  set (ml := c_mass_liquid c) in *.
  pose (g := fun k e => if String.eqb k water then w_dQT (e_wr e) 0 T * ml + w_dQT (e_wr e) 1 T * (1 - ml)
                        else w_dpT (e_wr e) (p * value k (c_molar_gas c)) T * (1 - ml)).
  destruct (sum_fluids_ok (fun k e =>
        if String.eqb k water then Ok (w_dQT (e_wr e) 0 T * ml + w_dQT (e_wr e) 1 T * (1 - ml))
        else rmap (fun x => w_dpT (e_wr e) (p * x) T * (1 - ml)) (at_key k (c_molar_gas c))) g fd) with (acc := 0) as (s & S & QS).
  { intros k e I _. unfold g. destruct (String.eqb k water); [reflexivity |].
    destruct (gas_lookup p T fd water ew c V C E k e I) as (mg & xg & _ & X).
    unfold at_key, value. rewrite X. reflexivity. }
  rewrite S. cbn [rbind].
  assert (Q : s == ml * w_dQT (e_wr ew) 0 T + (1 - ml) *
        (w_dQT (e_wr ew) 1 T + sum_others fd water (fun k e => w_dpT (e_wr e) (p * value k (c_molar_gas c)) T))).
  { rewrite QS, Qplus_0_l. rewrite (sumd_split _ fd water ew _ (proj1 V) (proj1 C)), LW.
    rewrite (sumd_ext_in _ fd _ (fun k e => (if larger (e_frac e) && negb (String.eqb k water)
         then w_dpT (e_wr e) (p * value k (c_molar_gas c)) T else 0) * (1 - ml))).
    2:{ intros k e _. unfold g. destruct (String.eqb k water); cbn [negb]; [rewrite andb_false_r; ring |].
        rewrite andb_true_r. destruct (larger (e_frac e)); ring. }
    rewrite sumd_scale. fold (sum_others fd water (fun k e => w_dpT (e_wr e) (p * value k (c_molar_gas c)) T)).
    unfold g. rewrite String.eqb_refl. ring. }
  split.
  - intro N. rewrite qdiv_ok by (rewrite Q; exact N). exists (1 / s). split; [reflexivity |]. rewrite <- Q. field. rewrite Q. exact N.
  - intro N. unfold qdiv. destruct (Qeq_bool s 0) eqn:B; [reflexivity |]. exfalso.
    assert (X : s == 0) by (rewrite Q; exact N). apply Qeq_bool_iff in X. congruence.
Qed.

(* --------------------------------------------------------------- dispatch *)

Lemma enthalpy_rules : forall names p T fd, number_of_fluids fd <> 1%nat ->
  h_mix_pT names p T fd (Some "ideal"%string) = h_ideal p T fd
  /\ h_mix_pT names p T fd (Some "ideal-cond"%string) = h_ideal_cond names p T fd
  /\ h_mix_pT names p T fd (Some "incompressible"%string) = h_incompressible p T fd
  /\ h_mix_pT names p T fd (Some "forced-gas"%string) = h_forced_gas p T fd.
Proof.
  intros names p T fd N. apply Nat.eqb_neq in N. unfold h_mix_pT, dispatch. rewrite N. repeat split.
Qed.
Lemma rule_tables : forall q r fd pure mix, number_of_fluids fd <> 1%nat ->
  (In r ["ideal"; "ideal-cond"; "incompressible"]%string /\ q <> PChemical
   \/ r = "forced-gas"%string /\ q = PEnthalpy \/ r = "ideal-cond"%string /\ q = PChemical ->
   dispatch q (Some r) fd pure mix = mix r)
  /\ (~ (In r ["ideal"; "ideal-cond"; "incompressible"]%string /\ q <> PChemical
   \/ r = "forced-gas"%string /\ q = PEnthalpy \/ r = "ideal-cond"%string /\ q = PChemical) ->
   dispatch q (Some r) fd pure mix = Err KeyError).
Proof.
  intros q r fd pure mix N. apply Nat.eqb_neq in N. unfold dispatch. rewrite N.
  assert (M : smem r (rules q) = true <-> (In r ["ideal"; "ideal-cond"; "incompressible"]%string /\ q <> PChemical
   \/ r = "forced-gas"%string /\ q = PEnthalpy \/ r = "ideal-cond"%string /\ q = PChemical)).
  { rewrite smem_In. destruct q; cbn [rules In]; intuition (try congruence). }
  destruct (smem r (rules q)).
  - split; [reflexivity |]. intro X. exfalso. apply X, M. reflexivity.
  - split; [| reflexivity]. intro X. apply M in X. discriminate X.
Qed.

(* ---------------------------------------------------- difference quotients *)

Lemma quotients_affine : forall (f : Q -> option Q -> res Q) s b h T0,
  (forall h t, exists y, f h t = Ok y /\ y == s * h + b) ->
  (exists d, dT_pdh f h T0 = Ok d /\ d == s) /\ (exists d, dv_pdh f h T0 = Ok d /\ d == s).
Proof.
  intros f s b h T0 H. unfold dT_pdh, dv_pdh. destruct (H (h + (1 # 10)) T0) as (u & EU & QU). rewrite EU. cbn [rbind].
  destruct (H (h - (1 # 10)) (Some u)) as (l & EL & QL). rewrite EL. cbn [rbind].
  assert (X : (u - l) / (2 * (1 # 10)) == s) by (rewrite QU, QL; field).
  split; eexists; (split; [reflexivity | exact X]).
Qed.

Lemma dget_dset_self : forall V k (v : V) d, dget k (dset k v d) = Some v.
Proof. intros. apply dget_dset_eq. Qed.
Lemma dfluid_affine : forall (T : fluids -> option Q -> res Q) k fd T0 s b, (exists e, dget k fd = Some e) ->
  (forall fd' x t, with_fraction k x fd fd' -> exists y, T fd' t = Ok y /\ y == s * x + b) ->
  exists fd' d, dT_dfluid T k fd T0 = (fd', Ok d) /\ d == s.
Proof.
  intros T k fd T0 s b (e & D) H. unfold dT_dfluid.
  unfold shift at 1. unfold at_key at 1. rewrite D. cbn [rmap rbind].
  set (e1 := {| e_frac := e_frac e + (1 # 100000); e_wr := e_wr e |}).
  destruct (H (dset k e1 fd) (e_frac e + (1 # 100000)) T0) as (u & EU & QU).
  { split; [apply (keys_dset_some _ k e1 e fd D) |]. split; [intros; now apply dget_dset_neq |].
    exists e, e1. rewrite dget_dset_eq. unfold e1. cbn. repeat split; auto; reflexivity. }
  rewrite EU. unfold shift at 1. unfold at_key at 1. rewrite dget_dset_eq. cbn [rmap rbind].
  set (e2 := {| e_frac := e_frac e1 + - (2 * (1 # 100000)); e_wr := e_wr e1 |}).
  assert (D1 : dget k (dset k e1 fd) = Some e1) by apply dget_dset_eq.
  destruct (H (dset k e2 (dset k e1 fd)) (e_frac e - (1 # 100000)) (Some u)) as (l & EL & QL).
  { split. { rewrite (keys_dset_some _ k e2 e1 _ D1). apply (keys_dset_some _ k e1 e fd D). }
    split. { intros k' N. rewrite !dget_dset_neq by auto. reflexivity. }
    exists e, e2. rewrite dget_dset_eq. unfold e2, e1. cbn. split; [exact D |]. split; [reflexivity |]. split; [reflexivity | ring]. }
  rewrite EL. unfold shift at 1. unfold at_key at 1. rewrite dget_dset_eq. cbn [rmap rbind].
  do 2 eexists. split; [reflexivity |]. rewrite QU, QL. field.
Qed.
