(** Proofs about mixtures: temperature inversion, derivatives, wrappers. *)
From Coq Require Import QArith Qabs Lqa Lia.
From Verif Require Import Base NewtonModel NewtonSpec NewtonProofs MixModel MixSpec MixProofs MixProofs2.
Open Scope Q_scope.

Lemma newton_linear : forall a x0 mi s b r, ~ s == 0 ->
  (forall x, exists y d, nk_f a x = Ok y /\ nk_df a x = Ok d /\ y == s * x + b /\ d == s) ->
  s * r + b == nk_target a -> nk_valmin a <= r -> r <= nk_valmax a -> 0 < nk_tol_rel a -> 0 < nk_tol_abs a ->
  exists o, newton 14 a x0 mi = Some (Ok o) /\ no_x o == r.
Proof.
  intros a x0 mi s b r N F R LO HI TR TA. unfold newton. change 14%nat with (S (S 12)).
  assert (STEP : forall x y d, y == s * x + b -> d == s ->
    clamp (nk_valmin a) (nk_valmax a) (x + (nk_target a - y) / d * 1) == r).
  { intros x y d Y D. apply clamp_id; auto. rewrite Y, D, <- R. field. exact N. }
  assert (NZ : forall d, d == s -> Qeq_bool d 0 = false).
  { intros d D. destruct (Qeq_bool d 0) eqn:X; [| reflexivity]. apply Qeq_bool_iff in X. rewrite D in X. tauto. }
  cbn [newton_loop]. destruct (F x0) as (y & d & E1 & E2 & Y & D). rewrite E1, E2, (NZ d D). cbn [Nat.eqb].
  destruct (Nat.ltb mi 1). { eexists; split; [reflexivity |]. cbn [no_x]. now apply STEP. }
  destruct (not_converged a (nk_target a - y)).
  2:{ eexists; split; [reflexivity |]. cbn [no_x]. now apply STEP. }
  pose proof (STEP x0 y d Y D) as X1. set (x1 := clamp _ _ _) in *. clearbody x1.
  destruct (F x1) as (y1 & d1 & E3 & E4 & Y1 & D1). rewrite E3, E4, (NZ d1 D1). cbn [Nat.eqb].
  destruct (Nat.ltb mi 2). { eexists; split; [reflexivity |]. cbn [no_x]. now apply STEP. }
  rewrite zero_residual_converged; try assumption.
  - eexists; split; [reflexivity |]. cbn [no_x]. now apply STEP.
  - rewrite Y1, X1, R. ring.
Qed.

Lemma invert_linear : forall fd f target T0 s b T lo hi, temperature_range fd = Ok (lo, hi) ->
  ~ s == 0 -> (forall t, exists y, f t = Ok y /\ y == s * t + b) -> s * T + b == target ->
  lo <= T <= hi * 2 -> exists o, inverse_temperature fd f target T0 = Ok (Some (Ok o)) /\ no_x o == T.
Proof.
  intros fd f target T0 s b T lo hi RG N F EQ (L & H). unfold inverse_temperature. rewrite RG. cbn [rbind].
  edestruct (newton_linear {| nk_f := f; nk_df := central f; nk_target := target; nk_valmin := lo;
                   nk_valmax := hi * 2; nk_tol_rel := (1 # 1000000); nk_tol_abs := (1 # 1000000000000);
                   nk_mode := ModeRel |}) as (o & E & X); try eassumption; cbn [nk_tol_rel nk_tol_abs]; try reflexivity.
  - intro x. cbn [nk_f nk_df]. destruct (F x) as (y & E & Y). destruct (F (x + (1#100))) as (u & EU & U).
    destruct (F (x - (1#100))) as (l & EL & L').
    exists y, ((u - l) / (2 * (1#100))). split; [exact E |]. unfold central. rewrite EU. cbn [rbind]. rewrite EL. cbn [rbind].
    split; [reflexivity |]. split; [exact Y |]. rewrite U, L'. field.
  - exists o. rewrite E. split; [reflexivity | exact X].
Qed.

Lemma range_some : forall fd lo hi, temperature_range fd = Ok (lo, hi) -> exists k e, In (k, e) fd /\ larger (e_frac e) = true.
Proof.
  intros fd lo hi. unfold temperature_range. destruct (filter _ fd) as [| [k e] l] eqn:F; [discriminate |]. intros _.
  exists k, e. assert (I : In (k, e) (filter (fun e => larger (e_frac (snd e))) fd)) by (rewrite F; now left).
  apply filter_In in I. exact I.
Qed.
Lemma fold_max : forall (g : string * entry -> Q) l m,
  m <= fold_left (fun m x => if Qle_bool (g x) m then m else g x) l m
  /\ forall x, In x l -> g x <= fold_left (fun m x => if Qle_bool (g x) m then m else g x) l m.
Proof.
  induction l as [| y l IH]; intro m; cbn [fold_left]; [split; [lra | intros x []] |].
  destruct (Qle_bool (g y) m) eqn:E.
  - apply Qle_bool_iff in E. destruct (IH m) as (A & B). split; [exact A |]. intros x [<- | I]; [lra | auto].
  - assert (m <= g y). { destruct (Qlt_le_dec m (g y)) as [L | L]; [lra |]. apply Qle_bool_iff in L. congruence. }
    destruct (IH (g y)) as (A & B). split; [lra |]. intros x [<- | I]; [lra | auto].
Qed.
Lemma fold_min : forall (g : string * entry -> Q) l m,
  fold_left (fun m x => if Qle_bool m (g x) then m else g x) l m <= m
  /\ forall x, In x l -> fold_left (fun m x => if Qle_bool m (g x) then m else g x) l m <= g x.
Proof.
  induction l as [| y l IH]; intro m; cbn [fold_left]; [split; [lra | intros x []] |].
  destruct (Qle_bool m (g y)) eqn:E.
  - apply Qle_bool_iff in E. destruct (IH m) as (A & B). split; [exact A |]. intros x [<- | I]; [lra | auto].
  - assert (g y <= m). { destruct (Qlt_le_dec (g y) m) as [L | L]; [lra |]. apply Qle_bool_iff in L. congruence. }
    destruct (IH (g y)) as (A & B). split; [lra |]. intros x [<- | I]; [lra | auto].
Qed.
Lemma range_inside : forall fd lo hi, temperature_range fd = Ok (lo, hi) ->
  forall k e, In (k, e) fd -> larger (e_frac e) = true ->
  w_Tmin (e_wr e) + (1#10) <= lo /\ hi <= w_Tmax (e_wr e) - (1#10).
Proof.
  intros fd lo hi H k e I L. unfold temperature_range in H.
  assert (J : In (k, e) (filter (fun e => larger (e_frac (snd e))) fd)) by (apply filter_In; auto).
  destruct (filter _ fd) as [| [k0 e0] l]; [destruct J |]. injection H as <- <-.
  destruct (fold_max (fun x => w_Tmin (e_wr (snd x))) l (w_Tmin (e_wr e0))) as (A & B).
  destruct (fold_min (fun x => w_Tmax (e_wr (snd x))) l (w_Tmax (e_wr e0))) as (A' & B').
  cbv beta in *. destruct J as [J | J].
  - injection J as <- <-. split; lra.
  - specialize (B _ J). specialize (B' _ J). cbn [snd] in B, B'. split; lra.
Qed.

Lemma h_slope : forall fd cp b (x : string -> entry -> Q -> res Q), NoDup (keys fd) -> linear_h fd cp b ->
  (forall k e t, In (k, e) fd -> exists q, x k e t = Ok (w_hpT (e_wr e) q t * e_frac e)) ->
  forall t, exists y, sum_fluids (fun k e => x k e t) fd 0 = Ok y
    /\ y == sumd fd (fun k e => if larger (e_frac e) then cp k * e_frac e else 0) * t
            + sumd fd (fun k e => if larger (e_frac e) then b k * e_frac e else 0).
Proof.
  intros fd cp b x ND LIN X t.
  assert (G : forall l acc, (forall z, In z l -> In z fd) -> exists y, sum_fluids (fun k e => x k e t) l acc = Ok y
    /\ y == acc + sumd l (fun k e => if larger (e_frac e) then cp k * e_frac e else 0) * t
            + sumd l (fun k e => if larger (e_frac e) then b k * e_frac e else 0)).
  { induction l as [| [k e] l IH]; intros acc S.
    - exists acc. split; [reflexivity |]. rewrite !sumd_nil. ring.
    - cbn [sum_fluids]. rewrite !sumd_cons. assert (S' : forall z, In z l -> In z fd) by (intros; apply S; now right).
      destruct (larger (e_frac e)).
      + destruct (X k e t (S _ (or_introl eq_refl))) as (q & E). rewrite E. cbn [rbind].
        destruct (IH (acc + w_hpT (e_wr e) q t * e_frac e) S') as (y & EY & QY). exists y. split; [exact EY |].
        destruct (LIN k e (In_dget _ _ _ _ ND (S _ (or_introl eq_refl)))) as (_ & W). rewrite QY, W. ring.
      + destruct (IH acc S') as (y & EY & QY). exists y. split; [exact EY |]. rewrite QY. ring. }
  destruct (G fd 0 ltac:(auto)) as (y & EY & QY). exists y. split; [exact EY |]. rewrite QY. ring.
Qed.
Lemma slope_pos : forall fd cp b lo hi, valid fd -> linear_h fd cp b -> temperature_range fd = Ok (lo, hi) ->
  0 < sumd fd (fun k e => if larger (e_frac e) then cp k * e_frac e else 0).
Proof.
  intros fd cp b lo hi V LIN RG. destruct (range_some _ _ _ RG) as (k & e & I & L).
  pose proof (In_dget _ _ _ _ (proj1 V) I) as D. rewrite (sumd_split _ fd k e _ (proj1 V) D). rewrite L.
  assert (0 < cp k * e_frac e). { apply Qmult_lt_0_compat; [apply (LIN k e D) |]. apply larger_iff in L. lra. }
  assert (0 <= sumd fd (fun k0 v => if String.eqb k0 k then 0 else if larger (e_frac v) then cp k0 * e_frac v else 0)).
  { apply sumd_nonneg. intros k0 v I0. destruct (String.eqb k0 k); [lra |]. destruct (larger (e_frac v)); [| lra].
    destruct (LIN k0 v (In_dget _ _ _ _ (proj1 V) I0)). destruct (valid_in _ _ _ V I0). apply Qmult_le_0_compat; lra. }
  lra.
Qed.
Lemma temperature_roundtrip : forall fd cp b p T T0 lo hi, valid fd -> linear_h fd cp b ->
  temperature_range fd = Ok (lo, hi) -> lo <= T <= hi * 2 ->
  (exists h o, h_ideal p T fd = Ok h
     /\ inverse_temperature fd (fun t => h_ideal p t fd) h T0 = Ok (Some (Ok o)) /\ no_x o == T)
  /\ (exists h o, h_incompressible p T fd = Ok h
     /\ inverse_temperature fd (fun t => h_incompressible p t fd) h T0 = Ok (Some (Ok o)) /\ no_x o == T).
Proof.
  intros fd cp b p T T0 lo hi V LIN RG IN. pose proof (slope_pos _ _ _ _ _ V LIN RG) as SP.
  assert (NZ : ~ sumd fd (fun k e => if larger (e_frac e) then cp k * e_frac e else 0) == 0) by lra.
  split.
  - assert (A : forall t, exists y, h_ideal p t fd = Ok y
      /\ y == sumd fd (fun k e => if larger (e_frac e) then cp k * e_frac e else 0) * t
            + sumd fd (fun k e => if larger (e_frac e) then b k * e_frac e else 0)).
    { intro t. unfold h_ideal. rewrite molar_eq by exact V. cbn [rbind].
      apply (h_slope fd cp b (fun k e t => rmap (fun x => w_hpT (e_wr e) (p * x) t * e_frac e)
               (at_key k (map (fun e => (fst e, fraction fd e)) fd))) (proj1 V) LIN).
      intros k e t' I. unfold at_key. rewrite dget_map, (In_dget _ _ _ _ (proj1 V) I). eexists. reflexivity. }
    destruct (A T) as (h & EH & QH). destruct (invert_linear fd (fun t => h_ideal p t fd) h T0 _ _ T lo hi RG NZ A) as (o & EO & QO);
      [rewrite QH; reflexivity | exact IN |]. exists h, o. auto.
  - assert (A : forall t, exists y, h_incompressible p t fd = Ok y
      /\ y == sumd fd (fun k e => if larger (e_frac e) then cp k * e_frac e else 0) * t
            + sumd fd (fun k e => if larger (e_frac e) then b k * e_frac e else 0)).
    { intro t. unfold h_incompressible.
      apply (h_slope fd cp b (fun k e t => Ok (w_hpT (e_wr e) p t * e_frac e)) (proj1 V) LIN).
      intros k e t' _. eexists. reflexivity. }
    destruct (A T) as (h & EH & QH). destruct (invert_linear fd (fun t => h_incompressible p t fd) h T0 _ _ T lo hi RG NZ A) as (o & EO & QO);
      [rewrite QH; reflexivity | exact IN |]. exists h, o. auto.
Qed.

(** What Newton's method returns lies between the lower end of the range and twice
    its upper end. *)
Lemma inverse_bounds : forall fd f target T0 lo hi o, temperature_range fd = Ok (lo, hi) -> lo <= hi * 2 ->
  inverse_temperature fd f target T0 = Ok (Some (Ok o)) -> lo <= no_x o <= hi * 2.
Proof.
  intros fd f target T0 lo hi o RG LE H. unfold inverse_temperature in H. rewrite RG in H. cbn [rbind] in H.
  match type of H with Ok (newton 14 ?a ?x ?m) = _ => destruct (newton_spec a x m) as [(e & E) | (o' & E & B & _)]; rewrite E in H; [discriminate H |] end.
  injection H as <-. now apply B.
Qed.

(* ------------------------------------------------------------- derivatives *)

Lemma shift_spec : forall k d fd fd', shift k d fd = Ok fd' ->
  exists e, dget k fd = Some e /\ fd' = dset k {| e_frac := e_frac e + d; e_wr := e_wr e |} fd.
Proof.
  intros k d fd fd'. unfold shift, at_key. destruct (dget k fd) as [e |]; [| discriminate]. cbn. intro E. injection E as <-.
  exists e. auto.
Qed.
Lemma keys_dset_some : forall V k (v e : V) d, dget k d = Some e -> keys (dset k v d) = keys d.
Proof.
  induction d as [| [k' v'] d IH]; cbn; [discriminate |]. destruct (String.eqb_spec k k') as [-> | N]; cbn; [reflexivity |].
  intro E. f_equal. now apply IH.
Qed.
Lemma dfluid_restores : forall T k fd T0 fd' y, dT_dfluid T k fd T0 = (fd', Ok y) -> same_composition fd fd'.
Proof.
  intros T k fd T0 fd' y. unfold dT_dfluid. destruct (shift k (1 # 100000) fd) as [fd1 |] eqn:S1; [| discriminate].
  destruct (T fd1 T0) as [upper |]; [| discriminate].
  destruct (shift k (- (2 * (1 # 100000))) fd1) as [fd2 |] eqn:S2; [| discriminate].
  destruct (T fd2 (Some upper)) as [lower |]; [| discriminate].
  destruct (shift k (1 # 100000) fd2) as [fd3 |] eqn:S3; [| discriminate]. intro H. injection H as <- _.
  apply shift_spec in S1 as (e & D & ->). apply shift_spec in S2 as (e2 & D2 & ->).
  rewrite dget_dset_eq in D2. injection D2 as <-. apply shift_spec in S3 as (e3 & D3 & ->).
  rewrite dget_dset_eq in D3. injection D3 as <-. cbn [e_frac e_wr]. split.
  - rewrite (keys_dset_some _ _ _ _ _ (dget_dset_eq _ _ _)), (keys_dset_some _ _ _ _ _ (dget_dset_eq _ _ _)).
    now rewrite (keys_dset_some _ _ _ _ _ D).
  - intros k' e' D'. destruct (String.eqb_spec k' k) as [-> | N].
    + rewrite dget_dset_eq. rewrite D in D'. injection D' as <-. eexists. split; [reflexivity |]. cbn [e_wr e_frac].
      split; [reflexivity | ring].
    + rewrite !dget_dset_neq by assumption. exists e'. split; [exact D' |]. split; reflexivity.
Qed.
(** Linear functions are differentiated exactly, and the start value of the second
    evaluation is the first result. *)
Lemma dT_starts : forall (T : Q -> option Q -> res Q) (ok : Q -> Prop) h T0,
  (forall h t, (match t with None => True | Some x => ok x end) -> exists y, T h t = Ok y /\ ok y) ->
  ok T0 -> exists d, dT_pdh T h (Some T0) = Ok d.
Proof.
  intros T ok h T0 H O. unfold dT_pdh. destruct (H (h + (1#10)) (Some T0) O) as (u & E & OU). rewrite E. cbn [rbind].
  destruct (H (h - (1#10)) (Some u) OU) as (l & E' & _). rewrite E'. cbn [rbind]. eexists. reflexivity.
Qed.

(* ----------------------------------------------------- rules, wrappers *)

Lemma dispatch_pure : forall q r r' fd pure mix mix', number_of_fluids fd = 1%nat ->
  dispatch q r fd pure mix = dispatch q r' fd pure mix'
  /\ exists e, pure_fluid fd = Some e /\ dispatch q r fd pure mix = pure e /\ larger (e_frac e) = true.
Proof.
  intros q r r' fd pure mix mix' N. unfold dispatch. rewrite N. cbn [Nat.eqb]. split; [reflexivity |].
  unfold number_of_fluids in N. unfold pure_fluid. destruct (find _ fd) as [[k e] |] eqn:F.
  - exists e. split; [reflexivity |]. split; [reflexivity |]. apply find_some in F. apply F.
  - exfalso. assert (X : filter (fun e => larger (e_frac (snd e))) fd = []).
    { clear N. induction fd as [| x fd IH]; [reflexivity |]. cbn in F |- *. destruct (larger (e_frac (snd x))); [discriminate F | auto]. }
    rewrite X in N. discriminate N.
Qed.
Lemma dispatch_mixture : forall q fd pure mix, number_of_fluids fd <> 1%nat ->
  dispatch q None fd pure mix = Err KeyError
  /\ (forall r, ~ In r (rules q) -> dispatch q (Some r) fd pure mix = Err KeyError)
  /\ (forall r, In r (rules q) -> dispatch q (Some r) fd pure mix = mix r)
  /\ saturation fd pure = Err ValueError.
Proof.
  intros q fd pure mix N. apply Nat.eqb_neq in N. unfold dispatch, saturation. rewrite N.
  split; [reflexivity |]. split.
  - intros r H. destruct (smem r (rules q)) eqn:E; [| reflexivity]. exfalso. apply H. now apply smem_In.
  - split; [| reflexivity]. intros r H. apply smem_In in H. now rewrite H.
Qed.

Lemma subcritical_spec : forall pc p, 0 < pc -> subcritical pc p <= pc
  /\ (p <= pc -> subcritical pc p = p) /\ subcritical pc (subcritical pc p) = subcritical pc p.
Proof.
  intros pc p P. assert (A : forall q, q <= pc -> subcritical pc q = q).
  { intros q L. unfold subcritical. apply Qle_bool_iff in L. now rewrite L. }
  assert (B : subcritical pc p <= pc).
  { unfold subcritical. destruct (Qle_bool p pc) eqn:E; [now apply Qle_bool_iff | lra]. }
  split; [exact B |]. split; [apply A |]. now apply A.
Qed.

(** The names of the fluids do not matter for the rule 'ideal'. *)
Lemma renamed_dget : forall r fd k, (forall a b, In a (keys fd) -> In b (keys fd) -> r a = r b -> a = b) ->
  In k (keys fd) -> dget (r k) (renamed r fd) = dget k fd.
Proof.
  intros r fd k. unfold renamed. induction fd as [| [k0 e0] fd IH]; intros INJ I; [destruct I |]. cbn [map fst snd dget].
  destruct (String.eqb_spec k k0) as [-> | N]; [now rewrite String.eqb_refl |].
  destruct (String.eqb_spec (r k) (r k0)) as [E | _].
  - exfalso. apply N. apply INJ; [exact I | now left | exact E].
  - apply IH; [intros a b A B; apply INJ; now right | destruct I; [cbn in *; congruence | assumption]].
Qed.
Lemma renamed_keys : forall r fd, keys (renamed r fd) = map r (keys fd).
Proof. intros. unfold keys, renamed. rewrite !map_map. reflexivity. Qed.
Lemma renamed_valid : forall r fd, (forall a b, In a (keys fd) -> In b (keys fd) -> r a = r b -> a = b) ->
  valid fd -> valid (renamed r fd).
Proof.
  intros r fd INJ (ND & P & S). split.
  - rewrite renamed_keys. clear P S. induction (keys fd) as [| a l IH]; cbn; [constructor |]. inversion ND; subst. constructor.
    + rewrite in_map_iff. intros (b & E & I). apply INJ in E; [subst; contradiction | now right | now left].
    + apply IH; [intros; apply INJ; try (now right); assumption | assumption].
  - split.
    + intros k e D. apply dget_In in D. unfold renamed in D. apply in_map_iff in D as ([k0 e0] & E & I). cbn in E. injection E as <- <-.
      apply (P k0). now apply In_dget.
    + rewrite <- S. clear. induction fd as [| [k e] fd IH]; [reflexivity |]. cbn [renamed map fst snd]. rewrite !sumd_cons.
      fold (renamed r fd). rewrite IH. reflexivity.
Qed.
Lemma renamed_ideal : forall r fd p T, (forall a b, In a (keys fd) -> In b (keys fd) -> r a = r b -> a = b) ->
  valid fd -> h_ideal p T (renamed r fd) = h_ideal p T fd.
Proof.
  intros r fd p T INJ V. unfold h_ideal. rewrite (molar_eq fd V), (molar_eq _ (renamed_valid r fd INJ V)). cbn [rbind].
  assert (TOT : flow_total (renamed r fd) = flow_total fd).
  { unfold flow_total, renamed. rewrite map_map. reflexivity. }
  assert (MAP : map (fun e => (fst e, fraction (renamed r fd) e)) (renamed r fd)
                = map (fun e => (r (fst e), fraction fd e)) fd).
  { unfold renamed at 2. rewrite map_map. apply map_ext. intros [k e]. cbn [fst snd]. unfold fraction. now rewrite TOT. }
  rewrite MAP.
  assert (G : forall l acc, (forall z, In z l -> In z fd) ->
     sum_fluids (fun k e => rmap (fun x => w_hpT (e_wr e) (p * x) T * e_frac e) (at_key k (map (fun e => (r (fst e), fraction fd e)) fd))) (renamed r l) acc
   = sum_fluids (fun k e => rmap (fun x => w_hpT (e_wr e) (p * x) T * e_frac e) (at_key k (map (fun e => (fst e, fraction fd e)) fd))) l acc).
  { induction l as [| [k e] l IH]; intros acc S; [reflexivity |]. cbn [renamed map fst snd sum_fluids]. fold (renamed r l).
    assert (S' : forall z, In z l -> In z fd) by (intros; apply S; now right).
    assert (I : In (k, e) fd) by (apply S; now left).
    assert (L : dget (r k) (map (fun e => (r (fst e), fraction fd e)) fd) = Some (fraction fd (k, e))).
    { assert (X : forall m, (forall z, In z m -> In z fd) -> In (k, e) m -> dget (r k) (map (fun e => (r (fst e), fraction fd e)) m) = Some (fraction fd (k, e))).
      { induction m as [| [k1 e1] m IHm]; intros SM IM; [destruct IM |]. cbn [map fst dget].
        destruct (String.eqb_spec (r k) (r k1)) as [E | N].
        - assert (k = k1). { apply INJ; [apply in_map_iff; exists (k, e); auto | apply in_map_iff; exists (k1, e1); split; [reflexivity | apply SM; now left] | exact E]. }
          subst k1. f_equal. f_equal. f_equal.
          pose proof (In_dget _ _ _ _ (proj1 V) I) as D1. pose proof (In_dget _ _ _ _ (proj1 V) (SM _ (or_introl eq_refl))) as D2. congruence.
        - apply IHm; [intros; apply SM; now right |]. destruct IM as [E | IM]; [congruence | exact IM]. }
      apply X; auto. }
    assert (L2 : dget k (map (fun e => (fst e, fraction fd e)) fd) = Some (fraction fd (k, e))).
    { rewrite (dget_map _ _ (fraction fd) fd k), (In_dget _ _ _ _ (proj1 V) I). reflexivity. }
    destruct (larger (e_frac e)); [| apply IH; exact S'].
    unfold at_key at 1 3. rewrite L, L2. cbn [rmap rbind]. apply IH; exact S'. }
  apply G. auto.
Qed.
