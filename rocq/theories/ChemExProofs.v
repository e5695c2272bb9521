(** Proofs about chemical exergy. *)
From Coq Require Import QArith Lqa.
From Verif Require Import Base MixModel MixSpec MixProofs MixProofs2 MixProofs3 MixProofs4 ChemExModel ChemExSpec.
Open Scope Q_scope.

Lemma rows_none : forall t pre, (forall a, In a pre -> dget a t = None) -> rows_of t pre = [].
Proof.
  induction pre as [| a pre IH]; intro H; [reflexivity |]. cbn [rows_of flat_map].
  rewrite (H a) by now left. apply IH. intros. apply H. now right.
Qed.
Lemma rows_app : forall t l l', rows_of t (l ++ l') = rows_of t l ++ rows_of t l'.
Proof. intros. apply flat_map_app. Qed.
Lemma listed_head : forall t e r, listed t e r <-> head (rows_of t (w_aliases (e_wr e))) = Ok r.
Proof.
  intros t e r. split.
  - intros (pre & k & post & E & N & K). rewrite E, rows_app, rows_none by exact N. cbn. now rewrite K.
  - unfold listed. generalize (w_aliases (e_wr e)). induction l as [| a l IH]; [discriminate |].
    cbn [rows_of flat_map]. destruct (dget a t) as [r' |] eqn:D; cbn [app head].
    + intro H. injection H as <-. exists [], a, l. repeat split; auto. intros b [].
    + intro H. destruct (IH H) as (pre & k & post & E & N & K). exists (a :: pre), k, post.
      rewrite E. repeat split; auto. intros b [<- | B]; auto.
Qed.
Lemma gas_number : forall t e y, gas_value t e y <->
  rbind (head (rows_of t (w_aliases (e_wr e)))) (fun r => number (r_gas r)) = Ok y.
Proof.
  intros t e y. split.
  - intros (r & L & G). apply listed_head in L. rewrite L. cbn. now rewrite G.
  - destruct (head (rows_of t (w_aliases (e_wr e)))) as [r |] eqn:H; [| discriminate]. cbn.
    unfold number. destruct (r_gas r) eqn:G; [| discriminate]. intro X. injection X as <-.
    exists r. split; [now apply listed_head | exact G].
Qed.
Lemma liquid_number : forall t e y, liquid_value t e y <->
  rbind (head (rows_of t (w_aliases (e_wr e)))) (fun r => number (r_liquid r)) = Ok y.
Proof.
  intros t e y. split.
  - intros (r & L & G). apply listed_head in L. rewrite L. cbn. now rewrite G.
  - destruct (head (rows_of t (w_aliases (e_wr e)))) as [r |] eqn:H; [| discriminate]. cbn.
    unfold number. destruct (r_liquid r) eqn:G; [| discriminate]. intro X. injection X as <-.
    exists r. split; [now apply listed_head | exact G].
Qed.

(* ------------------------------------------------------------------- pure *)

Lemma pure_value : forall ln names t pamb Tamb fd rule e r q, number_of_fluids fd = 1%nat ->
  pure_fluid fd = Some e -> (forall r', In r' (rows_of t (w_aliases (e_wr e))) -> exists c, column r' (r_ref r') = Ok c) ->
  listed t e r -> column r (r_ref r) = Ok (Num q) -> ~ w_M (e_wr e) == 0 ->
  exists v, chem_mix ln names t pamb Tamb fd rule = Ok v /\ v * w_M (e_wr e) == q * 1000.
Proof.
  intros ln names t pamb Tamb fd rule e r q N P A L C M. unfold chem_mix, dispatch. rewrite N, P. cbn [Nat.eqb].
  apply listed_head in L. destruct (rows_of t (w_aliases (e_wr e))) as [| r0 rs]; [discriminate |].
  cbn in L. injection L as ->. cbn [rmapM]. rewrite C. cbn [rbind].
  assert (X : exists l, rmapM (fun r => column r (r_ref r)) rs = Ok l).
  { clear - A. assert (B : forall r', In r' rs -> exists c, column r' (r_ref r') = Ok c) by (intros; apply A; now right).
    clear A. induction rs as [| r1 rs IH]; [now exists [] |].
    destruct (B r1) as (c & Ec); [now left |]. destruct IH as (l & El); [intros; apply B; now right |].
    exists (c :: l). cbn [rmapM]. rewrite Ec. cbn [rbind]. now rewrite El. }
  destruct X as (l & X). rewrite X. cbn [rbind rmap head number]. rewrite qdiv_ok by exact M. cbn [rmap rbind].
  eexists. split; [reflexivity |]. field. exact M.
Qed.

Lemma reference_pure : forall ln names t pamb Tamb fd rule e r q, number_of_fluids fd = 1%nat ->
  pure_fluid fd = Some e ->
  (forall k r', In k (w_aliases (e_wr e)) -> dget k t = Some r' -> exists i, r_ref r' = Num i) ->
  listed t e r -> reference_value r q -> ~ w_M (e_wr e) == 0 ->
  exists v, chem_mix ln names t pamb Tamb fd rule = Ok v /\ v * w_M (e_wr e) == q * 1000.
Proof.
  intros ln names t pamb Tamb fd rule e r q N P A L (i & I & V) M.
  apply (pure_value ln names t pamb Tamb fd rule e r q N P); [| exact L | | exact M].
  - intros r' H. unfold rows_of in H. apply in_flat_map in H. destruct H as (k & K & H).
    destruct (dget k t) as [r0 |] eqn:D; [| destruct H]. destruct H as [<- | []].
    destruct (A k r0 K D) as (j & J). rewrite J. unfold column.
    destruct (Qeq_bool j 2), (Qeq_bool j 3), (Qeq_bool j 4); eauto.
  - rewrite I. unfold column. destruct V as [[E V] | [E V]].
    + apply Qeq_bool_iff in E. now rewrite E, V.
    + assert (Z : Qeq_bool i 2 = false).
      { destruct (Qeq_bool i 2) eqn:Z; [| reflexivity]. apply Qeq_bool_iff in Z. rewrite Z in E. discriminate E. }
      apply Qeq_bool_iff in E. now rewrite Z, E, V.
Qed.

(* ------------------------------------------------------------------- loop *)

Lemma step_ok : forall ln t Tamb liquid fd k e x g acc, dget k fd = Some e -> 0 <= x ->
  (0 < x -> gas_value t e g) -> (smem "water" (w_aliases (e_wr e)) = false \/ liquid <= 0) ->
  exists d, chem_step ln t Tamb liquid fd k x acc = Ok (fst acc, d)
  /\ d == snd acc + (if Qle_bool x 0 then 0 else x * mixed ln Tamb g x).
Proof.
  intros ln t Tamb liquid fd k e x g acc D X G W. unfold chem_step.
  destruct (Qeq_bool x 0) eqn:Z.
  - apply Qeq_bool_iff in Z. assert (L : Qle_bool x 0 = true) by (apply Qle_bool_iff; lra). rewrite L.
    destruct acc as (a, b). exists b. split; [reflexivity |]. cbn [snd]. ring.
  - assert (L : Qle_bool x 0 = false).
    { destruct (Qle_bool x 0) eqn:L; [| reflexivity]. apply Qle_bool_iff in L. exfalso.
      assert (E : x == 0) by lra. apply Qeq_bool_iff in E. congruence. }
    assert (P : 0 < x). { destruct (Qlt_le_dec 0 x) as [P | P]; [exact P |]. apply Qle_bool_iff in P. congruence. }
    rewrite L. unfold at_key. rewrite D. cbn [rbind].
    assert (B : negb (Qle_bool liquid 0) && smem "water" (w_aliases (e_wr e)) = false).
    { destruct W as [-> | W]; [apply Bool.andb_false_r |]. apply Qle_bool_iff in W. now rewrite W. }
    rewrite B. cbn [rbind]. specialize (G P). apply gas_number in G. rewrite G. cbn [rbind].
    unfold mlog. rewrite L. cbn [rbind]. eexists. split; [reflexivity |].
    unfold mixed, R_uni. ring.
Qed.
Lemma step_water : forall ln t Tamb liquid fd k e x g y acc, dget k fd = Some e -> 0 < x ->
  gas_value t e g -> smem "water" (w_aliases (e_wr e)) = true -> 0 < liquid -> liquid_value t e y ->
  exists d, chem_step ln t Tamb liquid fd k x acc = Ok (fst acc + liquid * y, d)
  /\ d == snd acc + x * mixed ln Tamb g x.
Proof.
  intros ln t Tamb liquid fd k e x g y acc D P G W LP Y. unfold chem_step.
  destruct (Qeq_bool x 0) eqn:Z. { apply Qeq_bool_iff in Z. lra. }
  assert (L : Qle_bool x 0 = false).
  { destruct (Qle_bool x 0) eqn:L; [| reflexivity]. apply Qle_bool_iff in L. lra. }
  assert (L' : Qle_bool liquid 0 = false).
  { destruct (Qle_bool liquid 0) eqn:L'; [| reflexivity]. apply Qle_bool_iff in L'. lra. }
  unfold at_key. rewrite D. cbn [rbind]. rewrite L', W. cbn [negb andb]. apply liquid_number in Y. rewrite Y. cbn [rbind].
  apply gas_number in G. rewrite G. cbn [rbind]. unfold mlog. rewrite L. cbn [rbind]. eexists. split; [reflexivity |].
  unfold mixed, R_uni. ring.
Qed.

Lemma fold_err : forall A (f : string * Q -> A -> res A) xs e, fold_left (fun r x => rbind r (f x)) xs (Err e) = Err e.
Proof. induction xs as [| x xs IH]; intro e; [reflexivity | apply IH]. Qed.

(** fluids that do not condense *)
Lemma loop_dry : forall ln t Tamb liquid fd g (y : string * entry -> Q), NoDup (keys fd) ->
  forall l acc, (forall z, In z l -> In z fd) ->
  (forall k e, In (k, e) l -> 0 <= y (k, e) /\ (0 < y (k, e) -> gas_value t e (g k))
     /\ (smem "water" (w_aliases (e_wr e)) = false \/ liquid <= 0)) ->
  exists d, fold_left (fun r x => rbind r (chem_step ln t Tamb liquid fd (fst x) (snd x)))
      (map (fun e => (fst e, y e)) l) (Ok acc) = Ok (fst acc, d)
  /\ d == snd acc + gas_sum ln Tamb g (map (fun e => (fst e, y e)) l).
Proof.
  intros ln t Tamb liquid fd g y ND. induction l as [| [k e] l IH]; intros acc S H.
  - exists (snd acc). split; [now destruct acc |]. unfold gas_sum. cbn. ring.
  - destruct (H k e) as (P & G & W); [now left |].
    assert (D : dget k fd = Some e) by (apply In_dget; [exact ND | apply S; now left]).
    destruct (step_ok ln t Tamb liquid fd k e (y (k, e)) (g k) acc D P G W) as (d & E & Q).
    cbn [map fst snd fold_left]. cbn [rbind]. rewrite E.
    destruct (IH (fst acc, d)) as (d' & E' & Q').
    { intros. apply S. now right. } { intros. apply H. now right. }
    cbn [fst snd] in E', Q'. exists d'. split; [exact E' |]. rewrite Q', Q. unfold gas_sum. rewrite sumd_cons. ring.
Qed.

Lemma gas_sum_ext : forall ln Tamb g xs xs', xs = xs' -> gas_sum ln Tamb g xs == gas_sum ln Tamb g xs'.
Proof. intros. now subst. Qed.

Lemma mass_eq : forall fd, valid fd -> exists M, molar_mass_mixture fd (map (fun e => (fst e, fraction fd e)) fd) = Ok M
  /\ M * moles fd == 1 /\ 0 < M.
Proof.
  intros fd V. destruct (mass_of fd (fraction fd) (proj1 V)) as (M & EM & QM). rewrite mixture_mass in QM by exact V.
  pose proof (moles_pos fd V) as P. exists M. split; [exact EM |]. split; [rewrite QM; field; lra |].
  rewrite QM. now apply Qinv_lt_0_compat.
Qed.
Lemma fraction_pos : forall fd k e, valid fd -> In (k, e) fd -> 0 < fraction fd (k, e) <-> 0 < e_frac e.
Proof.
  intros fd k e V I. pose proof (moles_pos fd V) as P. destruct (valid_in _ _ _ V I) as (M & F).
  pose proof (fraction_moles fd (k, e) V) as E. cbn [snd] in E. unfold amount in E.
  assert (A : e_frac e == fraction fd (k, e) * (moles fd * w_M (e_wr e))).
  { rewrite Qmult_assoc, E. field. lra. }
  assert (PM : 0 < moles fd * w_M (e_wr e)) by now apply Qmult_lt_0_compat.
  split; intro H.
  - rewrite A. now apply Qmult_lt_0_compat.
  - rewrite A in H. apply (Qmult_lt_r _ _ _ PM). lra.
Qed.

Lemma dry_value : forall ln names t pamb Tamb fd g, valid fd -> number_of_fluids fd <> 1%nat ->
  stays_gas names pamb Tamb fd -> gas_values t fd g ->
  exists xs M v, molar_fractions fd = Ok xs /\ molar_mass_mixture fd xs = Ok M /\ 0 < M
  /\ chem_mix ln names t pamb Tamb fd (Some "ideal-cond"%string) = Ok v
  /\ v * M == 1000 * gas_sum ln Tamb g xs.
Proof.
  intros ln names t pamb Tamb fd g V N S G.
  destruct (mass_eq fd V) as (M & EM & _ & PM).
  exists (map (fun e => (fst e, fraction fd e)) fd), M.
  destruct (loop_dry ln t Tamb 0 fd g (fraction fd) (proj1 V) fd (0, 0)) as (d & EL & QL); [auto | |].
  { intros k e I. split; [now apply fraction_nonneg |]. split; [| right; lra].
    intro P. apply G; [apply In_dget; [apply V | exact I] |]. now apply fraction_pos in P. }
  cbn [fst snd] in EL, QL.
  unfold chem_mix, dispatch. replace (Nat.eqb (number_of_fluids fd) 1) with false by (symmetry; now apply Nat.eqb_neq).
  cbn [rules smem existsb String.eqb Ascii.eqb Bool.eqb orb].
  replace (smem "ideal-cond" ["ideal-cond"%string]) with true by reflexivity.
  unfold chem_ideal_cond. rewrite molar_eq by exact V. cbn [rbind].
  assert (E : (water_in names fd = None \/ exists w c, water_in names fd = Some w /\ cond_check pamb Tamb fd w = Ok c
      /\ c_molar_gas c = map (fun e => (fst e, fraction fd e)) fd /\ c_molar_liquid c = 0)).
  { unfold stays_gas in S. destruct (water_in names fd) as [w |]; [right | now left].
    destruct S as (ew & D & S). destruct (dry_spec pamb Tamb fd w ew V D S) as (xs & EX & EC).
    rewrite molar_eq in EX by exact V. injection EX as <-. eexists. eexists. split; [reflexivity |]. split; [exact EC |]. split; reflexivity. }
  assert (F : chem_loop ln t Tamb 0 fd (map (fun e => (fst e, fraction fd e)) fd) = Ok (0, d)) by exact EL.
  exists ((0 + d * (1 - 0)) * (1 / M) * 1000).
  split; [reflexivity |]. split; [exact EM |]. split; [exact PM |]. split.
  - destruct E as [W | (w & c & W & EC & CG & CL)]; rewrite W; [| rewrite EC; cbn [rmap rbind]; rewrite CG, CL]; cbn [rbind];
      rewrite F; cbn [rbind]; rewrite EM; cbn [rbind]; rewrite qdiv_ok by lra; reflexivity.
  - rewrite QL. field. lra.
Qed.

Lemma loop_wet : forall ln t Tamb liquid fd g water ew yl (y : string * entry -> Q), NoDup (keys fd) ->
  0 < liquid -> In (water, ew) fd -> liquid_value t ew yl -> 0 < y (water, ew) ->
  forall l acc, (forall z, In z l -> In z fd) ->
  (forall k e, In (k, e) l -> 0 <= y (k, e) /\ (0 < y (k, e) -> gas_value t e (g k))
     /\ smem "water" (w_aliases (e_wr e)) = String.eqb k water) ->
  exists c d, fold_left (fun r x => rbind r (chem_step ln t Tamb liquid fd (fst x) (snd x)))
      (map (fun e => (fst e, y e)) l) (Ok acc) = Ok (c, d)
  /\ c == fst acc + sumd l (fun k _ => if String.eqb k water then liquid * yl else 0)
  /\ d == snd acc + gas_sum ln Tamb g (map (fun e => (fst e, y e)) l).
Proof.
  intros ln t Tamb liquid fd g water ew yl y ND LP IW LV PW. induction l as [| [k e] l IH]; intros acc S H.
  - destruct acc as (a, b). exists a, b. split; [reflexivity |]. unfold gas_sum. cbn. split; ring.
  - destruct (H k e) as (P & G & W); [now left |].
    assert (D : dget k fd = Some e) by (apply In_dget; [exact ND | apply S; now left]).
    assert (E : exists c d, chem_step ln t Tamb liquid fd k (y (k, e)) acc = Ok (c, d)
      /\ c == fst acc + (if String.eqb k water then liquid * yl else 0)
      /\ d == snd acc + (if Qle_bool (y (k, e)) 0 then 0 else y (k, e) * mixed ln Tamb (g k) (y (k, e)))).
    { destruct (String.eqb k water) eqn:K.
      - apply String.eqb_eq in K. subst k.
        assert (X : e = ew). { apply (In_dget _ water ew fd ND) in IW. congruence. } subst e.
        destruct (step_water ln t Tamb liquid fd water ew (y (water, ew)) (g water) yl acc D PW (G PW) W LP LV) as (d & E & Q).
        exists (fst acc + liquid * yl), d. split; [exact E |]. split; [reflexivity |].
        destruct (Qle_bool (y (water, ew)) 0) eqn:Z; [| exact Q]. apply Qle_bool_iff in Z. lra.
      - destruct (step_ok ln t Tamb liquid fd k e (y (k, e)) (g k) acc D P G (or_introl W)) as (d & E & Q).
        exists (fst acc), d. split; [exact E |]. split; [ring | exact Q]. }
    destruct E as (c & d & E & Qc & Qd). cbn [map fst snd fold_left]. cbn [rbind]. rewrite E.
    destruct (IH (c, d)) as (c' & d' & E' & Qc' & Qd').
    { intros. apply S. now right. } { intros. apply H. now right. }
    cbn [fst snd] in E', Qc', Qd'. exists c', d'. split; [exact E' |]. unfold gas_sum in *. rewrite !sumd_cons.
    split; [rewrite Qc', Qc | rewrite Qd', Qd]; ring.
Qed.
(** the composition of the gas *)
Lemma gas_shape : forall p T fd water ew, valid fd -> condenses p T fd water ew ->
  exists c gas, cond_check p T fd water = Ok c /\ c_molar_gas c = map (fun e => (fst e, gas e)) fd
  /\ 0 < c_molar_liquid c < 1 /\ 0 < gas (water, ew)
  /\ (forall k e, In (k, e) fd -> 0 <= gas (k, e))
  /\ (forall k e, In (k, e) fd -> 0 < gas (k, e) -> 0 < e_frac e)
  /\ (forall k e, In (k, e) fd -> 0 < e_frac e -> 0 < gas (k, e)).
Proof.
  intros p T fd water ew V C.
  pose proof (wet_eq p T fd water ew V C) as X. pose proof (gas_nonneg p T fd water ew V C) as GN.
  destruct (wet_spec p T fd water ew V C) as (xs & c & EX & EC & LB & _ & _ & _ & PV & _ & _ & O).
  cbn zeta in *. destruct X as (M & Mg & _ & _ & _ & _ & E).
  rewrite E in EC. injection EC as EC. rewrite <- EC in LB, PV, O. cbn [c_molar_liquid c_molar_gas] in LB, PV, O.
  eexists. eexists (fun e => _). split; [exact E |]. cbn [c_molar_gas c_molar_liquid].
  split; [reflexivity |]. split; [exact LB |].
  match type of GN with forall k e, _ -> 0 <= ?b => idtac end.
  assert (VG : forall (gas : string * entry -> Q) k e, In (k, e) fd -> value k (map (fun e => (fst e, gas e)) fd) = gas (k, e)).
  { intros gas k e I. unfold value. rewrite dget_map, (In_dget _ k e fd (proj1 V) I). reflexivity. }
  pose proof (dget_In _ _ _ _ (proj1 C)) as IW.
  rewrite VG with (1 := IW) in PV.
  assert (PS : 0 < w_psat (e_wr ew) T) by apply C.
  assert (GW : forall (gas : string * entry -> Q), 0 <= gas (water, ew) -> p * gas (water, ew) == w_psat (e_wr ew) T -> 0 < gas (water, ew)).
  { intros gas N Q. destruct (Qlt_le_dec 0 (gas (water, ew))) as [L | L]; [exact L |].
    assert (Z : gas (water, ew) == 0) by lra. rewrite Z in Q. lra. }
  rewrite molar_eq in EX by exact V. injection EX as EX. subst xs.
  match type of LB with 0 < ?b < 1 => set (lq := b) in * end.
  split; [exact (GW _ (GN water ew IW) PV) |]. split; [exact GN |].
  assert (KW : forall e, In (water, e) fd -> e = ew).
  { intros e I. apply (In_dget _ water e fd (proj1 V)) in I. destruct C as (D & _). congruence. }
  assert (OW : 0 < e_frac ew).
  { pose proof (xw_nonneg p T fd water ew V C). pose proof (oversaturated p T fd water ew V C) as OV.
    pose proof (fraction_pos fd water ew V IW) as FP. cbn zeta in *.
    destruct (Qlt_le_dec 0 (e_frac ew)) as [L | L]; [exact L |]. exfalso.
    destruct (Qlt_le_dec 0 (fraction fd (water, ew))) as [L' | L']; [apply FP in L'; lra |].
    assert (Z : fraction fd (water, ew) == 0) by lra. rewrite Z in OV. lra. }
  split; intros k e I P.
  - destruct (String.eqb k water) eqn:K. { apply String.eqb_eq in K. subst k. now rewrite (KW e I). }
    assert (NK : k <> water) by now apply String.eqb_neq.
    destruct (O k e (In_dget _ k e fd (proj1 V) I) NK) as (OM & _). rewrite !VG with (1 := I) in OM.
    apply (fraction_pos fd k e V I). rewrite <- OM. apply Qmult_lt_0_compat; [lra | exact P].
  - destruct (String.eqb k water) eqn:K.
    { apply String.eqb_eq in K. subst k. rewrite (KW e I). exact (GW _ (GN water ew IW) PV). }
    assert (NK : k <> water) by now apply String.eqb_neq.
    destruct (O k e (In_dget _ k e fd (proj1 V) I) NK) as (OM & _). rewrite !VG with (1 := I) in OM.
    apply (fraction_pos fd k e V I) in P. rewrite <- OM in P.
    match type of OM with _ * ?b == _ => destruct (Qlt_le_dec 0 b) as [L | L]; [exact L |] end. exfalso.
    specialize (GN k e I). match type of OM with ?a * ?b == _ => assert (Z : b == 0) by (apply Qle_antisym; [exact L | exact GN]); rewrite Z in P; lra end.
Qed.

Lemma wet_value : forall ln names t pamb Tamb fd g water ew yl, valid fd -> number_of_fluids fd <> 1%nat ->
  condenses pamb Tamb fd water ew -> water_in names fd = Some water -> gas_values t fd g -> liquid_value t ew yl ->
  (forall k e, dget k fd = Some e -> smem "water" (w_aliases (e_wr e)) = String.eqb k water) ->
  exists xs M c v, molar_fractions fd = Ok xs /\ molar_mass_mixture fd xs = Ok M /\ 0 < M
  /\ cond_check pamb Tamb fd water = Ok c /\ 0 < c_molar_liquid c < 1
  /\ chem_mix ln names t pamb Tamb fd (Some "ideal-cond"%string) = Ok v
  /\ v * M == 1000 * (c_molar_liquid c * yl + (1 - c_molar_liquid c) * gas_sum ln Tamb g (c_molar_gas c)).
Proof.
  intros ln names t pamb Tamb fd g water ew yl V N C W G LV AL.
  destruct (mass_eq fd V) as (M & EM & _ & PM).
  destruct (gas_shape pamb Tamb fd water ew V C) as (c & gas & EC & CG & LB & GW & GN & GP & _).
  pose proof (dget_In _ _ _ _ (proj1 C)) as IW.
  destruct (loop_wet ln t Tamb (c_molar_liquid c) fd g water ew yl gas (proj1 V) (proj1 LB) IW LV GW fd (0, 0)) as (cc & d & EL & QC & QL);
    [auto | |].
  { intros k e I. pose proof (In_dget _ k e fd (proj1 V) I) as D. split; [now apply GN |]. split; [| now apply AL].
    intro P. apply G; [exact D |]. now apply (GP k). }
  cbn [fst snd] in QC, QL.
  exists (map (fun e => (fst e, fraction fd e)) fd), M, c, ((cc + d * (1 - c_molar_liquid c)) * (1 / M) * 1000).
  split; [now apply molar_eq |]. split; [exact EM |]. split; [exact PM |]. split; [exact EC |]. split; [exact LB |]. split.
  - unfold chem_mix, dispatch. replace (Nat.eqb (number_of_fluids fd) 1) with false by (symmetry; now apply Nat.eqb_neq).
    replace (smem "ideal-cond" (rules PChemical)) with true by reflexivity.
    unfold chem_ideal_cond. rewrite molar_eq by exact V. cbn [rbind]. rewrite W, EC. cbn [rmap rbind]. rewrite CG.
    unfold chem_loop. rewrite EL. cbn [rbind]. rewrite EM. cbn [rbind]. rewrite qdiv_ok by lra. reflexivity.
  - rewrite CG, QL, QC. rewrite (sumd_split _ fd water ew _ (proj1 V) (proj1 C)), String.eqb_refl.
    rewrite (sumd_ext_in _ fd _ (fun _ _ => 0 * 0)).
    2:{ intros k e _. destruct (String.eqb k water); ring. }
    rewrite (sumd_scale _ fd (fun _ _ => 0) 0). field. lra.
Qed.

(** a value needs values of all fluids *)
Lemma step_inv : forall ln t Tamb liquid fd k e x acc r, dget k fd = Some e -> 0 < x ->
  chem_step ln t Tamb liquid fd k x acc = Ok r -> exists y, gas_value t e y.
Proof.
  intros ln t Tamb liquid fd k e x acc r D P. unfold chem_step.
  destruct (Qeq_bool x 0) eqn:Z. { apply Qeq_bool_iff in Z. lra. }
  unfold at_key. rewrite D. cbn [rbind].
  match goal with |- rbind ?a _ = _ -> _ => destruct a as [cond |]; [| discriminate] end. cbn [rbind].
  destruct (rbind (head (rows_of t (w_aliases (e_wr e)))) (fun r => number (r_gas r))) as [y |] eqn:Y; [| discriminate].
  intros _. exists y. now apply gas_number.
Qed.
Lemma loop_inv : forall ln t Tamb liquid fd xs acc r,
  fold_left (fun r x => rbind r (chem_step ln t Tamb liquid fd (fst x) (snd x))) xs (Ok acc) = Ok r ->
  forall k x e, In (k, x) xs -> 0 < x -> dget k fd = Some e -> exists y, gas_value t e y.
Proof.
  intros ln t Tamb liquid fd. induction xs as [| [k0 x0] xs IH]; intros acc r H k x e I P D; [destruct I |].
  cbn [fold_left fst snd rbind] in H.
  destruct (chem_step ln t Tamb liquid fd k0 x0 acc) as [acc' |] eqn:E.
  - destruct I as [I | I]; [injection I as -> -> | now apply (IH acc' r H k x e)].
    now apply (step_inv ln t Tamb liquid fd k e x acc acc').
  - rewrite (fold_err _ (fun x => chem_step ln t Tamb liquid fd (fst x) (snd x))) in H. discriminate.
Qed.
Lemma needs_values : forall ln names t pamb Tamb fd rule v, valid fd -> number_of_fluids fd <> 1%nat ->
  (forall water ew, water_in names fd = Some water -> dget water fd = Some ew ->
     e_frac ew < 1 /\ (w_below (e_wr ew) Tamb = true -> 0 < w_psat (e_wr ew) Tamb)) ->
  chem_mix ln names t pamb Tamb fd rule = Ok v ->
  rule = Some "ideal-cond"%string /\ forall k e, dget k fd = Some e -> 0 < e_frac e -> exists y, gas_value t e y.
Proof.
  intros ln names t pamb Tamb fd rule v V N WP H. unfold chem_mix, dispatch in H.
  replace (Nat.eqb (number_of_fluids fd) 1) with false in H by (symmetry; now apply Nat.eqb_neq).
  destruct rule as [r |]; [| discriminate]. destruct (smem r (rules PChemical)) eqn:R; [| discriminate].
  apply smem_In in R. destruct R as [<- | []]. split; [reflexivity |].
  intros k e D F. unfold chem_ideal_cond in H. rewrite molar_eq in H by exact V. cbn [rbind] in H.
  assert (FR : forall l d, chem_loop ln t Tamb l fd (map (fun e => (fst e, fraction fd e)) fd) = Ok d -> exists y, gas_value t e y).
  { intros l d E. unfold chem_loop in E. pose proof (dget_In _ _ _ _ D) as I.
    apply (loop_inv _ _ _ _ _ _ _ _ E k (fraction fd (k, e)) e).
    - apply in_map_iff. exists (k, e). auto.
    - now apply fraction_pos.
    - exact D. }
  destruct (water_in names fd) as [w |] eqn:W.
  - assert (IW : exists ew, dget w fd = Some ew).
    { unfold water_in in W. destruct (find _ fd) as [[k' e'] |] eqn:FI; [| discriminate]. injection W as <-.
      apply find_some in FI. exists e'. apply In_dget; [apply V | apply FI]. }
    destruct IW as (ew & DW). destruct (WP w ew eq_refl DW) as (L1 & PP).
    destruct (Qlt_le_dec (w_psat (e_wr ew) Tamb * moles fd) (pamb * amount ew)) as [O | O]; [destruct (w_below (e_wr ew) Tamb) eqn:B |].
    + assert (C : condenses pamb Tamb fd w ew) by (split; [exact DW |]; split; [exact L1 |]; split; [exact B |]; split; [now apply PP | exact O]).
      destruct (gas_shape pamb Tamb fd w ew V C) as (c & gas & EC & CG & _ & _ & _ & _ & GP).
      rewrite EC in H. cbn [rmap rbind] in H. rewrite CG in H.
      destruct (chem_loop ln t Tamb (c_molar_liquid c) fd (map (fun e => (fst e, gas e)) fd)) as [d |] eqn:E; [| discriminate].
      pose proof (dget_In _ _ _ _ D) as I. unfold chem_loop in E.
      apply (loop_inv _ _ _ _ _ _ _ _ E k (gas (k, e)) e).
      * apply in_map_iff. exists (k, e). auto.
      * now apply (GP k).
      * exact D.
    + destruct (dry_spec pamb Tamb fd w ew V DW (or_introl B)) as (xs & EX & EC).
      rewrite molar_eq in EX by exact V. injection EX as <-. rewrite EC in H. cbn [rmap rbind c_molar_gas c_molar_liquid] in H.
      destruct (chem_loop ln t Tamb 0 fd (map (fun e => (fst e, fraction fd e)) fd)) as [d |] eqn:E; [| discriminate]. exact (FR _ _ E).
    + destruct (dry_spec pamb Tamb fd w ew V DW (or_intror O)) as (xs & EX & EC).
      rewrite molar_eq in EX by exact V. injection EX as <-. rewrite EC in H. cbn [rmap rbind c_molar_gas c_molar_liquid] in H.
      destruct (chem_loop ln t Tamb 0 fd (map (fun e => (fst e, fraction fd e)) fd)) as [d |] eqn:E; [| discriminate]. exact (FR _ _ E).
  - cbn [rbind] in H.
    destruct (chem_loop ln t Tamb 0 fd (map (fun e => (fst e, fraction fd e)) fd)) as [d |] eqn:E; [| discriminate]. exact (FR _ _ E).
Qed.

(** mixing destroys exergy *)
Lemma mixing_lowers : forall ln Tamb g xs, (forall x, 0 < x <= 1 -> ln x <= 0) -> 0 <= Tamb ->
  (forall k x, In (k, x) xs -> x <= 1) ->
  gas_sum ln Tamb g xs <= sumd xs (fun k x => if Qle_bool x 0 then 0 else x * g k).
Proof.
  intros ln Tamb g xs LN T0. induction xs as [| [k x] xs IH]; intro B; [unfold gas_sum; cbn; lra |].
  unfold gas_sum in *. rewrite !sumd_cons. assert (IH' := IH (fun k' x' I => B k' x' (or_intror I))).
  destruct (Qle_bool x 0) eqn:Z; [lra |].
  assert (P : 0 < x). { destruct (Qlt_le_dec 0 x) as [P | P]; [exact P |]. apply Qle_bool_iff in P. congruence. }
  assert (X1 : x <= 1) by (apply (B k); now left). pose proof (LN x (conj P X1)) as L.
  assert (Z' : 0 <= x * (Tamb * - ln x)). { apply Qmult_le_0_compat; [lra |]. apply Qmult_le_0_compat; lra. }
  unfold mixed in *.
  assert (E : x * (g k + (8314462618 # 1000000000000) * Tamb * ln x)
    == x * g k - (8314462618 # 1000000000000) * (x * (Tamb * - ln x))) by ring.
  rewrite E. lra.
Qed.

(** no table, no chemical exergy; the flow is mass flow times specific value *)
Lemma conn_value : forall ln names t pamb Tamb m fd rule e E,
  chem_conn ln names t pamb Tamb m fd rule = Ok (e, E) -> E == m * e /\ (t = None -> e == 0).
Proof.
  intros ln names t pamb Tamb m fd rule e E H. unfold chem_conn in H. destruct t as [t |].
  - destruct (chem_mix ln names t pamb Tamb fd rule); [| discriminate]. cbn in H. injection H as <- <-.
    split; [reflexivity | discriminate].
  - cbn in H. injection H as <- <-. split; [reflexivity |]. reflexivity.
Qed.
