(** Lemmas: the limits used by the value checks. *)
From Coq Require Import Lqa.
From Verif Require Import UpdateModel UpdateSpec UpdateProofs.
Open Scope nat_scope.
Open Scope list_scope.

Lemma mass_nearest N X c s : (m_lo N <= m_hi N)%Q -> x_m X (k_m c) = true ->
  nearest (m_lo N) (m_hi N) (v_m s (k_m c)) (v_m (check_mass_flow N X c s) (k_m c)).
Proof.
  intros L E. unfold check_mass_flow. rewrite E, !Bool.andb_true_r. unfold nearest.
  qcase (qle (v_m s (k_m c)) (m_lo N)); [|qcase (qle (m_hi N) (v_m s (k_m c)))]; cbn [set_m v_m]; rewrite ?nupd_eq;
    (split; [intros; lra|split; intros; lra]).
Qed.

Lemma connection_m N X c s s' : (m_lo N <= m_hi N)%Q -> x_m X (k_m c) = true -> check_connection_properties N X c s = (s', None) ->
  nearest (m_lo N) (m_hi N) (v_m s (k_m c)) (v_m s' (k_m c)).
Proof.
  intros L E H. unfold check_connection_properties in H.
  match type of H with andthen ?r _ = _ => destruct r as [s1 [e|]] eqn:R end; cbn [andthen] in H; [discriminate|]. inversion H; subst; clear H.
  assert (Z : v_m s1 = v_m s).
  { destruct (single_fluid _) as [fl|].
    - destruct (dget fl (k_wrap c)) as [w|]; [|discriminate]. pose proof (sm_pure N X w c s) as K. rewrite R in K. apply K.
    - destruct (_ && _)%bool; [|now inversion R]. pose proof (sm_mixture N X c s) as K. rewrite R in K. apply K. }
  rewrite <- Z. now apply mass_nearest.
Qed.

Lemma connection_mix N X c s s' : (p_lo N <= p_hi N)%Q -> (h_lo N <= h_hi N)%Q -> iter N < 4 -> k_good c = false ->
  single_fluid (v_fd s (k_id c)) = None -> check_connection_properties N X c s = (s', None) ->
  (x_p X (k_id c) = true -> nearest (p_lo N) (p_hi N) (v_p s (k_id c)) (v_p s' (k_id c))) /\
  (x_h X (k_id c) = true -> k_T c = false -> nearest (h_lo N) (h_hi N) (v_h s (k_id c)) (v_h s' (k_id c))).
Proof.
  intros L1 L2 It G SF H. unfold check_connection_properties in H. rewrite SF, G in H.
  assert (B : (Nat.ltb (iter N) 4 && negb false)%bool = true) by (apply Nat.ltb_lt in It; rewrite It; reflexivity). rewrite B in H.
  destruct (check_mixture N X c s) as [s1 [e|]] eqn:R; cbn [andthen] in H; [discriminate|]. inversion H; subst; clear H.
  assert (Zp : v_p (check_mass_flow N X c s1) = v_p s1 /\ v_h (check_mass_flow N X c s1) = v_h s1).
  { unfold check_mass_flow. repeat match goal with |- context [if ?b then _ else _] => destruct b end; split; reflexivity. }
  destruct Zp as (-> & ->). unfold check_mixture in R. cbv zeta in R.
  set (sp := if x_p X (k_id c) then _ else s) in R.
  assert (P : (x_p X (k_id c) = true -> nearest (p_lo N) (p_hi N) (v_p s (k_id c)) (v_p sp (k_id c))) /\ v_h sp = v_h s).
  { unfold sp. destruct (x_p X (k_id c)); [|split; [discriminate|reflexivity]]. split.
    - intros _. unfold nearest. qcase (qle (v_p s (k_id c)) (p_lo N)); [|qcase (qle (p_hi N) (v_p s (k_id c)))]; cbn [set_p v_p]; rewrite ?nupd_eq;
        (split; [intros; lra|split; intros; lra]).
    - destruct (qle (v_p s (k_id c)) (p_lo N)); [reflexivity|]. destruct (qle _ _); reflexivity. }
  destruct P as (P1 & P2). clearbody sp. destruct (x_h X (k_id c)); [|inversion R; subst; split; [exact P1|discriminate]].
  set (sh := if qlt (v_h sp (k_id c)) (h_lo N) then _ else _) in R.
  assert (Q : nearest (h_lo N) (h_hi N) (v_h s (k_id c)) (v_h sh (k_id c)) /\ v_p sh = v_p sp).
  { unfold sh. rewrite P2. split.
    - unfold nearest. qcase (qlt (v_h s (k_id c)) (h_lo N)); [|qcase (qlt (h_hi N) (v_h s (k_id c)))]; cbn [set_h v_h]; rewrite ?nupd_eq, ?P2;
        (split; [intros; lra|split; intros; lra]).
    - repeat match goal with |- context [if ?b then _ else _] => destruct b end; reflexivity. }
  destruct Q as (Q1 & Q2). clearbody sh. destruct (k_T c).
  - assert (Z : v_p s1 = v_p sh).
    { unfold check_temperature_bounds in R. destruct (rmapM _ (k_wrap c)) as [ws|e]; [|discriminate].
      destruct (fold_right _ [] ws) as [|w l]; [discriminate|].
      destruct (k_hmix c _ _ _) as [hmin|e]; [|discriminate]. destruct (k_hmix c _ _ _) as [hmax|e]; [|discriminate].
      cbv zeta in R. inversion R. destruct (qlt (v_h sh (k_id c)) hmin); destruct (qlt _ _); reflexivity. }
    split; [intros E; rewrite Z, Q2; auto|discriminate].
  - inversion R; subst. split; [intros E; rewrite Q2; auto|auto].
Qed.

Lemma hmin_spec w p h : lowest w p h -> hmin_of w p = Ok h.
Proof. unfold lowest, hmin_of. intros [->|(-> & ->)]; reflexivity. Qed.


Lemma hmax_highest w p h h' : hmax_of w p = Ok h' -> highest w p h -> h' = h.
Proof.
  unfold hmax_of, highest. intros H (n & A & B). revert H A B. generalize (hmax_fuel w), (w_Tmax w). intros fuel. revert n.
  induction fuel as [|fuel IH]; intros n T H A B; cbn [hmax_loop] in H; [discriminate|].
  destruct n as [|n].
  - cbn [reduced] in A. rewrite A in H. congruence.
  - pose proof (B 0 ltac:(lia)) as B0. cbn [reduced] in B0. rewrite B0 in H. cbv zeta in H. destruct (qlt (T * (99 # 100)) (w_Tmin w)); [discriminate|].
    apply (IH n (T * (99 # 100))%Q H); [exact A|]. intros m Hm. apply (B (S m)). lia.
Qed.

Lemma enthalpy_limits w c s s' l u : check_enthalpy_bounds w c s = (s', None) ->
  lowest w (v_p s (k_id c)) l -> highest w (v_p s (k_id c)) u ->
  (0 <= u)%Q -> (l * (10001 # 10000) <= u)%Q -> (l * (9999 # 10000) <= u)%Q -> (l <= u * (9999 # 10000))%Q ->
  between l (v_h s' (k_id c)) u /\ ((l <= v_h s (k_id c))%Q -> (v_h s (k_id c) <= u)%Q -> v_h s' (k_id c) = v_h s (k_id c)).
Proof.
  intros H A B C1 C2 C3 C4. apply hmin_spec in A. unfold check_enthalpy_bounds in H. rewrite A in H. cbv zeta in H.
  qcase (qlt (v_h s (k_id c)) l).
  - inversion H; subst; clear H. cbn [set_h v_h]. rewrite nupd_eq. split; [|intros; lra].
    unfold between. qcase (qlt l 0); split; lra.
  - destruct (hmax_of w (v_p s (k_id c))) as [u'|] eqn:D; [|discriminate]. apply hmax_highest with (h := u) in D; [|exact B]. subst u'.
    qcase (qlt u (v_h s (k_id c))); inversion H; subst; clear H.
    + cbn [set_h v_h]. rewrite nupd_eq. split; [unfold between; split; lra|intros; lra].
    + split; [unfold between; split; lra|auto].
Qed.

(* ---- temperature of mixtures ---- *)

Lemma qmax_list_spec l : forall x, In (qmax_list x l) (x :: l) /\ forall y, In y (x :: l) -> (y <= qmax_list x l)%Q.
Proof.
  induction l as [|z l IH]; intros x; [cbn; split; [auto|intros y [->|[]]; lra]|].
  cbn [qmax_list]. qcase (qlt x z).
  - destruct (IH z) as [A B]. split; [destruct A; [right; left; auto|right; right; auto]|].
    intros y [->|[->|Y]]; [pose proof (B z (or_introl eq_refl)); lra|apply B; left; auto|apply B; right; auto].
  - destruct (IH x) as [A B]. split; [destruct A; [left; auto|right; right; auto]|].
    intros y [->|[->|Y]]; [apply B; left; auto|pose proof (B x (or_introl eq_refl)); lra|apply B; right; auto].
Qed.

Lemma qmin_list_spec l : forall x, In (qmin_list x l) (x :: l) /\ forall y, In y (x :: l) -> (qmin_list x l <= y)%Q.
Proof.
  induction l as [|z l IH]; intros x; [cbn; split; [auto|intros y [->|[]]; lra]|].
  cbn [qmin_list]. qcase (qlt z x).
  - destruct (IH z) as [A B]. split; [destruct A; [right; left; auto|right; right; auto]|].
    intros y [->|[->|Y]]; [pose proof (B z (or_introl eq_refl)); lra|apply B; left; auto|apply B; right; auto].
  - destruct (IH x) as [A B]. split; [destruct A; [left; auto|right; right; auto]|].
    intros y [->|[->|Y]]; [apply B; left; auto|pose proof (B x (or_introl eq_refl)); lra|apply B; right; auto].
Qed.

(** The wrappers selected are those of the fluids that count. *)
Lemma selected (fl : dict Q) (ws : dict wrapper) : forall os,
  rmapM (fun fw => match dget (fst fw) fl with None => Err KeyError | Some q => Ok (if qlt ERR q then Some (snd fw) else None) end) ws = Ok os ->
  forall w, In w (fold_right (fun o l => match o with Some w => w :: l | None => l end) [] os) <->
    exists f q, In (f, w) ws /\ dget f fl = Some q /\ (ERR < q)%Q.
Proof.
  induction ws as [|[g v] ws IH]; intros os H w.
  - inversion H; subst. cbn. split; [intros []|intros (g1 & q & [] & _)].
  - cbn [rmapM fst snd] in H. destruct (dget g fl) as [q|] eqn:D; [|discriminate H]. cbn [rbind] in H.
    destruct (rmapM _ ws) as [os'|] eqn:R; [|discriminate H]. cbn in H. inversion H; subst; clear H. specialize (IH _ eq_refl w). cbn [fold_right].
    qcase (qlt ERR q).
    + cbn [In]. rewrite IH. split.
      * intros [->|(g1 & q' & A & B & C)]; [exists g, q; repeat split; auto|exists g1, q'; auto].
      * intros (g1 & q' & [A|A] & B & C); [left; congruence|right; eauto].
    + cbn [In]. rewrite IH. split; [intros (f & q1 & A & B & C); exists f, q1; auto|].
      intros (f & q1 & [A|A] & B & C); [|eauto]. inversion A; subst. rewrite D in B. inversion B; subst. lra.
Qed.

Lemma temperature_range c s s' : check_temperature_bounds c s = (s', None) ->
  exists Tl Tu l u, T_lower c s Tl /\ T_upper c s Tu /\
    k_hmix c (v_p s (k_id c)) (Tl * (101 # 100)) (v_fd s (k_id c)) = Ok l /\ k_hmix c (v_p s (k_id c)) (Tu * (99 # 100)) (v_fd s (k_id c)) = Ok u /\
    ((l <= u)%Q -> nearest l u (v_h s (k_id c)) (v_h s' (k_id c))).
Proof.
  unfold check_temperature_bounds. destruct (rmapM _ (k_wrap c)) as [os|e] eqn:R; [|discriminate].
  pose proof (selected _ _ _ R) as S. destruct (fold_right _ [] os) as [|w l] eqn:F; [discriminate|].
  destruct (qmax_list_spec (map w_Tmin l) (w_Tmin w)) as [M1 M2]. destruct (qmin_list_spec (map w_Tmax l) (w_Tmax w)) as [N1 N2].
  set (Tl := qmax_list _ _) in *. set (Tu := qmin_list _ _) in *. cbv zeta.
  destruct (k_hmix c _ (Tl * _) _) as [lo|e] eqn:L; [|discriminate]. destruct (k_hmix c _ (Tu * _) _) as [hi|e] eqn:U; [|discriminate].
  intros H; inversion H; subst; clear H. exists Tl, Tu, lo, hi.
  change (w_Tmin w :: map w_Tmin l) with (map w_Tmin (w :: l)) in M1, M2. change (w_Tmax w :: map w_Tmax l) with (map w_Tmax (w :: l)) in N1, N2.
  split; [|split; [|split; [exact L|split; [exact U|]]]].
  - split.
    + apply in_map_iff in M1. destruct M1 as (v & A & B). exists v. split; [apply S; exact B|exact A].
    + intros v V. apply M2. apply in_map. apply S. exact V.
  - split.
    + apply in_map_iff in N1. destruct N1 as (v & A & B). exists v. split; [apply S; exact B|exact A].
    + intros v V. apply N2. apply in_map. apply S. exact V.
  - intros LU. unfold nearest.
    qcase (qlt (v_h s (k_id c)) lo); match goal with |- context [qlt ?a ?b] => qcase (qlt a b) end; cbn [set_h v_h] in *; rewrite ?nupd_eq in *;
      (split; [intros; lra|split; intros; lra]).
Qed.

Lemma temperature_nothing c s : (forall f w, In (f, w) (k_wrap c) -> dget f (v_f s (k_fl c)) <> None) -> (forall w, ~ counts c s w) ->
  check_temperature_bounds c s = (s, Some ValueError).
Proof.
  intros K N. unfold check_temperature_bounds. destruct (rmapM _ (k_wrap c)) as [os|e] eqn:R.
  - pose proof (selected _ _ _ R) as S. destruct (fold_right _ [] os) as [|w l]; [reflexivity|]. destruct (N w). apply S. left; reflexivity.
  - exfalso. revert K R. clear. generalize (k_wrap c). induction d as [|[g v] d IH]; intros K R; [discriminate|]. cbn [rmapM fst snd] in R.
    destruct (dget g (v_f s (k_fl c))) as [q|] eqn:D; [|apply (K g v); [left|]; auto]. cbn [rbind] in R.
    destruct (rmapM _ d) as [os|e'] eqn:R'; [discriminate R|]. apply IH; [intros; eapply K; right; eauto|]. cbn in R. inversion R. reflexivity.
Qed.
