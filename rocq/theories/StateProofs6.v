(** Lemmas: reported values. *)
From Coq Require Import QArith Qabs Lqa.
From Verif Require Import Base UnitsModel UnitsSpec UnitsProofs StateModel StateSpec StateProofs StateProofs2 StateProofs3 StateProofs4 StateProofs5.
Open Scope string_scope.
Open Scope list_scope.

Lemma pure_values c c' p h : pure_results c = Ok c' -> SI c "p" = Some p -> SI c "h" = Some h ->
  result_of (f_phase (n_fluid c) p h) (n_phase c') /\
  forall Ts, f_Tsat (n_fluid c) p = Ok Ts ->
    (isset c "x" = false -> result_of (f_Qph (n_fluid c) p h) (SI c' "x")) /\
    (isset c "Td_bp" = false -> exists T, f_Tph (n_fluid c) p h = Ok T /\ SI c' "Td_bp" = Some (T - Ts)%Q) \/ (exists e, f_Tph (n_fluid c) p h = Err e).
Proof.
  unfold pure_results. cbv zeta. intros H P Hh.
  destruct (if isset c "x" then Ok c else _) as [c1|] eqn:E1; cbn [rbind] in H; [|discriminate].
  assert (A : SI c1 "p" = Some p /\ SI c1 "h" = Some h /\ isset c1 "Td_bp" = isset c "Td_bp" /\ (isset c "x" = false -> result_of (f_Qph (n_fluid c) p h) (SI c1 "x"))).
  { destruct (isset c "x"); [inversion E1; subst; repeat split; auto; discriminate|].
    rewrite P, Hh in E1. cbn [call2] in E1. destruct (f_Qph (n_fluid c) p h) as [x|[]]; cbn [catch rmap] in E1; try discriminate; inversion E1; subst; repeat split; auto. }
  destruct A as (A1 & A2 & A3 & A4). rewrite A1, A2 in H. cbn [call2] in H.
  match type of H with rbind ?r _ = _ => destruct r as [c2|] eqn:E2 end; cbn [rbind] in H; [|discriminate].
  assert (B : SI c2 "p" = Some p /\ SI c2 "h" = Some h /\ isset c2 "Td_bp" = isset c "Td_bp" /\ SI c2 "x" = SI c1 "x" /\ result_of (f_phase (n_fluid c) p h) (n_phase c2)).
  { destruct (f_phase (n_fluid c) p h) as [s|[]]; try discriminate; inversion E2; subst; repeat split; auto. }
  destruct B as (B1 & B2 & B3 & B4 & B5). rewrite B3 in H. split.
  - destruct (isset c "Td_bp"); [inversion H; subst; exact B5|].
    destruct (rbind _ _) as [d|[]]; try discriminate; inversion H; subst; exact B5.
  - intros Ts Et. rewrite B1, B2 in H. cbn [call2 call1] in H. rewrite Et in H. cbn [rmap] in H.
    destruct (f_Tph (n_fluid c) p h) as [T|e] eqn:ET; [left|right; eauto]. cbn [rbind] in H.
    destruct (isset c "Td_bp").
    + inversion H; subst. split; [intros X; rewrite B4; auto|discriminate].
    + inversion H; subst. split; [intros X|intros _; exists T; auto].
      change (SI (upd "Td_bp" (with_SI (Some (T - Ts)%Q)) c2) "x") with (SI c2 "x"). rewrite B4; auto.
Qed.

Lemma Qle_bool_false x y : Qle_bool x y = false -> ~ x <= y.
Proof. intros H L. apply Qle_bool_iff in L. congruence. Qed.

Lemma mixture_ok_spec c T p h b : mixture_ok c T = Ok b -> SI c "p" = Some p -> SI c "h" = Some h ->
  exists hT, f_hpT (n_fluid c) p T = Ok hT /\ (b = true <-> close hT h).
Proof.
  unfold mixture_ok. intros H P Hh. rewrite P, Hh in H. cbn [call2] in H. destruct (f_hpT (n_fluid c) p T) as [hT|]; cbn [rbind] in H; [|discriminate].
  exists hT. split; [reflexivity|]. unfold close. destruct (Qle_bool (Qabs (hT - h)) (1 # 1000)) eqn:E.
  - inversion H; subst. apply Qle_bool_iff in E. tauto.
  - apply Qle_bool_false in E. destruct (Qeq_bool h 0) eqn:Z; [discriminate|]. apply Qeq_bool_neq in Z.
    destruct (Qle_bool (Qabs ((hT - h) / h)) (1 # 1000)) eqn:F; inversion H; subst.
    + apply Qle_bool_iff in F. tauto.
    + apply Qle_bool_false in F. split; [discriminate|]. intros [X|(_ & X)]; contradiction.
Qed.

Lemma results_values c c' : results c = Ok c' -> exists p h T,
  SI c' "p" = Some p /\ SI c' "h" = Some h /\ f_Tph (n_fluid c') p h = Ok T /\ n_fluid c' = n_fluid c /\
  (f_mixture (n_fluid c') = true -> exists hT, f_hpT (n_fluid c') p T = Ok hT /\
     ((close hT h /\ derived c' p h T) \/ (~ close hT h /\ forall k, In k ["T"; "vol"; "v"; "s"] -> SI c' k = None))) /\
  (f_mixture (n_fluid c') = false -> derived c' p h T /\ result_of (f_phase (n_fluid c') p h) (n_phase c') /\
     forall Ts, f_Tsat (n_fluid c') p = Ok Ts ->
       (isset c' "x" = false -> result_of (f_Qph (n_fluid c') p h) (SI c' "x")) /\ (isset c' "Td_bp" = false -> SI c' "Td_bp" = Some (T - Ts)%Q)).
Proof.
  intros H. destruct (results_spec _ _ H) as ((FR & _ & ST & KP) & _).
  assert (FL : n_fluid c' = n_fluid c) by (apply FR). rewrite FL.
  pose proof (KP "p" ltac:(cbn; auto)) as KPp. pose proof (KP "h" ltac:(cbn; auto)) as KPh. pose proof (KP "m" ltac:(cbn; auto)) as KPm.
  unfold results in H. cbv zeta in H. change (n_fluid (with_good c)) with (n_fluid c) in H.
  change (SI (with_good c) "p") with (SI c "p") in H. change (SI (with_good c) "h") with (SI c "h") in H.
  destruct (SI c "p") as [p|] eqn:P; [|discriminate]. destruct (SI c "h") as [h|] eqn:Hh; [|discriminate]. cbn [call2] in H.
  destruct (f_Tph (n_fluid c) p h) as [T|] eqn:ET; cbn [rbind] in H; [|discriminate].
  exists p, h, T. split; [exact KPp|]. split; [exact KPh|]. split; [exact ET|]. split; [reflexivity|].
  set (c1 := upd "T" (with_SI (Some T)) (with_good c)) in *.
  assert (R1 : SI c1 "T" = Some T /\ SI c1 "p" = Some p /\ SI c1 "h" = Some h /\ SI c1 "m" = SI c "m" /\ n_fluid c1 = n_fluid c /\ forall k, isset c1 k = isset c k).
  { repeat split; auto. intros k. unfold c1. conn_tac. destruct (String.eqb k "T"); auto. }
  destruct R1 as (T1 & P1 & H1 & M1 & F1 & S1). clearbody c1.
  match type of H with rbind ?r _ = _ => destruct r as [[c2 ok]|] eqn:E2 end; cbn [rbind] in H; [|discriminate].
  assert (R2 : SI c2 "T" = Some T /\ SI c2 "p" = Some p /\ SI c2 "h" = Some h /\ SI c2 "m" = SI c "m" /\ n_fluid c2 = n_fluid c /\
    (f_mixture (n_fluid c) = true -> exists hT, f_hpT (n_fluid c) p T = Ok hT /\ (ok = true <-> close hT h)) /\
    (f_mixture (n_fluid c) = false -> ok = true /\ pure_results c1 = Ok c2)).
  { destruct (f_mixture (n_fluid c)).
    - destruct (mixture_ok c1 T) as [b|] eqn:EM; cbn [rmap] in E2; [|discriminate]. inversion E2; subst. rewrite <- F1.
      split; [auto|]. split; [auto|]. split; [auto|]. split; [auto|]. split; [auto|]. split; [|discriminate]. intros _. eapply mixture_ok_spec; eauto.
    - destruct (pure_results c1) as [c3|] eqn:E3; cbn [rmap] in E2; [|discriminate]. inversion E2; subst.
      destruct (pure_keep _ _ E3) as (X & Y). repeat split; try (rewrite Y by notin; auto); try discriminate; auto.
      destruct X as (X & _). rewrite <- F1. apply X. }
  destruct R2 as (T2 & P2 & H2 & M2 & F2 & MX & PU).
  match type of H with rbind ?r _ = _ => destruct r as [c3|] eqn:E3 end; cbn [rbind] in H; [|discriminate].
  destruct (each _ fpd_keys c3) as [c4|] eqn:E4; cbn [rmap] in H; [|discriminate].
  destruct (report_each fpd_keys c3 c4 fpd_nodup E4) as (_ & B & _).
  destruct (val0_fold ["m"; "p"; "h"] c4) as (_ & D').
  assert (PH : n_phase (fold_left (fun c k => upd k (fun x => with_val0 (k_val x) x) c) ["m"; "p"; "h"] c4) = n_phase c4) by reflexivity.
  assert (PH2 : n_phase c4 = n_phase c3).
  { revert E4. apply (each_inv (fun c c' => n_phase c' = n_phase c)); [auto|congruence|].
    intros k x y _ E. destruct (from_SI _ _ _); cbn in E; [|discriminate]. inversion E; auto. }
  set (c5 := fold_left _ ["m"; "p"; "h"] c4) in *. clearbody c5. inversion H; subst c5; clear H.
  assert (S3 : forall k, SI c' k = SI c3 k) by (intros k; destruct (D' k) as (_ & X); rewrite X, B; auto).
  assert (OK : ok = true -> derived c' p h T /\ SI c3 "x" = SI c2 "x" /\ SI c3 "Td_bp" = SI c2 "Td_bp" /\ n_phase c3 = n_phase c2).
  { intros ->. rewrite P2, H2 in E3. cbn [call2] in E3. destruct (f_vph (n_fluid c) p h) as [v|] eqn:EV; cbn [rbind] in E3; [|discriminate].
    destruct (f_sph (n_fluid c) p h) as [s|] eqn:ES; cbn [rmap] in E3; [|discriminate]. inversion E3; subst c3; clear E3.
    split; [|repeat split; reflexivity]. unfold derived. fold (SI c' "T") (SI c' "vol") (SI c' "s") (SI c' "v") (SI c' "m"). rewrite !S3, FL.
    split; [exact T2|]. exists v, s. split; [exact EV|]. split; [exact ES|]. split; [reflexivity|]. split; [reflexivity|].
    conn_tac. cbn -[nlift]. fold (SI c2 "m"). destruct (k_SI (n_c c2 "m")); reflexivity. }
  split.
  - intros Mx. destruct (MX Mx) as (hT & X & Y). exists hT. split; [exact X|]. destruct ok.
    + left. split; [now apply Y|]. now apply OK.
    + right. split; [intros Z; apply Y in Z; discriminate|]. intros k K. rewrite S3. inversion E3.
      destruct (nan_fold ["T"; "vol"; "v"; "s"] c2) as (_ & Z & _).
      { intros j J. cbn in J. repeat (destruct J as [<-|J]; [notin|]). contradiction. }
      apply Z. exact K.
  - intros Mx. destruct (PU Mx) as (-> & Pr). destruct (OK eq_refl) as (D & X1 & X2 & X3).
    destruct (pure_values _ _ _ _ Pr P1 H1) as (V1 & V2). rewrite F1 in V1, V2.
    split; [exact D|]. rewrite PH, PH2, X3, !S3, X1, X2. split; [exact V1|]. intros Ts Et.
    destruct (V2 Ts Et) as [(Y1 & Y2)|(e & Y)]; [|congruence].
    unfold isset in *. destruct (ST "x") as (Z1 & _). destruct (ST "Td_bp") as (Z2 & _). rewrite Z1, Z2.
    rewrite !S1 in *. split; [exact Y1|]. intros W. destruct (Y2 W) as (T' & Y3 & Y4). congruence.
Qed.

Lemma reported units a file sol net net' l c : labelled net -> solve units a file sol net = Ok net' -> dget l net = Some c ->
  exists c' p h T, dget l net' = Some c' /\ k_SI (n_c c' "p") = Some p /\ k_SI (n_c c' "h") = Some h /\ f_Tph (n_fluid c') p h = Ok T /\ n_fluid c' = n_fluid c /\
  (f_mixture (n_fluid c') = true -> exists hT, f_hpT (n_fluid c') p T = Ok hT /\
     ((close hT h /\ derived c' p h T) \/ (~ close hT h /\ forall k, In k ["T"; "vol"; "v"; "s"] -> k_SI (n_c c' k) = None))) /\
  (f_mixture (n_fluid c') = false -> derived c' p h T /\ result_of (f_phase (n_fluid c') p h) (n_phase c') /\
     forall Ts, f_Tsat (n_fluid c') p = Ok Ts ->
       (k_set (n_c c' "x") = false -> result_of (f_Qph (n_fluid c') p h) (k_SI (n_c c' "x"))) /\
       (k_set (n_c c' "Td_bp") = false -> k_SI (n_c c' "Td_bp") = Some (T - Ts)%Q)) /\
  forall k, In k fpd_keys -> file = None \/ ~ In k ["m"; "p"; "h"] -> shown units c' k.
Proof.
  intros L H D. pose proof L as (ND & NO).
  destruct (solve_at _ _ _ _ _ _ _ _ ND H D) as (c1 & c2 & c3 & seen & c4 & c' & A & B & C & E & R & D').
  destruct (results_values _ _ R) as (p & h & T & P & Hh & ET & _ & MX & PU).
  exists c', p, h, T. split; [exact D'|]. split; [exact P|]. split; [exact Hh|]. split; [exact ET|]. split.
  - specialize (NO l c D). destruct (set_properties_frame _ _ _ A) as (F1 & _).
    assert (ND1 : NoDup (keys (n_off c1))) by (destruct F1 as (_ & X & _); congruence).
    destruct (presolve_spec _ _ B ND1) as (F2 & _).
    destruct (results_spec _ _ R) as ((F4 & _) & _). destruct (solved_kept sol l c4) as ((F5 & _) & _). destruct (second_pass_kept _ _ _ E) as ((F6 & _) & _).
    destruct (first_pass_kept _ _ _ _ _ _ C) as (F7 & _).
    destruct F1 as (a1 & _), F2 as (a2 & _), F4 as (a4 & _), F5 as (a5 & _), F6 as (a6 & _), F7 as (a7 & _). congruence.
  - split; [exact MX|]. split; [exact PU|]. intros k K N.
    destruct (unit_final _ _ _ _ _ _ _ _ k L H D N K) as (c4' & c'' & D'' & R' & U1 & U2). rewrite D' in D''. inversion D''; subst c''.
    destruct (results_spec _ _ R') as (_ & _ & V). specialize (V k K). rewrite U1 in V. unfold shown. fold (SI c' k).
    destruct (SI c' k) as [s|]; cbn [from_SI] in V.
    + destruct (convert_from_SI k s (entry_unit units k)) as [q|]; cbn in V; [|discriminate]. inversion V. eauto.
    + destruct (convert_from_SI k 0 (entry_unit units k)) as [q|]; cbn in V; [|discriminate]. inversion V. auto.
Qed.
