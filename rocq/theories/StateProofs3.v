(** Lemmas: specified states survive from the specification to the report. *)
From Coq Require Import QArith Lqa.
From Verif Require Import Base UnitsModel UnitsSpec UnitsProofs StateModel StateSpec StateProofs StateProofs2.
Open Scope string_scope.
Open Scope list_scope.

Lemma dget_map (g : string -> conn -> conn) l d :
  dget l (map (fun e => (fst e, g (fst e) (snd e))) d) = option_map (g l) (dget l d).
Proof.
  induction d as [|[k v] d IH]; cbn; [reflexivity|]. destruct (String.eqb l k) eqn:E; [|exact IH].
  apply String.eqb_eq in E; subst. reflexivity.
Qed.
Lemma keys_map (g : string -> conn -> conn) (d : dict conn) : keys (map (fun e => (fst e, g (fst e) (snd e))) d) = keys d.
Proof. unfold keys. rewrite map_map. reflexivity. Qed.

Lemma initialise_at units a file net net' l c : NoDup (keys net) -> initialise units a file net = Ok net' -> dget l net = Some c ->
  exists c1 c2 c3 seen c4, set_properties units c = Ok c1 /\ presolve c1 = Ok c2 /\ first_pass units a file l c2 = Ok c3 /\
    second_pass seen c3 = Ok c4 /\ dget l net' = Some c4 /\ keys net' = keys net.
Proof.
  unfold initialise. intros ND H D.
  destruct (over _ net) as [n1|] eqn:E1; cbn [rbind] in H; [|discriminate].
  destruct (over _ n1) as [n2|] eqn:E2; cbn [rbind] in H; [|discriminate].
  destruct (over _ n2) as [n3|] eqn:E3; cbn [rbind] in H; [|discriminate].
  pose proof (over_keys _ _ _ E1) as K1. pose proof (over_keys _ _ _ E2) as K2. pose proof (over_keys _ _ _ E3) as K3. pose proof (over_keys _ _ _ H) as K4.
  destruct (over_at _ _ _ _ _ ND E1 D) as (s1 & c1 & F1 & D1).
  destruct (over_at _ _ _ l c1 ltac:(rewrite K1; exact ND) E2 D1) as (s2 & c2 & F2 & D2).
  destruct (over_at _ _ _ l c2 ltac:(rewrite K2, K1; exact ND) E3 D2) as (s3 & c3 & F3 & D3).
  destruct (over_at _ _ _ l c3 ltac:(rewrite K3, K2, K1; exact ND) H D3) as (s4 & c4 & F4 & D4).
  exists c1, c2, c3, s4, c4. repeat split; auto. congruence.
Qed.

Lemma solve_at units a file sol net net' l c : NoDup (keys net) -> solve units a file sol net = Ok net' -> dget l net = Some c ->
  exists c1 c2 c3 seen c4 c', set_properties units c = Ok c1 /\ presolve c1 = Ok c2 /\ first_pass units a file l c2 = Ok c3 /\
    second_pass seen c3 = Ok c4 /\ results (solved sol l c4) = Ok c' /\ dget l net' = Some c'.
Proof.
  unfold solve. intros ND H D. destruct (initialise units a file net) as [n|] eqn:E; cbn [rbind] in H; [|discriminate].
  destruct (initialise_at _ _ _ _ _ _ _ ND E D) as (c1 & c2 & c3 & seen & c4 & A & B & C & F & G & K).
  assert (NK : NoDup (keys (map (fun e => (fst e, solved sol (fst e) (snd e))) n))) by (rewrite (keys_map (solved sol)), K; exact ND).
  assert (DK : dget l (map (fun e => (fst e, solved sol (fst e) (snd e))) n) = Some (solved sol l c4)) by (rewrite (dget_map (solved sol)), G; reflexivity).
  destruct (over_at _ _ _ _ _ NK H DK) as (s & c' & R & D').
  exists c1, c2, c3, seen, c4, c'. repeat split; auto.
Qed.

(** What holds of a connection from the presolving on. *)
Lemma tail_kept units a file l sol seen c2 c3 c4 c' : first_pass units a file l c2 = Ok c3 -> second_pass seen c3 = Ok c4 ->
  results (solved sol l c4) = Ok c' ->
  n_fluid c' = n_fluid c2 /\ n_eqs c' = n_eqs c2 /\
  (forall k, k_set (n_c c' k) = k_set (n_c c2 k) /\ k_var (n_c c' k) = k_var (n_c c2 k)) /\
  (forall k, In k ["m"; "p"; "h"] -> loose c2 k \/ SI c' k = SI c2 k).
Proof.
  intros A B C.
  pose proof (first_pass_kept _ _ _ _ _ _ A) as KA. destruct (second_pass_kept _ _ _ B) as (KB & _).
  destruct (solved_kept sol l c4) as (KS & _ & _). destruct (results_spec _ _ C) as (KR & _).
  assert (K : kept loose c2 (solved sol l c4)).
  { eapply kept_trans; [apply loose_stable| |eapply kept_trans; [apply loose_stable|exact KB|]].
    - eapply kept_weaken; [|exact KA]. intros k U. left. exact U.
    - eapply kept_weaken; [|exact KS]. intros k U. left. exact U. }
  destruct K as (K1 & K2 & K3 & K4 & K5). destruct KR as (R1 & R2 & R3 & R4).
  split; [destruct K1 as (X & _); destruct R1 as (Y & _); congruence|]. split; [congruence|]. split.
  - intros k. destruct (K4 k) as (X & Y & _). destruct (R3 k) as (X' & Y' & _). split; congruence.
  - intros k I. destruct (K5 k) as [X|X]; [auto|]. right. rewrite R4; auto.
Qed.

Lemma equations_own c k : isset c k = true -> In k ["T"; "v"; "x"; "Td_bp"] -> smem k (n_solved c) = false -> In k (equations c).
Proof.
  intros S I N. unfold equations. apply in_or_app. left. apply filter_In. split; [exact I|]. now rewrite S, N.
Qed.

Lemma wanted_wants units c k v : wanted units c k v -> wants c k.
Proof.
  unfold wanted, wants. destruct (dget k (n_off c)) eqn:D; [|intros (H & _); auto].
  intros _. right. apply dget_In in D. apply (in_map fst) in D. exact D.
Qed.

Lemma wanted_SI units c k v c1 c2 : In k fpd_keys -> ~ In k ["p"; "h"] \/ wants c k -> set_properties units c = Ok c1 -> presolve c1 = Ok c2 -> NoDup (keys (n_off c)) ->
  wanted units c k v -> SI c2 k = Some v.
Proof.
  intros I N A B ND W. destruct (set_properties_frame _ _ _ A) as (F1 & _ & N1 & P1).
  assert (ND1 : NoDup (keys (n_off c1))) by (destruct F1 as (_ & X & _); congruence).
  destruct (presolve_spec _ _ B ND1) as (F2 & _ & _ & W2 & _ & S2 & _).
  assert (S : SI c2 k = match dget k (n_off c1) with Some w => w | None => SI c1 k end).
  { destruct (S2 k) as [X|(X1 & X2 & _)]; [exact X|]. destruct N as [N|N]; [contradiction|].
    exfalso. apply Bool.not_true_iff_false in X2. apply X2, W2. unfold wants in *. destruct F1 as (_ & Y & _). rewrite Y.
    destruct (N1 k) as (Z & _). now rewrite Z. }
  rewrite S. destruct F1 as (_ & X & _). rewrite X. unfold wanted in W. destruct (dget k (n_off c)) as [w|]; [exact W|].
  destruct W as (W1 & u & W3 & W4). destruct (P1 k I) as (_ & Q & _). unfold isset in Q. specialize (Q W1).
  rewrite W3 in Q. unfold to_SI in Q. unfold entry_unit in W4. unfold unit_of in Q.
  assert (E : (if String.eqb k "Td_bp" then units "T" else units k) = units (if String.eqb k "Td_bp" then "T" else k)) by now destruct (String.eqb k "Td_bp").
  rewrite <- E, W4 in Q. cbn [rmap] in Q. inversion Q. reflexivity.
Qed.

Lemma wants_presolved units c c1 c2 k : set_properties units c = Ok c1 -> presolve c1 = Ok c2 -> NoDup (keys (n_off c)) ->
  (isset c2 k = true <-> wants c k) /\ r_set (n_r c2 k) = r_set (n_r c k) /\ n_fluid c2 = n_fluid c.
Proof.
  intros A B ND. destruct (set_properties_frame _ _ _ A) as (F1 & _ & N1 & P1).
  assert (ND1 : NoDup (keys (n_off c1))) by (destruct F1 as (_ & X & _); congruence).
  destruct (presolve_spec _ _ B ND1) as (F2 & _ & _ & W2 & _).
  destruct F1 as (G1 & G2 & G3 & G4 & G5), F2 as (H1 & H2 & H3 & H4 & H5).
  split; [|split; congruence]. rewrite W2. unfold wants. rewrite G2. destruct (N1 k) as (Z & _). now rewrite Z.
Qed.

Lemma not_loose units c c1 c2 k : set_properties units c = Ok c1 -> presolve c1 = Ok c2 -> NoDup (keys (n_off c)) ->
  unreferenced c k -> k_var (n_c c2 k) = false -> ~ loose c2 k.
Proof.
  intros A B ND U V [L|(L1 & L2)]; [congruence|].
  destruct (wants_presolved _ _ _ _ k A B ND) as (X & Y & _). destruct U as [U|U]; [congruence|].
  apply X in U. congruence.
Qed.

Lemma spec_accounted units a file sol net net' l c k v : labelled net -> solve units a file sol net = Ok net' -> dget l net = Some c ->
  consistent (n_fluid c) -> unreferenced c "p" -> unreferenced c "h" -> In k ["T"; "x"] -> wanted units c k v ->
  exists c', dget l net' = Some c' /\ accounted c' k v.
Proof.
  intros (ND & NO) H D (L1 & L2) Up Uh I W. specialize (NO l c D).
  destruct (solve_at _ _ _ _ _ _ _ _ ND H D) as (c1 & c2 & c3 & seen & c4 & c' & A & B & C & E & R & D').
  exists c'. split; [exact D'|].
  destruct (tail_kept _ _ _ _ _ _ _ _ _ _ C E R) as (T1 & T2 & T3 & T4).
  destruct (set_properties_frame _ _ _ A) as (F1 & _ & N1 & P1).
  assert (ND1 : NoDup (keys (n_off c1))) by (destruct F1 as (_ & X & _); congruence).
  destruct (presolve_spec _ _ B ND1) as (F2 & _ & _ & W2 & V2 & _ & O2 & Q2 & _).
  assert (FL : n_fluid c2 = n_fluid c) by (destruct F1 as (X & _); destruct F2 as (Y & _); congruence).
  assert (Sk : SI c2 k = Some v).
  { eapply wanted_SI; eauto; [|left].
    - destruct I as [<-|[<-|[]]]; vm_compute; auto 20.
    - destruct I as [<-|[<-|[]]]; notin. }
  assert (Wk : isset c2 k = true) by (apply (wants_presolved _ _ _ _ k A B NO); eapply wanted_wants; eauto).
  unfold accounted. rewrite T2.
  destruct (smem k (n_solved c2)) eqn:M; [right|left; rewrite Q2; apply equations_own; auto; destruct I as [<-|[<-|[]]]; cbn; auto].
  (* presolved *)
  assert (Vp : k_var (n_c c2 "p") = negb (isset c2 "p") && negb (smem "p" (n_solved c2))) by (apply V2; cbn; auto).
  assert (Vh : k_var (n_c c2 "h") = negb (isset c2 "h") && negb (smem "h" (n_solved c2))) by (apply V2; cbn; auto).
  assert (KEEP : k_var (n_c c2 "p") = false -> k_var (n_c c2 "h") = false ->
     (exists p h, SI c2 "p" = Some p /\ SI c2 "h" = Some h /\ has_property (n_fluid c) p h k v) ->
     k_var (n_c c' "p") = false /\ k_var (n_c c' "h") = false /\ satisfied c' k v).
  { intros X1 X2 (p & h & X3 & X4 & X5). destruct (T3 "p") as (_ & Y1). destruct (T3 "h") as (_ & Y2).
    split; [congruence|]. split; [congruence|]. exists p, h. rewrite T1, FL. split; [|split; [|exact X5]].
    - destruct (T4 "p" ltac:(cbn; auto)) as [Y|Y]; [|unfold SI in *; congruence]. exfalso. exact (not_loose _ _ _ _ _ A B NO Up X1 Y).
    - destruct (T4 "h" ltac:(cbn; auto)) as [Y|Y]; [|unfold SI in *; congruence]. exfalso. exact (not_loose _ _ _ _ _ A B NO Uh X2 Y). }
  destruct O2 as [|h Ip Ih IT G1 G2|h Ts Ip Ih IT Id G0 G1 G2|h Ip Ih IT Id Ix G1 G2|p h Ip Ih IT Ix G0 G1 G2 G3].
  - discriminate.
  - destruct I as [<-|[<-|[]]]; [|discriminate].
    rewrite Sk, FL in G1. unfold call2 in G1. destruct (SI c2 "p") as [p|] eqn:Ep; [|discriminate].
    apply KEEP; [rewrite Vp, Ip; reflexivity|rewrite Vh, Ih; reflexivity|].
    exists p, h. split; [reflexivity|]. split; [exact G2|]. split; [intros _; eapply L1; eauto|]. split; intros X; discriminate X.
  - exfalso. destruct I as [<-|[<-|[]]]; discriminate M.
  - destruct I as [<-|[<-|[]]]; [discriminate|].
    rewrite Sk, FL in G1. unfold call2 in G1. destruct (SI c2 "p") as [p|] eqn:Ep; [|discriminate].
    apply KEEP; [rewrite Vp, Ip; reflexivity|rewrite Vh, Ih; reflexivity|].
    exists p, h. split; [reflexivity|]. split; [exact G2|]. split; [intros X; discriminate X|].
    split; [intros _; exists h; split; [exact G1|reflexivity]|intros X; discriminate X].
  - rewrite FL in G0, G1. unfold call1 in G0. unfold call2 in G1.
    apply KEEP; [rewrite Vp, Ip; reflexivity|rewrite Vh, Ih; reflexivity|].
    exists p, h. split; [exact G2|]. split; [exact G3|].
    destruct (SI c2 "T") as [t|] eqn:Et; [|discriminate]. destruct (SI c2 "x") as [x|] eqn:Ex; [|discriminate].
    destruct I as [<-|[<-|[]]].
    + rewrite Et in Sk. inversion Sk; subst t. split; [intros _; eapply L2; eauto|]. split; intros X; discriminate X.
    + rewrite Ex in Sk. inversion Sk; subst x. split; [intros X; discriminate X|].
      split; [intros _; exists h; split; [exact G1|reflexivity]|intros X; discriminate X].
Qed.
