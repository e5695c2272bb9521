(** Lemmas: starting values, solver and results leave specified values alone. *)
From Coq Require Import QArith Lqa.
From Verif Require Import Base UnitsModel UnitsSpec UnitsProofs StateModel StateSpec StateProofs.
Open Scope string_scope.
Open Scope list_scope.

(** Specifications, equations and unknowns are the same; only the SI values of
    properties with [P] and starting values may differ. *)
Definition kept (P : conn -> string -> Prop) (c c' : conn) : Prop :=
  frame c c' /\ n_eqs c' = n_eqs c /\ n_solved c' = n_solved c /\
  (forall k, k_set (n_c c' k) = k_set (n_c c k) /\ k_var (n_c c' k) = k_var (n_c c k) /\ k_val (n_c c' k) = k_val (n_c c k)) /\
  (forall k, P c k \/ SI c' k = SI c k).

Definition stable (P : conn -> string -> Prop) : Prop :=
  forall c c' k, frame c c' -> (forall j, k_set (n_c c' j) = k_set (n_c c j) /\ k_var (n_c c' j) = k_var (n_c c j) /\ k_val (n_c c' j) = k_val (n_c c j)) ->
    P c' k -> P c k.

Lemma kept_refl P c : kept P c c.
Proof. unfold kept. split; [apply frame_refl|]. repeat split; auto. Qed.
Lemma kept_trans P : stable P -> forall a b c, kept P a b -> kept P b c -> kept P a c.
Proof.
  intros St a b c (A1 & A2 & A3 & A4 & A5) (B1 & B2 & B3 & B4 & B5).
  split; [eapply frame_trans; eauto|]. split; [congruence|]. split; [congruence|]. split.
  - intros k. destruct (A4 k) as (X1 & X2 & X3). destruct (B4 k) as (Y1 & Y2 & Y3). repeat split; congruence.
  - intros k. destruct (A5 k) as [X|X]; [auto|]. destruct (B5 k) as [Y|Y]; [left; eapply St; eauto|right; congruence].
Qed.
Lemma kept_weaken (P P' : conn -> string -> Prop) c c' : (forall k, P c k -> P' c k) -> kept P c c' -> kept P' c c'.
Proof. intros W (A1 & A2 & A3 & A4 & A5). repeat split; auto; try apply A1; try apply A4. intros k. destruct (A5 k); auto. Qed.

(** Unknowns. *)
Definition unknown (c : conn) (k : string) : Prop := k_var (n_c c k) = true.
(** Unknowns and properties that a reference initialises. *)
Definition loose (c : conn) (k : string) : Prop :=
  k_var (n_c c k) = true \/ (r_set (n_r c k) = true /\ isset c k = false).
Lemma unknown_stable : stable unknown.
Proof. intros c c' k _ E. unfold unknown. destruct (E k) as (_ & X & _). congruence. Qed.
Lemma loose_stable : stable loose.
Proof.
  intros c c' k (_ & _ & _ & _ & F) E. unfold loose, isset. destruct (E k) as (X & Y & _). rewrite X, Y, F. auto.
Qed.

Ltac upd_kept :=
  unfold kept; split; [conn_tac; repeat split; auto|]; split; [reflexivity|]; split; [reflexivity|]; split.

Lemma upd_SI_kept (P : conn -> string -> Prop) k x c : P c k -> kept P c (upd k (with_SI x) c).
Proof.
  intros H. upd_kept.
  - intros j. conn_tac. destruct (String.eqb j k); auto.
  - intros j. conn_tac. destruct (String.eqb j k) eqn:E; [|auto]. apply String.eqb_eq in E; subst; auto.
Qed.

Lemma from_path_fold w : forall ks c, kept (fun _ _ => False) c
   (fold_left (fun c k => upd k (fun x => with_unit (snd (w k)) (with_val0 (fst (w k)) x)) c) ks c).
Proof.
  induction ks as [|k ks IH]; intros c; cbn [fold_left]; [apply kept_refl|].
  eapply kept_trans; [intros ? ? ? _ _ []| |apply IH]. upd_kept.
  - intros j. conn_tac. destruct (String.eqb j k); auto.
  - intros j. right. conn_tac. destruct (String.eqb j k); auto.
Qed.

Lemma from_path_kept file l c : kept (fun _ _ => False) c (from_path file l c).
Proof.
  unfold from_path. destruct file as [d|]; [|apply kept_refl]. destruct (dget l d) as [w|]; [|apply kept_refl].
  eapply kept_trans; [intros ? ? ? _ _ []|apply (from_path_fold w ["m"; "p"; "h"])|].
  set (c1 := fold_left _ _ c). clearbody c1. upd_kept; intros j; conn_tac; auto.
Qed.

Lemma init_val0_kept units rnd vs vt k x y : init_val0 units rnd vs vt k x = Ok y ->
  k_set y = k_set x /\ k_var y = k_var x /\ k_val y = k_val x /\ k_SI y = k_SI x /\ k_unit y = k_unit x.
Proof.
  unfold init_val0. destruct (k_val0 x); [inversion 1; auto|].
  destruct (String.eqb k "m"); [inversion 1; cbn; auto|].
  cbv zeta. destruct (convert_from_SI _ _ _); cbn [rmap]; [|discriminate]. inversion 1; cbn; auto.
Qed.

Lemma start_value_kept units a l k c c' : start_value units a l k c = Ok c' ->
  kept unknown c c' /\ n_good c' = n_good c /\ (forall j, k_unit (n_c c' j) = k_unit (n_c c j)) /\ (forall j, j <> k -> n_c c' j = n_c c j).
Proof.
  unfold start_value. destruct (k_var (n_c c k)) eqn:V; [|intros H; inversion H; subst; split; [apply kept_refl|auto]].
  destruct (if n_good c then Ok (n_c c k) else init_val0 units (a_rnd a l) (a_src a l k) (a_tgt a l k) k (n_c c k)) as [x|] eqn:I; cbn [rbind]; [|discriminate].
  assert (X : k_set x = k_set (n_c c k) /\ k_var x = k_var (n_c c k) /\ k_val x = k_val (n_c c k) /\ k_SI x = k_SI (n_c c k) /\ k_unit x = k_unit (n_c c k)).
  { destruct (n_good c); [inversion I; auto|]. eapply init_val0_kept; eauto. }
  destruct X as (X1 & X2 & X3 & X4 & X5).
  destruct (to_SI k (k_val0 x) (k_unit x)) as [s|]; cbn [rmap]; [|discriminate]. intros H; inversion H; subst; clear H.
  split; [|split; [reflexivity|split]].
  - upd_kept.
    + intros j. conn_tac. destruct (String.eqb j k) eqn:E; [|auto]. apply String.eqb_eq in E; subst. auto.
    + intros j. unfold unknown. conn_tac. destruct (String.eqb j k) eqn:E; [|auto]. apply String.eqb_eq in E; subst. auto.
  - intros j. conn_tac. destruct (String.eqb j k) eqn:E; [|auto]. apply String.eqb_eq in E; subst. auto.
  - intros j N. conn_tac. apply String.eqb_neq in N. now rewrite N.
Qed.

Lemma first_pass_kept units a file l c c' : first_pass units a file l c = Ok c' -> kept unknown c c'.
Proof.
  unfold first_pass. intros H. eapply kept_trans; [apply unknown_stable|eapply kept_weaken; [|apply (from_path_kept file l)]; intros k []|].
  revert H. apply (each_inv (kept unknown)); [apply kept_refl|apply kept_trans, unknown_stable|].
  intros k x y _ E. apply (start_value_kept _ _ _ _ _ _ E).
Qed.

Lemma first_pass_units units a l c c' : first_pass units a None l c = Ok c' ->
  n_good c' = n_good c /\ forall j, k_unit (n_c c' j) = k_unit (n_c c j).
Proof.
  unfold first_pass. cbn [from_path].
  apply (each_inv (fun c c' => n_good c' = n_good c /\ forall j, k_unit (n_c c' j) = k_unit (n_c c j))); [auto| |].
  - intros x y z (A & B) (C & D). split; congruence.
  - intros k x y _ E. destruct (start_value_kept _ _ _ _ _ _ E) as (_ & A & B & _). auto.
Qed.

(* -- second pass -- *)
(** Units and the flag of good starting values stay. *)
Definition same_units (c c' : conn) : Prop := n_good c' = n_good c /\ forall j, k_unit (n_c c' j) = k_unit (n_c c j) /\ k_val0 (n_c c' j) = k_val0 (n_c c j).
Lemma same_units_refl c : same_units c c. Proof. unfold same_units; auto. Qed.
Lemma same_units_trans a b c : same_units a b -> same_units b c -> same_units a c.
Proof. intros (A & B) (C & D). split; [congruence|]. intros j. destruct (B j), (D j). split; congruence. Qed.
Lemma upd_SI_units k x c : same_units c (upd k (with_SI x) c).
Proof. split; [reflexivity|]. intros j. conn_tac. destruct (String.eqb j k); auto. Qed.

Lemma ref_start_kept net k c : kept loose c (ref_start net k c) /\ same_units c (ref_start net k c).
Proof.
  unfold ref_start. destruct (r_set (n_r c k)) eqn:R; cbn [andb]; [|split; [apply kept_refl|apply same_units_refl]].
  destruct (isset c k) eqn:S; cbn [negb]; [split; [apply kept_refl|apply same_units_refl]|].
  split; [|apply upd_SI_units]. apply upd_SI_kept. right. auto.
Qed.

Lemma refs_kept net ks : forall c, kept loose c (fold_left (fun c k => ref_start net k c) ks c) /\ same_units c (fold_left (fun c k => ref_start net k c) ks c).
Proof.
  induction ks as [|k ks IH]; intros c; cbn [fold_left]; [split; [apply kept_refl|apply same_units_refl]|].
  destruct (IH (ref_start net k c)) as (A & B). destruct (ref_start_kept net k c) as (C & D).
  split; [eapply kept_trans; eauto; apply loose_stable|eapply same_units_trans; eauto].
Qed.

Lemma attempt_kept r c c' : unknown c "h" -> attempt r c (fun h => upd "h" (with_SI (Some h)) c) = Ok c' ->
  kept loose c c' /\ same_units c c'.
Proof.
  intros V. unfold attempt. destruct r as [x|[]]; try discriminate; intros H; inversion H; subst;
    split; try apply kept_refl; try apply same_units_refl; try apply upd_SI_units.
  apply upd_SI_kept. left. exact V.
Qed.

Lemma precalc_kept c c' : precalc c = Ok c' -> kept loose c c' /\ same_units c c'.
Proof.
  unfold precalc. destruct (k_var (n_c c "h")) eqn:V; [|intros H; inversion H; subst; split; [apply kept_refl|apply same_units_refl]].
  cbv zeta. destruct (if isset c "x" then _ else Ok c) as [c1|] eqn:E; cbn [rbind]; [|discriminate]. intros H.
  assert (A : kept loose c c1 /\ same_units c c1).
  { destruct (isset c "x"); [eapply attempt_kept; eauto|]. inversion E; subst. split; [apply kept_refl|apply same_units_refl]. }
  destruct A as (A & A').
  assert (B : kept loose c1 c' /\ same_units c1 c').
  { destruct (isset c1 "T"); [eapply attempt_kept; eauto|inversion H; subst; split; [apply kept_refl|apply same_units_refl]].
    destruct A as (_ & _ & _ & A & _). destruct (A "h") as (_ & X & _). unfold unknown. congruence. }
  split; [eapply kept_trans; [apply loose_stable|apply A|apply B]|eapply same_units_trans; [exact A'|apply B]].
Qed.

Lemma phase_start_kept c c' : phase_start c = Ok c' -> kept loose c c' /\ same_units c c'.
Proof.
  unfold phase_start. cbv zeta.
  assert (Z : Ok c = Ok c' -> kept loose c c' /\ same_units c c').
  { intros H; inversion H; subst; split; [apply kept_refl|apply same_units_refl]. }
  destruct (k_var (n_c c "h")) eqn:V; [|rewrite Bool.andb_false_r; exact Z].
  assert (W : forall (b : bool) x, Ok (if b then upd "h" (with_SI x) c else c) = Ok c' -> kept loose c c' /\ same_units c c').
  { intros [] x H; [|auto]. inversion H; subst. split; [apply upd_SI_kept; left; exact V|apply upd_SI_units]. }
  destruct (_ && true)%bool; [|exact Z].
  destruct (_ || _)%bool.
  - destruct (call2 _ _ _); cbn [rmap]; [apply W|discriminate].
  - destruct (_ || _)%bool; [|exact Z]. destruct (call2 _ _ _); cbn [rmap]; [apply W|discriminate].
Qed.

Lemma second_pass_kept net c c' : second_pass net c = Ok c' -> kept loose c c' /\ same_units c c'.
Proof.
  unfold second_pass. destruct (if n_good c then Ok c else _) as [c1|] eqn:E; cbn [rbind]; [|discriminate]. intros H.
  assert (A : kept loose c c1 /\ same_units c c1).
  { destruct (n_good c); [inversion E; subst; split; [apply kept_refl|apply same_units_refl]|].
    destruct (refs_kept net ref_keys c) as (A & B). destruct (precalc_kept _ _ E) as (C & D).
    split; [eapply kept_trans; eauto; apply loose_stable|eapply same_units_trans; eauto]. }
  destruct (phase_start_kept _ _ H) as (B & B').
  split; [eapply kept_trans; [apply loose_stable|apply A|apply B]|eapply same_units_trans; [apply A|exact B']].
Qed.

(* -- solver -- *)
Lemma solved_kept_from (sol : string -> string -> Q) l ks : forall c,
  let c' := fold_left (fun c k => if k_var (n_c c k) then upd k (with_SI (Some (sol l k))) c else c) ks c in
  kept unknown c c' /\ same_units c c' /\ (forall k, ~ In k ks -> n_c c' k = n_c c k).
Proof.
  induction ks as [|k ks IH]; intros c; cbn [fold_left]; [split; [apply kept_refl|split; [apply same_units_refl|auto]]|].
  set (c1 := if k_var (n_c c k) then _ else c).
  assert (A : kept unknown c c1 /\ same_units c c1 /\ forall j, j <> k -> n_c c1 j = n_c c j).
  { unfold c1. destruct (k_var (n_c c k)) eqn:V; [|split; [apply kept_refl|split; [apply same_units_refl|auto]]].
    split; [apply upd_SI_kept; exact V|]. split; [apply upd_SI_units|]. intros j N. conn_tac. apply String.eqb_neq in N. now rewrite N. }
  destruct A as (A1 & A2 & A3). destruct (IH c1) as (B1 & B2 & B3). clearbody c1. cbv zeta.
  split; [eapply kept_trans; eauto; apply unknown_stable|]. split; [eapply same_units_trans; eauto|].
  intros j N. rewrite B3 by (intros X; apply N; right; exact X). apply A3. intros ->. apply N. left; reflexivity.
Qed.

Lemma solved_kept sol l c : kept unknown c (solved sol l c) /\ same_units c (solved sol l c) /\
  (forall k, ~ In k ["m"; "p"; "h"] -> n_c (solved sol l c) k = n_c c k).
Proof. apply solved_kept_from. Qed.

(* -- results -- *)
(** Specification flags, unknowns, units, equations and m, p, h stay. *)
Definition results_keep (c c' : conn) : Prop :=
  frame c c' /\ n_eqs c' = n_eqs c /\
  (forall k, k_set (n_c c' k) = k_set (n_c c k) /\ k_var (n_c c' k) = k_var (n_c c k) /\ k_unit (n_c c' k) = k_unit (n_c c k)) /\
  (forall k, In k ["m"; "p"; "h"] -> SI c' k = SI c k).
Lemma rk_refl c : results_keep c c.
Proof. split; [apply frame_refl|]. repeat split; auto. Qed.
Lemma rk_trans a b c : results_keep a b -> results_keep b c -> results_keep a c.
Proof.
  intros (A1 & A2 & A3 & A4) (B1 & B2 & B3 & B4). split; [eapply frame_trans; eauto|]. split; [congruence|]. split.
  - intros k. destruct (A3 k) as (X & Y & Z). destruct (B3 k) as (X' & Y' & Z'). repeat split; congruence.
  - intros k I. rewrite B4, A4; auto.
Qed.
Lemma rk_SI k x c : ~ In k ["m"; "p"; "h"] -> results_keep c (upd k (with_SI x) c).
Proof.
  intros N. split; [conn_tac; repeat split; auto|]. split; [reflexivity|]. split.
  - intros j. conn_tac. destruct (String.eqb j k); auto.
  - intros j I. conn_tac. destruct (String.eqb j k) eqn:E; [|auto]. apply String.eqb_eq in E; subst; contradiction.
Qed.
Lemma rk_val k g c : (forall x, k_set (g x) = k_set x /\ k_var (g x) = k_var x /\ k_unit (g x) = k_unit x /\ k_SI (g x) = k_SI x) ->
  results_keep c (upd k g c).
Proof.
  intros G. split; [conn_tac; repeat split; auto|]. split; [reflexivity|]. split.
  - intros j. conn_tac. destruct (G (n_c c j)) as (A & B & C & _). destruct (String.eqb j k); auto.
  - intros j I. conn_tac. destruct (G (n_c c j)) as (_ & _ & _ & D). destruct (String.eqb j k); auto.
Qed.
Lemma rk_phase s c : results_keep c (with_phase s c).
Proof. split; [conn_tac; repeat split; auto|]. repeat split; auto. Qed.
Lemma rk_good c : results_keep c (with_good c).
Proof. split; [conn_tac; repeat split; auto|]. repeat split; auto. Qed.
Ltac notin := let N := fresh in intros N; cbn in N; repeat (destruct N as [N|N]; [discriminate|]); exact N.

Lemma pure_keep c c' : pure_results c = Ok c' -> results_keep c c' /\ (forall k, ~ In k ["x"; "Td_bp"] -> SI c' k = SI c k).
Proof.
  unfold pure_results. cbv zeta.
  destruct (if isset c "x" then Ok c else _) as [c1|] eqn:E1; cbn [rbind]; [|discriminate].
  assert (A : results_keep c c1 /\ forall k, ~ In k ["x"; "Td_bp"] -> SI c1 k = SI c k).
  { destruct (isset c "x"); [inversion E1; subst; split; [apply rk_refl|auto]|].
    destruct (catch _) as [x|]; cbn [rmap] in E1; [|discriminate]. inversion E1; subst. split; [apply rk_SI; notin|].
    intros k N. conn_tac. destruct (String.eqb k "x") eqn:K; [|auto]. apply String.eqb_eq in K; subst. exfalso; apply N; left; auto. }
  match goal with |- rbind ?r _ = _ -> _ => destruct r as [c2|] eqn:E2 end; cbn [rbind]; [|discriminate].
  assert (B : results_keep c1 c2 /\ forall k, SI c2 k = SI c1 k).
  { destruct (call2 (f_phase (n_fluid c)) (SI c1 "p") (SI c1 "h")) as [s|[]]; try discriminate; inversion E2; subst;
      (split; [apply rk_phase|reflexivity]). }
  intros H. assert (C : results_keep c2 c' /\ forall k, ~ In k ["x"; "Td_bp"] -> SI c' k = SI c2 k).
  { destruct (isset c2 "Td_bp"); [inversion H; subst; split; [apply rk_refl|auto]|].
    destruct (rbind _ _) as [d|[]]; try discriminate; inversion H; subst; split; try (apply rk_SI; notin);
      intros k N; conn_tac;
      match goal with |- context [String.eqb k ?x] => destruct (String.eqb k x) eqn:K end; auto;
      apply String.eqb_eq in K; subst; exfalso; apply N; cbn; auto. }
  destruct A as (A & A'), B as (B & B'), C as (C & C').
  split; [eapply rk_trans; [eapply rk_trans|]; eauto|]. intros k N. rewrite C', B', A'; auto.
Qed.

Lemma val0_fold ks : forall c, results_keep c (fold_left (fun c k => upd k (fun x => with_val0 (k_val x) x) c) ks c) /\
  (forall k, k_val (n_c (fold_left (fun c k => upd k (fun x => with_val0 (k_val x) x) c) ks c) k) = k_val (n_c c k) /\
             SI (fold_left (fun c k => upd k (fun x => with_val0 (k_val x) x) c) ks c) k = SI c k).
Proof.
  induction ks as [|k ks IH]; intros c; cbn [fold_left]; [split; [apply rk_refl|auto]|].
  destruct (IH (upd k (fun x => with_val0 (k_val x) x) c)) as (A & B). split.
  - eapply rk_trans; [|exact A]. apply rk_val. cbn. auto.
  - intros j. destruct (B j) as (B1 & B2). rewrite B1, B2. conn_tac. destruct (String.eqb j k); auto.
Qed.

Lemma nan_fold ks : forall c, (forall k, In k ks -> ~ In k ["m"; "p"; "h"]) ->
  results_keep c (fold_left (fun c k => upd k (with_SI None) c) ks c) /\
  (forall k, In k ks -> SI (fold_left (fun c k => upd k (with_SI None) c) ks c) k = None) /\
  (forall k, ~ In k ks -> SI (fold_left (fun c k => upd k (with_SI None) c) ks c) k = SI c k).
Proof.
  induction ks as [|k ks IH]; intros c N; cbn [fold_left]; [split; [apply rk_refl|split; [intros k []|auto]]|].
  destruct (IH (upd k (with_SI None) c)) as (A & B & C); [intros j J; apply N; right; exact J|]. split; [|split].
  - eapply rk_trans; [|exact A]. apply rk_SI, N. left; auto.
  - intros j J. destruct (in_dec string_dec j ks) as [I|I]; [auto|]. rewrite C by auto. destruct J as [->|J]; [|contradiction].
    conn_tac. now rewrite String.eqb_refl.
  - intros j J. rewrite C by (intros X; apply J; right; exact X). conn_tac. destruct (String.eqb j k) eqn:E; [|auto].
    apply String.eqb_eq in E; subst. exfalso; apply J; left; auto.
Qed.

(** Every property is reported from its SI value in the unit of its container. *)
Lemma report_each ks : forall c c', NoDup ks ->
  each (fun k c => rmap (fun v => upd k (with_val v) c) (from_SI k (SI c k) (k_unit (n_c c k)))) ks c = Ok c' ->
  results_keep c c' /\ (forall k, SI c' k = SI c k) /\ n_phase c' = n_phase c /\
  (forall k, In k ks -> from_SI k (SI c k) (k_unit (n_c c k)) = Ok (k_val (n_c c' k))) /\
  (forall k, ~ In k ks -> n_c c' k = n_c c k).
Proof.
  induction ks as [|k ks IH]; intros c c' ND H; [inversion H; subst; split; [apply rk_refl|]; repeat split; auto; intros k []|].
  destruct (each_cons _ _ _ _ _ H) as (c1 & F & G). inversion ND as [|? ? N1 N2]; subst.
  destruct (IH c1 c' N2 G) as (A & B & P & C & D). cbn [rmap] in F. destruct (from_SI k (SI c k) (k_unit (n_c c k))) as [v|] eqn:E; cbn [rmap] in F; [|discriminate].
  inversion F; subst; clear F. split; [|split; [|split; [exact P|split]]].
  - eapply rk_trans; [|exact A]. apply rk_val. cbn. auto.
  - intros j. rewrite B. conn_tac. destruct (String.eqb j k); auto.
  - intros j [->|J].
    + rewrite (D j N1). conn_tac. now rewrite String.eqb_refl.
    + rewrite <- (C j J). conn_tac. destruct (String.eqb j k) eqn:K; [|auto]. cbn [k_SI with_val k_unit]. reflexivity.
  - intros j J. rewrite D by (intros X; apply J; right; exact X). conn_tac. destruct (String.eqb j k) eqn:K; [|auto].
    apply String.eqb_eq in K; subst. exfalso; apply J; left; auto.
Qed.

Lemma results_spec c c' : results c = Ok c' ->
  results_keep c c' /\
  (exists T, call2 (f_Tph (n_fluid c)) (SI c "p") (SI c "h") = Ok T /\ (SI c' "T" = Some T \/ (f_mixture (n_fluid c) = true /\ SI c' "T" = None))) /\
  (forall k, In k fpd_keys -> from_SI k (SI c' k) (k_unit (n_c c k)) = Ok (k_val (n_c c' k))).
Proof.
  unfold results. cbv zeta. change (n_fluid (with_good c)) with (n_fluid c).
  change (SI (with_good c) "p") with (SI c "p"). change (SI (with_good c) "h") with (SI c "h").
  destruct (call2 (f_Tph (n_fluid c)) (SI c "p") (SI c "h")) as [T|] eqn:ET; cbn [rbind]; [|discriminate].
  set (c1 := upd "T" (with_SI (Some T)) (with_good c)).
  assert (R1 : results_keep c c1 /\ SI c1 "T" = Some T).
  { split; [|reflexivity]. eapply rk_trans; [apply rk_good|apply rk_SI; notin]. }
  clearbody c1. destruct R1 as (R1 & R1').
  destruct (if f_mixture (n_fluid c) then rmap (fun ok => (c1, ok)) (mixture_ok c1 T) else _) as [[c2 ok]|] eqn:E2; cbn [rbind]; [|discriminate].
  assert (R2 : results_keep c1 c2 /\ SI c2 "T" = Some T /\ (f_mixture (n_fluid c) = true \/ ok = true)).
  { destruct (f_mixture (n_fluid c)).
    - destruct (mixture_ok c1 T); cbn [rmap] in E2; [|discriminate]. inversion E2; subst. split; [apply rk_refl|auto].
    - destruct (pure_results c1) as [c3|] eqn:E3; cbn [rmap] in E2; [|discriminate]. inversion E2; subst.
      destruct (pure_keep _ _ E3) as (X & Y). split; [exact X|]. split; [|auto]. rewrite Y; [exact R1'|notin]. }
  destruct R2 as (R2 & R2' & R2'').
  destruct (if ok then rbind _ _ else Ok _) as [c3|] eqn:E3; cbn [rbind]; [|discriminate].
  assert (R3 : results_keep c2 c3 /\ (SI c3 "T" = Some T \/ (f_mixture (n_fluid c) = true /\ SI c3 "T" = None))).
  { destruct ok.
    - destruct (call2 (f_vph _) _ _) as [v|]; cbn [rbind] in E3; [|discriminate].
      destruct (call2 (f_sph _) _ _) as [s|]; cbn [rmap] in E3; [|discriminate]. inversion E3; subst.
      split; [|left; exact R2']. eapply rk_trans; [|apply rk_SI; notin]. eapply rk_trans; [|apply rk_SI; notin]. apply rk_SI; notin.
    - destruct R2'' as [R2''|R2'']; [|discriminate]. inversion E3 as [E4].
      destruct (nan_fold ["T"; "vol"; "v"; "s"] c2) as (A & B & _).
      { intros k K. cbn in K. repeat (destruct K as [<-|K]; [notin|]). contradiction. }
      split; [exact A|]. right. split; [exact R2''|]. apply B. left; reflexivity. }
  destruct R3 as (R3 & R3').
  destruct (each _ fpd_keys c3) as [c4|] eqn:E4; cbn [rmap]; [|discriminate]. intros H.
  destruct (report_each fpd_keys c3 c4 fpd_nodup E4) as (A & B & _ & C & _).
  destruct (val0_fold ["m"; "p"; "h"] c4) as (D & D').
  set (c5 := fold_left _ ["m"; "p"; "h"] c4) in *. clearbody c5. inversion H; subst c5; clear H.
  assert (RK : results_keep c c3) by (eapply rk_trans; [|exact R3]; eapply rk_trans; eauto).
  split; [|split].
  - eapply rk_trans; [exact RK|]. eapply rk_trans; eauto.
  - exists T. split; [reflexivity|]. destruct (D' "T") as (_ & X). rewrite X, B. exact R3'.
  - intros k K. destruct (D' k) as (X & Y). rewrite X, Y, B.
    assert (U : k_unit (n_c c3 k) = k_unit (n_c c k)) by apply RK. rewrite <- U. exact (C k K).
Qed.
