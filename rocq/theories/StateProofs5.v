(** Lemmas: starting values. *)
From Coq Require Import QArith Lqa.
From Verif Require Import Base UnitsModel UnitsSpec UnitsProofs StateModel StateSpec StateProofs StateProofs2 StateProofs3 StateProofs4.
Open Scope string_scope.
Open Scope list_scope.

(* ---- first pass ---- *)
Lemma start_at units a l k c c' : start_value units a l k c = Ok c' -> k_var (n_c c k) = true ->
  exists x, (if n_good c then Ok (n_c c k) else init_val0 units (a_rnd a l) (a_src a l k) (a_tgt a l k) k (n_c c k)) = Ok x /\
    to_SI k (k_val0 x) (k_unit x) = Ok (SI c' k) /\ k_unit x = k_unit (n_c c k).
Proof.
  unfold start_value. intros H V. rewrite V in H.
  destruct (if n_good c then Ok (n_c c k) else init_val0 units (a_rnd a l) (a_src a l k) (a_tgt a l k) k (n_c c k)) as [x|] eqn:E; cbn [rbind] in H; [|discriminate].
  destruct (to_SI k (k_val0 x) (k_unit x)) as [s|] eqn:T; cbn [rmap] in H; [|discriminate]. inversion H; subst. exists x.
  split; [reflexivity|]. split.
  - rewrite T. f_equal. conn_tac. now rewrite String.eqb_refl.
  - destruct (n_good c); [now inversion E|]. apply (init_val0_kept _ _ _ _ _ _ _ E).
Qed.

Lemma first_at units a l k c c' : first_pass units a None l c = Ok c' -> In k ["m"; "p"; "h"] -> k_var (n_c c k) = true ->
  exists x, (if n_good c then Ok (n_c c k) else init_val0 units (a_rnd a l) (a_src a l k) (a_tgt a l k) k (n_c c k)) = Ok x /\
    to_SI k (k_val0 x) (k_unit x) = Ok (SI c' k) /\ k_unit x = k_unit (n_c c k).
Proof.
  unfold first_pass. cbn [from_path]. intros H I V.
  destruct (each_at (fun a b => n_c b k = n_c a k /\ n_good b = n_good a) (start_value units a l) ["m"; "p"; "h"] k) with (a := c) (a' := c') as (a1 & a2 & (A & A') & B & (C & _)); auto.
  - intros x y z (X1 & X2) (Y1 & Y2). split; congruence.
  - intros j x y N E. destruct (start_value_kept _ _ _ _ _ _ E) as (_ & X & _ & Y). split; [apply Y; auto|exact X].
  - repeat (constructor; [notin|]). constructor.
  - destruct (start_at _ _ _ _ _ _ B) as (x & X1 & X2 & X3); [congruence|]. rewrite A, A' in *. exists x. split; [exact X1|].
    unfold SI in *. rewrite C. auto.
Qed.

(* ---- second pass ---- *)
Lemma refs_SI net k ks : forall c, r_set (n_r c k) = false -> SI (fold_left (fun c k => ref_start net k c) ks c) k = SI c k.
Proof.
  induction ks as [|j ks IH]; intros c R; cbn [fold_left]; [auto|].
  assert (Z : r_set (n_r (ref_start net j c) k) = false).
  { destruct (ref_start_kept net j c) as ((F & _) & _). destruct F as (_ & _ & _ & _ & F). congruence. }
  rewrite IH by exact Z. unfold ref_start. destruct (r_set (n_r c j)) eqn:E; cbn [andb]; [|auto]. destruct (negb (isset c j)); [|auto].
  conn_tac. destruct (String.eqb k j) eqn:K; [|auto]. apply String.eqb_eq in K. congruence.
Qed.

Lemma attempt_SI r c c' k : k <> "h" -> attempt r c (fun h => upd "h" (with_SI (Some h)) c) = Ok c' -> SI c' k = SI c k.
Proof.
  intros N. unfold attempt. destruct r as [x|[]]; try discriminate; intros H; inversion H; subst; auto.
  conn_tac. apply String.eqb_neq in N. now rewrite N.
Qed.

Lemma precalc_SI c c' k : precalc c = Ok c' -> k <> "h" \/ (isset c "T" = false /\ isset c "x" = false) -> SI c' k = SI c k.
Proof.
  unfold precalc. cbv zeta. destruct (k_var (n_c c "h")) eqn:V; [|inversion 1; auto]. intros H [N|(N1 & N2)].
  - destruct (if isset c "x" then _ else Ok c) as [c1|] eqn:E; cbn [rbind] in H; [|discriminate].
    assert (A : SI c1 k = SI c k) by (destruct (isset c "x"); [eapply attempt_SI; eauto|inversion E; auto]).
    rewrite <- A. destruct (isset c1 "T"); [eapply attempt_SI; eauto|inversion H; auto].
  - rewrite N2 in H. cbn [rbind] in H. rewrite N1 in H. inversion H; auto.
Qed.

Lemma phase_SI c c' k : phase_start c = Ok c' -> k <> "h" \/ (isset c "Td_bp" = false /\ n_state c = None) -> SI c' k = SI c k.
Proof.
  unfold phase_start. cbv zeta. intros H [N|(N1 & N2)].
  - assert (W : forall (b : bool) x, Ok (if b then upd "h" (with_SI x) c else c) = Ok c' -> SI c' k = SI c k).
    { intros [] x G; inversion G; subst; auto. conn_tac. apply String.eqb_neq in N. now rewrite N. }
    destruct (_ && k_var (n_c c "h"))%bool; [|inversion H; auto].
    destruct (_ || _)%bool; [destruct (call2 _ _ _); cbn [rmap] in H; [eapply W; eauto|discriminate]|].
    destruct (_ || _)%bool; [destruct (call2 _ _ _); cbn [rmap] in H; [eapply W; eauto|discriminate]|]. inversion H; auto.
  - rewrite N1, N2 in H. cbn in H. inversion H; auto.
Qed.

Lemma second_SI net c c' k : second_pass net c = Ok c' ->
  n_good c = true \/ (r_set (n_r c k) = false /\ (k <> "h" \/ (isset c "T" = false /\ isset c "x" = false))) ->
  k <> "h" \/ (isset c "Td_bp" = false /\ n_state c = None) -> SI c' k = SI c k.
Proof.
  unfold second_pass. intros H G P. destruct (if n_good c then Ok c else _) as [c1|] eqn:E; cbn [rbind] in H; [|discriminate].
  assert (K : kept loose c c1 /\ SI c1 k = SI c k).
  { destruct (n_good c) eqn:NG; [inversion E; subst; split; [apply kept_refl|auto]|].
    destruct G as [G|(G1 & G2)]; [discriminate|].
    destruct (refs_kept net ref_keys c) as (A & _). destruct (precalc_kept _ _ E) as (B & _).
    split; [eapply kept_trans; [apply loose_stable|exact A|exact B]|].
    set (c0 := fold_left _ _ c) in *. rewrite (precalc_SI _ _ k E).
    - unfold c0. apply refs_SI. exact G1.
    - destruct A as (_ & _ & _ & A & _). unfold isset. destruct (A "T") as (X & _). destruct (A "x") as (Y & _).
      rewrite X, Y. exact G2. }
  destruct K as (K & K'). rewrite <- K'. apply phase_SI; [exact H|].
  destruct K as (F & _ & _ & K & _). destruct F as (_ & _ & _ & F & _). unfold isset. destruct (K "Td_bp") as (X & _). rewrite X, F. exact P.
Qed.

(** The start of a property that nothing else determines. *)
Lemma undisturbed_start units a net net' l c c' k : labelled net -> initialise units a None net = Ok net' ->
  dget l net = Some c -> dget l net' = Some c' -> In k ["m"; "p"; "h"] -> k_var (n_c c' k) = true -> undisturbed c k ->
  exists x, (if n_good c then k_val0 x = k_val0 (n_c c k) else
               exists y, k_val0 y = k_val0 (n_c c k) /\ init_val0 units (a_rnd a l) (a_src a l k) (a_tgt a l k) k y = Ok x) /\
    to_SI k (k_val0 x) (units k) = Ok (SI c' k).
Proof.
  intros (ND & NO) H D D' I V (U1 & U2). specialize (NO l c D).
  destruct (initialise_at _ _ _ _ _ _ _ ND H D) as (c1 & c2 & c3 & seen & c4 & A & B & C & E & G & _).
  rewrite D' in G. inversion G; subst c4; clear G.
  destruct (set_properties_frame _ _ _ A) as (F1 & GD1 & N1 & P1).
  assert (ND1 : NoDup (keys (n_off c1))) by (destruct F1 as (_ & X & _); congruence).
  destruct (presolve_spec _ _ B ND1) as (F2 & GD2 & VV & _).
  pose proof (first_pass_kept _ _ _ _ _ _ C) as (F3 & _ & _ & K3 & _). destruct (first_pass_units _ _ _ _ _ C) as (GD3 & UN3).
  destruct (second_pass_kept _ _ _ E) as ((F4 & _ & _ & K4 & _) & _).
  assert (V2 : k_var (n_c c2 k) = true) by (destruct (K3 k) as (_ & X & _); destruct (K4 k) as (_ & Y & _); congruence).
  destruct (first_at _ _ _ _ _ _ C I V2) as (x & X1 & X2 & X3).
  assert (UN : k_unit x = units k).
  { rewrite X3. destruct (VV k) as (_ & _ & Y). rewrite Y.
    assert (If : In k fpd_keys) by (cbn in I; repeat (destruct I as [<-|I]; [vm_compute; auto 20|]); contradiction).
    destruct (P1 k If) as (Z & _). rewrite Z, unit_of_entry. unfold entry_unit. cbn in I. repeat (destruct I as [<-|I]; [reflexivity|]); contradiction. }
  assert (SK : SI c' k = SI c3 k).
  { apply (second_SI _ _ _ _ E).
    - destruct U1 as [U1|U1]; [left; congruence|].
      assert (R3 : r_set (n_r c3 k) = false).
      { destruct F1 as (_ & _ & _ & _ & Y1), F2 as (_ & _ & _ & _ & Y2), F3 as (_ & _ & _ & _ & Y3). congruence. }
      destruct (string_dec k "h") as [->|Nh]; [|right; auto].
      destruct (U2 eq_refl) as ([U3|(U3 & U4)] & _); [left; congruence|right].
      split; [exact R3|]. right.
      assert (Z : forall j, isset c3 j = true -> wants c j).
      { intros j J. apply (wants_presolved _ _ _ _ j A B NO). unfold isset in *. destruct (K3 j) as (Y & _). congruence. }
      split; apply Bool.not_true_iff_false; intros Y; [apply U3|apply U4]; apply Z; exact Y.
    - destruct (string_dec k "h") as [->|Nh]; [|left; exact Nh]. right. destruct (U2 eq_refl) as (_ & U3 & U4). split.
      + apply Bool.not_true_iff_false. intros Y. apply U3. apply (wants_presolved _ _ _ _ "Td_bp" A B NO). unfold isset in *. destruct (K3 "Td_bp") as (Z & _). congruence.
      + destruct F1 as (_ & _ & _ & Y1 & _), F2 as (_ & _ & _ & Y2 & _), F3 as (_ & _ & _ & Y3 & _). congruence. }
  exists x. rewrite UN, <- SK in X2. split; [|exact X2].
  assert (GD : n_good c2 = n_good c) by congruence. rewrite GD in X1.
  assert (V0 : k_val0 (n_c c2 k) = k_val0 (n_c c k)).
  { destruct (VV k) as (_ & Y & _). destruct (N1 k) as (_ & _ & _ & Z). congruence. }
  destruct (n_good c); [inversion X1; subst; exact V0|]. exists (n_c c2 k). auto.
Qed.

Lemma user_start units a net net' l c c' k u : labelled net -> initialise units a None net = Ok net' ->
  dget l net = Some c -> dget l net' = Some c' -> In k ["m"; "p"; "h"] -> k_var (n_c c' k) = true -> undisturbed c k ->
  k_val0 (n_c c k) = Some u -> exists s, convert_to_SI k u (units k) = Ok s /\ k_SI (n_c c' k) = Some s.
Proof.
  intros L H D D' I V U Z. destruct (undisturbed_start _ _ _ _ _ _ _ _ L H D D' I V U) as (x & X1 & X2).
  assert (E : k_val0 x = Some u).
  { destruct (n_good c); [congruence|]. destruct X1 as (y & Y1 & Y2). unfold init_val0 in Y2. rewrite Y1, Z in Y2. inversion Y2; subst. congruence. }
  rewrite E in X2. unfold to_SI in X2. destruct (convert_to_SI k u (units k)) as [s|]; cbn in X2; [|discriminate]. inversion X2. eauto.
Qed.

Lemma back_and_forth k v u s s' : convert_from_SI k v u = Ok s -> convert_to_SI k s u = Ok s' -> s' == v.
Proof. intros A B. destruct (roundtrip_out_in k u v s A) as (x & X & Y). congruence. Qed.

Lemma proposed_start units a net net' l c c' k : labelled net -> initialise units a None net = Ok net' ->
  dget l net = Some c -> dget l net' = Some c' -> In k ["p"; "h"] -> k_var (n_c c' k) = true -> undisturbed c k ->
  k_val0 (n_c c k) = None -> n_good c = false ->
  exists s v g, k_SI (n_c c' k) = Some s /\ s == v /\ generic k g /\ proposed g (a_src a l k) (a_tgt a l k) v.
Proof.
  intros L H D D' I V U Z G. assert (I' : In k ["m"; "p"; "h"]) by (cbn in *; tauto).
  destruct (undisturbed_start _ _ _ _ _ _ _ _ L H D D' I' V U) as (x & X1 & X2). rewrite G in X1. destruct X1 as (y & Y1 & Y2).
  unfold init_val0 in Y2. rewrite Y1, Z in Y2.
  assert (M : String.eqb k "m" = false) by (cbn in I; destruct I as [<-|[<-|[]]]; reflexivity). rewrite M in Y2. cbv zeta in Y2.
  set (v := if Qeq_bool (a_src a l k) 0 then _ else _) in Y2.
  destruct (convert_from_SI k v (units k)) as [q|] eqn:E; cbn [rmap] in Y2; [|discriminate]. inversion Y2; subst x; clear Y2.
  cbn [k_val0 with_val0] in X2. unfold to_SI in X2. destruct (convert_to_SI k q (units k)) as [s|] eqn:F; cbn [rmap] in X2; [|discriminate].
  exists s, v, (if String.eqb k "p" then 100000%Q else 1000000%Q). split; [unfold SI in X2; congruence|].
  split; [eapply back_and_forth; eauto|]. split.
  - unfold generic. cbn in I. destruct I as [<-|[<-|[]]]; cbn; auto.
  - unfold proposed, v.
    assert (T : forall q, Qeq_bool q 0 = true -> q == 0) by (intros; now apply Qeq_bool_iff).
    assert (N : forall q, Qeq_bool q 0 = false -> ~ q == 0) by (intros; now apply Qeq_bool_neq).
    destruct (Qeq_bool (a_src a l k) 0) eqn:E1; destruct (Qeq_bool (a_tgt a l k) 0) eqn:E2.
    + right; right; right. split; [auto|]. split; [auto|reflexivity].
    + right; right; left. split; [auto|]. split; [auto|reflexivity].
    + right; left. split; [auto|]. split; [auto|reflexivity].
    + left. split; [auto|]. split; [auto|reflexivity].
Qed.

Lemma mass_start units a net net' l c c' : labelled net -> initialise units a None net = Ok net' ->
  dget l net = Some c -> dget l net' = Some c' -> k_var (n_c c' "m") = true -> undisturbed c "m" ->
  k_val0 (n_c c "m") = None -> n_good c = false -> units "m" = "kg / s" ->
  0 <= a_rnd a l -> a_rnd a l < 1 -> exists s, k_SI (n_c c' "m") = Some s /\ 1 <= s /\ s < 2.
Proof.
  intros L H D D' V U Z G Un R1 R2. destruct (undisturbed_start _ _ _ _ _ _ _ "m" L H D D' ltac:(cbn; auto) V U) as (x & X1 & X2).
  rewrite G in X1. destruct X1 as (y & Y1 & Y2). unfold init_val0 in Y2. rewrite Y1, Z in Y2. cbn in Y2. inversion Y2; subst x; clear Y2.
  rewrite Un in X2. cbn in X2. inversion X2 as [X3]. eexists. split; [symmetry; exact X3|]. split; lra.
Qed.

(* ---- restart ---- *)
Lemma val0_fold_at ks : forall c, NoDup ks ->
  let c' := fold_left (fun c k => upd k (fun x => with_val0 (k_val x) x) c) ks c in
  n_good c' = n_good c /\ forall k, In k ks -> k_val0 (n_c c' k) = k_val (n_c c' k).
Proof.
  induction ks as [|k ks IH]; intros c ND; [split; [auto|intros k []]|].
  inversion ND as [|? ? N1 N2]; subst. cbn [fold_left]. destruct (IH (upd k (fun x => with_val0 (k_val x) x) c) N2) as (A & B). cbv zeta in *.
  split; [exact A|]. intros j [<-|J]; [|auto].
  assert (Z : forall ks c, ~ In k ks -> n_c (fold_left (fun c k => upd k (fun x => with_val0 (k_val x) x) c) ks c) k = n_c c k).
  { clear. induction ks as [|j ks IH]; intros c N; cbn [fold_left]; [auto|]. rewrite IH by (intros X; apply N; right; exact X).
    conn_tac. destruct (String.eqb k j) eqn:E; [|auto]. apply String.eqb_eq in E; subst. exfalso; apply N; left; auto. }
  rewrite Z by exact N1. conn_tac. now rewrite String.eqb_refl.
Qed.

Lemma pure_good c c' : pure_results c = Ok c' -> n_good c' = n_good c.
Proof.
  unfold pure_results. cbv zeta.
  destruct (if isset c "x" then Ok c else _) as [c1|] eqn:E1; cbn [rbind]; [|discriminate].
  assert (A : n_good c1 = n_good c).
  { destruct (isset c "x"); [inversion E1; auto|]. destruct (catch _) as [x|]; cbn [rmap] in E1; [|discriminate]. inversion E1; auto. }
  match goal with |- rbind ?r _ = _ -> _ => destruct r as [c2|] eqn:E2 end; cbn [rbind]; [|discriminate].
  assert (B : n_good c2 = n_good c1).
  { destruct (call2 (f_phase (n_fluid c)) (SI c1 "p") (SI c1 "h")) as [s|[]]; try discriminate; inversion E2; auto. }
  intros H. rewrite <- A, <- B. destruct (isset c2 "Td_bp"); [inversion H; auto|].
  destruct (rbind _ _) as [d|[]]; try discriminate; inversion H; auto.
Qed.

Lemma report_good ks : forall c c',
  each (fun k c => rmap (fun v => upd k (with_val v) c) (from_SI k (SI c k) (k_unit (n_c c k)))) ks c = Ok c' -> n_good c' = n_good c.
Proof.
  intros c c'. apply (each_inv (fun c c' => n_good c' = n_good c)); [auto|congruence|].
  intros k x y _ E. destruct (from_SI _ _ _); cbn in E; [|discriminate]. inversion E; auto.
Qed.

Lemma results_good c c' : results c = Ok c' -> n_good c' = true /\ forall k, In k ["m"; "p"; "h"] -> k_val0 (n_c c' k) = k_val (n_c c' k).
Proof.
  unfold results. cbv zeta.
  destruct (call2 (f_Tph _) _ _) as [T|]; cbn [rbind]; [|discriminate].
  set (c1 := upd "T" (with_SI (Some T)) (with_good c)). assert (G1 : n_good c1 = true) by reflexivity. clearbody c1.
  match goal with |- rbind ?r _ = _ -> _ => destruct r as [[c2 ok]|] eqn:E2 end; cbn [rbind]; [|discriminate].
  assert (G2 : n_good c2 = true).
  { destruct (f_mixture _).
    - destruct (mixture_ok c1 T); cbn [rmap] in E2; [|discriminate]. inversion E2; subst; auto.
    - destruct (pure_results c1) as [c3|] eqn:E3; cbn [rmap] in E2; [|discriminate]. inversion E2; subst. rewrite (pure_good _ _ E3). auto. }
  match goal with |- rbind ?r _ = _ -> _ => destruct r as [c3|] eqn:E3 end; cbn [rbind]; [|discriminate].
  assert (G3 : n_good c3 = true).
  { destruct ok.
    - destruct (call2 _ _ _) as [v|]; cbn [rbind] in E3; [|discriminate]. destruct (call2 _ _ _) as [s|]; cbn [rmap] in E3; [|discriminate].
      inversion E3; subst; auto.
    - inversion E3; subst; auto. }
  destruct (each _ fpd_keys c3) as [c4|] eqn:E4; cbn [rmap]; [|discriminate]. intros H.
  pose proof (report_good _ _ _ E4) as G4.
  destruct (val0_fold_at ["m"; "p"; "h"] c4) as (A & B); [repeat (constructor; [notin|]); constructor|]. cbv zeta in A, B.
  set (c5 := fold_left _ ["m"; "p"; "h"] c4) in *. clearbody c5. inversion H; subst c5. split; [congruence|exact B].
Qed.

Lemma restart units a a' sol net net' net'' l c' c'' k : labelled net -> solve units a None sol net = Ok net' ->
  initialise units a' None net' = Ok net'' -> dget l net' = Some c' -> dget l net'' = Some c'' ->
  In k ["m"; "p"; "h"] -> k_var (n_c c'' k) = true -> (k = "h" -> ~ wants c' "Td_bp" /\ n_state c' = None) ->
  same (k_SI (n_c c'' k)) (k_SI (n_c c' k)).
Proof.
  intros L H H2 D' D'' I V Q. pose proof L as (ND & NO).
  assert (KN : keys net' = keys net).
  { unfold solve in H. destruct (initialise units a None net) as [n|] eqn:E; cbn [rbind] in H; [|discriminate].
    rewrite (over_keys _ _ _ H), (keys_map (solved sol)). unfold initialise in E.
    destruct (over _ net) as [n1|] eqn:E1; cbn [rbind] in E; [|discriminate].
    destruct (over _ n1) as [n2|] eqn:E2; cbn [rbind] in E; [|discriminate].
    destruct (over _ n2) as [n3|] eqn:E3; cbn [rbind] in E; [|discriminate].
    rewrite (over_keys _ _ _ E), (over_keys _ _ _ E3), (over_keys _ _ _ E2), (over_keys _ _ _ E1). reflexivity. }
  assert (OFF : forall j x', dget j net' = Some x' -> exists x c4, dget j net = Some x /\ n_off x' = n_off x /\ results (solved sol j c4) = Ok x').
  { intros j x' Dj. destruct (dget j net) as [x|] eqn:Dx.
    - destruct (solve_at _ _ _ _ _ _ _ _ ND H Dx) as (c1 & c2 & c3 & seen & c4 & y & A & B & C & E & R & Dy).
      rewrite Dj in Dy. inversion Dy; subst y. exists x, c4. split; [auto|]. split; [|exact R].
      destruct (set_properties_frame _ _ _ A) as (F1 & _).
      assert (ND1 : NoDup (keys (n_off c1))) by (destruct F1 as (_ & X & _); rewrite X; eapply NO; eauto).
      destruct (presolve_spec _ _ B ND1) as (F2 & _). pose proof (first_pass_kept _ _ _ _ _ _ C) as (F3 & _).
      destruct (second_pass_kept _ _ _ E) as ((F4 & _) & _). destruct (solved_kept sol j c4) as ((F5 & _) & _). destruct (results_spec _ _ R) as ((F6 & _) & _).
      destruct F1 as (_ & Y1 & _), F2 as (_ & Y2 & _), F3 as (_ & Y3 & _), F4 as (_ & Y4 & _), F5 as (_ & Y5 & _), F6 as (_ & Y6 & _). congruence.
    - exfalso. apply dget_None_notin in Dx. apply Dx. rewrite <- KN. apply dget_In in Dj. apply (in_map fst) in Dj. exact Dj. }
  assert (L' : labelled net').
  { split; [rewrite KN; exact ND|]. intros j x' Dj. destruct (OFF j x' Dj) as (x & _ & Dx & E & _). rewrite E. eapply NO; eauto. }
  destruct (OFF l c' D') as (c & c4 & D & _ & R).
  destruct (results_good _ _ R) as (GD & V0). destruct (results_spec _ _ R) as (_ & _ & RV).
  assert (If : In k fpd_keys) by (cbn in I; repeat (destruct I as [<-|I]; [vm_compute; auto 20|]); contradiction).
  assert (Eu : entry_unit units k = units k) by (cbn in I; repeat (destruct I as [<-|I]; [reflexivity|]); contradiction).
  specialize (RV k If). specialize (V0 k I).
  destruct (unit_final _ _ _ _ _ _ _ _ k L H D (or_introl eq_refl) If) as (c4' & cx & Dx & _ & _ & U). rewrite D' in Dx. inversion Dx; subst cx; clear Dx.
  assert (UR : k_unit (n_c (solved sol l c4) k) = units k).
  { destruct (results_spec _ _ R) as ((_ & _ & X & _) & _). destruct (X k) as (_ & _ & Y). congruence. }
  assert (UD : undisturbed c' k).
  { split; [auto|]. intros E. destruct (Q E) as (Q1 & Q2). auto. }
  destruct (undisturbed_start _ _ _ _ _ _ _ _ L' H2 D' D'' I V UD) as (x & X1 & X2). rewrite GD in X1. rewrite X1, V0 in X2.
  rewrite UR in RV. fold (SI c'' k). fold (SI c' k). destruct (SI c' k) as [s|]; cbn [from_SI] in RV.
  - destruct (convert_from_SI k s (units k)) as [q|] eqn:E; cbn in RV; [|discriminate]. inversion RV as [E1]. rewrite <- E1 in X2. cbn [to_SI] in X2.
    destruct (convert_to_SI k q (units k)) as [s'|] eqn:E2; cbn in X2; [|discriminate]. inversion X2 as [E3]. cbn. eapply back_and_forth; eauto.
  - destruct (convert_from_SI k 0 (units k)); cbn in RV; [|discriminate]. inversion RV as [E1]. rewrite <- E1 in X2. cbn [to_SI] in X2.
    destruct (convert_to_SI k 0 (units k)); cbn in X2; [|discriminate]. inversion X2. cbn. trivial.
Qed.

(* ---- phase ---- *)
Lemma nlt_spec x y : nlt (Some x) (Some y) = true <-> x < y.
Proof.
  unfold nlt. rewrite Bool.negb_true_iff. split.
  - intros H. apply Qnot_le_lt. intros L. apply Qle_bool_iff in L. congruence.
  - intros H. apply Bool.not_true_iff_false. intros L. apply Qle_bool_iff in L. lra.
Qed.

Lemma phase_end units a file net net' l c c' : labelled net -> initialise units a file net = Ok net' ->
  dget l net = Some c -> dget l net' = Some c' -> exists c3, phase_start c3 = Ok c' /\ SI c3 "p" = SI c' "p" /\ n_fluid c3 = n_fluid c /\ n_fluid c' = n_fluid c /\
    n_state c3 = n_state c /\ k_var (n_c c3 "h") = k_var (n_c c' "h") /\ (isset c3 "Td_bp" = true <-> wants c "Td_bp") /\
    (forall d, wanted units c "Td_bp" d -> SI c3 "Td_bp" = Some d) /\ 
    (forall d, isset c3 "Td_bp" = true -> SI c3 "Td_bp" = Some d -> wanted units c "Td_bp" d).
Proof.
  intros (ND & NO) H D D'. specialize (NO l c D).
  destruct (initialise_at _ _ _ _ _ _ _ ND H D) as (c1 & c2 & c3 & seen & c4 & A & B & C & E & G & _).
  rewrite D' in G. inversion G; subst c4; clear G.
  destruct (set_properties_frame _ _ _ A) as (F1 & _ & N1 & P1).
  assert (ND1 : NoDup (keys (n_off c1))) by (destruct F1 as (_ & X & _); congruence).
  destruct (presolve_spec _ _ B ND1) as (F2 & _ & VV & _ & _ & S2 & _).
  pose proof (first_pass_kept _ _ _ _ _ _ C) as (F3 & _ & _ & K3 & _).
  unfold second_pass in E. destruct (if n_good c3 then Ok c3 else _) as [c5|] eqn:E5; cbn [rbind] in E; [|discriminate].
  assert (K5 : kept loose c3 c5).
  { destruct (n_good c3); [inversion E5; subst; apply kept_refl|].
    destruct (refs_kept seen ref_keys c3) as (X & _). destruct (precalc_kept _ _ E5) as (Y & _). eapply kept_trans; [apply loose_stable|exact X|exact Y]. }
  destruct (phase_start_kept _ _ E) as ((F6 & _ & _ & K6 & _) & _). destruct K5 as (F5 & _ & _ & K5 & _).
  destruct (wants_presolved _ _ _ _ "Td_bp" A B NO) as (W & _ & FL).
  assert (SW : isset c5 "Td_bp" = isset c2 "Td_bp").
  { unfold isset. destruct (K5 "Td_bp") as (X & _). destruct (K3 "Td_bp") as (Y & _). congruence. }
  assert (STd : SI c5 "Td_bp" = SI c2 "Td_bp").
  { transitivity (SI c3 "Td_bp").
    - destruct (n_good c3) eqn:NG; [inversion E5; auto|]. rewrite (precalc_SI _ _ "Td_bp" E5) by (left; discriminate).
      clear. cbn [fold_left ref_keys]. unfold ref_start.
      repeat match goal with |- context [if ?b then upd ?k _ _ else _] => destruct b end; reflexivity.
    - unfold first_pass in C. transitivity (SI (from_path file l c2) "Td_bp").
      + revert C. apply (each_inv (fun x y => SI y "Td_bp" = SI x "Td_bp")); [auto|congruence|].
        intros k x y Ik Es. destruct (start_value_kept _ _ _ _ _ _ Es) as (_ & _ & _ & X). unfold SI. rewrite X; [auto|].
        intros <-. cbn in Ik. repeat (destruct Ik as [Ik|Ik]; [discriminate|]). exact Ik.
      + destruct (from_path_kept file l c2) as (_ & _ & _ & _ & X). destruct (X "Td_bp") as [[]|X']; exact X'. }
  exists c5. split; [exact E|]. split; [symmetry; apply (phase_SI _ _ "p" E); left; discriminate|].
  destruct F1 as (a1 & a2 & a3 & a4 & a5), F2 as (b1 & b2 & b3 & b4 & b5), F3 as (d1 & d2 & d3 & d4 & d5), F5 as (e1 & e2 & e3 & e4 & e5), F6 as (g1 & g2 & g3 & g4 & g5).
  split; [congruence|]. split; [congruence|]. split; [congruence|].
  split; [destruct (K6 "h") as (_ & X & _); congruence|]. rewrite SW, STd. split; [exact W|]. split.
  - intros d Wd. eapply wanted_SI; eauto; [vm_compute; auto 20|left; notin].
  - intros d Is Sd. apply W in Is.
    destruct (S2 "Td_bp") as [X|(X & _)]; [|exfalso; revert X; notin].
    unfold wanted. rewrite a2 in X. destruct (dget "Td_bp" (n_off c)) as [w|] eqn:Dk; [congruence|].
    assert (Sk : k_set (n_c c "Td_bp") = true) by (destruct Is as [Is|Is]; [exact Is|apply dget_None_notin in Dk; contradiction]).
    split; [exact Sk|]. destruct (P1 "Td_bp") as (_ & Q & _); [vm_compute; auto 20|]. specialize (Q Sk).
    destruct (k_val (n_c c "Td_bp")) as [u|].
    + exists u. split; [reflexivity|]. cbn [to_SI] in Q. change (entry_unit units "Td_bp") with (units "T"). change (unit_of units "Td_bp") with (units "T") in Q.
      destruct (convert_to_SI "Td_bp" u (units "T")) as [v|]; cbn in Q; [|discriminate]. inversion Q. congruence.
    + cbn [to_SI] in Q. destruct (convert_to_SI "Td_bp" 0 (unit_of units "Td_bp")); cbn in Q; [|discriminate]. inversion Q. congruence.
Qed.

Lemma vapour_start units a file net net' l c c' p hg h : labelled net -> initialise units a file net = Ok net' ->
  dget l net = Some c -> dget l net' = Some c' -> k_var (n_c c' "h") = true -> vapour_wanted units c ->
  k_SI (n_c c' "p") = Some p -> f_hpQ (n_fluid c) p 1 = Ok hg -> 0 <= hg -> k_SI (n_c c' "h") = Some h -> hg <= h.
Proof.
  intros L H D D' V W P G Z S. destruct (phase_end _ _ _ _ _ _ _ _ L H D D') as (c3 & E & Ep & FL & _ & St & Vh & Wd & Sd & _).
  unfold phase_start in E. cbv zeta in E.
  assert (A : (nlt (Some 0%Q) (SI c3 "Td_bp") && isset c3 "Td_bp" || match n_state c3 with Some t => String.eqb t "g" | None => false end)%bool = true).
  { destruct W as [W|(d & W & Wp)].
    - rewrite St, W. cbn. apply Bool.orb_true_r.
    - rewrite (Sd d W). assert (X : isset c3 "Td_bp" = true) by (apply Wd; eapply wanted_wants; eauto). rewrite X.
      apply nlt_spec in Wp. rewrite Wp. reflexivity. }
  assert (B : ((isset c3 "Td_bp" || match n_state c3 with Some _ => true | None => false end) && k_var (n_c c3 "h"))%bool = true).
  { rewrite Vh, V, Bool.andb_true_r. destruct W as [W|(d & W & _)].
    - rewrite St, W. apply Bool.orb_true_r.
    - assert (X : isset c3 "Td_bp" = true) by (apply Wd; eapply wanted_wants; eauto). now rewrite X. }
  rewrite B, A in E. assert (P' : SI c3 "p" = Some p) by (rewrite Ep; exact P). rewrite P', FL in E. cbn [call2] in E. rewrite G in E. cbn [rmap] in E.
  destruct (nlt (SI c3 "h") (Some hg)) eqn:N; inversion E; subst c'; clear E.
  - change (k_SI (n_c (upd "h" (with_SI (Some (hg * (1001 # 1000))%Q)) c3) "h")) with (Some (hg * (1001 # 1000))%Q) in S. inversion S. lra.
  - unfold SI in N. rewrite S in N. apply Qnot_lt_le. intros X. apply nlt_spec in X. congruence.
Qed.

Lemma liquid_start units a file net net' l c c' p hl h : labelled net -> initialise units a file net = Ok net' ->
  dget l net = Some c -> dget l net' = Some c' -> k_var (n_c c' "h") = true -> liquid_wanted units c ->
  k_SI (n_c c' "p") = Some p -> f_hpQ (n_fluid c) p 0 = Ok hl -> 0 <= hl -> k_SI (n_c c' "h") = Some h -> h <= hl.
Proof.
  intros L H D D' V (N1 & N2 & W) P G Z S. destruct (phase_end _ _ _ _ _ _ _ _ L H D D') as (c3 & E & Ep & FL & _ & St & Vh & Wd & Sd & Ss).
  unfold phase_start in E. cbv zeta in E.
  assert (A0 : (nlt (Some 0%Q) (SI c3 "Td_bp") && isset c3 "Td_bp" || match n_state c3 with Some t => String.eqb t "g" | None => false end)%bool = false).
  { apply Bool.orb_false_iff. split.
    - apply Bool.not_true_iff_false. intros X. apply Bool.andb_true_iff in X. destruct X as (X1 & X2).
      destruct (SI c3 "Td_bp") as [d|] eqn:Ed; [|discriminate]. apply N2. exists d. split; [apply Ss; auto|now apply nlt_spec].
    - rewrite St. destruct (n_state c) as [t|]; [|auto]. apply String.eqb_neq. congruence. }
  assert (A : (nlt (SI c3 "Td_bp") (Some 0%Q) && isset c3 "Td_bp" || match n_state c3 with Some t => String.eqb t "l" | None => false end)%bool = true).
  { destruct W as [W|(d & W & Wp)].
    - rewrite St, W. cbn. apply Bool.orb_true_r.
    - rewrite (Sd d W). assert (X : isset c3 "Td_bp" = true) by (apply Wd; eapply wanted_wants; eauto). rewrite X.
      apply nlt_spec in Wp. rewrite Wp. reflexivity. }
  assert (B : ((isset c3 "Td_bp" || match n_state c3 with Some _ => true | None => false end) && k_var (n_c c3 "h"))%bool = true).
  { rewrite Vh, V, Bool.andb_true_r. destruct W as [W|(d & W & _)].
    - rewrite St, W. apply Bool.orb_true_r.
    - assert (X : isset c3 "Td_bp" = true) by (apply Wd; eapply wanted_wants; eauto). now rewrite X. }
  rewrite B, A0, A in E. assert (P' : SI c3 "p" = Some p) by (rewrite Ep; exact P). rewrite P', FL in E. cbn [call2] in E. rewrite G in E. cbn [rmap] in E.
  destruct (nlt (Some hl) (SI c3 "h")) eqn:N; inversion E; subst c'; clear E.
  - change (k_SI (n_c (upd "h" (with_SI (Some (hl * (999 # 1000))%Q)) c3) "h")) with (Some (hl * (999 # 1000))%Q) in S. inversion S. lra.
  - unfold SI in N. rewrite S in N. apply Qnot_lt_le. intros X. apply nlt_spec in X. congruence.
Qed.
