(** Lemmas: the problem posed by a second calculation. *)
From Coq Require Import QArith Lqa.
From Verif Require Import Base UnitsModel UnitsSpec UnitsProofs StateModel StateSpec StateProofs StateProofs2 StateProofs3 StateProofs4 StateProofs5 StateProofs6
  StateUnitsSpec StateAgainSpec.
Open Scope string_scope.
Open Scope list_scope.

(** Names of the presolved containers as a function of what is specified. *)
Definition names (known : bool) (s : string -> bool) : list string :=
  if negb known then []
  else if negb (s "h") && s "p" then if s "T" then ["h"; "T"] else if s "Td_bp" then ["h"; "Td_bp"] else if s "x" then ["h"; "x"] else []
  else if negb (s "h") && negb (s "p") && s "T" && s "x" then ["T"; "x"; "p"; "h"] else [].

Lemma simplify_names c c' : simplify c = Ok c' -> n_solved c = [] -> n_solved c' = names true (isset c).
Proof.
  unfold simplify, names. cbv zeta. cbn [negb]. destruct (Nat.ltb 3 _); [discriminate|]. intros H N.
  destruct (negb (isset c "h") && isset c "p").
  - destruct (isset c "T"); [destruct (call2 _ _ _); cbn [rmap] in H; inversion H; reflexivity|].
    destruct (isset c "Td_bp").
    { destruct (call1 _ _); cbn [rbind] in H; [|discriminate]. destruct (call2 _ _ _); cbn [rmap] in H; inversion H; reflexivity. }
    destruct (isset c "x"); [destruct (call2 _ _ _); cbn [rmap] in H; inversion H; reflexivity|]. inversion H; subst; exact N.
  - destruct (negb (isset c "h") && negb (isset c "p") && isset c "T" && isset c "x"); [|inversion H; subst; exact N].
    destruct (call1 _ _); cbn [rbind] in H; [|discriminate]. destruct (call2 _ _ _); cbn [rmap] in H; inversion H; reflexivity.
Qed.

Lemma names_ext b s s' : (forall k, s k = s' k) -> names b s = names b s'.
Proof. intros E. unfold names. now rewrite !E. Qed.

Lemma presolve_names c c' : presolve c = Ok c' -> NoDup (keys (n_off c)) -> n_solved c' = names (n_known c) (isset c').
Proof.
  intros H ND. destruct (presolve_spec _ _ H ND) as (_ & _ & _ & W & _ & _ & _ & _ & U).
  unfold presolve in H. set (o := set_offdesign (with_eqs c [] [])) in *.
  assert (O : n_solved o = [] /\ n_known o = n_known c).
  { destruct (set_offdesign_from (n_off c) (with_eqs c [] [])) as (A & _ & C & _). fold (set_offdesign (with_eqs c [] [])) in *. fold o in A, C.
    split; [exact C|]. destruct A as (_ & _ & X & _). exact X. }
  clearbody o. destruct O as (O1 & O2). rewrite O2 in H. destruct (n_known c) eqn:K; [|rewrite U by reflexivity; reflexivity].
  destruct (simplify o) as [s|] eqn:S; cbn [rmap] in H; [|discriminate]. cbv zeta in H. inversion H; subst c'; clear H.
  destruct (simplify_outcome o s S O1) as (_ & _ & _ & N & _). change (n_solved s = names true (isset (with_eqs (assign "h" (assign "p" (assign "m" s))) (n_solved s) (equations (assign "h" (assign "p" (assign "m" s))))))).
  rewrite (simplify_names _ _ S O1). apply names_ext. intros k. destruct (N k) as ((X & _) & _). unfold isset. rewrite <- X.
  unfold assign. conn_tac. destruct (String.eqb k "h"), (String.eqb k "p"), (String.eqb k "m"); reflexivity.
Qed.

(** What a calculation or an initialisation makes of the flags of a connection. *)
Record flags (units : string -> string) (c c' : conn) : Prop := {
  g_set : forall k, k_set (n_c c' k) = true <-> wants c k;
  g_var : forall k, In k ["m"; "p"; "h"] -> k_var (n_c c' k) = negb (k_set (n_c c' k)) && negb (smem k (names (n_known c) (isset c')));
  g_eqs : n_eqs c' = filter (fun k => isset c' k && negb (smem k (names (n_known c) (isset c')))) ["T"; "v"; "x"; "Td_bp"]
                     ++ map (fun k => String.append k "_ref") (filter (fun k => r_set (n_r c k)) ref_keys);
  g_rset : forall k, r_set (n_r c' k) = r_set (n_r c k);
  g_known : n_known c' = n_known c; g_off : n_off c' = n_off c; g_fluid : n_fluid c' = n_fluid c }.

Lemma flags_presolved units c c1 c2 : set_properties units c = Ok c1 -> presolve c1 = Ok c2 -> NoDup (keys (n_off c)) -> flags units c c2.
Proof.
  intros A B ND. destruct (set_properties_frame _ _ _ A) as (F1 & _ & N1 & _). pose proof F1 as (a1 & a2 & a3 & a4 & a5).
  assert (ND1 : NoDup (keys (n_off c1))) by congruence.
  destruct (presolve_spec _ _ B ND1) as (F2 & _ & _ & W2 & V2 & _ & _ & E2 & _). pose proof F2 as (b1 & b2 & b3 & b4 & b5).
  pose proof (presolve_names _ _ B ND1) as NM. rewrite a3 in NM.
  constructor; try congruence.
  - intros k. fold (isset c2 k). rewrite W2. unfold wants. rewrite a2. destruct (N1 k) as (Z & _). now rewrite Z.
  - intros k I. rewrite V2, NM by exact I. reflexivity.
  - rewrite E2. unfold equations. rewrite NM. f_equal. f_equal. apply filter_ext. intros k. congruence.
Qed.

Lemma flags_later units c c2 c' : flags units c c2 -> frame c2 c' -> n_eqs c' = n_eqs c2 ->
  (forall k, k_set (n_c c' k) = k_set (n_c c2 k) /\ k_var (n_c c' k) = k_var (n_c c2 k)) -> flags units c c'.
Proof.
  intros [g1 g2 g3 g4 g5 g6 g7] (F1 & F2 & F3 & F4 & F5) E S.
  assert (SE : forall k, isset c' k = isset c2 k) by (intros k; apply S).
  constructor; try congruence.
  - intros k. destruct (S k) as (-> & _). apply g1.
  - intros k I. destruct (S k) as (-> & ->). rewrite g2 by exact I. now rewrite (names_ext _ _ _ SE).
  - rewrite E, g3, (names_ext _ _ _ SE). f_equal. apply filter_ext. intros k. now rewrite SE.
Qed.

Lemma initialise_flags units a file net net' l c : labelled net -> initialise units a file net = Ok net' -> dget l net = Some c ->
  exists c', dget l net' = Some c' /\ flags units c c'.
Proof.
  intros (ND & NO) H D. destruct (initialise_at _ _ _ _ _ _ _ ND H D) as (c1 & c2 & c3 & seen & c4 & A & B & C & E & G & _).
  exists c4. split; [exact G|]. pose proof (flags_presolved _ _ _ _ A B (NO l c D)) as FL.
  pose proof (first_pass_kept _ _ _ _ _ _ C) as (K1 & K2 & _ & K4 & _). destruct (second_pass_kept _ _ _ E) as ((L1 & L2 & _ & L4 & _) & _).
  eapply flags_later; [exact FL|eapply frame_trans; eauto|congruence|]. intros k. destruct (K4 k) as (X & Y & _), (L4 k) as (X' & Y' & _). split; congruence.
Qed.

Lemma solve_flags units a file sol net net' l c : labelled net -> solve units a file sol net = Ok net' -> dget l net = Some c ->
  exists c', dget l net' = Some c' /\ flags units c c'.
Proof.
  intros (ND & NO) H D. destruct (solve_at _ _ _ _ _ _ _ _ ND H D) as (c1 & c2 & c3 & seen & c4 & c' & A & B & C & E & R & G).
  exists c'. split; [exact G|]. pose proof (flags_presolved _ _ _ _ A B (NO l c D)) as FL.
  pose proof (first_pass_kept _ _ _ _ _ _ C) as (K1 & K2 & _ & K4 & _). destruct (second_pass_kept _ _ _ E) as ((L1 & L2 & _ & L4 & _) & _).
  destruct (solved_kept sol l c4) as ((M1 & M2 & _ & M4 & _) & _). destruct (results_spec _ _ R) as ((R1 & R2 & R3 & _) & _).
  eapply flags_later; [exact FL| |congruence|].
  - eapply frame_trans; [exact K1|]. eapply frame_trans; [exact L1|]. eapply frame_trans; eauto.
  - intros k. destruct (K4 k) as (X & Y & _), (L4 k) as (X' & Y' & _), (M4 k) as (X'' & Y'' & _), (R3 k) as (Z & Z' & _). split; congruence.
Qed.

Lemma solve_keys units a file sol net net' : solve units a file sol net = Ok net' -> keys net' = keys net.
Proof.
  intros H. unfold solve in H. destruct (initialise units a file net) as [n|] eqn:E; cbn [rbind] in H; [|discriminate].
  rewrite (over_keys _ _ _ H), (keys_map (solved sol)). unfold initialise in E.
  destruct (over _ net) as [n1|] eqn:E1; cbn [rbind] in E; [|discriminate].
  destruct (over _ n1) as [n2|] eqn:E2; cbn [rbind] in E; [|discriminate].
  destruct (over _ n2) as [n3|] eqn:E3; cbn [rbind] in E; [|discriminate].
  rewrite (over_keys _ _ _ E), (over_keys _ _ _ E3), (over_keys _ _ _ E2), (over_keys _ _ _ E1). reflexivity.
Qed.

Lemma keyed {V W} (d : dict V) (e : dict W) l w : keys e = keys d -> dget l e = Some w -> exists v, dget l d = Some v.
Proof.
  intros K D. destruct (dget l d) as [v|] eqn:E; [eauto|]. exfalso. apply dget_None_notin in E. apply E. rewrite <- K.
  apply dget_In in D. apply (in_map fst) in D. exact D.
Qed.

Lemma solve_labelled units a file sol net net' : labelled net -> solve units a file sol net = Ok net' -> labelled net'.
Proof.
  intros L H. pose proof L as (ND & NO). pose proof (solve_keys _ _ _ _ _ _ H) as K. split; [now rewrite K|].
  intros l c' D'. destruct (keyed net net' l c' K D') as (c & D). destruct (solve_flags _ _ _ _ _ _ _ _ L H D) as (x & X & F).
  rewrite D' in X. inversion X; subst x. rewrite (g_off _ _ _ F). eapply NO; eauto.
Qed.

Lemma flags_again u u' c c' c'' : flags u c c' -> flags u' c' c'' -> same_problem c' c''.
Proof.
  intros [g1 g2 g3 g4 g5 g6 g7] [h1 h2 h3 h4 h5 h6 h7].
  assert (S : forall k, isset c'' k = isset c' k).
  { intros k. apply Bool.eq_iff_eq_true. unfold isset at 1. rewrite h1. unfold wants. rewrite g6. unfold isset. rewrite g1. unfold wants. tauto. }
  assert (NE : names (n_known c') (isset c'') = names (n_known c) (isset c')) by (rewrite g5; now apply names_ext).
  split; [exact S|]. split.
  - intros k I. rewrite h2, g2, NE by exact I. fold (isset c'' k) (isset c' k). now rewrite S.
  - rewrite h3, g3, NE. f_equal; [apply filter_ext; intros k; now rewrite S|]. f_equal. apply filter_ext. intros k. apply g4.
Qed.

Lemma again_system units units' a a' file file' sol net net' net'' l c' : labelled net -> solve units a file sol net = Ok net' ->
  initialise units' a' file' net' = Ok net'' -> dget l net' = Some c' -> exists c'', dget l net'' = Some c'' /\ same_problem c' c''.
Proof.
  intros L H H2 D'. destruct (keyed net net' l c' (solve_keys _ _ _ _ _ _ H) D') as (c & D).
  destruct (solve_flags _ _ _ _ _ _ _ _ L H D) as (x & X & F). rewrite D' in X. inversion X; subst x; clear X.
  destruct (initialise_flags _ _ _ _ _ _ _ (solve_labelled _ _ _ _ _ _ L H) H2 D') as (c'' & D'' & F2).
  exists c''. split; [exact D''|]. eapply flags_again; eauto.
Qed.

Lemma same_problem_trans a b c : same_problem a b -> same_problem b c -> same_problem a c.
Proof. intros (A1 & A2 & A3) (B1 & B2 & B3). split; [intros k; congruence|]. split; [|congruence]. intros k I. rewrite B2, A2; auto. Qed.

Lemma again_history units runs : forall a sol net net' net'' l c', labelled net -> solve units a None sol net = Ok net' ->
  solves units runs net' = Ok net'' -> dget l net' = Some c' -> exists c'', dget l net'' = Some c'' /\ same_problem c' c''.
Proof.
  induction runs as [|[a' sol'] runs IH]; intros a sol net net' net'' l c' L H H2 D'; cbn [solves] in H2.
  - inversion H2; subst. exists c'. split; [exact D'|]. split; [auto|]. split; auto.
  - destruct (solve units a' None sol' net') as [n|] eqn:E; cbn [rbind] in H2; [|discriminate].
    pose proof (solve_labelled _ _ _ _ _ _ L H) as L'.
    destruct (solve_flags _ _ _ _ _ _ _ _ L' E D') as (x & X & F2).
    destruct (keyed net net' l c' (solve_keys _ _ _ _ _ _ H) D') as (c & D).
    destruct (solve_flags _ _ _ _ _ _ _ _ L H D) as (y & Y & F). rewrite D' in Y. inversion Y; subst y; clear Y.
    destruct (IH _ _ _ _ _ _ _ L' E H2 X) as (c'' & D'' & S). exists c''. split; [exact D''|]. eapply same_problem_trans; [|exact S]. eapply flags_again; eauto.
Qed.

(* ---- values ---- *)

Lemma to_from k u v s q : convert_to_SI k v u = Ok s -> forall t, convert_from_SI k t u = Ok q -> exists t', convert_to_SI k q u = Ok t' /\ t' == t.
Proof. intros _ t F. destruct (roundtrip_out_in _ _ _ _ F) as (r & E & R). exists r. split; assumption. Qed.

(** An SI value that agrees with the specification is shown as what was specified. *)
Lemma shown_keeps units c c' k : (wants c k -> k_set (n_c c' k) = true) -> n_off c' = n_off c -> shown units c' k ->
  (forall v, dget k (n_off c) = None -> wanted units c k v -> exists s, SI c' k = Some s /\ s == v) -> keeps units c c' k.
Proof.
  intros S O SH V v W. unfold wanted. rewrite O. destruct (dget k (n_off c)) as [w|] eqn:E.
  - unfold wanted in W. rewrite E in W. exists v. split; [exact W|reflexivity].
  - destruct (V v eq_refl W) as (s & Hs & Es). unfold shown in SH. unfold SI in Hs. rewrite Hs in SH. destruct SH as (q & Q1 & Q2).
    destruct (roundtrip_out_in _ _ _ _ Q1) as (r & R1 & R2). exists r. split; [|now rewrite R2].
    split; [apply S; eapply wanted_wants; eauto|]. exists q. auto.
Qed.

(** Specified vapour contents and differences to the boiling temperature are not written. *)
Lemma pure_own c c' : pure_results c = Ok c' ->
  (isset c "Td_bp" = true -> SI c' "Td_bp" = SI c "Td_bp") /\
  (isset c "x" = true -> isset c "Td_bp" = true \/ (exists Ts, call1 (f_Tsat (n_fluid c)) (SI c "p") = Ok Ts) -> 
     (exists T, call2 (f_Tph (n_fluid c)) (SI c "p") (SI c "h") = Ok T) -> SI c' "x" = SI c "x").
Proof.
  unfold pure_results. cbv zeta.
  destruct (if isset c "x" then Ok c else _) as [c1|] eqn:E1; cbn [rbind]; [|discriminate].
  assert (A : (forall k, k <> "x" -> SI c1 k = SI c k) /\ (isset c "x" = true -> SI c1 "x" = SI c "x") /\ (forall k, isset c1 k = isset c k)).
  { destruct (isset c "x"); [inversion E1; subst; auto|].
    destruct (catch _) as [x|]; cbn [rmap] in E1; [|discriminate]. inversion E1; subst. split; [|split; [discriminate|]].
    - intros k N. conn_tac. apply String.eqb_neq in N. now rewrite N.
    - intros k. conn_tac. destruct (String.eqb k "x"); auto. }
  match goal with |- rbind ?r _ = _ -> _ => destruct r as [c2|] eqn:E2 end; cbn [rbind]; [|discriminate].
  assert (B : (forall k, SI c2 k = SI c1 k) /\ (forall k, isset c2 k = isset c1 k)).
  { destruct (call2 (f_phase (n_fluid c)) (SI c1 "p") (SI c1 "h")) as [s|[]]; try discriminate; inversion E2; subst; split; reflexivity. }
  destruct A as (A1 & A2 & A3), B as (B1 & B2). intros H.
  rewrite (B2 "Td_bp"), (A3 "Td_bp") in H. rewrite !B1, !A1 in H by discriminate.
  destruct (isset c "Td_bp") eqn:STd.
  - inversion H; subst c'. split; [intros _; now rewrite B1, A1 by discriminate|]. intros X _ _. rewrite B1. auto.
  - split; [discriminate|]. intros X [Y|(Ts & Y)] (T & Z); [discriminate|]. rewrite Z in H. cbn [rbind] in H. rewrite Y in H. cbn [rmap] in H.
    inversion H; subst c'. transitivity (SI c2 "x"); [reflexivity|]. rewrite B1. auto.
Qed.

Lemma results_own c c' : results c = Ok c' ->
  (isset c "Td_bp" = true -> SI c' "Td_bp" = SI c "Td_bp") /\ (isset c "x" = true -> boils c' -> SI c' "x" = SI c "x").
Proof.
  intros H. destruct (results_spec _ _ H) as (((RF & _) & _ & RS & RM) & (T & ET & _) & _).
  unfold results in H. cbv zeta in H. change (n_fluid (with_good c)) with (n_fluid c) in H.
  change (SI (with_good c) "p") with (SI c "p") in H. change (SI (with_good c) "h") with (SI c "h") in H.
  rewrite ET in H. cbn [rbind] in H. set (c1 := upd "T" (with_SI (Some T)) (with_good c)) in *.
  assert (R1 : (forall k, k <> "T" -> SI c1 k = SI c k) /\ (forall k, isset c1 k = isset c k) /\ n_fluid c1 = n_fluid c).
  { unfold c1. split; [|split; [|reflexivity]]; intros k; [intros N|]; conn_tac; destruct (String.eqb k "T") eqn:K; auto. apply String.eqb_eq in K; contradiction. }
  clearbody c1. destruct R1 as (R1 & R1' & R1'').
  destruct (if f_mixture (n_fluid c) then rmap (fun ok => (c1, ok)) (mixture_ok c1 T) else _) as [[c2 ok]|] eqn:E2; cbn [rbind] in H; [|discriminate].
  destruct (if ok then rbind _ _ else Ok _) as [c3|] eqn:E3; cbn [rbind] in H; [|discriminate].
  destruct (each _ fpd_keys c3) as [c4|] eqn:E4; cbn [rmap] in H; [|discriminate].
  destruct (report_each fpd_keys c3 c4 fpd_nodup E4) as (_ & B & _).
  destruct (val0_fold ["m"; "p"; "h"] c4) as (_ & D'). set (c5 := fold_left _ ["m"; "p"; "h"] c4) in *. clearbody c5. inversion H; subst c5; clear H.
  assert (R3 : forall k, In k ["x"; "Td_bp"] -> SI c' k = SI c2 k).
  { intros k I. destruct (D' k) as (_ & X). rewrite X, B. clear X. destruct ok.
    - destruct (call2 (f_vph _) _ _) as [v|]; cbn [rbind] in E3; [|discriminate].
      destruct (call2 (f_sph _) _ _) as [s|]; cbn [rmap] in E3; [|discriminate]. inversion E3; subst.
      cbn [In] in I. destruct I as [<-|[<-|[]]]; reflexivity.
    - inversion E3 as [E5]. cbn [In] in I. destruct I as [<-|[<-|[]]]; reflexivity. }
  assert (FX : n_fluid c' = n_fluid c) by exact RF.
  destruct (f_mixture (n_fluid c)) eqn:MX.
  - destruct (mixture_ok c1 T); cbn [rmap] in E2; [|discriminate]. inversion E2; subst.
    split; intros; rewrite R3 by (cbn; auto); apply R1; discriminate.
  - destruct (pure_results c1) as [cp|] eqn:EP; cbn [rmap] in E2; [|discriminate]. inversion E2; subst cp ok; clear E2.
    destruct (pure_own _ _ EP) as (P1 & P2). split.
    + intros S. rewrite R3 by (cbn; auto). rewrite P1 by now rewrite R1'. apply R1. discriminate.
    + intros S BO. rewrite R3 by (cbn; auto). rewrite P2; [apply R1; discriminate|now rewrite R1'| |].
      * rewrite R1', R1'', R1 by discriminate. destruct BO as [BO|[BO|(p & Ts & BO & BT)]]; [congruence| |].
        -- left. destruct (RS "Td_bp") as (X & _). unfold isset. congruence.
        -- right. exists Ts. rewrite <- (RM "p") by (cbn; auto). unfold SI. rewrite BO. cbn [call1]. congruence.
      * rewrite R1'', !R1 by discriminate. eauto.
Qed.

(** Specified properties other than the enthalpy keep their SI value in the second loop. *)
Lemma ref_start_set net j c k : isset c k = true -> n_c (ref_start net j c) k = n_c c k.
Proof.
  intros S. unfold ref_start. destruct (r_set (n_r c j) && negb (isset c j)) eqn:E; [|reflexivity].
  conn_tac. destruct (String.eqb k j) eqn:K; [|reflexivity]. apply String.eqb_eq in K; subst. apply andb_prop in E. destruct E as (_ & E). rewrite S in E. discriminate.
Qed.
Lemma refs_set net ks k : forall c, isset c k = true -> n_c (fold_left (fun c j => ref_start net j c) ks c) k = n_c c k.
Proof.
  induction ks as [|j ks IH]; intros c S; [reflexivity|]. cbn [fold_left]. rewrite IH; [now apply ref_start_set|].
  unfold isset. now rewrite ref_start_set.
Qed.
Lemma second_set net c c' k : second_pass net c = Ok c' -> isset c k = true -> k <> "h" -> SI c' k = SI c k.
Proof.
  unfold second_pass. intros H S N. destruct (n_good c); cbn [rbind] in H.
  - eapply phase_SI; eauto.
  - destruct (precalc _) as [b|] eqn:P; cbn [rbind] in H; [|discriminate]. rewrite (phase_SI _ _ k H) by auto.
    rewrite (precalc_SI _ _ k P) by auto. unfold SI. now rewrite refs_set.
Qed.
Lemma first_other units a l c c' k : first_pass units a None l c = Ok c' -> ~ In k ["m"; "p"; "h"] -> n_c c' k = n_c c k.
Proof.
  intros C N. unfold first_pass in C. cbn [from_path] in C.
  assert (Z : forall ks a0 a1, (forall j, In j ks -> In j ["m"; "p"; "h"]) -> each (start_value units a l) ks a0 = Ok a1 -> n_c a1 k = n_c a0 k).
  { induction ks as [|j ks IH]; intros a0 a1 J H; [inversion H; reflexivity|].
    destruct (each_cons _ _ _ _ _ H) as (b & Hb & Hr). rewrite (IH b a1); auto; [|intros; apply J; right; auto].
    destruct (start_value_kept _ _ _ _ _ _ Hb) as (_ & _ & _ & Q). apply Q. intros ->. apply N, J. left; auto. }
  exact (Z _ _ _ (fun j I => I) C).
Qed.

Lemma kept_specs units a sol net net' l c : labelled net -> solve units a None sol net = Ok net' -> dget l net = Some c ->
  exists c', dget l net' = Some c' /\ (forall k, In k ["m"; "p"; "h"; "Td_bp"] -> keeps units c c' k) /\ (boils c' -> keeps units c c' "x") /\
    (found c' -> (forall v, wanted units c "T" v -> satisfied c' "T" v) -> keeps units c c' "T") /\
    (found c' -> (forall v, wanted units c "v" v -> has_flow c' v) -> keeps units c c' "v").
Proof.
  intros L H D. pose proof L as (ND & NO). specialize (NO l c D).
  destruct (solve_at _ _ _ _ _ _ _ _ ND H D) as (c1 & c2 & c3 & seen & c4 & c' & A & B & C & E & R & D').
  destruct (solve_flags _ _ _ _ _ _ _ _ L H D) as (x & X & F). rewrite D' in X. inversion X; subst x; clear X.
  destruct (reported _ _ _ _ _ _ _ _ L H D) as (x & p & h & T & X & P & Hh & ET & FL & MX & PU & SH). rewrite D' in X. inversion X; subst x; clear X.
  exists c'. split; [exact D'|].
  assert (ST : forall k, wants c k -> k_set (n_c c' k) = true) by (intros k; apply (g_set _ _ _ F)).
  pose proof (g_off _ _ _ F) as GO.
  assert (SHK : forall k, In k fpd_keys -> shown units c' k) by (intros k K; apply SH; auto).
  destruct (results_own _ _ R) as (OT & OX).
  assert (OWN : forall k v, ~ In k ["m"; "p"; "h"] -> In k fpd_keys -> wanted units c k v -> isset (solved sol l c4) k = true /\ SI (solved sol l c4) k = Some v).
  { intros k v N I W. destruct (solved_kept sol l c4) as (_ & _ & X). unfold SI, isset. rewrite !X by exact N. fold (SI c4 k).
    assert (S2 : isset c2 k = true) by (apply (wants_presolved _ _ _ _ k A B NO); eapply wanted_wants; eauto).
    pose proof (first_other _ _ _ _ _ k C N) as E3. assert (S3 : isset c3 k = true) by (unfold isset; now rewrite E3).
    split; [destruct (second_pass_kept _ _ _ E) as ((_ & _ & _ & L4 & _) & _); destruct (L4 k) as (Z & _); now rewrite Z|].
    rewrite (second_set _ _ _ k E S3); [|intros ->; apply N; cbn; auto]. unfold SI. rewrite E3. fold (SI c2 k).
    eapply wanted_SI; eauto. right. eapply wanted_wants; eauto. }
  assert (DV : found c' -> derived c' p h T).
  { intros FO. destruct (f_mixture (n_fluid c')) eqn:M; [|now apply PU].
    destruct (MX eq_refl) as (hT & Z & [(_ & Q)|(Q & _)]); [exact Q|]. exfalso. apply Q.
    destruct FO as [FO|FO]; [congruence|]. eapply FO; eauto. }
  split; [|split; [|split]].
  - intros k I. cbn [In] in I. assert (CS : In k ["m"; "p"; "h"] \/ k = "Td_bp") by (cbn [In]; intuition auto). destruct CS as [J| ->].
    + assert (If : In k fpd_keys) by (cbn in J; repeat (destruct J as [<-|J]; [vm_compute; auto 20|]); contradiction).
      assert (Eu : entry_unit units k = units k) by (cbn in J; repeat (destruct J as [<-|J]; [reflexivity|]); contradiction).
      apply shown_keeps; auto. intros v NOf W. pose proof W as W'. unfold wanted in W'. rewrite NOf, Eu in W'. destruct W' as (W1 & u & W2 & W3).
      assert (NI : ~ In k (keys (n_off c))) by now apply dget_None_notin.
      destruct (mph_reported _ _ _ _ _ _ _ _ _ _ L H D J W1 NI W2 W3) as (x & u' & Dx & Sx & _). rewrite D' in Dx. inversion Dx; subst x.
      exists v. split; [exact Sx|reflexivity].
    + assert (If : In "Td_bp" fpd_keys) by (vm_compute; auto 20). apply shown_keeps; auto. intros v _ W.
      destruct (OWN "Td_bp" v ltac:(notin) If W) as (S & V). exists v. split; [rewrite OT; auto|reflexivity].
  - intros BO. assert (If : In "x" fpd_keys) by (vm_compute; auto 20). apply shown_keeps; auto. intros v _ W.
    destruct (OWN "x" v ltac:(notin) If W) as (S & V). exists v. split; [rewrite OX; auto|reflexivity].
  - intros FO SA. assert (If : In "T" fpd_keys) by (vm_compute; auto 20). apply shown_keeps; auto. intros v _ W.
    destruct (SA v W) as (p' & h' & P' & H' & Q & _). destruct (Q eq_refl) as (T' & Q1 & Q2). destruct (DV FO) as (DT & _).
    exists T. split; [exact DT|]. rewrite P in P'. inversion P'; subst p'. rewrite Hh in H'. inversion H'; subst h'. rewrite ET in Q1. inversion Q1; subst T'. exact Q2.
  - intros FO SA. assert (If : In "v" fpd_keys) by (vm_compute; auto 20). apply shown_keeps; auto. intros v _ W.
    destruct (SA v W) as (p' & h' & m & s & P' & H' & M' & V' & Q). destruct (DV FO) as (_ & v0 & s0 & V0 & _ & _ & _ & DF).
    rewrite P in P'. inversion P'; subst p'. rewrite Hh in H'. inversion H'; subst h'. rewrite V0 in V'. inversion V'; subst v0.
    rewrite M' in DF. exists (s * m)%Q. split; [exact DF|exact Q].
Qed.
