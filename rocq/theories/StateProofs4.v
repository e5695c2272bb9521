(** Lemmas: reported values, starting values, counted specifications. *)
From Coq Require Import QArith Lqa.
From Verif Require Import Base UnitsModel UnitsSpec UnitsProofs StateModel StateSpec StateProofs StateProofs2 StateProofs3.
Open Scope string_scope.
Open Scope list_scope.

(* ---- units of containers ---- *)
Lemma from_path_units file l c k : ~ In k ["m"; "p"; "h"] -> k_unit (n_c (from_path file l c) k) = k_unit (n_c c k).
Proof.
  intros N. unfold from_path. destruct file as [d|]; [|auto]. destruct (dget l d) as [w|]; [|auto].
  cbn [fold_left]. conn_tac.
  destruct (String.eqb k "h") eqn:K1; [apply String.eqb_eq in K1; subst; exfalso; apply N; cbn; auto|].
  destruct (String.eqb k "p") eqn:K2; [apply String.eqb_eq in K2; subst; exfalso; apply N; cbn; auto|].
  destruct (String.eqb k "m") eqn:K3; [apply String.eqb_eq in K3; subst; exfalso; apply N; cbn; auto|]. reflexivity.
Qed.

Lemma first_pass_unit units a file l c c' k : first_pass units a file l c = Ok c' -> file = None \/ ~ In k ["m"; "p"; "h"] ->
  k_unit (n_c c' k) = k_unit (n_c c k).
Proof.
  intros H N. assert (X : k_unit (n_c (from_path file l c) k) = k_unit (n_c c k)).
  { destruct N as [->|N]; [reflexivity|now apply from_path_units]. }
  rewrite <- X. unfold first_pass in H. revert H. generalize (from_path file l c). intros c0.
  apply (each_inv (fun c c' => k_unit (n_c c' k) = k_unit (n_c c k))); [auto|congruence|].
  intros j x y _ E. apply (start_value_kept _ _ _ _ _ _ E).
Qed.

Lemma unit_of_entry units k : unit_of units k = entry_unit units k.
Proof. unfold unit_of, entry_unit. now destruct (String.eqb k "Td_bp"). Qed.

Lemma unit_final units a file sol net net' l c k : labelled net -> solve units a file sol net = Ok net' -> dget l net = Some c ->
  file = None \/ ~ In k ["m"; "p"; "h"] -> In k fpd_keys ->
  exists c4 c', dget l net' = Some c' /\ results (solved sol l c4) = Ok c' /\ k_unit (n_c (solved sol l c4) k) = entry_unit units k /\ k_unit (n_c c' k) = entry_unit units k.
Proof.
  intros (ND & NO) H D N I. specialize (NO l c D).
  destruct (solve_at _ _ _ _ _ _ _ _ ND H D) as (c1 & c2 & c3 & seen & c4 & c' & A & B & C & E & R & D').
  exists c4, c'. split; [exact D'|]. split; [exact R|].
  destruct (set_properties_frame _ _ _ A) as (F1 & _ & N1 & P1).
  assert (ND1 : NoDup (keys (n_off c1))) by (destruct F1 as (_ & X & _); congruence).
  destruct (presolve_spec _ _ B ND1) as (_ & _ & U2 & _).
  destruct (second_pass_kept _ _ _ E) as (_ & (_ & U4)). destruct (solved_kept sol l c4) as (_ & (_ & U5) & _).
  assert (Z : k_unit (n_c (solved sol l c4) k) = entry_unit units k).
  { destruct (U5 k) as (X & _). rewrite X. destruct (U4 k) as (Y & _). rewrite Y.
    rewrite (first_pass_unit _ _ _ _ _ _ k C N). destruct (U2 k) as (_ & _ & W). rewrite W.
    rewrite <- unit_of_entry. apply (P1 k I). }
  split; [exact Z|]. destruct (results_spec _ _ R) as ((_ & _ & X & _) & _). destruct (X k) as (_ & _ & Y). congruence.
Qed.

Lemma from_to k v u w s : convert_to_SI k v u = Ok s -> from_SI k (Some s) u = Ok w -> exists v', w = Some v' /\ v' == v.
Proof.
  intros A B. destruct (roundtrip_in_out k u v s A) as (v' & C & D). unfold from_SI in B. rewrite C in B. cbn in B. inversion B; subst. eauto.
Qed.

Lemma from_to_eq k v u w s s' : convert_to_SI k v u = Ok s -> s' == s -> from_SI k (Some s') u = Ok w -> exists v', w = Some v' /\ v' == v.
Proof.
  intros A E B. destruct (roundtrip_in_out k u v s A) as (v' & C & D). unfold from_SI in B. unfold convert_from_SI in *.
  destruct (String.eqb k "T").
  - destruct (dget u units_T) as [[c0 c1]|]; [|discriminate]. cbn in B. inversion B; subst. inversion C; subst.
    exists (s' / c1 - c0)%Q. split; [reflexivity|]. rewrite <- D, E. reflexivity.
  - destruct (dget k units_lin) as [us|]; [|discriminate]. destruct (dget u us) as [f|]; [|discriminate]. cbn in B. inversion B; subst. inversion C; subst.
    exists (s' / f)%Q. split; [reflexivity|]. rewrite <- D, E. reflexivity.
Qed.

(* ---- reported specifications ---- *)
Lemma mph_reported units a sol net net' l c k u v : labelled net -> solve units a None sol net = Ok net' -> dget l net = Some c ->
  In k ["m"; "p"; "h"] -> k_set (n_c c k) = true -> ~ In k (keys (n_off c)) -> k_val (n_c c k) = Some u ->
  convert_to_SI k u (units k) = Ok v ->
  exists c' u', dget l net' = Some c' /\ k_SI (n_c c' k) = Some v /\ k_val (n_c c' k) = Some u' /\ u' == u /\ k_unit (n_c c' k) = units k.
Proof.
  intros L H D I S N V W. pose proof L as (ND & NO). specialize (NO l c D).
  assert (If : In k fpd_keys) by (cbn in I; repeat (destruct I as [<-|I]; [vm_compute; auto 20|]); contradiction).
  assert (Eu : entry_unit units k = units k) by (cbn in I; repeat (destruct I as [<-|I]; [reflexivity|]); contradiction).
  assert (Wd : wanted units c k v).
  { unfold wanted. assert (X : dget k (n_off c) = None) by now apply dget_None_notin. rewrite X, Eu. eauto. }
  destruct (solve_at _ _ _ _ _ _ _ _ ND H D) as (c1 & c2 & c3 & seen & c4 & c' & A & B & C & E & R & D').
  destruct (unit_final _ _ _ _ _ _ _ _ k L H D (or_introl eq_refl) If) as (c4' & c'' & D'' & _ & _ & U).
  rewrite D' in D''. inversion D''; subst c''. clear D''.
  assert (Sk : SI c2 k = Some v) by (eapply wanted_SI; eauto; right; eapply wanted_wants; eauto).
  destruct (tail_kept _ _ _ _ _ _ _ _ _ _ C E R) as (T1 & T2 & T3 & T4).
  assert (Wk : isset c2 k = true) by (apply (wants_presolved _ _ _ _ k A B NO); eapply wanted_wants; eauto).
  assert (Vk : k_var (n_c c2 k) = false).
  { destruct (set_properties_frame _ _ _ A) as (F1 & _).
    assert (ND1 : NoDup (keys (n_off c1))) by (destruct F1 as (_ & X & _); congruence).
    destruct (presolve_spec _ _ B ND1) as (_ & _ & _ & _ & V2 & _). rewrite V2, Wk by exact I. reflexivity. }
  assert (Sf : SI c' k = Some v).
  { destruct (T4 k I) as [X|X]; [|congruence]. exfalso. eapply not_loose; eauto. right. eapply wanted_wants; eauto. }
  destruct (results_spec _ _ R) as (RK & _ & RV). specialize (RV k If).
  assert (U4 : k_unit (n_c (solved sol l c4) k) = units k) by (destruct RK as (_ & _ & X & _); destruct (X k) as (_ & _ & Y); congruence).
  rewrite Sf, U4 in RV. destruct (from_to _ _ _ _ _ W RV) as (u' & X & Y).
  exists c', u'. repeat split; auto. congruence.
Qed.

Lemma T_reported units a file sol net net' l c c' u : labelled net -> solve units a file sol net = Ok net' -> dget l net = Some c ->
  consistent (n_fluid c) -> unreferenced c "p" -> unreferenced c "h" -> f_mixture (n_fluid c) = false ->
  k_set (n_c c "T") = true -> ~ In "T" (keys (n_off c)) -> k_val (n_c c "T") = Some u ->
  dget l net' = Some c' -> ~ In "T" (n_eqs c') ->
  exists u', k_val (n_c c' "T") = Some u' /\ u' == u /\ k_unit (n_c c' "T") = units "T".
Proof.
  intros L H D CO Up Uh MX S N V D' NE. pose proof L as (ND & NO).
  destruct (solve_at _ _ _ _ _ _ _ _ ND H D) as (c1 & c2 & c3 & seen & c4 & c'' & A & B & C & E & R & D'').
  rewrite D' in D''. inversion D''; subst c''; clear D''.
  assert (Cv : exists v, convert_to_SI "T" u (units "T") = Ok v).
  { destruct (set_properties_frame _ _ _ A) as (_ & _ & _ & P). destruct (P "T") as (_ & Q & _); [vm_compute; auto 20|].
    unfold isset in Q. specialize (Q S). rewrite V in Q. unfold to_SI in Q. change (unit_of units "T") with (units "T") in Q.
    destruct (convert_to_SI "T" u (units "T")) as [v|]; [eauto|discriminate]. }
  destruct Cv as (v & Cv).
  assert (Wd : wanted units c "T" v).
  { unfold wanted. assert (X : dget "T" (n_off c) = None) by now apply dget_None_notin. rewrite X. eauto. }
  destruct (spec_accounted _ _ _ _ _ _ _ _ "T" v L H D CO Up Uh (or_introl eq_refl) Wd) as (cx & Dx & AC).
  rewrite D' in Dx. inversion Dx; subst cx; clear Dx. destruct AC as [AC|(_ & _ & p & h & P1 & P2 & P3)]; [contradiction|].
  destruct P3 as (P3 & _). destruct (P3 eq_refl) as (T & P4 & P5).
  assert (NT : ~ In "T" ["m"; "p"; "h"]) by notin. assert (IT : In "T" fpd_keys) by (vm_compute; auto 20).
  destruct (unit_final _ _ _ _ _ _ _ _ "T" L H D (or_intror NT) IT) as (_ & cx & Dx & _ & _ & U). rewrite D' in Dx. inversion Dx; subst cx; clear Dx.
  destruct (results_spec _ _ R) as ((KF & _ & KU & KM) & (T0 & R1 & R2) & RV). specialize (RV "T" IT).
  assert (FL : n_fluid (solved sol l c4) = n_fluid c').
  { destruct KF as (X & _). congruence. }
  rewrite <- (KM "p"), <- (KM "h"), FL in R1 by (cbn; auto). unfold SI in R1. rewrite P1, P2 in R1. cbn [call2] in R1. rewrite P4 in R1. inversion R1; subst T0.
  destruct (KU "T") as (_ & _ & KU'). rewrite KU' in U. rewrite U in RV.
  destruct R2 as [R2|(R2 & _)].
  - rewrite R2 in RV. change (entry_unit units "T") with (units "T") in *. destruct (from_to_eq _ _ _ _ _ _ Cv P5 RV) as (u' & X & Y).
    exists u'. repeat split; auto. congruence.
  - exfalso. destruct (tail_kept _ _ _ _ _ _ _ _ _ _ C E R) as (T1 & _).
    destruct (wants_presolved _ _ _ _ "T" A B (NO l c D)) as (_ & _ & FL2). congruence.
Qed.

(* ---- as many equations as unknowns disappear ---- *)
Lemma filter_count {A} (P Q : A -> bool) l : (forall x, In x l -> P x = Q x) -> length (filter P l) = length (filter Q l).
Proof. intros H. f_equal. induction l as [|x l IH]; cbn; [auto|]. rewrite H by (left; auto). rewrite IH; [auto|]. intros; apply H; right; auto. Qed.

Lemma eqs_own c k : In k ["T"; "v"; "x"; "Td_bp"] -> smem k (equations c) = isset c k && negb (smem k (n_solved c)).
Proof.
  intros I. destruct (smem k (equations c)) eqn:M.
  - symmetry. apply smem_In in M. unfold equations in M. apply in_app_or in M. destruct M as [M|M].
    + apply filter_In in M. apply M.
    + exfalso. apply in_map_iff in M. destruct M as (j & J & K). apply filter_In in K. destruct K as (K & _). cbn in K, I.
      repeat (destruct I as [<-|I]; [repeat (destruct K as [<-|K]; [vm_compute in J; discriminate J|]); contradiction|]); contradiction.
  - symmetry. apply Bool.not_true_iff_false. intros X. apply Bool.not_true_iff_false in M. apply M. apply smem_In.
    unfold equations. apply in_or_app. left. apply filter_In. auto.
Qed.

Lemma balance units a file sol net net' l c : labelled net -> solve units a file sol net = Ok net' -> dget l net = Some c ->
  exists c', dget l net' = Some c' /\
    count (fun k => k_set (n_c c' k) && negb (smem k (n_eqs c'))) ["T"; "v"; "x"; "Td_bp"] =
    count (fun k => negb (k_set (n_c c' k)) && negb (k_var (n_c c' k))) ["p"; "h"].
Proof.
  intros (ND & NO) H D. specialize (NO l c D).
  destruct (solve_at _ _ _ _ _ _ _ _ ND H D) as (c1 & c2 & c3 & seen & c4 & c' & A & B & C & E & R & D').
  exists c'. split; [exact D'|].
  destruct (tail_kept _ _ _ _ _ _ _ _ _ _ C E R) as (T1 & T2 & T3 & T4).
  destruct (set_properties_frame _ _ _ A) as (F1 & _).
  assert (ND1 : NoDup (keys (n_off c1))) by (destruct F1 as (_ & X & _); congruence).
  destruct (presolve_spec _ _ B ND1) as (_ & _ & _ & _ & V2 & _ & O2 & Q2 & _).
  unfold count.
  rewrite (filter_count _ (fun k => isset c2 k && smem k (n_solved c2)) ["T"; "v"; "x"; "Td_bp"]).
  2:{ intros k I. rewrite T2, Q2, eqs_own by exact I. destruct (T3 k) as (X & _). rewrite X. unfold isset.
      destruct (k_set (n_c c2 k)), (smem k (n_solved c2)); reflexivity. }
  rewrite (filter_count _ (fun k => negb (isset c2 k) && smem k (n_solved c2)) ["p"; "h"]).
  2:{ intros k I. destruct (T3 k) as (X & Y). rewrite X, Y, V2 by (cbn in *; tauto). unfold isset.
      destruct (k_set (n_c c2 k)), (smem k (n_solved c2)); reflexivity. }
  destruct O2 as [|h Ip Ih IT G1 G2|h Ts Ip Ih IT Id G0 G1 G2|h Ip Ih IT Id Ix G1 G2|p h Ip Ih IT Ix G0 G1 G2 G3];
    cbn [filter smem existsb String.eqb Ascii.eqb Bool.eqb orb andb]; rewrite ?Bool.andb_false_r; cbn;
    rewrite ?Ip, ?Ih, ?IT, ?Id, ?Ix; reflexivity.
Qed.

(* ---- temperature differences to boiling ---- *)
Lemma Td_accounted units a file sol net net' l c v : labelled net -> solve units a file sol net = Ok net' -> dget l net = Some c ->
  consistent (n_fluid c) -> unreferenced c "p" -> unreferenced c "h" -> units "T" = "K" \/ units "T" = "C" -> ~ In "Td_bp" (keys (n_off c)) ->
  wanted units c "Td_bp" v -> exists c', dget l net' = Some c' /\ accounted c' "Td_bp" v.
Proof.
  intros (ND & NO) H D (L1 & L2) Up Uh KC NF W. specialize (NO l c D).
  destruct (solve_at _ _ _ _ _ _ _ _ ND H D) as (c1 & c2 & c3 & seen & c4 & c' & A & B & C & E & R & D').
  exists c'. split; [exact D'|].
  destruct (tail_kept _ _ _ _ _ _ _ _ _ _ C E R) as (T1 & T2 & T3 & T4).
  destruct (set_properties_frame _ _ _ A) as (F1 & _ & N1 & P1).
  assert (ND1 : NoDup (keys (n_off c1))) by (destruct F1 as (_ & X & _); congruence).
  destruct (presolve_spec _ _ B ND1) as (F2 & _ & VV & W2 & V2 & _ & O2 & Q2 & _).
  assert (FL : n_fluid c2 = n_fluid c) by (destruct F1 as (X & _); destruct F2 as (Y & _); congruence).
  assert (Wk : isset c2 "Td_bp" = true) by (apply (wants_presolved _ _ _ _ "Td_bp" A B NO); eapply wanted_wants; eauto).
  assert (VAL : exists u, k_val (n_c c2 "Td_bp") = Some u /\ u == v).
  { unfold wanted in W. assert (X : dget "Td_bp" (n_off c) = None) by now apply dget_None_notin. rewrite X in W.
    destruct W as (_ & u & Wu & Wc). exists u. split.
    - destruct (VV "Td_bp") as (Y & _). destruct (N1 "Td_bp") as (_ & _ & Z & _). congruence.
    - change (entry_unit units "Td_bp") with (units "T") in Wc. destruct KC as [K|K]; rewrite K in Wc; cbn in Wc; inversion Wc; lra. }
  destruct VAL as (u & Vu & Vv).
  unfold accounted. rewrite T2.
  destruct (smem "Td_bp" (n_solved c2)) eqn:M; [right|left; rewrite Q2; apply equations_own; auto; cbn; auto].
  assert (Vp : k_var (n_c c2 "p") = negb (isset c2 "p") && negb (smem "p" (n_solved c2))) by (apply V2; cbn; auto).
  assert (Vh : k_var (n_c c2 "h") = negb (isset c2 "h") && negb (smem "h" (n_solved c2))) by (apply V2; cbn; auto).
  destruct O2 as [|h Ip Ih IT G1 G2|h Ts Ip Ih IT Id G0 G1 G2|h Ip Ih IT Id Ix G1 G2|p h Ip Ih IT Ix G0 G1 G2 G3]; try discriminate.
  rewrite FL in G0, G1. rewrite Vu in G1. cbn [nlift] in G1. unfold call1 in G0. unfold call2 in G1. destruct (SI c2 "p") as [p|] eqn:Ep; [|discriminate].
  destruct (L1 _ _ _ G1) as (T' & G3 & G4).
  rewrite Ip in Vp. rewrite Ih in Vh. cbn in Vp, Vh.
  destruct (T3 "p") as (_ & Y1). destruct (T3 "h") as (_ & Y2).
  split; [congruence|]. split; [congruence|]. exists p, h. rewrite T1, FL. split; [|split].
  - destruct (T4 "p" ltac:(cbn; auto)) as [Y|Y]; [|unfold SI in *; congruence]. exfalso. exact (not_loose _ _ _ _ _ A B NO Up Vp Y).
  - destruct (T4 "h" ltac:(cbn; auto)) as [Y|Y]; [|unfold SI in *; congruence]. exfalso. exact (not_loose _ _ _ _ _ A B NO Uh Vh Y).
  - split; [intros X; discriminate X|]. split; [intros X; discriminate X|]. intros _. exists T', Ts. split; [exact G3|]. split; [exact G0|]. lra.
Qed.

(* ---- number of specifications ---- *)
Lemma counted_at_most c c' : presolve c = Ok c' -> NoDup (keys (n_off c)) -> n_known c = true ->
  forall ks, NoDup ks -> (forall k, In k ks -> In k ["m"; "p"; "h"; "T"; "x"; "Td_bp"; "v"] /\ wants c k) -> (length ks <= 3)%nat.
Proof.
  intros H ND K ks NK HK. unfold presolve in H.
  set (o := set_offdesign (with_eqs c [] [])) in *.
  destruct (set_offdesign_from (n_off c) (with_eqs c [] [])) as (A0 & _ & _ & _ & _ & F0 & G0).
  assert (A : frame (with_eqs c [] []) o) by exact A0.
  assert (F : forall k, ~ In k (keys (n_off c)) -> n_c o k = n_c c k) by exact F0.
  assert (G : NoDup (keys (n_off c)) -> forall k w, dget k (n_off c) = Some w -> k_set (n_c o k) = true /\ k_SI (n_c o k) = w) by exact G0.
  clear A0 F0 G0. clearbody o. destruct A as (_ & _ & A3 & _). change (n_known (with_eqs c [] [])) with (n_known c) in A3. rewrite A3, K in H.
  assert (CT : (length (counted o) <= 3)%nat).
  { unfold simplify in H. destruct (Nat.ltb 3 (length (counted o))) eqn:L; [discriminate|]. apply Nat.ltb_ge in L. exact L. }
  eapply Nat.le_trans; [|exact CT]. apply NoDup_incl_length; [exact NK|].
  intros k I. destruct (HK k I) as (I1 & I2). unfold counted. apply filter_In. split; [exact I1|].
  unfold isset. destruct (dget k (n_off c)) as [w|] eqn:D.
  - apply (G ND k w D).
  - apply dget_None_notin in D. rewrite (F k D). destruct I2 as [I2|I2]; [exact I2|contradiction].
Qed.

Lemma at_most_three units a file net net' l c : labelled net -> initialise units a file net = Ok net' -> dget l net = Some c ->
  n_known c = true -> forall ks, NoDup ks -> (forall k, In k ks -> In k ["m"; "p"; "h"; "T"; "x"; "Td_bp"; "v"] /\ wants c k) -> (length ks <= 3)%nat.
Proof.
  intros (ND & NO) H D K ks NK HK. specialize (NO l c D).
  destruct (initialise_at _ _ _ _ _ _ _ ND H D) as (c1 & c2 & c3 & seen & c4 & A & B & _).
  destruct (set_properties_frame _ _ _ A) as (F1 & _ & N1 & _). destruct F1 as (_ & X & Y & _).
  apply (counted_at_most c1 c2 B); [congruence|congruence|exact NK|].
  intros k I. destruct (HK k I) as (I1 & I2). split; [exact I1|]. unfold wants in *. rewrite X. destruct (N1 k) as (Z & _). now rewrite Z.
Qed.
