(** Lemmas: values fixed before the second calculation. *)
From Coq Require Import QArith Lqa.
From Verif Require Import Base UnitsModel UnitsSpec UnitsProofs StateModel StateSpec StateProofs StateProofs2 StateProofs3 StateProofs4 StateProofs5
  StateUnitsSpec StateAgainSpec StateAgainProofs.
Open Scope string_scope.
Open Scope list_scope.

Lemma SI_wanted units c c1 c2 k v : In k fpd_keys -> set_properties units c = Ok c1 -> presolve c1 = Ok c2 -> NoDup (keys (n_off c)) ->
  wants c k -> SI c2 k = Some v -> wanted units c k v.
Proof.
  intros I A B ND W S. destruct (set_properties_frame _ _ _ A) as (F1 & _ & N1 & P1).
  assert (ND1 : NoDup (keys (n_off c1))) by (destruct F1 as (_ & X & _); congruence).
  destruct (presolve_spec _ _ B ND1) as (_ & _ & _ & _ & _ & S2 & _).
  destruct (wants_presolved _ _ _ _ k A B ND) as (W2 & _). destruct F1 as (_ & X & _).
  destruct (S2 k) as [Y|(_ & Y & _)]; [|exfalso; apply W2 in W; congruence].
  rewrite Y, X in S. unfold wanted. destruct (dget k (n_off c)) as [w|] eqn:E; [exact S|].
  destruct W as [W|W]; [|exfalso; apply dget_None_notin in E; contradiction].
  split; [exact W|]. destruct (P1 k I) as (_ & Q & _). specialize (Q W). rewrite S in Q. rewrite unit_of_entry in Q.
  destruct (k_val (n_c c k)) as [u|]; unfold to_SI in Q.
  - exists u. split; [reflexivity|]. destruct (convert_to_SI k u (entry_unit units k)) as [t|]; cbn [rmap] in Q; inversion Q; reflexivity.
  - destruct (convert_to_SI k 0 (entry_unit units k)); cbn [rmap] in Q; discriminate.
Qed.

Lemma to_inj k u w u' v v' : convert_to_SI k u w = Ok v -> convert_to_SI k u' w = Ok v' -> v' == v -> u' == u.
Proof.
  intros A B E. destruct (roundtrip_in_out _ _ _ _ A) as (q & Q1 & Q2).
  destruct (from_to_eq k u w (Some q) v v A ltac:(reflexivity)) as (x & X1 & X2); [cbn; now rewrite Q1|].
  destruct (from_to_eq k u' w (Some q) v' v B) as (y & Y1 & Y2); [symmetry; exact E|cbn; now rewrite Q1|].
  inversion X1; subst x. inversion Y1; subst y. now rewrite <- Y2.
Qed.

(** One connection in one initialisation. *)
Lemma init_fixed units a file net net' l c k : labelled net -> initialise units a file net = Ok net' -> dget l net = Some c ->
  In k ["m"; "p"; "h"] -> unreferenced c k ->
  exists c1 c2 c', set_properties units c = Ok c1 /\ presolve c1 = Ok c2 /\ dget l net' = Some c' /\
    k_var (n_c c2 k) = k_var (n_c c' k) /\ (k_var (n_c c' k) = false -> SI c' k = SI c2 k).
Proof.
  intros (ND & NO) H D I U. destruct (initialise_at _ _ _ _ _ _ _ ND H D) as (c1 & c2 & c3 & seen & c4 & A & B & C & E & G & _).
  exists c1, c2, c4. split; [exact A|]. split; [exact B|]. split; [exact G|].
  pose proof (first_pass_kept _ _ _ _ _ _ C) as KA. destruct (second_pass_kept _ _ _ E) as (KB & _).
  assert (K : kept loose c2 c4).
  { eapply kept_trans; [apply loose_stable| |exact KB]. eapply kept_weaken; [|exact KA]. intros j Uj. left. exact Uj. }
  destruct K as (_ & _ & _ & K4 & K5). destruct (K4 k) as (_ & V & _). split; [congruence|]. intros V'.
  destruct (K5 k) as [X|X]; [|exact X]. exfalso. refine (not_loose _ _ _ _ _ A B (NO l c D) U _ X). congruence.
Qed.

Lemma agree_ok {A} (R : A -> A -> Prop) r1 r2 x y : agree R r1 r2 -> r1 = Ok x -> r2 = Ok y -> R x y.
Proof. intros G -> ->. exact G. Qed.

Lemma again_fixed units a a' sol net net' net'' l c c' c'' k s : labelled net -> solve units a None sol net = Ok net' ->
  initialise units a' None net' = Ok net'' -> dget l net = Some c -> dget l net' = Some c' -> dget l net'' = Some c'' ->
  consistent (n_fluid c) -> respectful (n_fluid c) -> found c' -> (wants c "x" -> boils c') -> ~ In "Td_bp" (keys (n_off c)) ->
  unreferenced c "p" -> unreferenced c "h" -> In k ["m"; "p"; "h"] -> unreferenced c k -> k_var (n_c c'' k) = false -> k_SI (n_c c' k) = Some s ->
  exists s'', k_SI (n_c c'' k) = Some s'' /\ s'' == s.
Proof.
  intros L H H2 D D' D'' CO RE FO BO NT Up Uh I U V S. pose proof L as (ND & NO). specialize (NO l c D).
  pose proof (solve_labelled _ _ _ _ _ _ L H) as L'. pose proof L' as (ND' & NO'). specialize (NO' l c' D').
  destruct (solve_flags _ _ _ _ _ _ _ _ L H D) as (x & X & F). rewrite D' in X. inversion X; subst x; clear X.
  destruct (initialise_flags _ _ _ _ _ _ _ L' H2 D') as (x & X & F2). rewrite D'' in X. inversion X; subst x; clear X.
  destruct (flags_again _ _ _ _ _ F F2) as (SP1 & SP2 & SP3).
  destruct (kept_specs _ _ _ _ _ _ _ L H D) as (x & X & KP & KX & KT & _). rewrite D' in X. inversion X; subst x; clear X.
  destruct (solve_at _ _ _ _ _ _ _ _ ND H D) as (c1 & c2 & c3 & seen & c4 & x & A & B & C & E & R & X).
  rewrite D' in X. inversion X; subst x; clear X.
  destruct (tail_kept _ _ _ _ _ _ _ _ _ _ C E R) as (T1 & T2 & T3 & T4).
  assert (W : forall j, wants c' j <-> wants c j).
  { intros j. unfold wants at 1. rewrite (g_set _ _ _ F), (g_off _ _ _ F). unfold wants. tauto. }
  assert (UU : forall j, unreferenced c j -> unreferenced c' j).
  { intros j [Y|Y]; [left; rewrite (g_rset _ _ _ F); exact Y|right; now apply W]. }
  destruct (init_fixed _ _ _ _ _ _ _ k L' H2 D' I (UU k U)) as (d1 & d2 & x & A' & B' & X & DV & DS). rewrite D'' in X. inversion X; subst x; clear X.
  fold (SI c'' k). rewrite (DS V).
  assert (V2 : k_var (n_c c2 k) = false) by (destruct (T3 k) as (_ & Y); rewrite <- Y, <- (SP2 k I); exact V).
  assert (FIX : forall j, In j ["m"; "p"; "h"] -> unreferenced c j -> k_var (n_c c2 j) = false -> SI c' j = SI c2 j).
  { intros j J Uj Vj. destruct (T4 j J) as [Y|Y]; [|exact Y]. exfalso. exact (not_loose _ _ _ _ _ A B NO Uj Vj Y). }
  assert (S2 : SI c2 k = Some s) by (rewrite <- (FIX k I U V2); exact S).
  destruct (set_properties_frame _ _ _ A) as (F1 & _ & N1 & P1). destruct (set_properties_frame _ _ _ A') as (G1 & _ & M1 & Q1).
  assert (ND1 : NoDup (keys (n_off c1))) by (destruct F1 as (_ & Y & _); congruence).
  assert (ND2 : NoDup (keys (n_off d1))) by (destruct G1 as (_ & Y & _); congruence).
  destruct (presolve_spec _ _ B ND1) as (FF & _ & VV & _ & V2' & _ & OC & _). destruct (presolve_spec _ _ B' ND2) as (GG & _ & WW & _ & W2' & _ & OD & _).
  pose proof (presolve_names _ _ B ND1) as NM. pose proof (presolve_names _ _ B' ND2) as NM'.
  assert (IS : forall j, isset d2 j = isset c2 j).
  { intros j. apply Bool.eq_iff_eq_true. destruct (wants_presolved _ _ _ _ j A B NO) as (Y & _). destruct (wants_presolved _ _ _ _ j A' B' NO') as (Y' & _).
    rewrite Y, Y'. apply W. }
  assert (NE : n_solved d2 = n_solved c2).
  { rewrite NM, NM', (names_ext _ _ _ IS). f_equal. destruct F1 as (_ & _ & Y1 & _), G1 as (_ & _ & Y2 & _). rewrite Y1, Y2. apply (g_known _ _ _ F). }
  assert (FL : n_fluid c2 = n_fluid c /\ n_fluid d2 = n_fluid c).
  { destruct F1 as (Y1 & _), G1 as (Y2 & _), FF as (Y3 & _), GG as (Y4 & _). split; [congruence|]. rewrite Y4, Y2. apply (g_fluid _ _ _ F). }
  destruct FL as (FL1 & FL2).
  (* a kept specification has the same SI value in both calculations *)
  assert (SAME : forall j v, In j fpd_keys -> keeps units c c' j -> isset c2 j = true -> SI c2 j = Some v -> exists v', SI d2 j = Some v' /\ v' == v).
  { intros j v J KE Sj Vj. assert (Wj : wants c j) by (apply (wants_presolved _ _ _ _ j A B NO); exact Sj).
    destruct (KE v (SI_wanted _ _ _ _ _ _ J A B NO Wj Vj)) as (v' & W' & Ev). exists v'. split; [|exact Ev].
    eapply wanted_SI; [exact J|right; apply W; exact Wj|exact A'|exact B'|exact NO'|exact W']. }
  assert (Ik : In k fpd_keys) by (clear - I; cbn in I; repeat (destruct I as [<-|I]; [vm_compute; auto 20|]); contradiction).
  assert (Ip : In "p" fpd_keys) by (vm_compute; auto 20). assert (IT : In "T" fpd_keys) by (vm_compute; auto 20).
  assert (Ix : In "x" fpd_keys) by (vm_compute; auto 20). assert (Id : In "Td_bp" fpd_keys) by (vm_compute; auto 20).
  destruct (isset c2 k) eqn:Sk.
  { apply (SAME k s Ik); auto. apply KP. clear - I. cbn [In] in *. intuition auto. }
  rewrite (V2' k I), Sk in V2. cbn [negb andb] in V2. apply Bool.negb_false_iff, smem_In in V2.
  destruct CO as (L1 & L2). destruct RE as (rT & rQ & rp & rs & _).
  rewrite NE in OD.
  assert (KTT : (exists p h T, SI c' "p" = Some p /\ SI c' "h" = Some h /\ wants c "T" /\ SI c2 "T" = Some T /\ exists T', f_Tph (n_fluid c) p h = Ok T' /\ T' == T) -> keeps units c c' "T").
  { intros (p & h & T & Y1 & Y2 & Y3 & Y4 & T' & Y5 & Y6). apply KT; [exact FO|]. intros v Wv.
    assert (Ev : v = T).
    { assert (Z : SI c2 "T" = Some v) by (eapply wanted_SI; [exact IT|right; exact Y3|exact A|exact B|exact NO|exact Wv]). congruence. }
    subst v. exists p, h. split; [exact Y1|]. split; [exact Y2|]. split; [|split; discriminate]. intros _. exists T'. split; [|exact Y6].
    rewrite (g_fluid _ _ _ F). exact Y5. }
  inversion OC as [O0|h Xp Xh XT Y1 Y2 O0|h Ts Xp Xh XT Xd Y0 Y1 Y2 O0|h Xp Xh XT Xd Xx Y1 Y2 O0|p h Xp Xh XT Xx Y0 Y1 Y2 Y3 O0]; rewrite <- O0 in *.
  - destruct V2.
  - (* T *)
    assert (K : k = "h") by (clear - V2 I; cbn [In] in *; destruct V2 as [<-|[<-|[]]]; [reflexivity|exfalso; destruct I as [Z|[Z|[Z|[]]]]; discriminate Z]). subst k.
    unfold call2 in Y1. destruct (SI c2 "p") as [p|] eqn:Ep; [|discriminate]. destruct (SI c2 "T") as [T|] eqn:ET; [|discriminate]. rewrite FL1 in Y1.
    assert (Vp : k_var (n_c c2 "p") = false) by (rewrite V2', Xp by (cbn; auto); reflexivity).
    assert (Vh : k_var (n_c c2 "h") = false) by (rewrite V2' by (cbn; auto); cbn; apply Bool.andb_false_r).
    destruct (SAME "p" p Ip) as (p'' & P1' & P2'); auto; [apply KP; cbn; auto|].
    destruct (SAME "T" T IT) as (T'' & T1' & T2'); auto.
    { apply KTT. exists p, h, T. rewrite (FIX "p"), (FIX "h") by (cbn; auto). rewrite Ep, Y2. split; [reflexivity|]. split; [reflexivity|].
      split; [apply (wants_presolved _ _ _ _ "T" A B NO); exact XT|]. split; [reflexivity|]. eapply L1; eauto. }
    inversion OD as [|h'' Zp Zh ZT Z1 Z2| | |]. rewrite P1', T1', FL2 in Z1. cbn [call2] in Z1. rewrite Z2. exists h''. split; [reflexivity|].
    rewrite Y2 in S2. inversion S2; subst s. exact (agree_ok _ _ _ _ _ (rT _ _ _ _ P2' T2') Z1 Y1).
  - (* Td_bp *)
    assert (K : k = "h") by (clear - V2 I; cbn [In] in *; destruct V2 as [<-|[<-|[]]]; [reflexivity|exfalso; destruct I as [Z|[Z|[Z|[]]]]; discriminate Z]). subst k.
    assert (Wd : wants c "Td_bp") by (apply (wants_presolved _ _ _ _ "Td_bp" A B NO); exact Xd).
    unfold call1 in Y0. unfold call2 in Y1. destruct (SI c2 "p") as [p|] eqn:Ep; [|discriminate]. rewrite FL1 in Y0, Y1.
    destruct (VV "Td_bp") as (VV1 & _). destruct (N1 "Td_bp") as (_ & _ & VV2 & _). rewrite VV1, VV2 in Y1.
    destruct (k_val (n_c c "Td_bp")) as [u|] eqn:Eu; cbn [nlift] in Y1; [|discriminate].
    destruct (SAME "p" p Ip) as (p'' & P1' & P2'); auto; [apply KP; cbn; auto|].
    assert (NTn : dget "Td_bp" (n_off c) = None) by now apply dget_None_notin.
    destruct Wd as [Wd|Wd]; [|contradiction].
    assert (Wv : exists v, wanted units c "Td_bp" v /\ convert_to_SI "Td_bp" u (entry_unit units "Td_bp") = Ok v).
    { destruct (P1 "Td_bp" Id) as (_ & Q & _). specialize (Q Wd). rewrite Eu, unit_of_entry in Q. unfold to_SI in Q.
      destruct (convert_to_SI "Td_bp" u (entry_unit units "Td_bp")) as [v|] eqn:Ev; cbn [rmap] in Q; [|discriminate]. exists v. split; [|reflexivity].
      unfold wanted. rewrite NTn. eauto. }
    destruct Wv as (v & Wv & Ev). destruct (KP "Td_bp" ltac:(cbn; auto) v Wv) as (v' & Wv' & Evv).
    unfold wanted in Wv'. rewrite (g_off _ _ _ F), NTn in Wv'. destruct Wv' as (_ & u' & Eu' & Ev').
    assert (UE : u' == u) by exact (to_inj _ _ _ _ _ _ Ev Ev' Evv).
    inversion OD as [| |h'' Ts'' Zp Zh ZT Zd Z0 Z1 Z2| |]. destruct (WW "Td_bp") as (WW1 & _). destruct (M1 "Td_bp") as (_ & _ & WW2 & _).
    rewrite P1', FL2 in Z0. cbn [call1] in Z0. rewrite P1', FL2, WW1, WW2, Eu' in Z1. cbn [call2 nlift] in Z1. rewrite Z2. exists h''. split; [reflexivity|].
    rewrite Y2 in S2. inversion S2; subst s. pose proof (agree_ok _ _ _ _ _ (rs _ _ P2') Z0 Y0) as ETs.
    eapply (agree_ok _ _ _ _ _ (rT _ _ _ _ P2' _) Z1 Y1). Unshelve. now rewrite ETs, UE.
  - (* x *)
    assert (K : k = "h") by (clear - V2 I; cbn [In] in *; destruct V2 as [<-|[<-|[]]]; [reflexivity|exfalso; destruct I as [Z|[Z|[Z|[]]]]; discriminate Z]). subst k.
    unfold call2 in Y1. destruct (SI c2 "p") as [p|] eqn:Ep; [|discriminate]. destruct (SI c2 "x") as [x|] eqn:Ex; [|discriminate]. rewrite FL1 in Y1.
    destruct (SAME "p" p Ip) as (p'' & P1' & P2'); auto; [apply KP; cbn; auto|].
    destruct (SAME "x" x Ix) as (x'' & X1' & X2'); auto; [apply KX, BO, (wants_presolved _ _ _ _ "x" A B NO); exact Xx|].
    inversion OD as [| | |h'' Zp Zh ZT Zd Zx Z1 Z2|]. rewrite P1', X1', FL2 in Z1. cbn [call2] in Z1. rewrite Z2. exists h''. split; [reflexivity|].
    rewrite Y2 in S2. inversion S2; subst s. exact (agree_ok _ _ _ _ _ (rQ _ _ _ _ P2' X2') Z1 Y1).
  - (* T and x *)
    unfold call1 in Y0. unfold call2 in Y1. destruct (SI c2 "T") as [T|] eqn:ET; [|discriminate]. destruct (SI c2 "x") as [x|] eqn:Ex; [|discriminate]. rewrite FL1 in Y0, Y1.
    assert (Vp : k_var (n_c c2 "p") = false) by (rewrite V2' by (cbn; auto); cbn; apply Bool.andb_false_r).
    assert (Vh : k_var (n_c c2 "h") = false) by (rewrite V2' by (cbn; auto); cbn; apply Bool.andb_false_r).
    destruct (SAME "T" T IT) as (T'' & T1' & T2'); auto.
    { apply KTT. exists p, h, T. rewrite (FIX "p"), (FIX "h") by (cbn; auto). rewrite Y2, Y3. split; [reflexivity|]. split; [reflexivity|].
      split; [apply (wants_presolved _ _ _ _ "T" A B NO); exact XT|]. split; [reflexivity|]. eapply L2; eauto. }
    destruct (SAME "x" x Ix) as (x'' & X1' & X2'); auto; [apply KX, BO, (wants_presolved _ _ _ _ "x" A B NO); exact Xx|].
    inversion OD as [| | | |p'' h'' Zp Zh ZT Zx Z0 Z1 Z2 Z3]. rewrite T1', FL2 in Z0. cbn [call1] in Z0. rewrite X1', FL2 in Z1. cbn [call2] in Z1.
    pose proof (agree_ok _ _ _ _ _ (rp _ _ T2') Z0 Y0) as EP. pose proof (agree_ok _ _ _ _ _ (rQ _ _ _ _ EP X2') Z1 Y1) as EH.
    clear - V2 I S2 Y2 Y3 Z2 Z3 EP EH. cbn [In] in *. destruct V2 as [<-|[<-|[<-|[<-|[]]]]]; [exfalso; destruct I as [Z|[Z|[Z|[]]]]; discriminate Z|exfalso; destruct I as [Z|[Z|[Z|[]]]]; discriminate Z| |].
    + exists p''. split; [exact Z2|]. rewrite Y2 in S2. inversion S2; subst s. exact EP.
    + exists h''. split; [exact Z3|]. rewrite Y3 in S2. inversion S2; subst s. exact EH.
Qed.
