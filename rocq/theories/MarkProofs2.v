From Coq Require Import QArith.
From Verif Require Import Base MassModel MassSpec MassProofs FluidModel FluidSpec FluidProofs MarkModel MarkSpec MarkProofs.
Open Scope nat_scope.
Open Scope string_scope.
Open Scope list_scope.

Lemma set_shape s main others s' : sound_branch s (main :: others) -> presolve_fluid_branch (main :: others) s = (s', None) ->
  forall c, In c (main :: others) ->
  (no_specs s (main :: others) -> fset s' c = []) /\ incl (fset s' c) (keys (frac s main)).
Proof.
  intros SB H c C. pose proof SB as (NB & S1 & S2 & S3).
  destruct (reduce_shape s main others SB s' H) as (d & set & var & SH & CASES).
  assert (NS : no_specs s (main :: others) -> fset s' c = []).
  { intros N. destruct (SH c C) as (E1 & E2 & E3 & E4), (SH main (or_introl eq_refl)) as (_ & _ & E5 & _). rewrite E3, <- E5.
    unfold presolve_fluid_branch in H. cbv zeta in H.
    assert (Z : concat (map (fun c => fc_set (cont_of s c)) (main :: others)) = []) by (now apply specs_nil). rewrite Z in H.
    destruct (alias_fluid_ok main others s NB) as (L1 & L2 & L3 & L4 & L5 & L6 & L7 & L8 & L9 & L10 & L11); [intros x Hx; split; apply S1; auto|]. cbv zeta in *.
    assert (EA : fc_set (cont_of (alias_fluid main others s) main) = []).
    { rewrite L9. exact (N main (or_introl eq_refl)). }
    destruct (fs_pot s main) as [|g [|g2 l]]; [discriminate| |]; apply (f_equal fst) in H; cbn [fst] in H; subst s'; rewrite EA;
      match goal with |- fset (with_comp main ?d0 ?set0 ?var0 ?s0) main = [] => destruct (with_comp_ok main d0 set0 var0 s0) as (_ & _ & W3 & _) end;
      now apply W3. }
  split; [exact NS|].
  destruct (SH c C) as (E1 & E2 & E3 & E4). rewrite E3.
  assert (SE : forall l, concat (map (fun c => fc_set (cont_of s c)) (main :: others)) = [] -> set = l -> incl l (keys (frac s main))).
  { intros l Z <-. rewrite <- E3, NS by (now apply specs_nil). intros x []. }
  destruct CASES as [(Z & _)|[(Z & _)|(Z & NT & fx & fx' & NF & GF & KF & SF & EC & Ed & Est)]]; [now apply SE|now apply SE|].
  rewrite Est. pose proof (fixed_incl s main others SB fx KF) as IC. pose proof (missing_In (frac s main) fx) as MI.
  destruct (complete_cases (frac s main) fx (main_NoDup s main others SB) NF IC) as [(X & E)|[(X & f & M & E)|[(X & M & E)|(X & E)]]];
    rewrite E in EC; inversion EC; subst fx' var.
  - intros g G. apply keys_dset in G. destruct G as [->|G]; [|now apply IC]. apply MI. rewrite M. now left.
  - exact IC.
  - intros g G. apply in_keys_dget in G. destruct G as (q & G). rewrite zeros_get in G. destruct (smem g _) eqn:Eg.
    + apply smem_In, MI in Eg. tauto.
    + apply IC, in_keys_dget. eauto.
Qed.
Lemma open_dec s main b f : open_fluid s main b f ->
  (forall g, open_fluid s main b g -> g = f) \/ exists g, open_fluid s main b g /\ g <> f.
Proof.
  intros O. set (other g := negb (String.eqb g f) && negb (existsb (fun c => smem g (fset s c)) b)).
  destruct (existsb other (keys (frac s main))) eqn:E.
  - right. apply existsb_exists in E as (g & G & E). unfold other in E. apply andb_true_iff in E as (E1 & E2). exists g. split; [split; [exact G|]|].
    + intros c C F. apply negb_true_iff in E2. assert (X : existsb (fun c => smem g (fset s c)) b = true) by (apply existsb_exists; exists c; split; [exact C|now apply smem_In]). congruence.
    + intros ->. rewrite String.eqb_refl in E1. discriminate.
  - left. intros g (G & N). destruct (String.eqb g f) eqn:E1; [now apply String.eqb_eq|]. exfalso.
    assert (X : existsb other (keys (frac s main)) = true); [|congruence]. apply existsb_exists. exists g. split; [exact G|]. unfold other. rewrite E1. cbn.
    apply negb_true_iff. destruct (existsb (fun c => smem g (fset s c)) b) eqn:E2; [|reflexivity]. apply existsb_exists in E2 as (c & C & F). apply smem_In in F. destruct (N c C F).
Qed.
Lemma branch_settled s main others s' : sound_branch s (main :: others) -> presolve_fluid_branch (main :: others) s = (s', None) ->
  forall c f, In c (main :: others) -> (In f (fset s' c) <-> settled s main (main :: others) f).
Proof.
  intros SB H c f C. destruct (set_shape s main others s' SB H c C) as (NS & IK). pose proof SB as (NB & S1 & S2 & S3).
  destruct (reduce_result s main others SB s' H) as (_ & R2 & R3 & R4 & R5 & _).
  assert (G : (exists d, In d (main :: others) /\ In f (fset s d)) -> In f (fset s' c)).
  { intros (d & D & F). assert (K : In f (keys (frac s d))) by (apply (S2 d d f); auto). apply in_keys_dget in K as (q & K).
    apply (R2 c f q C). exists d. auto. }
  split.
  - intros F. destruct (existsb (fun d => smem f (fset s d)) (main :: others)) eqn:E.
    + left. apply existsb_exists in E as (d & D & E). apply smem_In in E. eauto.
    + right. assert (O : open_fluid s main (main :: others) f).
      { split; [now apply IK|]. intros d D X. assert (Z : existsb (fun d => smem f (fset s d)) (main :: others) = true) by (apply existsb_exists; exists d; split; [exact D|now apply smem_In]). congruence. }
      assert (N : ~ no_specs s (main :: others)) by (intros N; rewrite (NS N) in F; destruct F).
      split; [exact N|]. split; [exact O|]. destruct (Qlt_le_dec (total s (main :: others)) (1 - ERR)) as [L|L]; [|now left]. right.
      destruct (open_dec s main (main :: others) f O) as [U|(g & Og & D)]; [exact U|].
      exfalso. destruct (R5 c g f C N L Og O D f) as (_ & R). now apply R.
  - intros [X|(N & O & [L|U])]; [now apply G| |].
    + now apply (R4 c C L).
    + destruct (Qlt_le_dec (total s (main :: others)) (1 - ERR)) as [L|L]; [now apply (R3 c f C N L O U)|now apply (R4 c C L)].
Qed.
Lemma settled_ext s s1 m b f : In m b -> (forall c, In c b -> fset s1 c = fset s c /\ frac s1 c = frac s c) -> settled s1 m b f -> settled s m b f.
Proof.
  intros M E.
  assert (O : forall g, open_fluid s1 m b g <-> open_fluid s m b g).
  { intros g. unfold open_fluid. rewrite (proj2 (E m M)). split; intros (A & B); (split; [exact A|]); intros c C; specialize (B c C); rewrite (proj1 (E c C)) in *; exact B. }
  assert (T : total s1 b = total s b).
  { unfold total. f_equal. f_equal. apply map_ext_in. intros c C. now rewrite (proj1 (E c C)), (proj2 (E c C)). }
  intros [(d & D & F)|(N & Of & U)]; [left; exists d; now rewrite <- (proj1 (E d D))|]. right.
  split; [intros X; apply N; intros c C; rewrite (proj1 (E c C)); auto|]. split; [now apply O|]. rewrite <- T.
  destruct U as [U|U]; [now left|right]. intros g Og. apply U. now apply O.
Qed.
Lemma presolve_settled bs : forall s s', NoDup (concat bs) -> ~ In [] bs ->
  (forall b, In b bs -> sound_branch s b) -> separate s bs ->
  (forall c d, In c (concat bs) -> In d (concat bs) -> fs_of s c = fs_of s d -> c = d) ->
  presolve_fluids bs s = (s', None) ->
  forall b, In b bs -> exists main, In main b /\ forall c f, In c b -> (In f (fset s' c) <-> settled s main b f).
Proof.
  induction bs as [|b bs IH]; intros s s' ND NE SB SEP INJ H; cbn [presolve_fluids] in H; [intros b []|].
  cbn [concat] in *. destruct (NoDup_app_inv _ _ ND) as (N1 & N2 & N3).
  destruct (presolve_fluid_branch b s) as [s1 [e|]] eqn:EB; [discriminate|].
  assert (SBb : sound_branch s b) by (apply SB; now left).
  destruct b as [|main others]; [exfalso; apply NE; now left|]. pose proof (branch_settled s main others s1 SBb EB) as BS.
  destruct (branch_frame s main others s1 SBb EB) as (F1 & F2 & F3 & F4 & F5 & F6 & F7 & F8 & F9 & F10).
  set (b := main :: others) in *.
  assert (Mb : In main b) by now left.
  pose proof SBb as (_ & Sb1 & Sb2 & Sb3).
  assert (LAT : forall b' c, In b' bs -> In c b' -> ~ In c b /\ fs_of s1 c = fs_of s c /\ cont_of s1 c = cont_of s c /\
    frac s1 c = frac s c /\ fs_pot s1 c = fs_pot s c).
  { intros b' c Hb Hc. assert (CC : In c (concat bs)) by (apply in_concat; eauto).
    assert (NI : ~ In c b) by (intros Hin; exact (N3 c Hin CC)). split; [auto|].
    destruct (F2 c NI) as (G1 & G2). assert (SBc := SB b' (or_intror Hb)). destruct SBc as (_ & SC1 & _).
    destruct (SC1 c Hc) as (_ & _ & Z1 & Z2).
    assert (E1 : cont_of s1 c = cont_of s c).
    { unfold cont_of. rewrite G1. apply F7; [auto|]. intros X. apply NI.
      rewrite (INJ c main); auto; apply in_app_iff; auto. }
    split; [auto|]. split; [auto|]. split; [|now rewrite F6].
    unfold frac. rewrite E1. apply F8; [auto|].
    apply (SEP b' b c main); [now right|now left|auto|auto|]. intros ->. auto. }
  assert (LATC : forall c, In c (concat bs) -> exists b', In b' bs /\ In c b') by (intros c Hc; apply in_concat in Hc; destruct Hc as (b' & ? & ?); eauto).
  assert (P2 : ~ In [] bs) by (intros X; apply NE; now right).
  assert (P3 : forall b', In b' bs -> sound_branch s1 b').
  { intros b' Hb. apply (sound_branch_ext s s1); [|lia|apply SB; now right]. intros c Hc. destruct (LAT b' c Hb Hc) as (_ & X). exact X. }
  assert (P4 : separate s1 bs).
  { intros b1 b2 c d Hb1 Hb2 Hc Hd D. destruct (LAT b1 c Hb1 Hc) as (_ & _ & -> & _), (LAT b2 d Hb2 Hd) as (_ & _ & -> & _). apply (SEP b1 b2); auto; now right. }
  assert (P5 : forall c d, In c (concat bs) -> In d (concat bs) -> fs_of s1 c = fs_of s1 d -> c = d).
  { intros c d Hc Hd E. destruct (LATC c Hc) as (b1 & Hb1 & Hc1), (LATC d Hd) as (b2 & Hb2 & Hd2).
    destruct (LAT b1 c Hb1 Hc1) as (_ & E1 & _), (LAT b2 d Hb2 Hd2) as (_ & E2 & _). apply INJ; try (apply in_app_iff; auto). congruence. }
  intros b' [<-|Hb].
  - destruct (presolve_fluids_ok bs s1 s' N2 P2 P3 P4 P5 H) as (_ & I2 & I3 & _). exists main. split; [exact Mb|]. intros c f C. rewrite <- (BS c f C).
    assert (E : fset s' c = fset s1 c); [|now rewrite E].
    unfold fset, cont_of. rewrite (proj1 (I2 c (N3 c C))), (F1 c C). rewrite I3; [reflexivity| |].
    + destruct (Sb1 main Mb) as (_ & _ & Z1 & _). lia.
    + intros x Hx E. destruct (LATC x Hx) as (b2 & Hb2 & Hx2). destruct (LAT b2 x Hb2 Hx2) as (NI & E2 & _).
      apply NI. rewrite (INJ x main); auto; [apply in_app_iff; auto|apply in_app_iff; auto|congruence].
  - destruct (IH s1 s' N2 P2 P3 P4 P5 H b' Hb) as (m & M & K). exists m. split; [exact M|]. intros c f C. rewrite (K c f C).
    assert (X : forall x, In x b' -> fset s1 x = fset s x /\ frac s1 x = frac s x).
    { intros x Hx. destruct (LAT b' x Hb Hx) as (_ & _ & Z1 & Z2 & _). unfold fset. now rewrite Z1, Z2. }
    split; apply settled_ext; auto. intros x Hx. destruct (X x Hx). auto.
Qed.
Lemma settled_move s m c b f : (forall g, In g (keys (frac s m)) <-> In g (keys (frac s c))) -> settled s m b f <-> settled s c b f.
Proof.
  intros K. assert (O : forall g, open_fluid s m b g <-> open_fluid s c b g) by (intros g; unfold open_fluid; now rewrite K).
  unfold settled. rewrite (O f). split; (intros [X|(N & X & [U|U])]; [now left|right; auto|right]; (split; [exact N|]; split; [exact X|]; right; intros g G; apply U; now apply O)).
Qed.
Lemma mark_fluid mref mbs fbs k fluids ms fs t fs0 : labelled k -> fluids_ok fluids -> fluid_setup k fbs fs ->
  prepare mref mbs fbs k fluids ms fs = Ok t -> propagate (n_ids k) fs = (fs0, None) ->
  forall b c f, In b fbs -> In c b -> In f fluids -> (marked (fst t) (n_label k c) f = true <-> settled fs0 c b f).
Proof.
  intros L F (SC & (OI & OT) & SEP & ND & NE & CV) P PR0 b c f B C Ff. apply prepare_parts in P as (fs0' & ms1 & fs1 & PR & M & PF & ->).
  assert (fs0' = fs0) by congruence. subst fs0'. clear PR0.
  assert (BC : forall b x, In b fbs -> In x b -> In x (n_ids k)) by (intros b0 x Hb Hx; apply CV, in_concat; eauto).
  destruct (tables_get k fluids ms1 fs1 L c (BC b c B C)) as [T1 _]. unfold marked. rewrite T1, row_fluid by assumption. rewrite smem_In.
  destruct (propagate_ok (n_ids k) fs fs0 SC PR) as (P1 & P2 & P3 & P4 & P5 & P6 & P7 & P8).
  assert (NB : forall b, In b fbs -> NoDup b).
  { intros b0 Hb. clear - ND Hb. induction fbs as [|b1 bs' IH]; [destruct Hb|]. cbn in ND. destruct (NoDup_app_inv _ _ ND) as (N1 & N2 & N3). destruct Hb as [<-|Hb]; auto. }
  destruct (presolve_settled fbs fs0 fs1 ND NE) with (b := b) as (m & Mb & K); auto.
  { intros b0 Hb. apply P6; [auto|]. intros x Hx. eauto. }
  { intros b0 b' x y Hb Hb' Hx Hy D. assert (FV : forall z, In z (n_ids k) -> fc_val (cont_of fs0 z) = fc_val (cont_of fs z)).
    { intros z Hz. unfold cont_of. rewrite P8. now rewrite (proj1 (P1 z Hz)). }
    rewrite !FV by eauto. apply (SEP b0 b' x y); auto. }
  { intros x y Hx Hy E. apply CV in Hx, Hy. apply OI; auto. destruct (P1 x Hx) as (<- & _), (P1 y Hy) as (<- & _). auto. }
  change (fc_set (cont_of fs1 c)) with (fset fs1 c). rewrite (K c f C). apply settled_move. intros g.
  rewrite (P2 m g (BC b m B Mb)), (P2 c g (BC b c B C)). tauto.
Qed.
