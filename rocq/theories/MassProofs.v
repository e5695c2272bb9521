(** Lemmas about mass flow reduction. *)
From Verif Require Import MassModel MassSpec.
Open Scope nat_scope.

Lemma fupd_eq {V} k (v : V) f : fupd k v f k = v.
Proof. unfold fupd. now rewrite Nat.eqb_refl. Qed.
Lemma fupd_neq {V} k (v : V) f x : x <> k -> fupd k v f x = f x.
Proof. intros H. unfold fupd. apply Nat.eqb_neq in H. now rewrite H. Qed.

Lemma existsb_In x l : existsb (Nat.eqb x) l = true <-> In x l.
Proof.
  rewrite existsb_exists. split.
  - intros (y & A & B). apply Nat.eqb_eq in B. now subst.
  - intros H. exists x. split; [auto|apply Nat.eqb_refl].
Qed.

Lemma m_is_set_mspec s c : m_is_set s c = true <-> mspec s c <> None.
Proof. unfold m_is_set, mspec. destruct (mc_set _); split; congruence. Qed.

Section R.
Variable mref : nat -> option nat.

Definition noref (b cs : list nat) : Prop := forall c d, In c cs -> mref c = Some d -> ~ In d b.

Lemma scan_ok b s : forall cs num main, noref b cs ->
  exists main', scan mref b cs s num main = Ok (num + length (filter (m_is_set s) cs), main') /\
    (main' = main /\ filter (m_is_set s) cs = [] \/ exists c, main' = Some c /\ In c (filter (m_is_set s) cs)).
Proof.
  induction cs as [|c cs IH]; intros num main NR; cbn [scan].
  - exists main. cbn. rewrite Nat.add_0_r. auto.
  - assert (NR' : noref b cs) by (intros x y Hx; apply NR; now right).
    assert (E : match mref c with
      | Some d => if existsb (Nat.eqb d) b then Err TESPyNetworkError
          else scan mref b cs s (if m_is_set s c then S num else num) (if m_is_set s c then Some c else main)
      | None => scan mref b cs s (if m_is_set s c then S num else num) (if m_is_set s c then Some c else main)
      end = scan mref b cs s (if m_is_set s c then S num else num) (if m_is_set s c then Some c else main)).
    { destruct (mref c) as [d|] eqn:M; [|auto]. destruct (existsb (Nat.eqb d) b) eqn:X; [|auto].
      apply existsb_In in X. exfalso. apply (NR c d); auto. now left. }
    rewrite E. clear E. cbn [filter]. destruct (m_is_set s c) eqn:Es.
    + destruct (IH (S num) (Some c) NR') as (m' & A & B). exists m'. split.
      * rewrite A. cbn [length]. do 2 f_equal. lia.
      * right. destruct B as [(-> & B)|(x & -> & B)]; [exists c; cbn; auto|exists x; cbn; auto].
    + apply IH; auto.
Qed.

Lemma scan_err b s : forall cs num main, ~ noref b cs -> scan mref b cs s num main = Err TESPyNetworkError.
Proof.
  induction cs as [|c cs IH]; intros num main NR; cbn [scan].
  - exfalso. apply NR. intros c d [].
  - destruct (mref c) as [d|] eqn:M.
    + destruct (existsb (Nat.eqb d) b) eqn:X; [auto|]. apply IH. intros H. apply NR.
      intros x y [<-|Hx] E; [|eauto]. intros Hin. apply existsb_In in Hin. congruence.
    + apply IH. intros H. apply NR. intros x y [<-|Hx] E; [congruence|eauto].
Qed.

Lemma noref_dec b cs : noref b cs \/ ~ noref b cs.
Proof.
  induction cs as [|c cs IH]; [left; intros c d []|].
  destruct IH as [IH|IH]; [|right; intros H; apply IH; intros x y Hx; apply H; now right].
  destruct (mref c) as [d|] eqn:M.
  - destruct (in_dec Nat.eq_dec d b) as [D|D].
    + right. intros H. apply (H c d); auto. now left.
    + left. intros x y [<-|Hx] E; [congruence|eauto].
  - left. intros x y [<-|Hx] E; [congruence|eauto].
Qed.

Lemma alias_ok main : forall cs s, NoDup cs ->
  let s' := alias main cs s in
  ms_heap s' = ms_heap s /\
  (forall c, In c cs -> ms_of s' c = ms_of s main /\ ms_tmp s' c = Some (ms_of s c)) /\
  (forall c, ~ In c cs -> ms_of s' c = ms_of s c /\ ms_tmp s' c = ms_tmp s c) /\
  ms_of s' main = ms_of s main.
Proof.
  unfold alias. induction cs as [|c cs IH]; intros s ND; cbn [fold_left]; [cbn; intuition|].
  inversion ND as [|? ? N1 N2]; subst.
  assert (M : ms_of (alias_one main s c) main = ms_of s main).
  { cbn. destruct (Nat.eq_dec main c) as [->|D]; [apply fupd_eq|now apply fupd_neq]. }
  destruct (IH (alias_one main s c) N2) as (A & B & C & D). cbv zeta in *.
  split; [rewrite A; reflexivity|]. split; [|split].
  - intros x [<-|Hx].
    + destruct (C c N1) as (C1 & C2). rewrite C1, C2. cbn. rewrite !fupd_eq. auto.
    + destruct (B x Hx) as (B1 & B2). rewrite B1, B2, M. split; [auto|]. cbn.
      rewrite fupd_neq; [auto|]. intros ->. auto.
  - intros x Hx. cbn in Hx. destruct (C x) as (C1 & C2); [tauto|]. rewrite C1, C2. cbn.
    rewrite !fupd_neq; auto.
  - rewrite D, M. auto.
Qed.

(** What presolving achieves for the branches [bs]. *)
Definition branch_post (s s' : mstate) (b : list nat) : Prop :=
  exists mc, In mc b /\ (forall c, In c b -> ms_of s' c = ms_of s mc) /\
    (mspec s mc <> None \/ forall c, In c b -> mspec s c = None) /\
    (forall c, In c b -> ms_tmp s' c = Some (ms_of s c) \/ (c = mc /\ ms_tmp s' c = ms_tmp s c)).

Lemma filter_one (f : nat -> bool) l x : filter f l = [x] -> In x l /\ f x = true /\ forall y, In y l -> f y = true -> y = x.
Proof.
  intros H. assert (In x (filter f l)) as A by (rewrite H; now left). apply filter_In in A.
  split; [tauto|]. split; [tauto|]. intros y Hy Hf. assert (In y (filter f l)) as B by now apply filter_In.
  rewrite H in B. destruct B as [->|[]]; auto.
Qed.

Lemma branch_ok b s : NoDup b -> b <> [] -> admissible mref s b ->
  exists s', presolve_branch mref b s = (s', None) /\ ms_heap s' = ms_heap s /\ branch_post s s' b /\
    forall c, ~ In c b -> ms_of s' c = ms_of s c /\ ms_tmp s' c = ms_tmp s c.
Proof.
  intros ND NE (A1 & A2). unfold presolve_branch.
  destruct (scan_ok b s b 0 None A2) as (main & E & M). rewrite E. cbn [plus].
  destruct (filter (m_is_set s) b) as [|x [|y l]] eqn:F.
  - cbn [length]. destruct b as [|c0 cs]; [congruence|]. inversion ND as [|? ? N1 N2]; subst.
    destruct (alias_ok c0 cs s N2) as (B1 & B2 & B3 & B4). exists (alias c0 cs s).
    split; [auto|]. split; [auto|]. split.
    + exists c0. split; [now left|]. split; [|split].
      * intros c [<-|Hc]; [auto|]. now apply B2.
      * right. intros c Hc. destruct (mspec s c) eqn:Em; [|auto]. exfalso.
        assert (In c (filter (m_is_set s) (c0 :: cs))); [|rewrite F in H; destruct H].
        apply filter_In. split; [auto|]. apply m_is_set_mspec. congruence.
      * intros c [<-|Hc]; [right; split; [auto|now apply B3]|left; now apply B2].
    + intros c Hc. cbn in Hc. apply B3. tauto.
  - cbn [length]. destruct M as [(_ & M)|(c0 & -> & M)]; [discriminate|]. destruct M as [<-|[]].
    destruct (filter_one _ _ _ F) as (F1 & F2 & F3).
    destruct (alias_ok x b s ND) as (B1 & B2 & B3 & B4). exists (alias x b s).
    split; [auto|]. split; [auto|]. split; [|auto].
    exists x. split; [auto|]. split; [intros c Hc; now apply B2|]. split.
    + left. now apply m_is_set_mspec.
    + intros c Hc. left. now apply B2.
  - exfalso.
    assert (X : In x (filter (m_is_set s) b) /\ In y (filter (m_is_set s) b)) by (rewrite F; cbn; auto).
    destruct X as (X & Y). apply filter_In in X, Y.
    assert (x = y) by (apply A1; try tauto; apply m_is_set_mspec; tauto). subst y.
    assert (NoDup (filter (m_is_set s) b)) as N by now apply NoDup_filter.
    rewrite F in N. inversion N as [|? ? N1 N2]; subst. apply N1. now left.
Qed.

Lemma branch_reject b s : NoDup b -> b <> [] -> ~ admissible mref s b ->
  presolve_branch mref b s = (s, Some TESPyNetworkError).
Proof.
  intros ND NE NA. unfold presolve_branch. destruct (noref_dec b b) as [NR|NR]; [|now rewrite scan_err].
  destruct (scan_ok b s b 0 None NR) as (main & E & M). rewrite E. cbn [plus].
  destruct (filter (m_is_set s) b) as [|x [|y l]] eqn:F.
  - exfalso. apply NA. split; [|exact NR]. intros c d Hc Hd Sc _. exfalso.
    assert (In c (filter (m_is_set s) b)); [|rewrite F in H; destruct H].
    apply filter_In. split; [auto|now apply m_is_set_mspec].
  - exfalso. apply NA. split; [|exact NR]. destruct (filter_one _ _ _ F) as (F1 & F2 & F3).
    intros c d Hc Hd Sc Sd. rewrite (F3 c), (F3 d); auto; now apply m_is_set_mspec.
  - reflexivity.
Qed.

Lemma mspec_ext s s' c : ms_heap s' = ms_heap s -> ms_of s' c = ms_of s c -> mspec s' c = mspec s c.
Proof. unfold mspec. now intros -> ->. Qed.

Lemma admissible_ext s s' b : ms_heap s' = ms_heap s -> (forall c, In c b -> ms_of s' c = ms_of s c) ->
  (admissible mref s' b <-> admissible mref s b).
Proof.
  intros H E. unfold admissible. split; intros (A & B); (split; [|auto]); intros c d Hc Hd; specialize (A c d Hc Hd);
    rewrite (mspec_ext s s' c H (E c Hc)), (mspec_ext s s' d H (E d Hd)) in *; auto.
Qed.

Lemma NoDup_app_inv {A} (l l' : list A) : NoDup (l ++ l') -> NoDup l /\ NoDup l' /\ forall x, In x l -> ~ In x l'.
Proof.
  induction l as [|a l IH]; cbn; intros H; [split; [constructor|auto]|].
  inversion H as [|? ? H1 H2]; subst. destruct (IH H2) as (P & Q & R).
  split; [constructor; [|auto]|split; [auto|]].
  - intros X. apply H1. apply in_app_iff. auto.
  - intros x [<-|X]; [intros Y; apply H1, in_app_iff; auto|auto].
Qed.

Lemma presolve_ok bs : forall s, NoDup (concat bs) -> ~ In [] bs -> (forall b, In b bs -> admissible mref s b) ->
  exists s', presolve_massflow mref bs s = (s', None) /\ ms_heap s' = ms_heap s /\
    (forall b, In b bs -> branch_post s s' b) /\
    forall c, ~ In c (concat bs) -> ms_of s' c = ms_of s c /\ ms_tmp s' c = ms_tmp s c.
Proof.
  induction bs as [|b bs IH]; intros s ND NE AD; cbn [presolve_massflow].
  - exists s. cbn. intuition.
  - cbn [concat] in ND. destruct (NoDup_app_inv _ _ ND) as (N1 & N2 & N3).
    destruct (branch_ok b s N1) as (s1 & E1 & H1 & P1 & F1).
    { intros ->. apply NE. now left. }
    { apply AD. now left. }
    assert (OUT : forall b' c, In b' bs -> In c b' -> ~ In c b).
    { intros b' c Hb Hc Hin. apply (N3 c Hin). apply in_concat. eauto. }
    destruct (IH s1 N2) as (s2 & E2 & H2 & P2 & F2).
    { intros X. apply NE. now right. }
    { intros b' Hb. apply (admissible_ext s s1 b' H1); [|apply AD; now right].
      intros c Hc. apply F1. eauto. }
    exists s2. rewrite E1. split; [auto|]. split; [congruence|]. split.
    + intros b' [<-|Hb].
      * destruct P1 as (mc & A & B & C & D). exists mc. split; [auto|]. split; [|split; [auto|]].
        -- intros c Hc. rewrite (proj1 (F2 c (N3 c Hc))). auto.
        -- intros c Hc. rewrite (proj2 (F2 c (N3 c Hc))). auto.
      * destruct (P2 b' Hb) as (mc & A & B & C & D). exists mc. split; [auto|].
        assert (EQ : forall c, In c b' -> ms_of s1 c = ms_of s c /\ ms_tmp s1 c = ms_tmp s c) by (intros c Hc; apply F1; eauto).
        split; [|split].
        -- intros c Hc. rewrite (B c Hc). now apply EQ.
        -- destruct C as [C|C]; [left|right].
           ++ rewrite <- (mspec_ext s s1 mc H1); [auto|now apply EQ].
           ++ intros c Hc. rewrite <- (mspec_ext s s1 c H1); [auto|now apply EQ].
        -- intros c Hc. destruct (EQ c Hc) as (Q1 & Q2). rewrite <- Q1, <- Q2. auto.
    + intros c Hc. cbn [concat] in Hc. rewrite in_app_iff in Hc.
      destruct (F2 c) as (G1 & G2); [tauto|]. destruct (F1 c) as (K1 & K2); [tauto|]. split; congruence.
Qed.

Lemma presolve_reject bs : forall s, NoDup (concat bs) -> ~ In [] bs -> ~ (forall b, In b bs -> admissible mref s b) ->
  snd (presolve_massflow mref bs s) = Some TESPyNetworkError.
Proof.
  induction bs as [|b bs IH]; intros s ND NE NA; cbn [presolve_massflow].
  - exfalso. apply NA. intros b [].
  - cbn [concat] in ND. destruct (NoDup_app_inv _ _ ND) as (N1 & N2 & N3).
    assert (NB : b <> []) by (intros ->; apply NE; now left).
    assert (AB : admissible mref s b \/ ~ admissible mref s b).
    { destruct (noref_dec b b) as [NR|NR]; [|right; intros (_ & X); auto].
      destruct (filter (m_is_set s) b) as [|x [|y l]] eqn:F.
      - left. split; [|exact NR]. intros c d Hc Hd Sc _. exfalso.
        assert (In c (filter (m_is_set s) b)); [|rewrite F in H; destruct H].
        apply filter_In. split; [auto|now apply m_is_set_mspec].
      - left. split; [|exact NR]. destruct (filter_one _ _ _ F) as (F1 & F2 & F3).
        intros c d Hc Hd Sc Sd. rewrite (F3 c), (F3 d); auto; now apply m_is_set_mspec.
      - right. intros (A1 & _).
        assert (X : In x (filter (m_is_set s) b) /\ In y (filter (m_is_set s) b)) by (rewrite F; cbn; auto).
        destruct X as (X & Y). apply filter_In in X, Y.
        assert (x = y) by (apply A1; try tauto; apply m_is_set_mspec; tauto). subst y.
        assert (NoDup (filter (m_is_set s) b)) as N by now apply NoDup_filter.
        rewrite F in N. inversion N as [|? ? M1 M2]; subst. apply M1. now left. }
    destruct AB as [AB|AB]; [|now rewrite branch_reject].
    destruct (branch_ok b s N1 NB AB) as (s1 & E1 & H1 & P1 & F1). rewrite E1.
    apply IH; auto.
    + intros X. apply NE. now right.
    + intros X. apply NA. intros b' [<-|Hb]; [auto|].
      apply (admissible_ext s s1 b' H1); [|auto]. intros c Hc. apply F1. intros Hin. apply (N3 c Hin). apply in_concat. eauto.
Qed.

(* ---- statements of C17 ---- *)

Lemma presolve_accepts conns bs s : branches_ok bs conns ->
  ((exists s', presolve_massflow mref bs s = (s', None)) <-> forall b, In b bs -> admissible mref s b) /\
  (snd (presolve_massflow mref bs s) = None \/ snd (presolve_massflow mref bs s) = Some TESPyNetworkError).
Proof.
  intros (A & B & C).
  assert (D : (exists s', presolve_massflow mref bs s = (s', None)) \/ snd (presolve_massflow mref bs s) <> None).
  { destruct (presolve_massflow mref bs s) as [s' [e|]]; [right; discriminate|left; eauto]. }
  assert (X : ~ ~ (forall b, In b bs -> admissible mref s b) -> snd (presolve_massflow mref bs s) = None ->
    forall b, In b bs -> admissible mref s b).
  { clear D. intros NN SN. revert s NN SN. induction bs as [|b bs' IH]; intros s NN SN b0 Hb; [destruct Hb|].
    cbn [presolve_massflow] in SN. cbn [concat] in A. destruct (NoDup_app_inv _ _ A) as (N1 & N2 & N3).
    assert (NB : b <> []) by (intros ->; apply B; now left).
    assert (AB : admissible mref s b).
    { destruct (noref_dec b b) as [NR|NR].
      - split; [|exact NR]. intros c d Hc Hd Sc Sd. destruct (Nat.eq_dec c d) as [E|E]; [auto|exfalso].
        apply NN. intros Y. apply E. apply (proj1 (Y b (or_introl eq_refl))); auto.
      - exfalso. apply NN. intros Y. apply NR. exact (proj2 (Y b (or_introl eq_refl))). }
    destruct Hb as [<-|Hb]; [auto|].
    destruct (branch_ok b s N1 NB AB) as (s1 & E1 & H1 & P1 & F1). rewrite E1 in SN.
    assert (EX : forall b', In b' bs' -> (admissible mref s1 b' <-> admissible mref s b')).
    { intros b' Hb'. apply admissible_ext; auto. intros c Hc. apply F1. intros Hin. apply (N3 c Hin). apply in_concat. eauto. }
    apply EX; [auto|]. apply (IH N2); auto.
    - intros Y. apply B. now right.
    - intros x Hx. apply C. cbn. apply in_app_iff. auto.
    - intros NY. apply NN. intros Y. apply NY. intros b' Hb'. apply EX; [auto|]. apply Y. now right. }
  split; [split|].
  - intros (s' & E). apply X; [|now rewrite E]. intros NY.
    pose proof (presolve_reject bs s A B NY) as R. rewrite E in R. discriminate.
  - intros AD. destruct (presolve_ok bs s A B AD) as (s' & E & _). eauto.
  - destruct D as [(s' & E)|D]; [left; now rewrite E|]. right.
    apply presolve_reject; auto. intros AD. apply D. destruct (presolve_ok bs s A B AD) as (s' & E & _). now rewrite E.
Qed.

Lemma presolve_shares conns bs s s' : branches_ok bs conns -> own conns s ->
  presolve_massflow mref bs s = (s', None) ->
  (forall b c d, In b bs -> In c b -> In d b -> ms_of s' c = ms_of s' d) /\
  (forall b b' c d, In b bs -> In b' bs -> In c b -> In d b' -> ms_of s' c = ms_of s' d -> b = b') /\
  (forall b c, In b bs -> In c b ->
     (forall d q, In d b -> mspec s d = Some q -> mspec s' c = Some q) /\
     ((forall d, In d b -> mspec s d = None) -> mspec s' c = None)) /\
  (forall c, ~ In c (concat bs) -> ms_of s' c = ms_of s c) /\ ms_heap s' = ms_heap s.
Proof.
  intros BO (OI & OT) E. pose proof BO as (ND & NE & IC).
  destruct (presolve_accepts conns bs s BO) as (AC & _).
  assert (AD : forall b, In b bs -> admissible mref s b) by (apply AC; eauto).
  destruct (presolve_ok bs s ND NE AD) as (s1 & E1 & H & P & F). rewrite E in E1. inversion E1; subst s1. clear E1.
  assert (IN : forall b c, In b bs -> In c b -> In c conns) by (intros b c Hb Hc; apply IC, in_concat; eauto).
  split; [|split; [|split; [|split]]]; auto.
  - intros b c d Hb Hc Hd. destruct (P b Hb) as (mc & _ & B & _). now rewrite (B c Hc), (B d Hd).
  - intros b b' c d Hb Hb' Hc Hd Eq.
    destruct (P b Hb) as (mc & A & B & _), (P b' Hb') as (mc' & A' & B' & _).
    rewrite (B c Hc), (B' d Hd) in Eq. assert (mc = mc') by (apply OI; eauto). subst mc'.
    clear - ND Hb Hb' A A'. induction bs as [|b0 bs' IH]; [destruct Hb|]. cbn in ND.
    destruct (NoDup_app_inv _ _ ND) as (_ & N2 & N3).
    destruct Hb as [<-|Hb], Hb' as [<-|Hb']; auto; exfalso; [apply (N3 mc A)|apply (N3 mc A')]; apply in_concat; eauto.
  - intros b c Hb Hc. destruct (P b Hb) as (mc & A & B & C & _).
    assert (Q : mspec s' c = mspec s mc) by (unfold mspec; now rewrite H, (B c Hc)).
    split.
    + intros d q Hd Sd. rewrite Q. destruct C as [C|C]; [|rewrite (C d Hd) in Sd; discriminate].
      rewrite (proj1 (AD b Hb) mc d A Hd C); [auto|congruence].
    + intros N. rewrite Q. auto.
  - intros c Hc. now apply F.
Qed.
End R.

(* ---- reset ---- *)

Lemma reset_ok conns s1 (o : nat -> nat) :
  (forall c d, In c conns -> In d conns -> o c = o d -> c = d) ->
  (forall c, In c conns -> ms_tmp s1 c = Some (o c) \/ (ms_tmp s1 c = None /\ ms_of s1 c = o c)) ->
  (forall c, In c conns -> exists mc, In mc conns /\ ms_of s1 c = o mc /\ ms_of s1 mc = o mc) ->
  forall l, NoDup l -> incl l conns ->
  let s := reset_massflow l s1 in
  (forall c, In c l -> ms_of s c = o c /\ ms_tmp s c = None /\
     ms_heap s (o c) = {| mc_set := mc_set (ms_heap s1 (o c)); mc_val := mc_val (ms_heap s1 (ms_of s1 c)) |}) /\
  (forall c, ~ In c l -> ms_of s c = ms_of s1 c /\ ms_tmp s c = ms_tmp s1 c) /\
  (forall a, (forall c, In c l -> o c <> a) -> ms_heap s a = ms_heap s1 a).
Proof.
  intros OI T R. unfold reset_massflow. induction l as [|c l IH] using rev_ind; intros ND IC.
  - cbn. split; [intros c []|auto].
  - apply NoDup_remove in ND as (ND & Nc). rewrite app_nil_r in ND, Nc.
    assert (ICl : incl l conns) by (intros x Hx; apply IC, in_app_iff; auto).
    assert (Hc : In c conns) by (apply IC, in_app_iff; right; now left).
    destruct (IH ND ICl) as (A & B & C). rewrite fold_left_app. cbn [fold_left].
    set (s := fold_left reset_one l s1) in *. destruct (B c Nc) as (B1 & B2).
    assert (VAL : mc_val (ms_heap s (ms_of s1 c)) = mc_val (ms_heap s1 (ms_of s1 c))).
    { destruct (R c Hc) as (mc & M1 & M2 & M3). rewrite M2.
      destruct (in_dec Nat.eq_dec mc l) as [L|L].
      - destruct (A mc L) as (_ & _ & A3). rewrite A3. cbn. now rewrite M3.
      - rewrite C; [auto|]. intros x Hx E. apply L. rewrite <- (OI x mc); auto. }
    assert (OWN : ms_heap s (o c) = ms_heap s1 (o c)).
    { apply C. intros x Hx E. apply Nc. rewrite <- (OI x c); auto. }
    unfold reset_one at 1 2 3 4 5 6. rewrite B2. destruct (T c Hc) as [T1|(T1 & T2)]; rewrite T1; cbv zeta.
    + cbn [ms_of ms_tmp ms_heap]. rewrite B1, VAL. split; [|split].
      * intros x Hx. apply in_app_iff in Hx. destruct (Nat.eq_dec x c) as [->|D].
        -- rewrite !fupd_eq, OWN. auto.
        -- assert (Hl : In x l) by (destruct Hx as [Hx|[Hx|[]]]; [auto|congruence]).
           rewrite !fupd_neq; auto.
      * intros x Hx. rewrite in_app_iff in Hx. cbn in Hx. rewrite !fupd_neq by (intros ->; tauto). apply B. tauto.
      * intros a Ha. rewrite fupd_neq.
        -- apply C. intros x Hx. apply Ha, in_app_iff. auto.
        -- intros ->. apply (Ha c); [apply in_app_iff; right; now left|auto].
    + split; [|split].
      * intros x Hx. apply in_app_iff in Hx. destruct (Nat.eq_dec x c) as [->|D].
        -- rewrite B1, B2, T1, T2, OWN. split; [auto|]. split; [auto|]. destruct (ms_heap s1 (o c)); reflexivity.
        -- apply A. destruct Hx as [Hx|[Hx|[]]]; [auto|congruence].
      * intros x Hx. rewrite in_app_iff in Hx. apply B. tauto.
      * intros a Ha. apply C. intros x Hx. apply Ha, in_app_iff. auto.
Qed.

Lemma solve_keeps mref bs conns work s s' : NoDup conns -> branches_ok bs conns -> own conns s -> solver_ok work ->
  solve_massflow mref bs conns work s = (s', None) ->
  own conns s' /\ (forall c, In c conns -> ms_of s' c = ms_of s c /\ mspec s' c = mspec s c) /\
  (forall b c d, In b bs -> In c b -> In d b ->
     mc_val (ms_heap s' (ms_of s' c)) = mc_val (ms_heap s' (ms_of s' d))).
Proof.
  intros NC BO OW SO H. unfold solve_massflow in H.
  destruct (presolve_massflow mref bs s) as [s1 [e|]] eqn:E; [discriminate|].
  destruct (work (ms_heap s1)) as [h|e] eqn:EW; [|discriminate]. inversion H; subst s'. clear H.
  pose proof BO as (ND & NE & IC). pose proof OW as (OI & OT).
  destruct (presolve_accepts mref conns bs s BO) as (AC & _).
  assert (AD : forall b, In b bs -> admissible mref s b) by (apply AC; eauto).
  destruct (presolve_ok mref bs s ND NE AD) as (s1' & E1 & HH & P & F). rewrite E in E1. inversion E1; subst s1'. clear E1.
  set (s2 := {| ms_heap := h; ms_of := ms_of s1; ms_tmp := ms_tmp s1 |}).
  assert (IN : forall b c, In b bs -> In c b -> In c conns) by (intros b c Hb Hc; apply IC, in_concat; eauto).
  assert (T : forall c, In c conns -> ms_tmp s2 c = Some (ms_of s c) \/ (ms_tmp s2 c = None /\ ms_of s2 c = ms_of s c)).
  { intros c Hc. cbn. destruct (in_dec Nat.eq_dec c (concat bs)) as [L|L].
    - apply in_concat in L. destruct L as (b & Hb & Hcb). destruct (P b Hb) as (mc & A & B & C & D).
      destruct (D c Hcb) as [D1|(-> & D1)]; [auto|]. right. rewrite D1, (B mc A). auto.
    - destruct (F c L) as (F1 & F2). right. rewrite F1, F2. auto. }
  assert (R : forall c, In c conns -> exists mc, In mc conns /\ ms_of s2 c = ms_of s mc /\ ms_of s2 mc = ms_of s mc).
  { intros c Hc. cbn. destruct (in_dec Nat.eq_dec c (concat bs)) as [L|L].
    - apply in_concat in L. destruct L as (b & Hb & Hcb). destruct (P b Hb) as (mc & A & B & C & D).
      exists mc. split; [eauto|]. split; auto.
    - exists c. destruct (F c L) as (F1 & F2). auto. }
  destruct (reset_ok conns s2 (ms_of s) OI T R conns NC (incl_refl _)) as (G1 & G2 & G3). cbv zeta in *.
  set (s3 := reset_massflow conns s2) in *.
  assert (SAME : forall c, In c conns -> ms_of s3 c = ms_of s c) by (intros c Hc; now apply G1).
  split; [|split].
  - split.
    + intros c d Hc Hd. rewrite (SAME c Hc), (SAME d Hd). auto.
    + intros c Hc. now apply G1.
  - intros c Hc. split; [auto|]. unfold mspec. rewrite (SAME c Hc). destruct (G1 c Hc) as (_ & _ & G). rewrite G.
    cbn [mc_set mc_val ms_heap ms_of s2]. destruct (SO _ _ EW (ms_of s c)) as (S1 & S2). rewrite S1, HH.
    destruct (mc_set (ms_heap s (ms_of s c))) eqn:Es; [|auto]. f_equal.
    assert (RT : ms_of s1 c = ms_of s c).
    { destruct (in_dec Nat.eq_dec c (concat bs)) as [L|L]; [|now apply F].
      apply in_concat in L. destruct L as (b & Hb & Hcb). destruct (P b Hb) as (mc & A & B & C & D).
      assert (Sc : mspec s c <> None) by (unfold mspec; rewrite Es; discriminate).
      destruct C as [C|C]; [|exfalso; auto]. rewrite (B c Hcb). f_equal. apply (proj1 (AD b Hb)); auto. }
    rewrite RT, S2; [|now rewrite HH]. now rewrite HH.
  - intros b c d Hb Hc Hd. rewrite (SAME c), (SAME d) by eauto.
    destruct (G1 c) as (_ & _ & Gc); [eauto|]. destruct (G1 d) as (_ & _ & Gd); [eauto|]. rewrite Gc, Gd. cbn [mc_val].
    destruct (P b Hb) as (mc & A & B & C & D). cbn [ms_of s2 ms_heap]. now rewrite (B c Hc), (B d Hd).
Qed.

Lemma solves_keep mref bs conns : NoDup conns -> branches_ok bs conns ->
  forall works s s', own conns s -> (forall w, In w works -> solver_ok w) ->
  solves mref bs conns works s = (s', None) ->
  own conns s' /\ forall c, In c conns -> ms_of s' c = ms_of s c /\ mspec s' c = mspec s c.
Proof.
  intros NC BO. induction works as [|w ws IH]; intros s s' OW SO H; cbn [solves] in H.
  - inversion H; subst. auto.
  - destruct (solve_massflow mref bs conns w s) as [s1 [e|]] eqn:E; [discriminate|].
    destruct (solve_keeps mref bs conns w s s1) as (A & B & _); auto; [apply SO; now left|].
    destruct (IH s1 s') as (C & D); auto; [intros; apply SO; now right|]. split; [auto|].
    intros c Hc. destruct (B c Hc), (D c Hc). split; congruence.
Qed.

(* ---- witness for C18 ---- *)

(** Branches [0;1] and [2;3]; 0 specified, 2 and 3 specified: rejected. The user
    withdraws the specification of 3 and solves again. *)
Definition exs : mstate := {|
  ms_heap := fun a => {| mc_set := negb (Nat.eqb a 1); mc_val := 5 |};
  ms_of := fun c => c; ms_tmp := fun _ => None |}.
Lemma raise_loses_specifications : exists mref bs conns work s,
  NoDup conns /\ branches_ok bs conns /\ own conns s /\ solver_ok work /\
  snd (solve_massflow mref bs conns work s) = Some TESPyNetworkError /\
  (exists c, In c conns /\ mspec s c = None /\ mspec (fst (solve_massflow mref bs conns work s)) c = Some 5%Q) /\
  (let good := withdraw 3 s in snd (solve_massflow mref bs conns work good) = None) /\
  (let bad := withdraw 3 (fst (solve_massflow mref bs conns work s)) in
   snd (solve_massflow mref bs conns work bad) = Some TESPyNetworkError).
Proof.
  exists (fun _ => None), [[0; 1]; [2; 3]], [0; 1; 2; 3], inl, exs.
  split; [repeat constructor; cbn; intuition discriminate|].
  split; [split; [repeat constructor; cbn; intuition discriminate|]; split; [cbn; intuition discriminate|cbn; apply incl_refl]|].
  split; [split; [cbn; auto|cbn; auto]|].
  split; [intros h h' E a; inversion E; auto|].
  split; [reflexivity|]. split; [exists 1; split; [cbn; auto|]; split; reflexivity|].
  split; reflexivity.
Qed.

(** The solver raises after the preparation of one branch of two connections. *)
Definition w_crash : mstate := {|
  ms_heap := fun a => {| mc_set := Nat.eqb a 10; mc_val := if Nat.eqb a 10 then 5 else 1 |};
  ms_of := fun c => 10 + c; ms_tmp := fun _ => None |}.
Lemma crash_loses_specifications : exists mref bs conns work s,
  NoDup conns /\ branches_ok bs conns /\ own conns s /\ solver_ok work /\ (forall b, In b bs -> admissible mref s b) /\
  snd (solve_massflow mref bs conns work s) = Some ValueError /\
  exists c d, In c conns /\ In d conns /\ mspec s c = None /\ mspec (fst (solve_massflow mref bs conns work s)) c = Some 5%Q /\
    ms_of s c <> ms_of s d /\ ms_of (fst (solve_massflow mref bs conns work s)) c = ms_of (fst (solve_massflow mref bs conns work s)) d.
Proof.
  exists (fun _ => None), [[0; 1]], [0; 1], (fun _ => inr ValueError), w_crash.
  split; [repeat constructor; cbn; intuition discriminate|].
  split; [split; [repeat constructor; cbn; intuition discriminate|]; split; [cbn; intuition discriminate|cbn; apply incl_refl]|].
  split; [split; [cbn; intros; lia|cbn; auto]|].
  split; [intros h h' E a; discriminate|].
  split; [intros b [<-|[]]; split; [|discriminate]; intros c d [<-|[<-|[]]] [<-|[<-|[]]] A B; auto; cbn in A, B; congruence|].
  split; [reflexivity|]. exists 1, 0. split; [cbn; auto|]. split; [cbn; auto|]. split; [reflexivity|].
  split; [reflexivity|]. split; [discriminate|reflexivity].
Qed.
