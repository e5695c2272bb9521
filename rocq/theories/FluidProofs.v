(** Lemmas about fluid composition reduction. *)
From Coq Require Import Lqa Permutation.
From Verif Require Import MassModel MassProofs FluidModel FluidSpec.
Open Scope nat_scope.
Open Scope list_scope.

(* ---- sums ---- *)

Lemma qsum_perm l l' : Permutation l l' -> (qsum l == qsum l')%Q.
Proof.
  unfold qsum. induction 1 as [|x l l' P IH|x y l|l l' l'' P IH P' IH']; cbn [fold_right].
  - reflexivity.
  - now rewrite IH.
  - lra.
  - now rewrite IH.
Qed.
Lemma qsum_app l l' : (qsum (l ++ l') == qsum l + qsum l')%Q.
Proof. unfold qsum. induction l as [|x l IH]; cbn [app fold_right]; [lra|]. rewrite IH. lra. Qed.

Definition getq (d : dict Q) (f : string) : Q := match dget f d with Some q => q | None => 0%Q end.

Lemma values_keys d : NoDup (keys d) -> values d = map (getq d) (keys d).
Proof.
  intros H. unfold values, keys. rewrite map_map. apply map_ext_in. intros [f q] Hin. cbn. unfold getq.
  now rewrite (In_dget f q d H Hin).
Qed.
Lemma values_sum_keys d l : NoDup (keys d) -> Permutation (keys d) l -> (qsum (values d) == qsum (map (getq d) l))%Q.
Proof. intros H P. rewrite (values_keys d H). apply qsum_perm. now apply Permutation_map. Qed.

(* ---- has_dup ---- *)

Lemma has_dup_NoDup l : has_dup l = false <-> NoDup l.
Proof.
  induction l as [|x l IH]; cbn [has_dup]; [split; [constructor|auto]|]. rewrite orb_false_iff, IH. split.
  - intros (A & B). constructor; [|auto]. intros H. apply smem_In in H. congruence.
  - intros H. inversion H as [|? ? A B]; subst. split; [|auto]. destruct (smem x l) eqn:E; [|auto].
    apply smem_In in E. tauto.
Qed.

Lemma concat_NoDup_iff {A} (g : A -> list string) (b : list A) :
  NoDup b -> (forall c, In c b -> NoDup (g c)) ->
  (NoDup (concat (map g b)) <-> forall c d f, In c b -> In d b -> c <> d -> In f (g c) -> ~ In f (g d)).
Proof.
  induction b as [|c b IH]; intros NB NG; cbn [map concat].
  - split; [intros _ c d f []|constructor].
  - inversion NB as [|? ? N1 N2]; subst.
    assert (IH' := IH N2 (fun c H => NG c (or_intror H))). split.
    + intros H. destruct (NoDup_app_inv _ _ H) as (P & Q & R).
      intros x y f [<-|Hx] [<-|Hy] D F1 F2; [congruence| | |].
      * apply (R f F1). apply in_concat. exists (g y). split; [now apply in_map|auto].
      * apply (R f F2). apply in_concat. exists (g x). split; [now apply in_map|auto].
      * apply (proj1 IH' Q x y f); auto.
    + intros H.
      assert (NoDup (concat (map g b))) as NC by (apply IH'; intros x y f Hx Hy; apply H; now right).
      assert (DJ : forall f, In f (g c) -> ~ In f (concat (map g b))).
      { intros f F1 F2. apply in_concat in F2. destruct F2 as (l & F2 & F3). apply in_map_iff in F2.
        destruct F2 as (y & <- & Hy). apply (H c y f); auto; [now left|now right|intros ->; auto]. }
      clear - NC DJ NG. assert (NoDup (g c)) as NGc by (apply NG; now left). clear NG.
      induction (g c) as [|x l IHl]; [auto|]. inversion NGc as [|? ? M1 M2]; subst. cbn. constructor.
      * rewrite in_app_iff. intros [X|X]; [auto|]. apply (DJ x); [now left|auto].
      * apply IHl; auto. intros f F. apply DJ. now right.
Qed.

(* ---- fixed fractions ---- *)

Lemma fixed_of_ok d set : forall specs acc,
  (forall f, In f set -> In f (keys d)) -> NoDup (keys acc) ->
  exists r, fixed_of d set specs acc = Ok r /\ NoDup (keys r) /\
    forall f, dget f r = if smem f set && smem f specs then dget f d else dget f acc.
Proof.
  induction specs as [|g specs IH]; intros acc IN ND; cbn [fixed_of].
  - exists acc. split; [auto|]. split; [auto|]. intros f. cbn. now rewrite andb_false_r.
  - destruct (smem g set) eqn:Eg.
    + destruct (dget g d) as [q|] eqn:Ed.
      * destruct (IH (dset g q acc) IN (NoDup_keys_dset _ _ _ ND)) as (r & A & B & C). exists r.
        split; [auto|]. split; [auto|]. intros f. rewrite C. unfold smem at 4. cbn [existsb]. fold (smem f specs).
        destruct (String.eqb f g) eqn:Ef; cbn [orb].
        -- apply String.eqb_eq in Ef. subst g. rewrite Eg. cbn. rewrite dget_dset_eq, Ed. now destruct (smem f specs).
        -- apply String.eqb_neq in Ef. rewrite dget_dset_neq by auto. auto.
      * exfalso. apply dget_None_notin in Ed. apply Ed, IN. now apply smem_In.
    + destruct (IH acc IN ND) as (r & A & B & C). exists r. split; [auto|]. split; [auto|]. intros f. rewrite C.
      unfold smem at 4. cbn [existsb]. fold (smem f specs). destruct (String.eqb f g) eqn:Ef; cbn [orb]; [|auto].
      apply String.eqb_eq in Ef. subst g. rewrite Eg. cbn. auto.
Qed.

Lemma fixed_fractions_ok specs : forall cs acc,
  (forall d set, In (d, set) cs -> (forall f, In f set -> In f (keys d)) /\ incl set specs) ->
  (forall i j f d set d' set', i <> j -> nth_error cs i = Some (d, set) -> nth_error cs j = Some (d', set') ->
     In f set -> ~ In f set') ->
  NoDup (keys acc) ->
  exists r, fixed_fractions specs cs acc = Ok r /\ NoDup (keys r) /\
    (forall d set f, In (d, set) cs -> In f set -> dget f r = dget f d) /\
    (forall f, (forall d set, In (d, set) cs -> ~ In f set) -> dget f r = dget f acc).
Proof.
  induction cs as [|[d set] cs IH]; intros acc IN DJ ND; cbn [fixed_fractions].
  - exists acc. split; [auto|]. split; [auto|]. split; [intros d set f []|auto].
  - destruct (IN d set (or_introl eq_refl)) as (I1 & I2).
    destruct (fixed_of_ok d set specs acc I1 ND) as (r1 & A & B & C). rewrite A. cbn [rbind].
    destruct (IH r1) as (r & A' & B' & C' & D').
    { intros d0 set0 H. apply IN. now right. }
    { intros i j f d0 set0 d1 set1 Hij Hi Hj. apply (DJ (S i) (S j) f d0 set0 d1 set1); auto. }
    { auto. }
    exists r. split; [auto|]. split; [auto|]. split.
    + intros d0 set0 f [E|H] F; [|exact (C' d0 set0 f H F)]. inversion E; subst d0 set0. rewrite (D' f).
      * rewrite C. assert (smem f set = true) as -> by now apply smem_In.
        assert (smem f specs = true) as -> by now apply smem_In, I2. auto.
      * intros d1 set1 H. destruct (In_nth_error _ _ H) as (k & Hk).
        apply (DJ 0 (S k) f d set d1 set1); auto.
    + intros f N. rewrite (D' f).
      * rewrite C. assert (smem f set = false) as ->; [|auto]. destruct (smem f set) eqn:E; [|auto].
        apply smem_In in E. exfalso. apply (N d set); [now left|auto].
      * intros d0 set0 H. apply (N d0 set0). now right.
Qed.

(* ---- completing the composition ---- *)

Definition upd_all (fixed d : dict Q) : dict Q := fold_left (fun acc fq => dset (fst fq) (snd fq) acc) fixed d.

Lemma upd_all_get fixed : forall d f, NoDup (keys fixed) ->
  dget f (upd_all fixed d) = match dget f fixed with Some q => Some q | None => dget f d end.
Proof.
  unfold upd_all. induction fixed as [|[g q] fixed IH]; intros d f ND; cbn [fold_left]; [auto|].
  cbn [keys map fst] in ND. inversion ND as [|? ? N1 N2]; subst. fold (keys fixed) in N1. rewrite IH by auto. cbn [fst snd dget].
  destruct (String.eqb f g) eqn:E.
  - apply String.eqb_eq in E. subst g. destruct (dget f fixed) eqn:E2.
    + exfalso. apply N1. apply dget_In in E2. change f with (fst (f, q0)). now apply in_map.
    + apply dget_dset_eq.
  - apply String.eqb_neq in E. now rewrite dget_dset_neq.
Qed.
Lemma upd_all_NoDup fixed : forall d, NoDup (keys d) -> NoDup (keys (upd_all fixed d)).
Proof.
  unfold upd_all. induction fixed as [|[g q] fixed IH]; intros d ND; cbn [fold_left]; [auto|].
  apply IH. now apply NoDup_keys_dset.
Qed.
Lemma in_keys_dget {V} f (d : dict V) : In f (keys d) <-> exists q, dget f d = Some q.
Proof.
  split.
  - intros H. destruct (dget f d) eqn:E; [eauto|]. apply dget_None_notin in E. tauto.
  - intros (q & H). apply dget_In in H. change f with (fst (f, q)). now apply in_map.
Qed.

Lemma zeros_get l : forall d f, dget f (fold_left (fun acc g => dset g 0%Q acc) l d) = if smem f l then Some 0%Q else dget f d.
Proof.
  induction l as [|g l IH]; intros d f; cbn [fold_left]; [auto|]. rewrite IH. unfold smem at 2. cbn [existsb]. fold (smem f l).
  destruct (smem f l); [now rewrite orb_true_r|]. rewrite orb_false_r. destruct (String.eqb f g) eqn:E.
  - apply String.eqb_eq in E. subst. apply dget_dset_eq.
  - apply String.eqb_neq in E. now apply dget_dset_neq.
Qed.
Lemma zeros_NoDup l : forall d : dict Q, NoDup (keys d) -> NoDup (keys (fold_left (fun acc g => dset g 0%Q acc) l d)).
Proof. induction l as [|g l IH]; intros d H; cbn [fold_left]; [auto|]. apply IH. now apply NoDup_keys_dset. Qed.

Lemma dset_app_new {V} f (q : V) d : ~ In f (keys d) -> dset f q d = d ++ [(f, q)].
Proof.
  induction d as [|[g v] d IH]; cbn; intros H; [auto|]. destruct (String.eqb f g) eqn:E.
  - apply String.eqb_eq in E. subst. exfalso. auto.
  - rewrite IH; auto.
Qed.

Lemma zeros_app l : forall d : dict Q, NoDup l -> (forall f, In f l -> ~ In f (keys d)) ->
  fold_left (fun acc g => dset g 0%Q acc) l d = d ++ map (fun g => (g, 0%Q)) l.
Proof.
  induction l as [|g l IH]; intros d ND N; cbn [fold_left map]; [now rewrite app_nil_r|].
  inversion ND as [|? ? N1 N2]; subst. rewrite dset_app_new by (apply N; now left).
  rewrite IH; [now rewrite <- app_assoc|auto|]. intros f Hf. unfold keys. rewrite map_app. cbn. rewrite in_app_iff.
  intros [X|[X|[]]]; [apply (N f); [now right|auto]|subst; auto].
Qed.

Section Complete.
Variable main fixed : dict Q.
Hypothesis NM : NoDup (keys main).
Hypothesis NF : NoDup (keys fixed).
Hypothesis IN : incl (keys fixed) (keys main).
Let missing := filter (fun f => negb (dmem f fixed)) (keys main).
Let sum := qsum (values fixed).

Lemma missing_In f : In f missing <-> In f (keys main) /\ ~ In f (keys fixed).
Proof.
  unfold missing. rewrite filter_In, negb_true_iff. split; intros (A & B); split; auto.
  - intros H. apply dmem_In in H. congruence.
  - destruct (dmem f fixed) eqn:E; [|auto]. apply dmem_In in E. tauto.
Qed.
Lemma missing_NoDup : NoDup missing.
Proof. now apply NoDup_filter. Qed.
Lemma missing_perm : Permutation (keys main) (keys fixed ++ missing).
Proof.
  apply NoDup_Permutation; auto.
  - pose proof missing_NoDup as NMi. pose proof missing_In as MI.
    assert (G : forall l, NoDup l -> (forall f, In f l -> In f (keys fixed)) -> NoDup (l ++ missing)).
    { induction l as [|x l IH]; intros N1 N2; [auto|]. inversion N1 as [|? ? M1 M2]; subst. cbn. constructor.
      - rewrite in_app_iff. intros [X|X]; [auto|]. apply MI in X. apply X, N2. now left.
      - apply IH; auto. intros f Hf. apply N2. now right. }
    apply G; auto.
  - intros f. rewrite in_app_iff, missing_In. split.
    + intros H. destruct (in_dec string_dec f (keys fixed)); auto.
    + intros [H|H]; [apply IN; auto|tauto].
Qed.
Lemma missing_length : length main = length fixed + length missing.
Proof.
  pose proof (Permutation_length missing_perm) as H. rewrite app_length in H. unfold keys in H. now rewrite !map_length in H.
Qed.

Lemma complete_cases :
  ((1 + ERR < sum)%Q /\ complete main fixed = Err ValueError) \/
  ((sum < 1 - ERR)%Q /\ exists f, missing = [f] /\ complete main fixed = Ok (dset f (1 - sum)%Q fixed, [])) \/
  ((sum < 1 - ERR)%Q /\ length missing <> 1 /\ complete main fixed = Ok (fixed, missing)) \/
  ((1 - ERR <= sum <= 1 + ERR)%Q /\ complete main fixed = Ok (fold_left (fun acc f => dset f 0%Q acc) missing fixed, [])).
Proof.
  unfold complete. fold sum. fold missing. cbv zeta.
  unfold Qltb. destruct (Qle_bool sum (1 + ERR)) eqn:E1; cbn [negb].
  - apply Qle_bool_iff in E1. destruct (Qle_bool (1 - ERR) sum) eqn:E2; cbn [negb].
    + apply Qle_bool_iff in E2. right. right. right. auto.
    + assert (S1 : (sum < 1 - ERR)%Q).
      { apply Qnot_le_lt. intros H. apply Qle_bool_iff in H. congruence. }
      rewrite missing_length. destruct (_ =? 1)%Z eqn:EL.
      * apply Z.eqb_eq in EL. right. left. split; [auto|]. destruct missing as [|f [|g l]] eqn:EM; cbn [length] in EL; [lia| |lia].
        exists f. auto.
      * apply Z.eqb_neq in EL. right. right. left. split; [auto|]. split; [|auto]. lia.
  - left. split; [|auto]. apply Qnot_le_lt. intros H. apply Qle_bool_iff in H. congruence.
Qed.
End Complete.

(* ---- aliasing ---- *)

Lemma alias_fluid_fold main : forall cs s, NoDup cs -> ~ In main cs ->
  let s' := fold_left (alias_fluid_one main) cs s in
  fs_dict s' = fs_dict s /\ fs_cont s' = fs_cont s /\ fs_pot s' = fs_pot s /\ fs_mix s' = fs_mix s /\ fs_new s' = fs_new s /\
  (forall c, In c cs -> fs_of s' c = fs_of s main /\ fs_tmp s' c = Some (fs_of s c)) /\
  (forall c, ~ In c cs -> fs_of s' c = fs_of s c /\ fs_tmp s' c = fs_tmp s c).
Proof.
  induction cs as [|c cs IH]; intros s ND NI; cbn [fold_left]; [cbn; intuition|].
  inversion ND as [|? ? N1 N2]; subst. cbn in NI.
  destruct (IH (alias_fluid_one main s c) N2) as (A1 & A2 & A3 & A4 & A5 & A6 & A7); [tauto|]. cbv zeta in *.
  rewrite A1, A2, A3, A4, A5. do 5 (split; [reflexivity|]). split.
  - intros x [<-|Hx].
    + destruct (A7 c N1) as (B1 & B2). rewrite B1, B2. cbn. rewrite !fupd_eq. auto.
    + destruct (A6 x Hx) as (B1 & B2). rewrite B1, B2. cbn. rewrite !fupd_neq; auto. intros ->; auto.
  - intros x Hx. cbn in Hx. destruct (A7 x) as (B1 & B2); [tauto|]. rewrite B1, B2. cbn. rewrite !fupd_neq; auto.
Qed.

Lemma alias_fluid_ok main others s : NoDup (main :: others) ->
  (forall c, In c (main :: others) -> fs_of s c < fs_new s /\ fc_val (cont_of s c) < fs_new s) ->
  let s' := alias_fluid main others s in
  (forall c, In c (main :: others) -> fs_of s' c = fs_of s main) /\
  (forall c, ~ In c (main :: others) -> fs_of s' c = fs_of s c /\ fs_tmp s' c = fs_tmp s c) /\
  (forall a, a < fs_new s -> fs_cont s' a = fs_cont s a /\ fs_dict s' a = fs_dict s a) /\
  (forall c, In c others -> fs_tmp s' c = Some (fs_of s c)) /\ fs_tmp s' main = Some (fs_new s) /\
  fs_pot s' = fs_pot s /\ fs_mix s' = fs_mix s /\ fs_new s' = S (fs_new s) /\
  cont_of s' main = cont_of s main /\ frac s' main = frac s main /\
  fs_cont s' (fs_new s) =
    {| fc_val := fs_new s; fc_val0 := []; fc_set := fc_set (cont_of s main); fc_var := fc_var (cont_of s main);
       fc_engine := fc_engine (cont_of s main); fc_back := fc_back (cont_of s main); fc_wrap := fc_wrap (cont_of s main) |}.
Proof.
  intros ND FR. inversion ND as [|? ? N1 N2]; subst. unfold alias_fluid. cbv zeta.
  match goal with |- context [fold_left _ others ?x] => set (s1 := x) end.
  destruct (alias_fluid_fold main others s1 N2 N1) as (A1 & A2 & A3 & A4 & A5 & A6 & A7). cbv zeta in *.
  set (s' := fold_left (alias_fluid_one main) others s1) in *.
  destruct (FR main (or_introl eq_refl)) as (F1 & F2).
  assert (O : fs_of s' main = fs_of s main) by (rewrite (proj1 (A7 main N1)); reflexivity).
  assert (CT : cont_of s' main = cont_of s main).
  { unfold cont_of. rewrite O, A2. cbn. rewrite fupd_neq; [auto|]. lia. }
  split; [|split; [|split; [|split; [|split]]]].
  - intros c [<-|Hc]; [auto|]. rewrite (proj1 (A6 c Hc)). reflexivity.
  - intros c Hc. cbn in Hc. destruct (A7 c) as (B1 & B2); [tauto|]. rewrite B1, B2. cbn. rewrite fupd_neq by (intros ->; tauto). auto.
  - intros a Ha. rewrite A1, A2. cbn. rewrite !fupd_neq by lia. auto.
  - intros c Hc. now rewrite (proj2 (A6 c Hc)).
  - rewrite (proj2 (A7 main N1)). cbn. apply fupd_eq.
  - rewrite A3, A4, A5. do 3 (split; [reflexivity|]). split; [auto|]. split.
    + unfold frac. rewrite CT, A1. cbn. rewrite fupd_neq; [auto|]. lia.
    + rewrite A2. cbn. apply fupd_eq.
Qed.

Lemma with_comp_ok main d set var s :
  let s' := with_comp main d set var s in
  fs_of s' = fs_of s /\ fs_tmp s' = fs_tmp s /\
  (forall c, fs_of s c = fs_of s main -> frac s' c = d /\ fset s' c = set /\ fvar s' c = var) /\
  (forall a, a <> fs_of s main -> fs_cont s' a = fs_cont s a) /\
  (forall a, a <> fc_val (cont_of s main) -> fs_dict s' a = fs_dict s a) /\
  fc_val (cont_of s' main) = fc_val (cont_of s main) /\ fs_pot s' = fs_pot s /\ fs_new s' = fs_new s.
Proof.
  cbv zeta. split; [reflexivity|]. split; [reflexivity|]. split; [|split; [|split; [|split; [|split; reflexivity]]]].
  - intros c H. unfold frac, fset, fvar, cont_of, with_comp, set_cont, set_dict. cbn. rewrite H. repeat (rewrite fupd_eq; cbn). auto.
  - intros a H. cbn. now rewrite fupd_neq.
  - intros a H. cbn. now rewrite fupd_neq.
  - unfold cont_of at 1, with_comp, set_cont, set_dict. cbn. now rewrite fupd_eq.
Qed.

(* ---- one branch ---- *)

Lemma specs_nil s b : concat (map (fun c => fc_set (cont_of s c)) b) = [] <-> no_specs s b.
Proof.
  unfold no_specs, fset. induction b as [|c b IH]; cbn [map concat]; [split; [intros _ c []|auto]|]. split.
  - intros H. apply app_eq_nil in H. destruct H as (A & B). intros x [<-|Hx]; [auto|]. apply IH; auto.
  - intros H. rewrite (H c (or_introl eq_refl)). cbn. apply IH. intros x Hx. apply H. now right.
Qed.

Section Branch.
Variables (s : fstate) (main : nat) (others : list nat).
Let b := main :: others.
Hypothesis SB : sound_branch s b.
Let specs := concat (map (fun c => fc_set (cont_of s c)) b).

Lemma specs_In f : In f specs <-> exists c, In c b /\ In f (fset s c).
Proof.
  unfold specs. rewrite in_concat. split.
  - intros (l & A & B). apply in_map_iff in A. destruct A as (c & <- & A). exists c. auto.
  - intros (c & A & B). exists (fc_set (cont_of s c)). split; [|auto]. apply in_map_iff. eauto.
Qed.

Lemma has_dup_fixed_twice : has_dup specs = true <-> fixed_twice s b.
Proof.
  destruct SB as (NB & S1 & S2 & S3).
  pose proof (concat_NoDup_iff (fun c => fc_set (cont_of s c)) b NB (fun c Hc => proj1 (S1 c Hc))) as H. fold specs in H.
  destruct (has_dup specs) eqn:E.
  - split; [intros _|auto]. assert (N : ~ NoDup specs) by (intros N; apply has_dup_NoDup in N; congruence).
    assert (NE : ~ (forall c d f, In c b -> In d b -> c <> d -> In f (fset s c) -> ~ In f (fset s d))) by (intros X; apply N, H, X).
    clear - NE.
    assert (D : forall l l', (forall c d f, In c l -> In d l' -> c <> d -> In f (fset s c) -> ~ In f (fset s d)) \/
      (exists c d f, In c l /\ In d l' /\ c <> d /\ In f (fset s c) /\ In f (fset s d))).
    { intros l l'. induction l as [|c l IH]; [left; intros c d f []|]. destruct IH as [IH|(x & y & f & A & B)].
      - assert (D : (forall d f, In d l' -> c <> d -> In f (fset s c) -> ~ In f (fset s d)) \/
          (exists d f, In d l' /\ c <> d /\ In f (fset s c) /\ In f (fset s d))).
        { clear IH NE. induction l' as [|d l' IH]; [left; intros d f []|]. destruct IH as [IH|(x & f & A & B)].
          - destruct (Nat.eq_dec c d) as [->|Ncd].
            + left. intros x f [<-|Hx] N; [congruence|eauto].
            + destruct (existsb (fun f => smem f (fset s d)) (fset s c)) eqn:X.
              * apply existsb_exists in X. destruct X as (f & X1 & X2). apply smem_In in X2.
                right. exists d, f. cbn. auto.
              * left. intros x f [<-|Hx] N F1 F2; [|eapply IH; eauto].
                assert (existsb (fun f => smem f (fset s d)) (fset s c) = true); [|congruence].
                apply existsb_exists. exists f. split; [auto|now apply smem_In].
          - right. exists x, f. cbn. tauto. }
        destruct D as [D|(d & f & A & B)].
        + left. intros x y f [<-|Hx]; eauto.
        + right. exists c, d, f. cbn. tauto.
      - right. exists x, y, f. cbn. tauto. }
    destruct (D b b) as [D1|D1]; [contradiction|exact D1].
  - split; [discriminate|]. intros (c & d & f & A & B & C & D & F). apply has_dup_NoDup in E.
    exfalso. exact (proj1 H E c d f A B C D F).
Qed.

Lemma fixed_ok : ~ fixed_twice s b ->
  exists fixed, fixed_fractions specs (map (fun c => (frac s c, fc_set (cont_of s c))) b) [] = Ok fixed /\
    NoDup (keys fixed) /\ (forall f q, dget f fixed = Some q <-> fixed_by s b f q) /\
    (forall f, In f (keys fixed) <-> In f specs) /\ (qsum (values fixed) == total s b)%Q.
Proof.
  intros NT. destruct SB as (NB & S1 & S2 & S3).
  assert (NS : NoDup specs).
  { apply has_dup_NoDup. destruct (has_dup specs) eqn:E; [|auto]. apply has_dup_fixed_twice in E. contradiction. }
  destruct (fixed_fractions_ok specs (map (fun c => (frac s c, fc_set (cont_of s c))) b) []) as (r & A & B & C & D).
  { intros d set H. apply in_map_iff in H. destruct H as (c & E & Hc). inversion E; subst. split.
    - intros f F. apply (S2 c c f); auto.
    - intros f F. apply specs_In. exists c. auto. }
  { intros i j f d set d' set' Hij Hi Hj F F'.
    rewrite nth_error_map in Hi, Hj. destruct (nth_error b i) as [c|] eqn:Ei; [|discriminate].
    destruct (nth_error b j) as [c'|] eqn:Ej; [|discriminate]. inversion Hi; inversion Hj; subst.
    apply NT. exists c, c', f. split; [eapply nth_error_In; eauto|]. split; [eapply nth_error_In; eauto|]. split; [|auto].
    intros ->. apply Hij. apply (proj1 (NoDup_nth_error b) NB); [|congruence]. apply nth_error_Some. congruence. }
  { constructor. }
  exists r. split; [auto|]. split; [auto|].
  assert (GET : forall c f, In c b -> In f (fset s c) -> dget f r = dget f (frac s c)).
  { intros c f Hc F. apply (C (frac s c) (fset s c) f); auto. apply in_map_iff. exists c. auto. }
  assert (KEY : forall f, In f (keys r) <-> In f specs).
  { intros f. rewrite in_keys_dget, specs_In. split.
    - intros (q & Hq). destruct (in_dec string_dec f specs) as [I|I]; [now apply specs_In|].
      rewrite D in Hq; [discriminate|]. intros d set H F. apply in_map_iff in H. destruct H as (c & E & Hc). inversion E; subst.
      apply I, specs_In. exists c. auto.
    - intros (c & Hc & F). rewrite (GET c f Hc F). apply in_keys_dget. apply (S2 c c f); auto. }
  split; [|split; [auto|]].
  - intros f q. split.
    + intros H. assert (In f specs) as I by (apply KEY, in_keys_dget; eauto). apply specs_In in I.
      destruct I as (c & Hc & F). exists c. rewrite <- (GET c f Hc F). auto.
    + intros (c & Hc & F & E). rewrite (GET c f Hc F). auto.
  - rewrite (values_sum_keys r specs B) by (apply NoDup_Permutation; auto).
    assert (E : map (getq r) specs =
      concat (map (fun c => map (fun f => match dget f (frac s c) with Some q => q | None => 0%Q end) (fset s c)) b)).
    { unfold specs. rewrite concat_map, map_map. f_equal. apply map_ext_in. intros c Hc. apply map_ext_in. intros f F.
      unfold getq. now rewrite (GET c f Hc F). }
    rewrite E. reflexivity.
Qed.

Lemma psb_specs : specs <> [] -> presolve_fluid_branch b s =
  if has_dup specs then (s, Some TESPyNetworkError)
  else match rbind (fixed_fractions specs (map (fun c => (frac s c, fc_set (cont_of s c))) b) []) (complete (frac s main)) with
       | Err e => (s, Some e)
       | Ok (fixed, variable) =>
           let s1 := alias_fluid main others s in
           (with_comp main (upd_all fixed (frac s1 main)) (keys fixed) variable s1, None)
       end.
Proof.
  intros H. unfold presolve_fluid_branch. unfold b at 1. fold b. cbv zeta. fold specs.
  destruct specs as [|x l]; [congruence|]. reflexivity.
Qed.
Lemma psb_nil : specs = [] -> presolve_fluid_branch b s =
  let s1 := alias_fluid main others s in
  match fs_pot s main with
  | [] => (s1, Some IndexError)
  | [f] => (with_comp main (dset f 1%Q (frac s1 main)) (fc_set (cont_of s1 main)) (fc_var (cont_of s1 main)) s1, None)
  | _ => (with_comp main (frac s1 main) (fc_set (cont_of s1 main)) (keys (frac s1 main)) s1, None)
  end.
Proof.
  intros H. unfold presolve_fluid_branch. unfold b at 1. fold b. cbv zeta. fold specs. now rewrite H.
Qed.
Lemma not_dup : ~ fixed_twice s b -> has_dup specs = false.
Proof. intros NT. destruct (has_dup specs) eqn:X; [|auto]. apply has_dup_fixed_twice in X. contradiction. Qed.
Lemma nil_total : specs = [] -> total s b = 0%Q.
Proof.
  intros H. unfold total. assert (E : forall l, concat (map (fun c => fc_set (cont_of s c)) l) = [] ->
    concat (map (fun c => map (fun f => match dget f (frac s c) with Some q => q | None => 0%Q end) (fset s c)) l) = []).
  { induction l as [|c l IH]; cbn [map concat]; [auto|]. intros X. apply app_eq_nil in X. destruct X as (X & Y).
    unfold fset at 1. rewrite X. cbn. auto. }
  rewrite E; auto.
Qed.
Lemma fixed_incl (fx : dict Q) : (forall f, In f (keys fx) <-> In f specs) -> incl (keys fx) (keys (frac s main)).
Proof.
  intros D f F. apply D, specs_In in F. destruct F as (c & Hc & F). destruct SB as (NB & S1 & S2 & S3).
  apply (S2 c main f); auto. now left.
Qed.
Lemma main_NoDup : NoDup (keys (frac s main)).
Proof. destruct SB as (NB & S1 & S2 & S3). now apply S1; left. Qed.

(** Acceptance. *)
Lemma presolve_fluid_accepts :
  (fixed_twice s b -> presolve_fluid_branch b s = (s, Some TESPyNetworkError)) /\
  (~ fixed_twice s b -> (1 + ERR < total s b)%Q -> presolve_fluid_branch b s = (s, Some ValueError)) /\
  (~ fixed_twice s b -> (total s b <= 1 + ERR)%Q -> exists s', presolve_fluid_branch b s = (s', None)).
Proof.
  split; [|split].
  - intros T. apply has_dup_fixed_twice in T. rewrite psb_specs, T; [auto|]. intros E. rewrite E in T. discriminate.
  - intros NT G. destruct (fixed_ok NT) as (fx & A & B & C & D & E).
    rewrite psb_specs, (not_dup NT), A; cbn [rbind].
    + destruct (complete_cases (frac s main) fx main_NoDup B (fixed_incl fx D)) as [(X & ->)|[(X & _)|[(X & _)|(X & _)]]];
        unfold ERR in *; [auto| | |]; exfalso; lra.
    + intros ES. rewrite (nil_total ES) in G. unfold ERR in G. lra.
  - intros NT G. destruct specs as [|f0 l0] eqn:ES.
    + rewrite (psb_nil ES). cbv zeta. destruct SB as (NB & S1 & S2 & S3).
      destruct (S3 main (or_introl eq_refl)) as (P & _). destruct (fs_pot s main) as [|f [|g l]]; [congruence| |]; eauto.
    + destruct (fixed_ok NT) as (fx & A & B & C & D & E).
      rewrite psb_specs by congruence. rewrite (not_dup NT), A. cbn [rbind].
      destruct (complete_cases (frac s main) fx main_NoDup B (fixed_incl fx D))
        as [(X & ->)|[(X & f & _ & ->)|[(X & _ & ->)|(X & ->)]]]; cbv zeta; eauto.
      exfalso. lra.
Qed.

(** What a successful reduction does to the composition. *)
Lemma reduce_shape s' : presolve_fluid_branch b s = (s', None) ->
  exists d set var,
    (forall c, In c b -> fs_of s' c = fs_of s main /\ frac s' c = d /\ fset s' c = set /\ fvar s' c = var) /\
    ((specs = [] /\ exists f, fs_pot s main = [f] /\ d = dset f 1%Q (frac s main)) \/
     (specs = [] /\ length (fs_pot s main) > 1 /\ d = frac s main /\ var = keys (frac s main)) \/
     (specs <> [] /\ ~ fixed_twice s b /\ exists fx fx',
        NoDup (keys fx) /\ (forall f q, dget f fx = Some q <-> fixed_by s b f q) /\ (forall f, In f (keys fx) <-> In f specs) /\
        (qsum (values fx) == total s b)%Q /\
        complete (frac s main) fx = Ok (fx', var) /\ d = upd_all fx' (frac s main) /\ set = keys fx')).
Proof.
  intros H. pose proof SB as (NB & S1 & S2 & S3).
  destruct (alias_fluid_ok main others s NB) as (L1 & L2 & L3 & L4 & L5 & L6 & L7 & L8 & L9 & L10 & L11).
  { intros c Hc. split; apply S1; auto. }
  cbv zeta in *.
  assert (W : forall d set var c, In c b -> s' = with_comp main d set var (alias_fluid main others s) ->
    fs_of s' c = fs_of s main /\ frac s' c = d /\ fset s' c = set /\ fvar s' c = var).
  { intros d set var c Hc ->. destruct (with_comp_ok main d set var (alias_fluid main others s)) as (W1 & W2 & W3 & _).
    cbv zeta in *. split; [rewrite W1; auto|]. apply W3. rewrite (L1 c Hc), (L1 main); [auto|now left]. }
  destruct specs as [|f0 l0] eqn:ES.
  - rewrite (psb_nil ES) in H. cbv zeta in H. destruct (fs_pot s main) as [|f [|g l]] eqn:EP; [discriminate| |].
    + rewrite L10 in H. apply (f_equal fst) in H; cbn [fst] in H; symmetry in H.
      eexists _, _, _. split; [intros c Hc; eapply W; eauto|]. left. split; [auto|]. exists f. auto.
    + rewrite L10 in H. apply (f_equal fst) in H; cbn [fst] in H; symmetry in H.
      eexists _, _, _. split; [intros c Hc; eapply W; eauto|]. right. left. split; [auto|]. split; [cbn; lia|]. auto.
  - assert (SN : specs <> []) by congruence.
    rewrite (psb_specs SN) in H. destruct (has_dup specs) eqn:HD; [discriminate|].
    assert (NT : ~ fixed_twice s b) by (intros T; apply has_dup_fixed_twice in T; congruence).
    destruct (fixed_ok NT) as (fx & A & B & C & D & E). rewrite A in H. cbn [rbind] in H.
    destruct (complete (frac s main) fx) as [[fx' var]|e] eqn:EC; [|discriminate]. cbv zeta in H. rewrite L10 in H. apply (f_equal fst) in H; cbn [fst] in H; symmetry in H.
    eexists _, _, var. split; [intros c Hc; eapply W; eauto|]. right. right. split; [congruence|]. split; [auto|].
    exists fx, fx'. rewrite ES in D. auto 10.
Qed.

Lemma specs_none : specs = [] <-> no_specs s b.
Proof. apply specs_nil. Qed.

Lemma reduce_result s' : presolve_fluid_branch b s = (s', None) ->
  (forall c d, In c b -> In d b -> fs_of s' c = fs_of s' d) /\
  (forall c f q, In c b -> fixed_by s b f q -> dget f (frac s' c) = Some q /\ In f (fset s' c) /\ ~ In f (fvar s' c)) /\
  (forall c f, In c b -> ~ no_specs s b -> (total s b < 1 - ERR)%Q -> open_fluid s main b f ->
     (forall g, open_fluid s main b g -> g = f) ->
     (exists q, dget f (frac s' c) = Some q /\ q == 1 - total s b)%Q /\ In f (fset s' c) /\ fvar s' c = []) /\
  (forall c, In c b -> (1 - ERR <= total s b)%Q ->
     (forall f, open_fluid s main b f -> dget f (frac s' c) = Some 0%Q /\ In f (fset s' c)) /\ fvar s' c = []) /\
  (forall c g h, In c b -> ~ no_specs s b -> (total s b < 1 - ERR)%Q ->
     open_fluid s main b g -> open_fluid s main b h -> g <> h ->
     forall f, (In f (fvar s' c) <-> open_fluid s main b f) /\
       (open_fluid s main b f -> dget f (frac s' c) = dget f (frac s main) /\ ~ In f (fset s' c))) /\
  (forall c, In c b -> no_specs s b ->
     (forall f, fs_pot s main = [f] -> dget f (frac s' c) = Some 1%Q) /\
     (1 < length (fs_pot s main) -> frac s' c = frac s main /\ forall f, In f (fvar s' c) <-> In f (keys (frac s main)))) /\
  (forall c f, In c b -> (In f (keys (frac s' c)) <-> In f (keys (frac s main)))) /\
  (forall c, In c b -> NoDup (keys (frac s' c))).
Proof.
  intros H. pose proof SB as (NB & S1 & S2 & S3).
  destruct (reduce_shape s' H) as (d & set & var & SH & CASES).
  assert (OP : forall f, open_fluid s main b f <-> In f (keys (frac s main)) /\ ~ In f specs).
  { intros f. unfold open_fluid. split; intros (X & Y); (split; [auto|]).
    - intros Z. apply specs_In in Z. destruct Z as (c & Hc & F). exact (Y c Hc F).
    - intros c Hc F. apply Y, specs_In. eauto. }
  assert (FB : forall f q, fixed_by s b f q -> In f specs).
  { intros f q (c & Hc & F & _). apply specs_In. eauto. }
  split; [intros c c' Hc Hd; now rewrite (proj1 (SH c Hc)), (proj1 (SH c' Hd))|].
  assert (FR : forall c, In c b -> frac s' c = d) by (intros c Hc; now apply SH).
  assert (ST : forall c, In c b -> fset s' c = set) by (intros c Hc; now apply SH).
  assert (VR : forall c, In c b -> fvar s' c = var) by (intros c Hc; now apply SH).
  destruct CASES as [(ES & f0 & EP & Ed)|[(ES & EP & Ed & Ev)|(ES & NT & fx & fx' & NF & GF & KF & SF & EC & Ed & Est)]].
  - pose proof (proj1 specs_none ES) as NS. pose proof (nil_total ES) as T0.
    assert (K0 : In f0 (keys (frac s main))) by (apply (S3 main (or_introl eq_refl)); rewrite EP; now left).
    split; [intros c f q _ F; apply FB in F; rewrite ES in F; destruct F|].
    split; [intros; contradiction|]. split; [intros c _ X; rewrite T0 in X; unfold ERR in X; exfalso; lra|].
    split; [intros; contradiction|]. split; [|split].
    + intros c Hc _. rewrite (FR c Hc), Ed. split.
      * intros f E. rewrite EP in E. inversion E; subst. apply dget_dset_eq.
      * rewrite EP. cbn. lia.
    + intros c f Hc. rewrite (FR c Hc), Ed. rewrite keys_dset. split; [intros [->|X]; auto|auto].
    + intros c Hc. rewrite (FR c Hc), Ed. apply NoDup_keys_dset, main_NoDup.
  - pose proof (proj1 specs_none ES) as NS. pose proof (nil_total ES) as T0.
    split; [intros c f q _ F; apply FB in F; rewrite ES in F; destruct F|].
    split; [intros; contradiction|]. split; [intros c _ X; rewrite T0 in X; unfold ERR in X; exfalso; lra|].
    split; [intros; contradiction|]. split; [|split].
    + intros c Hc _. rewrite (FR c Hc), (VR c Hc), Ev, Ed. split; [|intros _; split; [auto|tauto]].
      intros f E. rewrite E in EP. cbn in EP. lia.
    + intros c f Hc. rewrite (FR c Hc), Ed. tauto.
    + intros c Hc. rewrite (FR c Hc), Ed. apply main_NoDup.
  - assert (NNS : ~ no_specs s b) by (intros X; apply specs_none in X; contradiction).
    assert (IC := fixed_incl fx KF).
    assert (MI := missing_In (frac s main) fx).
    set (missing := filter (fun f => negb (dmem f fx)) (keys (frac s main))) in *.
    assert (MO : forall f, In f missing <-> open_fluid s main b f) by (intros f; rewrite MI, KF, OP; tauto).
    assert (NFX : NoDup (keys fx') /\ incl (keys fx) (keys fx') /\ incl (keys fx') (keys (frac s main)) /\
      (forall f q, dget f fx = Some q -> dget f fx' = Some q) /\ (forall f, In f var -> ~ In f specs)).
    { destruct (complete_cases (frac s main) fx main_NoDup NF IC) as [(X & E)|[(X & f & M & E)|[(X & M & E)|(X & E)]]];
        fold missing in E; try fold missing in M; rewrite E in EC; inversion EC; subst fx' var.
      - assert (Hf : In f missing) by (rewrite M; now left). apply MI in Hf. destruct Hf as (Hf1 & Hf2).
        split; [now apply NoDup_keys_dset|]. split; [intros g Hg; apply keys_dset; auto|]. split; [|split; [|intros g []]].
        + intros g Hg. apply keys_dset in Hg. destruct Hg as [->|Hg]; auto.
        + intros g q Hg. rewrite dget_dset_neq; [auto|]. intros ->. apply Hf2, in_keys_dget. eauto.
      - split; [auto|]. split; [apply incl_refl|]. split; [auto|]. split; [auto|].
        intros f Hf. apply MO, OP in Hf. tauto.
      - split; [now apply zeros_NoDup|].
        assert (Z : forall f, dget f (fold_left (fun acc f => dset f 0%Q acc) missing fx) =
          if smem f missing then Some 0%Q else dget f fx) by (intros f; apply zeros_get).
        split; [|split; [|split; [|intros g []]]].
        + intros g Hg. apply in_keys_dget. rewrite Z. destruct (smem g missing); [eauto|]. now apply in_keys_dget.
        + intros g Hg. apply in_keys_dget in Hg. rewrite Z in Hg. destruct (smem g missing) eqn:Eg.
          * apply smem_In, MI in Eg. tauto.
          * apply IC. now apply in_keys_dget.
        + intros g q Hg. rewrite Z. assert (smem g missing = false) as ->; [|auto].
          destruct (smem g missing) eqn:Eg; [|auto]. apply smem_In, MI in Eg. exfalso. apply Eg, in_keys_dget. eauto. }
    destruct NFX as (N1 & N2 & N3 & N4 & N5).
    assert (GET : forall f, dget f d = match dget f fx' with Some q => Some q | None => dget f (frac s main) end).
    { intros f. rewrite Ed. now apply upd_all_get. }
    split; [|split; [|split; [|split; [|split; [|split]]]]].
    + intros c f q Hc F. rewrite (FR c Hc), (ST c Hc), (VR c Hc), GET. pose proof (FB f q F) as IS. apply GF in F.
      rewrite (N4 f q F). split; [auto|]. split; [|intros X; exact (N5 f X IS)].
      rewrite Est. apply N2, in_keys_dget. eauto.
    + intros c f Hc _ T O U. rewrite (FR c Hc), (ST c Hc), (VR c Hc).
      destruct (complete_cases (frac s main) fx main_NoDup NF IC) as [(X & E)|[(X & g & M & E)|[(X & M & E)|(X & E)]]].
      * exfalso. unfold ERR in *. lra.
      * fold missing in M. rewrite E in EC. inversion EC; subst fx' var.
        assert (g = f) as -> by (apply U, MO; rewrite M; now left).
        split; [|split; [|auto]].
        -- exists (1 - qsum (values fx))%Q. split; [|now rewrite SF]. rewrite GET, dget_dset_eq. auto.
        -- rewrite Est. apply keys_dset. auto.
      * exfalso. fold missing in M. apply MO in O.
        assert (Hn := missing_NoDup (frac s main) fx main_NoDup). fold missing in Hn.
        destruct missing as [|x [|y l]]; [destruct O|cbn in M; congruence|].
        assert (x = f) by (apply U, MO; cbn; auto). assert (y = f) by (apply U, MO; cbn; auto). subst.
        inversion Hn as [|? ? Q1 Q2]; subst. apply Q1. now left.
      * exfalso. unfold ERR in *. lra.
    + intros c Hc T. rewrite (FR c Hc), (VR c Hc), (ST c Hc).
      destruct (complete_cases (frac s main) fx main_NoDup NF IC) as [(X & E)|[(X & g & M & E)|[(X & M & E)|(X & E)]]].
      * rewrite E in EC. discriminate.
      * exfalso. unfold ERR in *. lra.
      * exfalso. unfold ERR in *. lra.
      * fold missing in E. rewrite E in EC. inversion EC; subst fx' var. split; [|auto]. intros f O. apply MO in O.
        assert (SM : smem f missing = true) by now apply smem_In.
        split.
        -- rewrite GET, zeros_get, SM. auto.
        -- rewrite Est. apply in_keys_dget. rewrite zeros_get, SM. eauto.
    + intros c g h Hc _ T Og Oh NE f. rewrite (FR c Hc), (ST c Hc), (VR c Hc).
      destruct (complete_cases (frac s main) fx main_NoDup NF IC) as [(X & E)|[(X & k & M & E)|[(X & M & E)|(X & E)]]].
      * rewrite E in EC. discriminate.
      * exfalso. fold missing in M. apply MO in Og, Oh. rewrite M in Og, Oh. cbn in Og, Oh. intuition congruence.
      * fold missing in E. rewrite E in EC. inversion EC; subst fx' var. split; [apply MO|]. intros O.
        apply MO, MI in O. destruct O as (O1 & O2).
        assert (D0 : dget f fx = None) by now apply dget_None_notin. rewrite GET, D0, Est. auto.
      * exfalso. unfold ERR in *. lra.
    + intros c Hc X. contradiction.
    + intros c f Hc. rewrite (FR c Hc). rewrite !in_keys_dget. rewrite GET. split.
      * intros (q & Q). destruct (dget f fx') eqn:E; [|eauto]. apply in_keys_dget, N3, in_keys_dget. eauto.
      * intros (q & Q). rewrite Q. destruct (dget f fx'); eauto.
    + intros c Hc. rewrite (FR c Hc), Ed. apply upd_all_NoDup, main_NoDup.
Qed.

(** Without variable fluids the composition sums to one. *)
Lemma reduce_sum s' c : presolve_fluid_branch b s = (s', None) -> In c b -> ~ no_specs s b ->
  fvar s' c = [] -> ((exists f, open_fluid s main b f) \/ (1 - ERR <= total s b)%Q) ->
  (1 - ERR <= dict_sum (frac s' c) <= 1 + ERR)%Q.
Proof.
  intros H Hc NNS NV ALT. pose proof SB as (NB & S1 & S2 & S3).
  destruct (reduce_shape s' H) as (d & set & var & SH & CASES).
  destruct (SH c Hc) as (_ & -> & _ & Ev). rewrite NV in Ev. subst var.
  destruct CASES as [(ES & _)|[(ES & _)|(ES & NT & fx & fx' & NF & GF & KF & SF & EC & Ed & Est)]].
  { exfalso. apply NNS, specs_none, ES. } { exfalso. apply NNS, specs_none, ES. }
  assert (IC := fixed_incl fx KF).
  assert (MP := missing_perm (frac s main) fx main_NoDup NF IC).
  assert (MI := missing_In (frac s main) fx).
  assert (MN := missing_NoDup (frac s main) fx main_NoDup).
  set (missing := filter (fun f => negb (dmem f fx)) (keys (frac s main))) in *.
  assert (FULL : NoDup (keys fx') -> Permutation (keys fx') (keys (frac s main)) -> (dict_sum d == qsum (values fx'))%Q).
  { intros N P. change (dict_sum d) with (qsum (values d)).
    assert (ND : NoDup (keys d)) by (rewrite Ed; apply upd_all_NoDup, main_NoDup).
    assert (PK : Permutation (keys d) (keys fx')).
    { apply NoDup_Permutation; auto. intros f. rewrite !in_keys_dget, Ed, upd_all_get by auto. split.
      - intros (q & Q). destruct (dget f fx') eqn:E; [eauto|]. apply dget_None_notin in E. exfalso. apply E.
        apply (Permutation_in f (Permutation_sym P)). apply in_keys_dget. eauto.
      - intros (q & ->). eauto. }
    rewrite (values_sum_keys d (keys fx') ND PK), (values_keys fx' N).
    assert (E : map (getq d) (keys fx') = map (getq fx') (keys fx')); [|now rewrite E].
    apply map_ext_in. intros f F. unfold getq. rewrite Ed, upd_all_get by auto. apply in_keys_dget in F. destruct F as (q & ->). auto. }
  destruct (complete_cases (frac s main) fx main_NoDup NF IC) as [(X & E)|[(X & g & M & E)|[(X & M & E)|(X & E)]]];
    fold missing in E; try fold missing in M; rewrite E in EC; try discriminate EC; (injection EC as Q1 Q2 || injection EC as Q1); subst fx'.
  - assert (Hg : In g missing) by (rewrite M; now left). apply MI in Hg. destruct Hg as (G1 & G2).
    rewrite FULL.
    + rewrite dset_app_new by auto. unfold values. rewrite map_app, qsum_app. cbn.
      fold (values fx). unfold ERR. lra.
    + now apply NoDup_keys_dset.
    + rewrite dset_app_new by auto. unfold keys at 1. rewrite map_app. cbn. fold (keys fx). rewrite MP, M. apply Permutation_refl.
  - exfalso. destruct ALT as [(f & O1 & O2)|ALT]; [|unfold ERR in *; lra].
    assert (In f missing) as HM.
    { apply MI. split; [auto|]. rewrite KF. intros Z. apply specs_In in Z. destruct Z as (x & Hx & F). exact (O2 x Hx F). }
    rewrite Q2 in HM. destruct HM.
  - assert (DJ : forall f, In f missing -> ~ In f (keys fx)) by (intros f F; apply MI in F; tauto).
    rewrite FULL.
    + rewrite zeros_app by auto. unfold values. rewrite map_app, qsum_app, map_map. cbn [snd]. fold (values fx).
      assert (Z : (qsum (map (fun _ : string => 0%Q) missing) == 0)%Q).
      { clear. induction missing as [|x l IH]; cbn; [lra|]. unfold qsum in IH. rewrite IH. lra. }
      rewrite Z. lra.
    + now apply zeros_NoDup.
    + rewrite zeros_app by auto. unfold keys at 1. rewrite map_app, map_map. cbn. rewrite map_id. fold (keys fx).
      now rewrite MP.
Qed.
End Branch.

(* ---- propagation ---- *)

Definition same_kind (x y : fcont) : Prop :=
  fc_val x = fc_val y /\ fc_val0 x = fc_val0 y /\ fc_set x = fc_set y /\ fc_var x = fc_var y.

Lemma same_kind_trans x y z : same_kind x y -> same_kind y z -> same_kind x z.
Proof. unfold same_kind. intuition congruence. Qed.
Lemma create_wrapper_kind d : forall x, same_kind (create_wrapper d x) x.
Proof.
  unfold create_wrapper. induction (keys d) as [|f l IH]; intros x; cbn [fold_left]; [unfold same_kind; auto|].
  destruct (dmem f (fc_wrap x)); [apply IH|]. cbv zeta.
  match goal with |- same_kind (fold_left _ _ ?y) _ => specialize (IH y) end. unfold same_kind in *. cbn in IH. auto.
Qed.

Lemma start_fold x pot : forall l d, NoDup (keys d) ->
  let d' := fold_left (fun d f =>
           if negb (smem f (fc_set x)) && negb (dmem f d) then
             match dget f (fc_val0 x) with
             | None => dset f (1 / inject_Z (Z.of_nat (length (A:=string) pot)))%Q d
             | Some q => dset f q d
             end
           else d) l d in
  NoDup (keys d') /\ (forall f q, dget f d = Some q -> dget f d' = Some q) /\
  (forall f, In f (keys d') -> In f (keys d) \/ In f l) /\
  (incl (fc_set x) (keys d) -> forall f, In f l -> In f (keys d')).
Proof.
  induction l as [|g l IH]; intros d ND; cbv zeta; cbn [fold_left].
  - split; [auto|]. split; [auto|]. split; [auto|]. intros _ f [].
  - set (d1 := if negb (smem g (fc_set x)) && negb (dmem g d) then _ else d).
    assert (P : NoDup (keys d1) /\ (forall f q, dget f d = Some q -> dget f d1 = Some q) /\
      (forall f, In f (keys d1) -> In f (keys d) \/ f = g) /\ (incl (fc_set x) (keys d) -> In g (keys d1))).
    { unfold d1. destruct (smem g (fc_set x)) eqn:E1; cbn [negb andb].
      - split; [auto|]. split; [auto|]. split; [auto|]. intros I. apply I. now apply smem_In.
      - destruct (dmem g d) eqn:E2; cbn [negb].
        + split; [auto|]. split; [auto|]. split; [auto|]. intros I. now apply dmem_In.
        + assert (NG : ~ In g (keys d)) by (intros X; apply dmem_In in X; congruence).
          assert (Q : forall q, NoDup (keys (dset g q d)) /\ (forall f q', dget f d = Some q' -> dget f (dset g q d) = Some q') /\
            (forall f, In f (keys (dset g q d)) -> In f (keys d) \/ f = g) /\ (incl (fc_set x) (keys d) -> In g (keys (dset g q d)))).
          { intros q. split; [now apply NoDup_keys_dset|]. split; [|split].
            - intros f q' H. rewrite dget_dset_neq; [auto|]. intros ->. apply NG, in_keys_dget. eauto.
            - intros f H. apply keys_dset in H. tauto.
            - intros _. apply keys_dset. auto. }
          destruct (dget g (fc_val0 x)); apply Q. }
    destruct P as (P1 & P2 & P3 & P4). destruct (IH d1 P1) as (Q1 & Q2 & Q3 & Q4). cbv zeta in *.
    split; [exact Q1|]. split; [intros f q H; apply Q2, P2, H|]. split.
    + intros f H. apply Q3 in H. destruct H as [H|H]; [|right; now right]. apply P3 in H. destruct H as [H| ->]; [auto|right; now left].
    + intros I. assert (I1 : incl (fc_set x) (keys d1)).
      { intros f H. apply I, in_keys_dget in H. destruct H as (q & H). apply in_keys_dget. eauto. }
      intros f [<-|H]; [|now apply Q4].
      apply P4, in_keys_dget in I. destruct I as (q & I). apply in_keys_dget. eauto.
Qed.

Lemma start_ok pot x d : pot <> [] -> NoDup (keys d) ->
  let d' := start_fractions pot x d in
  NoDup (keys d') /\ (1 < length pot -> forall f q, dget f d = Some q -> dget f d' = Some q) /\
  (forall f, In f (keys d) -> In f (keys d')) /\
  (forall f, In f (keys d') -> In f (keys d) \/ In f pot) /\
  (incl (fc_set x) (keys d) -> forall f, In f pot -> In f (keys d')) /\
  (forall f, pot = [f] -> dget f d' = Some 1%Q).
Proof.
  intros NE ND. cbv zeta. destruct pot as [|f0 [|f1 l]]; [congruence| |].
  - cbn [start_fractions]. split; [now apply NoDup_keys_dset|]. split; [cbn; lia|]. split; [intros f H; apply keys_dset; auto|].
    split; [intros f H; apply keys_dset in H; cbn; intuition|]. split.
    + intros _ f [<-|[]]. apply keys_dset. auto.
    + intros f E. inversion E; subst. apply dget_dset_eq.
  - destruct (start_fold x (f0 :: f1 :: l) (f0 :: f1 :: l) d ND) as (A & B & C & D). cbv zeta in *.
    split; [exact A|]. split; [intros _; exact B|]. split; [|split; [exact C|split; [exact D|discriminate]]].
    intros f H. apply in_keys_dget in H. destruct H as (q & H). apply B in H. apply in_keys_dget. exists q. exact H.
Qed.

Section Propagation.
Variables (rule : string) (pot : list string) (engines : dict string) (backs : dict (option string)).
Hypothesis PN : pot <> [].
Let step := propagate_one rule pot engines backs.

Lemma propagate_fold conns : forall l s, incl l conns ->
  (forall c, In c conns -> NoDup (keys (frac s c)) /\ incl (fset s c) (keys (frac s c))) ->
  let s' := fold_left step l s in
  fs_of s' = fs_of s /\ fs_tmp s' = fs_tmp s /\ fs_new s' = fs_new s /\
  (forall a, same_kind (fs_cont s' a) (fs_cont s a)) /\
  (forall c, In c conns -> NoDup (keys (frac s' c)) /\ (forall f, In f (keys (frac s c)) -> In f (keys (frac s' c))) /\
     (forall f, In f (keys (frac s' c)) -> In f (keys (frac s c)) \/ In f pot) /\
     (1 < length pot -> forall f q, dget f (frac s c) = Some q -> dget f (frac s' c) = Some q)) /\
  (forall c, In c l -> (forall f, In f pot -> In f (keys (frac s' c))) /\ fs_pot s' c = pot /\ fs_mix s' c = Some rule /\
     (forall f, pot = [f] -> dget f (frac s' c) = Some 1%Q)) /\
  (forall c, ~ In c l -> fs_pot s' c = fs_pot s c /\ fs_mix s' c = fs_mix s c).
Proof.
  induction l as [|c l IH]; intros s IC OK; cbv zeta; cbn [fold_left].
  - do 3 (split; [reflexivity|]). split; [intros a; unfold same_kind; auto|]. split; [|split; [intros c []|auto]].
    intros c Hc. split; [now apply OK|]. auto.
  - assert (Hc : In c conns) by (apply IC; now left).
    destruct (OK c Hc) as (O1 & O2).
    destruct (start_ok pot (cont_of s c) (frac s c) PN O1) as (A1 & A2 & A3 & A4 & A5 & A6). cbv zeta in *.
    set (d' := start_fractions pot (cont_of s c) (frac s c)) in *.
    set (s1 := step s c).
    assert (K1 : forall a, same_kind (fs_cont s1 a) (fs_cont s a)).
    { intros a. unfold s1, step, propagate_one. cbn. destruct (Nat.eq_dec a (fs_of s c)) as [->|D].
      - rewrite fupd_eq. match goal with |- same_kind (create_wrapper ?dd ?y) _ => pose proof (create_wrapper_kind dd y) as K end.
        unfold same_kind in *. cbn in K. unfold cont_of in K. auto.
      - rewrite fupd_neq by auto. unfold same_kind; auto. }
    assert (D1 : forall x, frac s1 x = if Nat.eqb (fc_val (cont_of s x)) (fc_val (cont_of s c)) then d' else frac s x).
    { intros x. unfold frac at 1. unfold cont_of at 1. replace (fs_of s1 x) with (fs_of s x) by reflexivity.
      destruct (K1 (fs_of s x)) as (-> & _). unfold s1, step, propagate_one. cbn. unfold fupd.
      destruct (Nat.eqb _ _); reflexivity. }
    assert (SAME : forall x, Nat.eqb (fc_val (cont_of s x)) (fc_val (cont_of s c)) = true -> frac s x = frac s c).
    { intros x H. apply Nat.eqb_eq in H. unfold frac. now rewrite H. }
    assert (OK1 : forall x, In x conns -> NoDup (keys (frac s1 x)) /\ incl (fset s1 x) (keys (frac s1 x))).
    { intros x Hx. destruct (OK x Hx) as (X1 & X2).
      assert (fset s1 x = fset s x) as -> by (apply (K1 (fs_of s x))).
      rewrite D1. destruct (Nat.eqb _ _) eqn:E; [|auto]. split; [auto|].
      intros f F. apply A3. rewrite <- (SAME x E). auto. }
    destruct (IH s1) as (B1 & B2 & B3 & B4 & B5 & B6 & B7).
    { intros x Hx. apply IC. now right. } { exact OK1. }
    cbv zeta in *. set (s' := fold_left step l s1) in *.
    split; [exact B1|]. split; [exact B2|]. split; [exact B3|]. split; [|split; [|split]].
    + intros a. pose proof (B4 a) as U. pose proof (K1 a) as V. unfold same_kind in *. intuition congruence.
    + intros x Hx. destruct (B5 x Hx) as (C1 & C2 & C3 & C4). split; [auto|].
      rewrite D1 in C2, C3, C4. destruct (Nat.eqb _ _) eqn:E.
      * rewrite (SAME x E) in *. split; [intros f F; apply C2, A3, F|]. split.
        -- intros f F. apply C3 in F. destruct F as [F|F]; [apply A4; auto|auto].
        -- intros L f q F. apply C4; auto.
      * auto.
    + assert (Kc : frac s1 c = d') by (rewrite D1, Nat.eqb_refl; auto).
      intros x Hx. destruct (in_dec Nat.eq_dec x l) as [L|L]; [now apply B6|].
      destruct Hx as [<-|Hx]; [|contradiction].
      destruct (B5 c Hc) as (C1 & C2 & C3 & C4). rewrite Kc in C2, C3, C4. split; [|split; [|split]].
      * intros f F. apply C2, A5; auto.
      * rewrite (proj1 (B7 c L)). unfold s1, step, propagate_one. cbn. apply fupd_eq.
      * rewrite (proj2 (B7 c L)). unfold s1, step, propagate_one. cbn. apply fupd_eq.
      * intros f E.
        assert (G : forall l0 s0, fs_of s0 = fs_of s1 -> (forall a, same_kind (fs_cont s0 a) (fs_cont s1 a)) ->
          dget f (frac s0 c) = Some 1%Q -> dget f (frac (fold_left step l0 s0) c) = Some 1%Q).
        { induction l0 as [|y l0 IHl]; intros s0 G1 G2 G3; cbn [fold_left]; [auto|]. apply IHl.
          - exact G1.
          - intros a. unfold step, propagate_one. cbn. destruct (Nat.eq_dec a (fs_of s0 y)) as [->|D].
            + rewrite fupd_eq. eapply same_kind_trans; [apply create_wrapper_kind|]. exact (G2 (fs_of s0 y)).
            + rewrite fupd_neq by auto. exact (G2 a).
          - unfold frac at 1. unfold cont_of at 1. replace (fs_of (step s0 y) c) with (fs_of s0 c) by reflexivity.
            assert (KV : fc_val (fs_cont (step s0 y) (fs_of s0 c)) = fc_val (fs_cont s0 (fs_of s0 c))).
            { unfold step, propagate_one. cbn. destruct (Nat.eq_dec (fs_of s0 c) (fs_of s0 y)) as [EE|D].
              - rewrite EE, fupd_eq. match goal with |- fc_val (create_wrapper ?dd ?z) = _ => pose proof (create_wrapper_kind dd z) as K end.
                unfold same_kind in K. cbn in K. destruct K as (-> & _). reflexivity.
              - now rewrite fupd_neq. }
            rewrite KV. unfold step, propagate_one. cbn. unfold fupd.
            destruct (Nat.eqb (fc_val (fs_cont s0 (fs_of s0 c))) (fc_val (cont_of s0 y))); [|exact G3].
            rewrite E. cbn. apply dget_dset_eq. }
        apply G; [auto|unfold same_kind; auto|]. rewrite Kc. auto.
    + intros x Hx. cbn in Hx. destruct (B7 x) as (C1 & C2); [tauto|]. rewrite C1, C2.
      unfold s1, step, propagate_one. cbn. rewrite !fupd_neq by (intros ->; tauto). auto.
Qed.
End Propagation.

Lemma sset_In l f : In f (sset l) <-> In f l.
Proof. induction l as [|x l IH]; cbn [sset]; [tauto|]. rewrite sadd_In, IH. cbn. intuition. Qed.
Lemma sset_NoDup l : NoDup (sset l).
Proof.
  induction l as [|x l IH]; cbn [sset]; [constructor|]. unfold sadd. destruct (smem x (sset l)) eqn:E; [auto|].
  constructor; [|auto]. intros H. apply smem_In in H. congruence.
Qed.
Lemma potential_In conns s f : In f (potential conns s) <->
  exists c, In c conns /\ (In f (fset s c) \/ In f (keys (frac s c))).
Proof.
  unfold potential. rewrite sset_In, !in_app_iff, !in_concat. split.
  - intros [(l & A & B)|[(l & A & B)|(l & A & B)]]; apply in_map_iff in A; destruct A as (c & <- & A); exists c; auto.
  - intros (c & A & [B|B]); [left|right; left]; eexists; (split; [apply in_map_iff; eauto|auto]).
Qed.
Lemma rules_In conns s r : In r (rules conns s) <-> exists c, In c conns /\ fs_mix s c = Some r.
Proof.
  unfold rules. rewrite sset_In, in_concat. split.
  - intros (l & A & B). apply in_map_iff in A. destruct A as (c & <- & A). exists c. split; [auto|].
    destruct (fs_mix s c); cbn in B; [destruct B as [->|[]]; auto|destruct B].
  - intros (c & A & B). exists [r]. split; [|now left]. apply in_map_iff. exists c. rewrite B. auto.
Qed.

Lemma propagate_ok conns s s' : sound_conns s conns -> propagate conns s = (s', None) ->
  (forall c, In c conns -> fs_of s' c = fs_of s c /\ fs_tmp s' c = fs_tmp s c /\ fset s' c = fset s c /\ fvar s' c = fvar s c) /\
  (forall c f, In c conns ->
     (In f (keys (frac s' c)) <-> exists d, In d conns /\ In f (keys (frac s d)))) /\
  ((exists f g c d, In c conns /\ In d conns /\ f <> g /\ In f (keys (frac s c)) /\ In g (keys (frac s d))) ->
     forall c f q, In c conns -> dget f (frac s c) = Some q -> dget f (frac s' c) = Some q) /\
  (forall c f, In c conns -> (forall g d, In d conns -> In g (keys (frac s d)) -> g = f) -> dget f (frac s' c) = Some 1%Q) /\
  (exists r, forall c, In c conns -> fs_mix s' c = Some r /\ forall r', fs_mix s c = Some r' -> r' = r) /\
  (forall b, NoDup b -> incl b conns -> sound_branch s' b) /\
  sound_conns s' conns /\ (forall a, fc_val (fs_cont s' a) = fc_val (fs_cont s a)).
Proof.
  intros (NC & OK) H. unfold propagate in H. set (rs := rules conns s) in *.
  assert (RS : length rs <= 1 /\ match potential conns s with
      | [] => (s, Some TESPyNetworkError)
      | pot => (fold_left (propagate_one (match rs with r :: _ => r | [] => "ideal-cond"%string end) pot
                  (collect fc_engine conns s) (collect fc_back conns s)) conns s, None) end = (s', None)).
  { destruct rs as [|r [|r2 l]]; [split; [cbn; lia|exact H]|split; [cbn; lia|exact H]|discriminate]. }
  clear H. destruct RS as (RL & H). set (rule := match rs with r :: _ => r | [] => "ideal-cond"%string end) in *.
  set (pot := potential conns s) in *.
  assert (PN : pot <> []) by (intros E; rewrite E in H; discriminate).
  assert (H1 : fold_left (propagate_one rule pot (collect fc_engine conns s) (collect fc_back conns s)) conns s = s').
  { destruct pot; [congruence|]. now apply (f_equal fst) in H. }
  assert (PI : forall f, In f pot <-> exists d, In d conns /\ In f (keys (frac s d))).
  { intros f. unfold pot. rewrite potential_In. split; intros (c & A & B); exists c; (split; [auto|]); [|auto].
    destruct B as [B|B]; [|auto]. now apply (OK c A). }
  destruct (propagate_fold rule pot (collect fc_engine conns s) (collect fc_back conns s) PN conns conns s (incl_refl _))
    as (B1 & B2 & B3 & B4 & B5 & B6 & _).
  { intros c Hc. split; now apply (OK c Hc). }
  cbv zeta in *. rewrite H1 in *.
  assert (FS : forall c, fset s' c = fset s c).
  { intros c. unfold fset, cont_of. rewrite B1. apply B4. }
  assert (KEYS : forall c f, In c conns -> (In f (keys (frac s' c)) <-> In f pot)).
  { intros c f Hc. split; [|now apply B6]. intros F. apply (B5 c Hc) in F. destruct F as [F|F]; [apply PI; eauto|auto]. }
  assert (FV : forall c, fc_val (cont_of s' c) = fc_val (cont_of s c)).
  { intros c. unfold cont_of. rewrite B1. apply B4. }
  assert (SC : sound_conns s' conns).
  { split; [auto|]. intros c Hc. rewrite FS, FV, B1, B3. destruct (OK c Hc) as (O1 & O2 & O3 & O4 & O5).
    split; [auto|]. split; [now apply B5|]. split; [auto|]. split; [auto|]. intros f F. apply KEYS; [auto|]. apply PI. eauto. }
  split; [|split; [|split; [|split; [|split; [|split; [|split]]]]]].
  - intros c Hc. rewrite B1, B2, FS. split; [auto|]. split; [auto|]. split; [auto|].
    unfold fvar, cont_of. rewrite B1. apply B4.
  - intros c f Hc. rewrite KEYS by auto. apply PI.
  - intros (f & g & c & d & Hc & Hd & NE & F & G). assert (1 < length pot) as L.
    { assert (In f pot) as If by (apply PI; eauto). assert (In g pot) as Ig by (apply PI; eauto).
      destruct pot as [|x [|y l]]; [destruct If| |cbn; lia]. cbn in If, Ig. exfalso. apply NE. intuition congruence. }
    intros c0 f0 q Hc0 E. now apply (B5 c0 Hc0).
  - intros c f Hc U. apply (B6 c Hc). assert (NP : NoDup pot) by apply sset_NoDup.
    assert (A : forall g, In g pot -> g = f) by (intros g Hg; apply PI in Hg; destruct Hg as (d & Hd & G); eauto).
    destruct pot as [|x [|y l]]; [congruence| |].
    + rewrite (A x); [auto|now left].
    + exfalso. assert (x = f) by (apply A; cbn; auto). assert (y = f) by (apply A; cbn; auto). subst.
      inversion NP as [|? ? Q1 Q2]; subst. apply Q1. now left.
  - exists rule. intros c Hc. split; [now apply B6|]. intros r' E.
    assert (In r' rs) as I by (apply rules_In; eauto). unfold rule. destruct rs as [|r [|r2 l]]; [destruct I| |cbn in RL; lia].
    destruct I as [->|[]]. auto.
  - intros b NB IB. split; [auto|]. split; [|split].
    + intros c Hc. apply IB in Hc. destruct SC as (_ & SC). destruct (SC c Hc) as (O1 & O2 & O3 & O4 & O5). auto.
    + intros c d f Hc Hd F. apply KEYS; [auto|]. rewrite FS in F. apply PI. exists c. split; [auto|]. apply (OK c); auto.
    + intros c Hc. apply IB in Hc. destruct (B6 c Hc) as (_ & -> & _). split; [auto|]. intros f. apply KEYS. auto.
  - exact SC.
  - intros a. apply B4.
Qed.

Lemma propagate_outcome conns s : snd (propagate conns s) = None \/ snd (propagate conns s) = Some TESPyNetworkError.
Proof.
  unfold propagate. destruct (rules conns s) as [|r [|r2 l]]; [| |auto]; destruct (potential conns s); auto.
Qed.

(* ---- several branches, and reset ---- *)

Lemma branch_frame s main others s' : sound_branch s (main :: others) ->
  presolve_fluid_branch (main :: others) s = (s', None) ->
  (forall c, In c (main :: others) -> fs_of s' c = fs_of s main) /\
  (forall c, ~ In c (main :: others) -> fs_of s' c = fs_of s c /\ fs_tmp s' c = fs_tmp s c) /\
  (forall c, In c others -> fs_tmp s' c = Some (fs_of s c)) /\ fs_tmp s' main = Some (fs_new s) /\
  fs_new s' = S (fs_new s) /\ fs_pot s' = fs_pot s /\
  (forall a, a < fs_new s -> a <> fs_of s main -> fs_cont s' a = fs_cont s a) /\
  (forall a, a < fs_new s -> a <> fc_val (cont_of s main) -> fs_dict s' a = fs_dict s a) /\
  fc_set (fs_cont s' (fs_new s)) = fset s main /\
  fc_val (fs_cont s' (fs_of s main)) = fc_val (cont_of s main).
Proof.
  intros SB H. pose proof SB as (NB & S1 & S2 & S3).
  assert (W : exists d set var, s' = with_comp main d set var (alias_fluid main others s)).
  { unfold presolve_fluid_branch in H. cbv zeta in H.
    destruct (concat _) as [|x l]; [|destruct (has_dup _); [discriminate|]].
    - destruct (fs_pot s main) as [|f [|g l]]; [discriminate| |]; apply (f_equal fst) in H; cbn [fst] in H; symmetry in H; eauto.
    - destruct (rbind _ _) as [[fx var]|e]; [|discriminate]. apply (f_equal fst) in H. cbn [fst] in H. symmetry in H. eauto. }
  destruct W as (d & set & var & ->).
  destruct (alias_fluid_ok main others s NB) as (L1 & L2 & L3 & L4 & L5 & L6 & L7 & L8 & L9 & L10 & L11).
  { intros c Hc. split; apply S1; auto. }
  destruct (with_comp_ok main d set var (alias_fluid main others s)) as (W1 & W2 & W3 & W4 & W5 & W6 & W7 & W8). cbv zeta in *.
  assert (OM : fs_of (alias_fluid main others s) main = fs_of s main) by (apply L1; now left).
  rewrite W1, W2, W7, W8. split; [auto|]. split; [auto|]. split; [auto|]. split; [auto|]. split; [auto|]. split; [auto|].
  destruct (S1 main (or_introl eq_refl)) as (_ & _ & Z1 & Z2).
  split; [|split; [|split]].
  - intros a Ha Hn. rewrite W4 by congruence. now apply L3.
  - intros a Ha Hn. rewrite W5 by congruence. now apply L3.
  - rewrite W4 by (rewrite OM; lia). now rewrite L11.
  - unfold cont_of at 1 in W6. rewrite W1, OM in W6. now rewrite W6, L9.
Qed.

Lemma sound_branch_ext s s1 b :
  (forall c, In c b -> fs_of s1 c = fs_of s c /\ cont_of s1 c = cont_of s c /\ frac s1 c = frac s c /\ fs_pot s1 c = fs_pot s c) ->
  fs_new s <= fs_new s1 -> sound_branch s b -> sound_branch s1 b.
Proof.
  intros E L (A & B & C & D). split; [auto|]. split; [|split].
  - intros c Hc. destruct (E c Hc) as (E1 & E2 & E3 & E4), (B c Hc) as (B1 & B2 & B3 & B4).
    unfold fset. rewrite E1, E2, E3. split; [auto|]. split; [auto|]. lia.
  - intros c d f Hc Hd. destruct (E c Hc) as (E1 & E2 & E3 & E4), (E d Hd) as (F1 & F2 & F3 & F4).
    unfold fset. rewrite E2, F3. now apply C.
  - intros c Hc. destruct (E c Hc) as (E1 & E2 & E3 & E4). rewrite E3, E4. now apply D.
Qed.

Definition fluid_post (s s' : fstate) (b : list nat) : Prop :=
  exists main a, In main b /\ (forall c, In c b -> fs_of s' c = fs_of s main) /\
    fc_val (fs_cont s' (fs_of s main)) = fc_val (cont_of s main) /\
    (forall c, In c b -> c <> main -> fs_tmp s' c = Some (fs_of s c) /\ fs_cont s' (fs_of s c) = fs_cont s (fs_of s c)) /\
    fs_tmp s' main = Some a /\ fs_new s <= a < fs_new s' /\ fc_set (fs_cont s' a) = fset s main /\
    (forall c f, In c b -> In f (fset s c) ->
       dget f (fs_dict s' (fc_val (cont_of s main))) = dget f (frac s c) /\ ~ In f (fc_var (fs_cont s' (fs_of s main)))
       /\ In f (fc_set (fs_cont s' (fs_of s main)))).

Lemma presolve_fluids_ok bs : forall s s', NoDup (concat bs) -> ~ In [] bs ->
  (forall b, In b bs -> sound_branch s b) -> separate s bs ->
  (forall c d, In c (concat bs) -> In d (concat bs) -> fs_of s c = fs_of s d -> c = d) ->
  presolve_fluids bs s = (s', None) ->
  (forall b, In b bs -> fluid_post s s' b) /\
  (forall c, ~ In c (concat bs) -> fs_of s' c = fs_of s c /\ fs_tmp s' c = fs_tmp s c) /\
  (forall a, a < fs_new s -> (forall c, In c (concat bs) -> fs_of s c <> a) -> fs_cont s' a = fs_cont s a) /\
  (forall a, a < fs_new s -> (forall c, In c (concat bs) -> fc_val (cont_of s c) <> a) -> fs_dict s' a = fs_dict s a) /\
  fs_new s <= fs_new s' /\
  (forall c d a, In c (concat bs) -> In d (concat bs) -> fs_tmp s' c = Some a -> fs_tmp s' d = Some a -> c = d).
Proof.
  induction bs as [|b bs IH]; intros s s' ND NE SB SEP INJ H; cbn [presolve_fluids] in H.
  - inversion H; subst. split; [intros b []|]. split; [auto|]. split; [auto|]. split; [auto|]. split; [auto|]. intros c d a [].
  - cbn [concat] in *. destruct (NoDup_app_inv _ _ ND) as (N1 & N2 & N3).
    destruct (presolve_fluid_branch b s) as [s1 [e|]] eqn:EB; [discriminate|].
    assert (SBb : sound_branch s b) by (apply SB; now left).
    destruct b as [|main others]; [exfalso; apply NE; now left|]. set (b := main :: others) in *.
    destruct (branch_frame s main others s1 SBb EB) as (F1 & F2 & F3 & F4 & F5 & F6 & F7 & F8 & F9 & F10).
    destruct (reduce_result s main others SBb s1 EB) as (_ & RR & _). fold b in RR, F1, F2.
    assert (Mb : In main b) by now left.
    pose proof SBb as (_ & Sb1 & Sb2 & Sb3).
    assert (LAT : forall b' c, In b' bs -> In c b' -> ~ In c b /\ fs_of s1 c = fs_of s c /\ cont_of s1 c = cont_of s c /\
      frac s1 c = frac s c /\ fs_pot s1 c = fs_pot s c).
    { intros b' c Hb Hc. assert (CC : In c (concat bs)) by (apply in_concat; eauto).
      assert (NI : ~ In c b) by (intros Hin; exact (N3 c Hin CC)). split; [auto|].
      destruct (F2 c NI) as (G1 & G2). assert (SBc := SB b' (or_intror Hb)). destruct SBc as (_ & SC1 & _).
      destruct (SC1 c Hc) as (_ & _ & Z1 & Z2).
      assert (E1 : cont_of s1 c = cont_of s c).
      { unfold cont_of. rewrite G1. apply F7; [auto|]. intros X. apply NI.
        rewrite (INJ c main); auto; apply in_app_iff; auto. }
      split; [auto|]. split; [auto|]. split; [|now rewrite F6].
      unfold frac. rewrite E1. apply F8; [auto|].
      apply (SEP b' b c main); [now right|now left|auto|auto|]. intros ->. auto. }
    assert (LATC : forall c, In c (concat bs) -> exists b', In b' bs /\ In c b') by (intros c Hc; apply in_concat in Hc; destruct Hc as (b' & ? & ?); eauto).
    destruct (IH s1 s') as (I1 & I2 & I3 & I4 & I5 & I6); auto.
    { intros X. apply NE. now right. }
    { intros b' Hb. apply (sound_branch_ext s s1); [|lia|apply SB; now right].
      intros c Hc. destruct (LAT b' c Hb Hc) as (_ & X). exact X. }
    { intros b1 b2 c d Hb1 Hb2 Hc Hd D. destruct (LAT b1 c Hb1 Hc) as (_ & _ & -> & _), (LAT b2 d Hb2 Hd) as (_ & _ & -> & _).
      apply (SEP b1 b2); auto; now right. }
    { intros c d Hc Hd E. destruct (LATC c Hc) as (b1 & Hb1 & Hc1), (LATC d Hd) as (b2 & Hb2 & Hd2).
      destruct (LAT b1 c Hb1 Hc1) as (_ & E1 & _), (LAT b2 d Hb2 Hd2) as (_ & E2 & _). apply INJ; try (apply in_app_iff; auto). congruence. }
    assert (OFF : forall c x, In c b -> In x (concat bs) -> fs_of s1 x <> fs_of s c).
    { intros c x Hc Hx E. destruct (LATC x Hx) as (b2 & Hb2 & Hx2). destruct (LAT b2 x Hb2 Hx2) as (NI & E2 & _).
      apply NI. rewrite (INJ x c); auto; [apply in_app_iff; auto|apply in_app_iff; auto|congruence]. }
    assert (OFFV : forall x, In x (concat bs) -> fc_val (cont_of s1 x) <> fc_val (cont_of s main)).
    { intros x Hx. destruct (LATC x Hx) as (b2 & Hb2 & Hx2). destruct (LAT b2 x Hb2 Hx2) as (NI & _ & -> & _).
      apply (SEP b2 b x main); [now right|now left|auto|auto|]. intros ->. auto. }
    assert (TMPOTHER : forall c, In c b -> fs_tmp s' c = fs_tmp s1 c) by (intros c Hc; apply I2; auto).
    split; [|split; [|split; [|split; [|split]]]].
    + intros b' [<-|Hb].
      * exists main, (fs_new s). destruct (Sb1 main Mb) as (_ & _ & Z1 & Z2).
        assert (CM : fs_cont s' (fs_of s main) = fs_cont s1 (fs_of s main)) by (apply I3; [lia|intros x Hx; now apply OFF]).
        split; [auto|]. split; [intros c Hc; rewrite (proj1 (I2 c (N3 c Hc))); auto|]. split; [now rewrite CM|].
        split; [|split; [|split; [|split]]].
        -- intros c Hc D. destruct (Sb1 c Hc) as (_ & _ & Zc1 & Zc2). split.
           ++ rewrite TMPOTHER by auto. apply F3. destruct Hc as [<-|Hc]; [congruence|auto].
           ++ rewrite I3; [|lia|intros x Hx; now apply OFF]. apply F7; [auto|].
              intros X. apply D. apply INJ; auto; apply in_app_iff; auto.
        -- now rewrite TMPOTHER.
        -- lia.
        -- rewrite I3; [auto|lia|]. intros x Hx. destruct (LATC x Hx) as (b2 & Hb2 & Hx2).
           destruct (LAT b2 x Hb2 Hx2) as (_ & -> & _). destruct (SB b2 (or_intror Hb2)) as (_ & SX & _).
           destruct (SX x Hx2) as (_ & _ & Y1 & _). lia.
        -- intros c f Hc F. rewrite I4; [|lia|auto]. rewrite CM.
           assert (KF : In f (keys (frac s c))) by (apply (Sb2 c c f); auto). apply in_keys_dget in KF. destruct KF as (q & KF).
           destruct (RR main f q Mb) as (R1 & R2 & R3); [exists c; auto|].
           unfold frac in R1. unfold fvar in R3. unfold fset in R2. unfold cont_of in R1, R2, R3. rewrite (F1 main Mb) in R1, R2, R3. rewrite F10 in R1.
           split; [now rewrite R1, KF|auto].
      * destruct (I1 b' Hb) as (m & a & P1 & P2 & P3 & P4 & P5 & P6 & P7 & P8).
        destruct (LAT b' m Hb P1) as (_ & M1 & M2 & M3 & M4).
        exists m, a. split; [auto|]. rewrite <- M1, <- M2. split; [auto|]. split; [auto|]. split; [|split; [|split; [|split]]].
        -- intros c Hc D. destruct (LAT b' c Hb Hc) as (_ & C1 & C2 & C3 & C4). destruct (P4 c Hc D) as (Q1 & Q2).
           split; [congruence|]. unfold cont_of in C2. rewrite C1 in *. now rewrite Q2.
        -- auto.
        -- lia.
        -- rewrite P7. unfold fset. now rewrite M2.
        -- intros c f Hc F. destruct (LAT b' c Hb Hc) as (_ & C1 & C2 & C3 & C4). rewrite <- C3. apply P8; [auto|].
           unfold fset in *. now rewrite C2.
    + intros c Hc. rewrite in_app_iff in Hc. destruct (I2 c) as (J1 & J2); [tauto|]. destruct (F2 c) as (G1 & G2); [tauto|]. split; congruence.
    + intros a Ha Na. rewrite I3.
      * apply F7; [auto|]. intros ->. apply (Na main); [apply in_app_iff; auto|auto].
      * lia.
      * intros x Hx. destruct (LATC x Hx) as (b2 & Hb2 & Hx2). destruct (LAT b2 x Hb2 Hx2) as (_ & -> & _). apply Na, in_app_iff. auto.
    + intros a Ha Na. rewrite I4.
      * apply F8; [auto|]. intros ->. apply (Na main); [apply in_app_iff; auto|auto].
      * lia.
      * intros x Hx. destruct (LATC x Hx) as (b2 & Hb2 & Hx2). destruct (LAT b2 x Hb2 Hx2) as (_ & _ & -> & _). apply Na, in_app_iff. auto.
    + lia.
    + assert (TB : forall c a, In c b -> fs_tmp s' c = Some a -> (c = main /\ a = fs_new s) \/ (a = fs_of s c /\ a < fs_new s)).
      { intros c a Hc E. rewrite TMPOTHER in E by auto. destruct Hc as [<-|Hc].
        - left. split; [auto|congruence].
        - right. rewrite F3 in E by auto. inversion E; subst. split; [auto|]. apply Sb1. now right. }
      assert (TL : forall c a, In c (concat bs) -> fs_tmp s' c = Some a -> (fs_new s < a) \/ (a = fs_of s c /\ a < fs_new s)).
      { intros c a Hc E. destruct (LATC c Hc) as (b2 & Hb2 & Hc2). destruct (I1 b2 Hb2) as (m & a' & P1 & P2 & P3 & P4 & P5 & P6 & P7 & P8).
        destruct (Nat.eq_dec c m) as [->|D].
        - left. rewrite P5 in E. inversion E; subst. lia.
        - right. destruct (P4 c Hc2 D) as (Q1 & _). rewrite Q1 in E. inversion E; subst.
          destruct (LAT b2 c Hb2 Hc2) as (_ & C1 & _). split; [auto|]. rewrite C1. destruct (SB b2 (or_intror Hb2)) as (_ & SX & _).
          now apply SX. }
      intros c d a Hc Hd E1 E2. apply in_app_iff in Hc, Hd. destruct Hc as [Hc|Hc], Hd as [Hd|Hd].
      * destruct (TB c a Hc E1) as [(-> & A1)|(A1 & A2)], (TB d a Hd E2) as [(-> & A3)|(A3 & A4)]; auto; try lia.
        apply INJ; try (apply in_app_iff; auto). congruence.
      * exfalso. destruct (TB c a Hc E1) as [(-> & A1)|(A1 & A2)], (TL d a Hd E2) as [A3|(A3 & A4)]; try lia.
        apply (N3 c Hc). rewrite (INJ c d); auto; [apply in_app_iff; auto|apply in_app_iff; auto|congruence].
      * exfalso. destruct (TB d a Hd E2) as [(-> & A1)|(A1 & A2)], (TL c a Hc E1) as [A3|(A3 & A4)]; try lia.
        apply (N3 d Hd). rewrite (INJ d c); auto; [apply in_app_iff; auto|apply in_app_iff; auto|congruence].
      * eapply I6; eauto.
Qed.

(** Resetting: [r c] the container in use, [t c] the one to return to. *)
Lemma reset_fluids_ok l : forall s (t : nat -> nat), NoDup l ->
  (forall c, In c l -> fs_tmp s c = Some (t c)) ->
  (forall c d, In c l -> In d l -> t c = t d -> c = d) ->
  (forall c d, In c l -> In d l -> t c = fs_of s d -> fc_val (cont_of s c) = fc_val (cont_of s d)) ->
  let s' := reset_fluids l s in
  fs_dict s' = fs_dict s /\
  (forall c, In c l -> fs_of s' c = t c /\ fs_tmp s' c = None /\
     fset s' c = fc_set (fs_cont s (t c)) /\ fc_val (cont_of s' c) = fc_val (cont_of s c)) /\
  (forall c, ~ In c l -> fs_of s' c = fs_of s c /\ fs_tmp s' c = fs_tmp s c) /\
  (forall a, (forall c, In c l -> t c <> a) -> fs_cont s' a = fs_cont s a).
Proof.
  unfold reset_fluids. induction l as [|c l IH]; intros s t ND T INJ V; cbv zeta; cbn [fold_left].
  - split; [auto|]. split; [intros c []|]. auto.
  - inversion ND as [|? ? N1 N2]; subst.
    assert (Tc : fs_tmp s c = Some (t c)) by (apply T; now left).
    set (s1 := reset_fluid_one s c).
    assert (E1 : forall x, x <> c -> fs_of s1 x = fs_of s x /\ fs_tmp s1 x = fs_tmp s x).
    { intros x D. unfold s1, reset_fluid_one. rewrite Tc. cbn. now rewrite !fupd_neq. }
    assert (E2 : fs_of s1 c = t c /\ fs_tmp s1 c = None).
    { unfold s1, reset_fluid_one. rewrite Tc. cbn. now rewrite !fupd_eq. }
    assert (E3 : forall a, a <> t c -> fs_cont s1 a = fs_cont s a).
    { intros a D. unfold s1, reset_fluid_one. rewrite Tc. cbn. now rewrite fupd_neq. }
    assert (E4 : fc_set (fs_cont s1 (t c)) = fc_set (fs_cont s (t c)) /\ fc_val (fs_cont s1 (t c)) = fc_val (cont_of s c)).
    { unfold s1, reset_fluid_one. rewrite Tc. cbn. now rewrite fupd_eq. }
    assert (E5 : fs_dict s1 = fs_dict s) by (unfold s1, reset_fluid_one; rewrite Tc; reflexivity).
    assert (VAL : forall x, In x l -> fc_val (cont_of s1 x) = fc_val (cont_of s x)).
    { intros x Hx. assert (D : x <> c) by (intros ->; auto). unfold cont_of at 1. rewrite (proj1 (E1 x D)).
      destruct (Nat.eq_dec (fs_of s x) (t c)) as [E|NE].
      - rewrite E, (proj2 E4). apply V; [now left|now right|auto].
      - now rewrite E3. }
    destruct (IH s1 t N2) as (A1 & A2 & A3 & A4).
    { intros x Hx. rewrite (proj2 (E1 x ltac:(intros ->; auto))). apply T. now right. }
    { intros x y Hx Hy. apply INJ; now right. }
    { intros x y Hx Hy E. rewrite (VAL x Hx), (VAL y Hy). apply V; [now right|now right|].
      rewrite E. apply (E1 y). intros ->; auto. }
    cbv zeta in *. set (s' := fold_left reset_fluid_one l s1) in *.
    split; [congruence|]. split; [|split].
    + intros x [<-|Hx].
      * destruct (A3 c N1) as (B1 & B2), E2 as (B3 & B4). rewrite B1, B2, B3, B4. split; [auto|]. split; [auto|].
        unfold fset, cont_of. rewrite B1, B3. rewrite A4.
        -- split; [apply E4|]. fold (cont_of s c). apply E4.
        -- intros x Hx E. apply N1. rewrite <- (INJ x c); auto; [now right|now left].
      * destruct (A2 x Hx) as (B1 & B2 & B3 & B4). split; [auto|]. split; [auto|].
        rewrite B3, B4. rewrite VAL by auto. rewrite E3; [auto|]. intros E. apply N1. rewrite <- (INJ x c); auto; [now right|now left].
    + intros x Hx. cbn in Hx. destruct (A3 x) as (B1 & B2); [tauto|]. destruct (E1 x) as (B3 & B4); [intros ->; tauto|]. split; congruence.
    + intros a Na. rewrite A4; [|intros x Hx; apply Na; now right]. apply E3. intros ->. apply (Na c); [now left|auto].
Qed.

Lemma solve_fluids_keep conns bs work s s' :
  sound_conns s conns -> own_fluid s conns -> separate s bs ->
  NoDup (concat bs) -> ~ In [] bs -> (forall c, In c (concat bs) <-> In c conns) -> work_ok conns work ->
  (exists f g c d, In c conns /\ In d conns /\ f <> g /\ In f (keys (frac s c)) /\ In g (keys (frac s d))) ->
  solve_fluids conns bs work s = (s', None) ->
  own_fluid s' conns /\
  (forall c, In c conns -> fset s' c = fset s c /\ forall f, fspec s' c f = fspec s c f).
Proof.
  intros SC (OI & OT) SEP ND NE CV WO TWO H. unfold solve_fluids in H.
  destruct (propagate conns s) as [s0 [e|]] eqn:EP; [discriminate|].
  destruct (propagate_ok conns s s0 SC EP) as (P1 & P2 & P3 & P4 & P5 & P6 & P7 & P8). specialize (P3 TWO).
  destruct (presolve_fluids bs s0) as [s1 [e|]] eqn:EF; [discriminate|].
  destruct (work s1) as [h|e] eqn:EW; [|discriminate]. apply (f_equal fst) in H. cbn [fst] in H.
  pose proof SC as (NC & SCc).
  assert (BC : forall b c, In b bs -> In c b -> In c conns) by (intros b c Hb Hc; apply CV, in_concat; eauto).
  assert (NB : forall b, In b bs -> NoDup b).
  { intros b Hb. clear - ND Hb. induction bs as [|b0 bs' IH]; [destruct Hb|]. cbn in ND.
    destruct (NoDup_app_inv _ _ ND) as (N1 & N2 & N3). destruct Hb as [<-|Hb]; auto. }
  assert (FV : forall c, In c conns -> fc_val (cont_of s0 c) = fc_val (cont_of s c)).
  { intros c Hc. unfold cont_of. rewrite P8. now rewrite (proj1 (P1 c Hc)). }
  destruct (presolve_fluids_ok bs s0 s1 ND NE) as (Q1 & Q2 & Q3 & Q4 & Q5 & Q6); auto.
  { intros b Hb. apply P6; [auto|]. intros c Hc. eauto. }
  { intros b b' c d Hb Hb' Hc Hd D. rewrite !FV by eauto. apply (SEP b b' c d); auto. }
  { intros c d Hc Hd E. apply CV in Hc, Hd. apply OI; auto. destruct (P1 c Hc) as (<- & _), (P1 d Hd) as (<- & _). auto. }
  set (s2 := {| fs_dict := h; fs_cont := fs_cont s1; fs_of := fs_of s1; fs_tmp := fs_tmp s1;
                fs_mix := fs_mix s1; fs_pot := fs_pot s1; fs_new := fs_new s1 |}) in *.
  assert (TMP : forall c, In c conns -> exists a, fs_tmp s1 c = Some a).
  { intros c Hc. apply CV, in_concat in Hc. destruct Hc as (b & Hb & Hcb).
    destruct (Q1 b Hb) as (m & a & R1 & R2 & R3 & R4 & R5 & R6 & R7 & R8).
    destruct (Nat.eq_dec c m) as [->|D]; [eauto|]. destruct (R4 c Hcb D); eauto. }
  set (t := fun c => match fs_tmp s1 c with Some a => a | None => 0 end).
  assert (T : forall c, In c conns -> fs_tmp s1 c = Some (t c)).
  { intros c Hc. destruct (TMP c Hc) as (a & E). unfold t. now rewrite E. }
  assert (TOK : forall b c, In b bs -> In c b -> (forall d, In d conns -> t c <> fs_of s1 d) /\
     fc_set (fs_cont s1 (t c)) = fset s0 c).
  { intros b c Hb Hc. pose proof (T c (BC b c Hb Hc)) as Tc.
    destruct (Q1 b Hb) as (m & a & R1 & R2 & R3 & R4 & R5 & R6 & R7 & R8).
    assert (OFD : forall d, In d conns -> exists m', In m' conns /\ fs_of s1 d = fs_of s0 m' /\ (In d b -> m' = m) /\ (In m' b -> In d b)).
    { intros d Hd. apply CV, in_concat in Hd. destruct Hd as (b' & Hb' & Hdb).
      destruct (Q1 b' Hb') as (m' & a' & R1' & R2' & _). exists m'. split; [eauto|]. split; [auto|].
      assert (DJ : forall x, In x b -> In x b' -> b = b').
      { intros x X X'. clear - ND Hb Hb' X X'. induction bs as [|b0 bs' IH]; [destruct Hb|]. cbn in ND.
        destruct (NoDup_app_inv _ _ ND) as (_ & N2 & N3).
        destruct Hb as [<-|Hb], Hb' as [<-|Hb']; auto; exfalso; [apply (N3 x X)|apply (N3 x X')]; apply in_concat; eauto. }
      split.
      - intros Hdb2. assert (b = b') by eauto. subst b'.
        assert (E : fs_of s0 m' = fs_of s0 m) by (rewrite <- (R2' d), <- (R2 d); auto).
        apply OI; [eauto|eauto|]. destruct (P1 m) as (<- & _); [eauto|]. destruct (P1 m') as (<- & _); [eauto|]. auto.
      - intros M. assert (b = b') by eauto. now subst. }
    assert (O0 : forall x y, In x conns -> In y conns -> fs_of s0 x = fs_of s0 y -> x = y).
    { intros x y Hx Hy E. apply OI; auto. destruct (P1 x Hx) as (<- & _), (P1 y Hy) as (<- & _). auto. }
    destruct (Nat.eq_dec c m) as [->|D].
    - assert (t m = a) as -> by congruence. split; [|exact R7].
      intros d Hd E. destruct (OFD d Hd) as (m' & M1 & M2 & _). rewrite M2 in E.
      destruct P7 as (_ & P7). destruct (P7 m' M1) as (_ & _ & Z & _). lia.
    - destruct (R4 c Hc D) as (R9 & R10). assert (t c = fs_of s0 c) as -> by congruence. split; [|now rewrite R10].
      intros d Hd E. destruct (OFD d Hd) as (m' & M1 & M2 & M3 & M4). rewrite M2 in E.
      assert (c = m') by (apply O0; eauto). subst m'. apply D. apply M3, M4, Hc. }
  assert (TOK' : forall c, In c conns -> (forall d, In d conns -> t c <> fs_of s1 d) /\ fc_set (fs_cont s1 (t c)) = fset s0 c).
  { intros c Hc. apply CV, in_concat in Hc. destruct Hc as (b & Hb & Hcb). eauto. }
  destruct (reset_fluids_ok conns s2 t NC) as (G1 & G2 & G3 & G4).
  { exact T. }
  { intros c d Hc Hd E. apply (Q6 c d (t c)); [now apply CV|now apply CV|auto|rewrite E; auto]. }
  { intros c d Hc Hd E. exfalso. exact (proj1 (TOK' c Hc) d Hd E). }
  cbv zeta in *. rewrite H in *.
  assert (FS : forall c, In c conns -> fset s' c = fset s c).
  { intros c Hc. destruct (G2 c Hc) as (_ & _ & -> & _). cbn [fs_cont s2]. rewrite (proj2 (TOK' c Hc)). now apply P1. }
  split; [split|].
  - intros c d Hc Hd E. destruct (G2 c Hc) as (A & _), (G2 d Hd) as (B & _). rewrite A, B in E.
    apply (Q6 c d (t c)); [now apply CV|now apply CV|auto|rewrite E; auto].
  - intros c Hc. now apply G2.
  - intros c Hc. split; [auto|]. intros f. unfold fspec. rewrite (FS c Hc).
    destruct (smem f (fset s c)) eqn:ES; [|auto]. apply smem_In in ES.
    destruct (G2 c Hc) as (_ & _ & _ & GV). unfold frac at 1. rewrite GV, G1.
    change (dget f (h (fc_val (cont_of s1 c))) = dget f (frac s c)).
    pose proof Hc as Hc'. apply CV, in_concat in Hc'. destruct Hc' as (b & Hb & Hcb).
    destruct (Q1 b Hb) as (m & a & R1 & R2 & R3 & R4 & R5 & R6 & R7 & R8).
    assert (F0 : In f (fset s0 c)) by (rewrite (proj1 (proj2 (proj2 (P1 c Hc)))); auto).
    destruct (R8 c f Hcb F0) as (R9 & R10 & _).
    rewrite (WO s1 h EW c f Hc).
    + unfold frac at 1. unfold cont_of at 1. rewrite (R2 c Hcb), R3, R9.
      destruct (SCc c Hc) as (_ & _ & _ & _ & K). apply K, in_keys_dget in ES. destruct ES as (q & ES).
      rewrite ES. now apply P3.
    + unfold fvar, cont_of. now rewrite (R2 c Hcb).
Qed.
