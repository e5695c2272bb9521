(** Lemmas about constraints and runs of optimisation problems. *)
From Coq Require Import Lqa FinFun.
From Verif Require Import OptModel OptSpec OptProofs.
Open Scope nat_scope.
Open Scope list_scope.

Definition to_constraint (up : bool) (x : string * string * string * limit) : constraint :=
  match x with (o, l, p, lim) => {| is_upper := up; c_obj := o; c_label := l; c_param := p; c_limit := lim |} end.

Lemma enum_spec L : python_limits L -> NoDup (enum L) /\
  forall o l p lim, In (o, l, p, lim) (enum L) <-> exists d e, dget o L = Some d /\ dget l d = Some e /\ dget p e = Some lim.
Proof.
  intros (N & P). split.
  - unfold enum. apply (nodup_concat _ (fun x : string * string * string * limit => fst (fst (fst x)))); [exact N| |].
    + intros (o & d) I. destruct (P o d I) as (N1 & N2).
      apply (nodup_concat _ (fun x : string * string * string * limit => snd (fst (fst x)))); [exact N1| |].
      * intros (l & e) I2. cbn. specialize (N2 l e I2). clear -N2. unfold keys in N2. induction e as [|[p lim] e IH]; cbn; [constructor|].
        inversion N2; subst. constructor; [|auto]. intros X. apply in_map_iff in X. destruct X as ((p' & lim') & E & X). inversion E; subst.
        apply H1. change p with (fst (p, lim)). now apply in_map.
      * intros (l & e) b _ B. cbn in B. apply in_map_iff in B. destruct B as (x & <- & _). reflexivity.
    + intros (o & d) b _ B. cbn in B. apply in_concat_map in B. destruct B as (x & _ & B). apply in_map_iff in B. destruct B as (y & <- & _). reflexivity.
  - intros o l p lim. unfold enum. rewrite in_concat_map. split.
    + intros ((o' & d) & I & B). cbn in B. apply in_concat_map in B. destruct B as ((l' & e) & I2 & B). cbn in B.
      apply in_map_iff in B. destruct B as ((p' & lim') & E & B). cbn in E. inversion E; subst. destruct (P _ _ I) as (N1 & N2).
      exists d, e. split; [now apply In_dget|]. split; [now apply In_dget|]. apply In_dget; [eauto|exact B].
    + intros (d & e & H1 & H2 & H3). apply dget_In in H1. apply dget_In in H2. apply dget_In in H3. exists (o, d). split; [exact H1|].
      cbn. apply in_concat_map. exists (l, e). split; [exact H2|]. cbn. apply in_map_iff. exists (p, lim). auto.
Qed.

Lemma python_limits_merged L : python_limits L -> python_limits (merged L).
Proof.
  intros (N & P). destruct (merged_in L N) as (A & B & C). split; [exact A|]. intros o d I. destruct (B _ _ I) as [X|X]; [now apply (P o)|].
  subst d. split; [constructor|intros l e []].
Qed.
Lemma dget_merged L o (d : dict (dict limit)) l e : python_limits L -> dget l d = Some e -> (dget o (merged L) = Some d <-> dget o L = Some d).
Proof.
  intros (N & P) G. destruct (merged_in L N) as (A & B & C). split; intros H.
  - apply dget_In in H. destruct (B _ _ H) as [X|X]; [now apply In_dget|]. subst d. discriminate.
  - apply dget_In in H. apply In_dget; auto.
Qed.

Lemma evaluate_spec {M} (um : user_model M) m c up x v : evaluate um m c (negb up) x = Ok v ->
  ((v <= 0)%Q <-> fulfilled um m c (to_constraint up x)).
Proof.
  destruct x as (((o & l) & p) & lim). unfold evaluate, fulfilled. cbn [to_constraint is_upper c_obj c_label c_param c_limit]. intros H.
  assert (X : exists b w, limit_value um m c lim = Some b /\ get_param um m o l p = Ok w /\ v = if negb up then (b - w)%Q else (- (b - w))%Q).
  { unfold limit_value. destruct lim as [q|k].
    - destruct (get_param um m o l p) as [w|]; [|discriminate]. cbn in H. exists q, w. split; [reflexivity|]. split; [reflexivity|].
      destruct up; cbn in *; congruence.
    - destruct (dget k (refs c)) as [((o' & l') & p')|]; [|discriminate]. destruct (get_param um m o' l' p') as [b|]; [|discriminate]. cbn in H.
      destruct (get_param um m o l p) as [w|]; [|discriminate]. cbn in H. exists b, w. split; [reflexivity|]. split; [reflexivity|].
      destruct up; cbn in *; congruence. }
  destruct X as (b & w & E1 & E2 & ->). split.
  - intros L. exists w, b. split; [exact E2|]. split; [exact E1|]. destruct up; cbn in *; lra.
  - intros (w' & b' & F1 & F2 & F3). assert (w' = w) by congruence. assert (b' = b) by congruence. subst. destruct up; cbn in *; lra.
Qed.

Lemma cname_spec show c (up : bool) (dir : string) x n : dir = (if up then "<=" else ">=")%string -> constraint_name show c dir x = Ok n ->
  exists r, n = (c_obj (to_constraint up x) ++ "-" ++ c_label (to_constraint up x) ++ "-" ++ c_param (to_constraint up x) ++ dir ++ r)%string.
Proof.
  intros _. destruct x as (((o & l) & p) & lim). unfold constraint_name. intros H.
  match type of H with rmap _ ?r = _ => destruct r as [r0|] end; [|discriminate]. inversion H. exists r0. reflexivity.
Qed.

Lemma fulfilled_refs {M} (um : user_model M) m c c' k : refs c = refs c' -> (fulfilled um m c k <-> fulfilled um m c' k).
Proof. intros E. unfold fulfilled, limit_value. rewrite E. reflexivity. Qed.

Lemma constraints_evaluated show user c obj pb : python_dict user -> python_limits (upper_limits c) -> python_limits (lower_limits c) ->
  init show user c obj = Ok pb ->
  exists cl, NoDup cl /\ (forall k, In k cl <-> stated c k) /\ nic pb = length cl /\
    Forall2 (fun k n => exists r, n = (c_obj k ++ "-" ++ c_label k ++ "-" ++ c_param k ++ (if is_upper k then "<=" else ">=") ++ r)%string) cl (constraint_list pb) /\
    forall (M : Type) (um : user_model M) hist m0 x m' r,
      snd (fst (fitness um x (evaluations um hist (pb, m0)))) = m' -> snd (fitness um x (evaluations um hist (pb, m0))) = Ok r ->
      exists f vs, r = f :: vs /\ get_objective um m' obj = Ok f /\ Forall2 (fun k v => (v <= 0)%Q <-> fulfilled um m' c k) cl vs.
Proof.
  intros P PU PL H. destruct (init_good _ _ _ _ _ P H) as (pl & _ & _ & _ & _ & _ & _ & G).
  unfold init in H. cbv zeta in H. set (c' := {| upper_limits := merged (upper_limits c) |}) in *.
  destruct (all_vars (merged user)) as [nb|]; [|discriminate]. cbn [rbind] in H.
  match type of H with rbind ?r _ = _ => destruct r as [cu|] eqn:RU end; [|discriminate]. cbn [rbind] in H.
  match type of H with rbind ?r _ = _ => destruct r as [cw|] eqn:RL end; [|discriminate]. cbn [rbind] in H.
  apply rmapM_forall2 in RU. apply rmapM_forall2 in RL.
  assert (EC : constr pb = c' /\ objective pb = obj /\ nic pb = length cu + length cw /\ constraint_list pb = cu ++ cw).
  { inversion H; subst. cbn. auto. }
  clear H. destruct EC as (EC & EO & EN & EL).
  destruct (enum_spec _ (python_limits_merged _ PU)) as (NU & IU). destruct (enum_spec _ (python_limits_merged _ PL)) as (NL & IL).
  change (merged (upper_limits c)) with (upper_limits c') in NU, IU. change (merged (lower_limits c)) with (lower_limits c') in NL, IL.
  exists (map (to_constraint true) (enum (upper_limits c')) ++ map (to_constraint false) (enum (lower_limits c'))).
  assert (INJ : forall b, Injective (to_constraint b)).
  { intros b (((o & l) & p) & q) (((o' & l') & p') & q') E. cbn in E. inversion E. reflexivity. }
  split; [|split; [|split; [|split]]].
  - apply nodup_app; [now apply Injective_map_NoDup|now apply Injective_map_NoDup|].
    intros k K1 K2. apply in_map_iff in K1. apply in_map_iff in K2. destruct K1 as ((((o & l) & p) & q) & <- & _), K2 as ((((o' & l') & p') & q') & E & _).
    cbn in E. inversion E.
  - assert (ST : forall L o l p q, python_limits L -> (exists d e, dget o (merged L) = Some d /\ dget l d = Some e /\ dget p e = Some q) <->
       (exists d e, dget o L = Some d /\ dget l d = Some e /\ dget p e = Some q)).
    { intros L o l p q PP. split; intros (d & e & E1 & E2 & E3); exists d, e; (split; [|auto]); eapply dget_merged; eauto. }
    intros k. rewrite in_app_iff. unfold stated. destruct k as [up o l p q]. cbn [is_upper c_obj c_label c_param c_limit]. split.
    + intros [K|K]; apply in_map_iff in K; destruct K as ((((o' & l') & p') & q') & E & K); cbn in E; inversion E; subst.
      * apply IU in K. cbn [c'] in K. now apply (ST _ o l p q PU).
      * apply IL in K. cbn [c'] in K. now apply (ST _ o l p q PL).
    + intros K. destruct up; [left|right]; apply in_map_iff; exists (o, l, p, q); (split; [reflexivity|]).
      * apply IU. now apply (ST _ o l p q PU).
      * apply IL. now apply (ST _ o l p q PL).
  - rewrite app_length, !map_length, EN. rewrite (forall2_len _ _ _ RU), (forall2_len _ _ _ RL). reflexivity.
  - rewrite EL. apply Forall2_app; apply forall2_map_l; [revert RU|revert RL]; apply forall2_impl; intros x n _ E.
    + destruct (cname_spec show c' true _ x n eq_refl E) as (r & ->). exists r. destruct x as (((? & ?) & ?) & ?). reflexivity.
    + destruct (cname_spec show c' false _ x n eq_refl E) as (r & ->). exists r. destruct x as (((? & ?) & ?) & ?). reflexivity.
  - intros M um hist m0 x m' r EM ER. destruct (evaluations_good um hist pl pb m0 G) as (G1 & (_ & _ & F3 & F4 & _)).
    destruct (evaluations um hist (pb, m0)) as [pb1 m1]. cbn [fst snd] in *.
    destruct (fitness_step um x pl pb1 m1 G1) as (pb' & m2 & r' & E & _ & _ & OK & SHORT). rewrite E in *. cbn [fst snd] in *. subst m2.
    destruct (Nat.le_gt_cases (length pl) (length x)) as [L|L]; [|destruct (SHORT L) as (_ & Z); congruence].
    destruct (OK L) as (d & _ & _ & D3 & D4 & D5). destruct (snd (solve_model um d m1)) as [er|] eqn:SE; [specialize (D5 er eq_refl); congruence|].
    specialize (D4 eq_refl). rewrite D4 in ER. rewrite F3, F4, EC, EO in ER.
    destruct (get_objective um m' obj) as [f|] eqn:GO; [|discriminate]. cbn [rbind] in ER.
    match type of ER with rbind ?r _ = _ => destruct r as [vu|] eqn:VU end; [|discriminate]. cbn [rbind] in ER.
    match type of ER with rbind ?r _ = _ => destruct r as [vl|] eqn:VL end; [|discriminate]. cbn [rbind] in ER.
    exists f, (vu ++ vl). split; [congruence|]. split; [reflexivity|]. apply rmapM_forall2 in VU. apply rmapM_forall2 in VL.
    apply Forall2_app; apply forall2_map_l; [revert VU|revert VL]; apply forall2_impl; intros y v _ EV.
    + rewrite (evaluate_spec um m' c' true y v EV). apply fulfilled_refs. reflexivity.
    + rewrite (evaluate_spec um m' c' false y v EV). apply fulfilled_refs. reflexivity.
Qed.

(* ---- runs ---- *)

Fixpoint lookup (k : nat * nat) (t : list row) : option (list Q * list Q) :=
  match t with
  | [] => None
  | (k', v) :: t' => if (Nat.eqb (fst k) (fst k') && Nat.eqb (snd k) (snd k'))%bool then v else lookup k t'
  end.

Lemma key_eq (k k' : nat * nat) : (Nat.eqb (fst k) (fst k') && Nat.eqb (snd k) (snd k'))%bool = true <-> k = k'.
Proof.
  rewrite Bool.andb_true_iff, !Nat.eqb_eq. destruct k, k'; cbn. split; [intros (-> & ->); reflexivity|intros E; inversion E; auto].
Qed.
Lemma fill_in k v t : In k (map fst t) -> map fst (fill k v t) = map fst t.
Proof.
  induction t as [|[k' v'] t IH]; cbn; [tauto|]. destruct (_ && _)%bool eqn:E; [reflexivity|]. intros [H|H]; [|cbn; f_equal; auto].
  subst k'. assert (X : (Nat.eqb (fst k) (fst k) && Nat.eqb (snd k) (snd k))%bool = true) by (apply key_eq; reflexivity). congruence.
Qed.
Lemma fill_rows k v t : NoDup (map fst t) -> In k (map fst t) ->
  forall r, In r (fill k v t) <-> r = (k, Some v) \/ (In r t /\ fst r <> k).
Proof.
  induction t as [|[k' v'] t IH]; cbn [map]; intros N I r; [destruct I|]. inversion N as [|? ? N1 N2]; subst. cbn [fill].
  destruct (_ && _)%bool eqn:E.
  - apply key_eq in E. subst k'. cbn [In]. split.
    + intros [<-|H]; [now left|]. right. split; [now right|]. intros X. apply N1. cbn. rewrite <- X. now apply in_map.
    + intros [->|([H|H] & D)]; [now left| |now right]. subst r. cbn in D. congruence.
  - assert (D : k <> k') by (intros X; apply key_eq in X; congruence). destruct I as [I|I]; [cbn in I; congruence|]. cbn [In]. rewrite (IH N2 I). split.
    + intros [<-|[->|(H & X)]]; [right; split; [now left|cbn; congruence]|now left|right; split; [now right|exact X]].
    + intros [->|([H|H] & X)]; [right; now left|now left|right; right; auto].
Qed.

Lemma process_spec gen p : forall ind t, NoDup (map fst t) -> (forall i, ind <= i < ind + length p -> In (gen, i) (map fst t)) ->
  map fst (process gen ind p t) = map fst t /\
  forall r, In r (process gen ind p t) <->
    (exists i v, nth_error p i = Some v /\ r = ((gen, ind + i), Some v)) \/
    (In r t /\ forall i, ind <= i < ind + length p -> fst r <> (gen, i)).
Proof.
  induction p as [|v p IH]; intros ind t N I; cbn [process].
  - split; [reflexivity|]. intros r. split.
    + intros H. right. split; [exact H|]. cbn. lia.
    + intros [(i & w & H & _)|(H & _)]; [destruct i; discriminate|exact H].
  - cbn [length] in I. assert (IN : In (gen, ind) (map fst t)) by (apply I; lia).
    pose proof (fill_in (gen, ind) v t IN) as FI.
    destruct (IH (S ind) (fill (gen, ind) v t)) as (A & B).
    { now rewrite FI. } { intros i Hi. rewrite FI. apply I. lia. }
    split; [now rewrite A|]. intros r. rewrite B, (fill_rows _ _ _ N IN). split.
    + intros [(i & w & H & ->)|([->|(H & D)] & X)].
      * left. exists (S i), w. split; [exact H|]. f_equal. f_equal. lia.
      * left. exists 0, v. split; [reflexivity|]. f_equal. f_equal. lia.
      * right. split; [exact H|]. intros i Hi. destruct (Nat.eq_dec i ind) as [->|Z]; [exact D|]. apply X. cbn in Hi. lia.
    + intros [([|i] & w & H & ->)|(H & X)].
      * right. cbn in H. inversion H; subst. rewrite Nat.add_0_r. split; [now left|]. intros i Hi E. cbn in E. inversion E. lia.
      * left. exists i, w. split; [exact H|]. f_equal. f_equal. lia.
      * right. split; [right; split; [exact H|apply X; cbn; lia]|]. intros i Hi. apply X. cbn. lia.
Qed.

Lemma empty_keys n g : map fst (empty_table n g) = concat (map (fun a => map (fun i => (a, i)) (seq 0 n)) (seq 0 g)).
Proof.
  unfold empty_table. rewrite concat_map, map_map. f_equal. apply map_ext. intros a. rewrite map_map. reflexivity.
Qed.
Lemma empty_in n g a i : In (a, i) (map fst (empty_table n g)) <-> a < g /\ i < n.
Proof.
  rewrite empty_keys, in_concat_map. split.
  - intros (x & X1 & X2). apply in_map_iff in X2. destruct X2 as (j & E & J). inversion E; subst. apply in_seq in X1. apply in_seq in J. lia.
  - intros (X1 & X2). exists a. split; [apply in_seq; lia|]. apply in_map_iff. exists i. split; [reflexivity|apply in_seq; lia].
Qed.
Lemma empty_nodup n g : NoDup (map fst (empty_table n g)).
Proof.
  rewrite empty_keys. generalize (seq_NoDup g 0). generalize (seq 0 g). intros l. induction l as [|a l IH]; cbn; intros N; [constructor|].
  inversion N; subst. apply nodup_app; [|auto|].
  - apply Injective_map_NoDup; [intros x y E; congruence|apply seq_NoDup].
  - intros x X1 X2. apply in_map_iff in X1. destruct X1 as (i & <- & _). apply in_concat_map in X2. destruct X2 as (b & B1 & B2).
    apply in_map_iff in B2. destruct B2 as (j & E & _). inversion E; subst. contradiction.
Qed.

Lemma after_S evolve n p : after evolve (S n) p = evolve (after evolve n p).
Proof. revert p. induction n as [|n IH]; intros p; [reflexivity|]. cbn [after]. now rewrite <- IH. Qed.

(** The table after some generations: those are filled, the others as before *)
Lemma generations_spec evolve size : forall n gen p t, (forall k, length (after evolve k p) = size) -> NoDup (map fst t) ->
  (forall a i, gen <= a < gen + n -> i < size -> In (a, i) (map fst t)) ->
  let (p', t') := generations evolve n gen p t in
  p' = after evolve n p /\ map fst t' = map fst t /\
  forall r, In r t' <->
    (exists k i v, k < n /\ nth_error (after evolve k p) i = Some v /\ r = ((gen + k, i), Some v)) \/
    (In r t /\ forall a i, gen <= a < gen + n -> i < size -> fst r <> (a, i)).
Proof.
  induction n as [|n IH]; intros gen p t SZ N I; cbn [generations].
  - split; [reflexivity|]. split; [reflexivity|]. intros r. split.
    + intros H. right. split; [exact H|]. intros; lia.
    + intros [(k & i & v & K & _)|(H & _)]; [lia|exact H].
  - pose proof (SZ 0) as S0. cbn in S0. destruct (process_spec gen p 0 t N) as (A & B).
    { intros i Hi. apply I; lia. }
    specialize (IH (S gen) (evolve p) (process gen 0 p t)). destruct (generations evolve n (S gen) (evolve p) (process gen 0 p t)) as [p' t'].
    destruct IH as (C1 & C2 & C3).
    { intros k. apply (SZ (S k)). } { now rewrite A. } { intros a i Ha Hi. rewrite A. apply I; lia. }
    split; [exact C1|]. split; [now rewrite C2|]. intros r. rewrite C3, B. split.
    + intros [(k & i & v & K & E & ->)|([(i & v & E & ->)|(H & D)] & X)].
      * left. exists (S k), i, v. split; [lia|]. split; [exact E|]. f_equal. f_equal. lia.
      * left. exists 0, i, v. split; [lia|]. split; [exact E|]. f_equal. f_equal. lia.
      * right. split; [exact H|]. intros a i Ha Hi. destruct (Nat.eq_dec a gen) as [->|Z]; [apply D; lia|]. apply X; lia.
    + intros [([|k] & i & v & K & E & ->)|(H & X)].
      * right. split; [left; exists i, v; split; [exact E|f_equal; f_equal; lia]|]. intros a j Ha Hj Q. cbn in Q. inversion Q. lia.
      * left. exists k, i, v. split; [lia|]. split; [exact E|]. f_equal. f_equal. lia.
      * right. split; [right; split; [exact H|]|]; intros; apply X; lia.
Qed.

Lemma run_recorded evolve p num_ind num_gen : 0 < num_gen -> (forall k, length (after evolve k p) = num_ind) ->
  let (p', t) := run evolve p num_ind num_gen in
  p' = after evolve (num_gen - 1) p /\ NoDup (map fst t) /\
  forall g i v, In ((g, i), v) t <-> g < num_gen /\ i < num_ind /\ v = nth_error (after evolve g p) i.
Proof.
  intros G SZ. unfold run.
  pose proof (generations_spec evolve num_ind (num_gen - 1) 0 p (empty_table num_ind num_gen) SZ (empty_nodup _ _)) as Z.
  destruct (generations evolve (num_gen - 1) 0 p (empty_table num_ind num_gen)) as [p' t].
  destruct Z as (A & B & C). { intros a i Ha Hi. apply empty_in. lia. }
  subst p'. assert (N : NoDup (map fst t)) by (rewrite B; apply empty_nodup).
  destruct (process_spec (num_gen - 1) (after evolve (num_gen - 1) p) 0 t N) as (D & E).
  { intros i Hi. rewrite B. apply empty_in. rewrite SZ in Hi. lia. }
  split; [reflexivity|]. split; [now rewrite D|]. intros g i v. split.
  - intros H. assert (K : g < num_gen /\ i < num_ind).
    { apply empty_in. rewrite <- B, <- D. change (g, i) with (fst ((g, i), v)). now apply in_map. }
    destruct K as (K1 & K2). split; [exact K1|]. split; [exact K2|]. apply E in H. destruct H as [(j & w & J & Q)|(H & X)].
    + inversion Q; subst. cbn. auto.
    + apply C in H. destruct H as [(k & j & w & _ & J & Q)|(H & Y)].
      * inversion Q; subst. cbn. auto.
      * exfalso. destruct (Nat.eq_dec g (num_gen - 1)) as [->|Z]; [apply (X i); [rewrite SZ; lia|reflexivity]|apply (Y g i); [lia|lia|reflexivity]].
  - intros (K1 & K2 & ->). apply E. destruct (nth_error (after evolve g p) i) as [v|] eqn:Q.
    2: { apply nth_error_None in Q. rewrite SZ in Q. lia. }
    destruct (Nat.eq_dec g (num_gen - 1)) as [->|Z]; [left; exists i, v; split; [exact Q|reflexivity]|].
    right. split; [|intros j _ X; cbn in X; inversion X; congruence]. apply C. left. exists g, i, v. split; [lia|]. split; [exact Q|reflexivity].
Qed.

(** Validity *)
Lemma valid_strict k x f cs n : valid n (k, Some (x, f :: cs)) = true <-> forall c, In c cs -> (c < 0)%Q.
Proof.
  unfold valid. cbn [snd]. rewrite forallb_forall. split; intros H c I; specialize (H c I).
  - destruct (c ?= 0)%Q eqn:E; try discriminate. now apply Qlt_alt.
  - assert (E : (c ?= 0)%Q = Lt) by (apply Qlt_alt; exact H). now rewrite E.
Qed.

(* ---- witnesses ---- *)

Definition w_model : user_model (dict (dict entry)) := {|
  solve_model := fun d _ => (d, None);
  get_param := fun m o l p => match leaf m (o, l, Some p) with Some (Value x) => Ok x | _ => Err KeyError end;
  get_objective := fun _ _ => Ok 1%Q |}.
Definition w_user : dict (dict entry) := [("Connections", [("1", Params [("p", Bounds 1 10)])])]%string.
Definition w_limits : constraints :=
  {| upper_limits := [("Connections", [("1", [("p", Number 5)])])]%string; lower_limits := []; refs := [] |}.
Definition w_show (q : Q) : string := "q"%string.

Lemma python_w : python_dict w_user.
Proof.
  split; [repeat constructor; cbn; tauto|]. intros o d [E|[]]. inversion E; subst. split; [repeat constructor; cbn; tauto|].
  intros l ps [X|[]]. inversion X; subst. repeat constructor; cbn; tauto.
Qed.

(** An individual on the limit is infeasible in the table *)
Lemma on_limit : exists show user c obj pb (um : user_model (dict (dict entry))) m0 x f cs,
  python_dict user /\ init show user c obj = Ok pb /\ snd (fitness um [x] (pb, m0)) = Ok (f :: cs) /\
  (forall k, stated c k -> fulfilled um (snd (fst (fitness um [x] (pb, m0)))) c k) /\
  (forall v, In v cs -> (v <= 0)%Q) /\
  valid (nic pb) ((0, 0), Some ([x], f :: cs)) = false.
Proof.
  set (r := init w_show w_user w_limits "objective"). destruct r as [pb|e] eqn:R; [|vm_compute in R; discriminate].
  exists w_show, w_user, w_limits, "objective"%string, pb, w_model, ([] : dict (dict entry)), 5%Q, 1%Q, [(- (5 - 5))%Q].
  split; [apply python_w|]. split; [exact R|]. vm_compute in R. inversion R; subst; clear R.
  split; [vm_compute; reflexivity|]. split; [|split; [intros v [<-|[]]; vm_compute; discriminate|reflexivity]].
  intros [up o l p q] (d & e & E1 & E2 & E3). cbn [is_upper c_obj c_label c_param c_limit] in *. destruct up; [|discriminate].
  cbn in E1. destruct (String.eqb o "Connections") eqn:O; [|discriminate]. apply String.eqb_eq in O. inversion E1; subst. cbn in E2.
  destruct (String.eqb l "1") eqn:L; [|discriminate]. apply String.eqb_eq in L. inversion E2; subst. cbn in E3.
  destruct (String.eqb p "p") eqn:Pp; [|discriminate]. apply String.eqb_eq in Pp. inversion E3; subst.
  exists 5%Q, 5%Q. split; [reflexivity|]. split; [reflexivity|]. cbn. apply Qle_refl.
Qed.

(** The bounds in the variables of a problem are gone after an evaluation; a new
    problem cannot be made of them *)
Lemma bounds_lost : exists show user c obj pb (um : user_model (dict (dict entry))) m0 x q,
  python_dict user /\ init show user c obj = Ok pb /\ leaf (content (heap pb) (variables pb)) q = leaf user q /\
  let pb' := fst (fst (fitness um [x] (pb, m0))) in
  leaf (content (heap pb') (variables pb')) q = Some (Value x) /\
  (exists pb2, init show (content (heap pb) (variables pb)) c obj = Ok pb2) /\
  init show (content (heap pb') (variables pb')) c obj = Err TypeError.
Proof.
  set (r := init w_show w_user w_limits "objective"). destruct r as [pb|e] eqn:R; [|vm_compute in R; discriminate].
  exists w_show, w_user, w_limits, "objective"%string, pb, w_model, ([] : dict (dict entry)), 5%Q, ("Connections", "1", Some "p")%string.
  split; [apply python_w|]. split; [exact R|]. vm_compute in R. inversion R; subst; clear R.
  split; [reflexivity|]. split; [reflexivity|]. split; [eexists; vm_compute; reflexivity|vm_compute; reflexivity].
Qed.

(** Two variables with one name *)
Definition w_names : dict (dict entry) :=
  [("Connections", [("a", Params [("b-c", Bounds 1 10)]); ("a-b", Params [("c", Bounds 2 20)])])]%string.
Lemma same_name : exists show user c obj pb, python_dict user /\ init show user c obj = Ok pb /\
  exists n, variable_list pb = [n; n] /\ bounds pb = ([1; 2], [10; 20])%Q.
Proof.
  set (r := init w_show w_names w_limits "objective"). destruct r as [pb|e] eqn:R; [|vm_compute in R; discriminate].
  exists w_show, w_names, w_limits, "objective"%string, pb. split.
  - split; [repeat constructor; cbn; tauto|]. intros o d [E|[]]. inversion E; subst. split.
    + repeat constructor; cbn; intuition discriminate.
    + intros l ps [X|[X|[]]]; inversion X; subst; repeat constructor; cbn; tauto.
  - split; [exact R|]. vm_compute in R. inversion R; subst. exists "Connections-a-b-c"%string. split; reflexivity.
Qed.
