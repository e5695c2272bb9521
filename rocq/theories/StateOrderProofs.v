(** Proofs: the order of the connections. *)
From Coq Require Import QArith Permutation.
From Verif Require Import Base UnitsModel StateModel StateSpec StateProofs StateProofs2 StateProofs3 StateUnitsSpec StateUnitsProofs StateAgainProofs StateOrderSpec.
Open Scope string_scope.
Open Scope list_scope.

(* ----------------------------------------------- loops without references *)

Definition pmap (g : string -> conn -> res conn) (net : dict conn) : res (dict conn) :=
  rmapM (fun e => rmap (fun c => (fst e, c)) (g (fst e) (snd e))) net.

Lemma dset_app k (v v0 : conn) a b : ~ In k (keys a) -> dset k v (a ++ (k, v0) :: b) = a ++ (k, v) :: b.
Proof.
  induction a as [|[j w] a IH]; cbn; intros N; [now rewrite String.eqb_refl|].
  destruct (String.eqb k j) eqn:E; [apply String.eqb_eq in E; subst; tauto|]. rewrite IH; [reflexivity|tauto].
Qed.
Lemma dget_app k (v : conn) a b : ~ In k (keys a) -> dget k (a ++ (k, v) :: b) = Some v.
Proof.
  induction a as [|[j w] a IH]; cbn; intros N; [now rewrite String.eqb_refl|].
  destruct (String.eqb k j) eqn:E; [apply String.eqb_eq in E; subst; tauto|]. apply IH. tauto.
Qed.

Lemma over_pmap f g net : NoDup (keys net) -> (forall n l c, In (l, c) net -> f n l c = g l c) -> over f net = pmap g net.
Proof.
  intros ND H. unfold over.
  assert (G : forall todo don, NoDup (keys (don ++ todo)) -> (forall n l c, In (l, c) todo -> f n l c = g l c) ->
    fold_left (fun r l => rbind r (fun net => match dget l net with Some c => rmap (fun c' => dset l c' net) (f net l c) | None => Ok net end)) (keys todo) (Ok (don ++ todo))
    = rmap (fun t => don ++ t) (pmap g todo)).
  { induction todo as [|[l c] todo IH]; intros don N F; [reflexivity|]. cbn [keys map fst fold_left rbind].
    assert (NI : ~ In l (keys don)).
    { unfold keys in N. rewrite map_app in N. cbn [map fst] in N. apply NoDup_remove_2 in N. intros X. apply N. apply in_or_app. now left. }
    rewrite dget_app by exact NI. rewrite (F _ l c (or_introl eq_refl)). unfold pmap. cbn [rmapM fst snd].
    destruct (g l c) as [c'|e]; cbn [rmap rbind].
    - rewrite dset_app by exact NI. change (don ++ (l, c') :: todo) with (don ++ [(l, c')] ++ todo). rewrite app_assoc.
      change (map fst todo) with (keys todo). rewrite IH.
      + unfold pmap. destruct (rmapM _ todo) as [t|]; cbn [rmap rbind]; [|reflexivity]. now rewrite <- app_assoc.
      + unfold keys in *. rewrite !map_app in *. cbn [map fst] in *. now rewrite <- app_assoc.
      + intros n l0 c0 I. apply F. now right.
    - apply each_err. }
  pose proof (G net [] ND H) as X. cbn [app] in X. etransitivity; [exact X|]. unfold pmap. destruct (rmapM _ net); reflexivity.
Qed.

Lemma rmapM_perm {A B} (f : A -> res B) l l' : Permutation l l' ->
  match rmapM f l, rmapM f l' with Ok a, Ok b => Permutation a b | Err _, Err _ => True | _, _ => False end.
Proof.
  induction 1; cbn [rmapM].
  - constructor.
  - destruct (f x); cbn [rbind rmap]; [|exact I]. destruct (rmapM f l), (rmapM f l'); cbn [rbind rmap]; auto.
  - destruct (f x), (f y); cbn [rbind rmap]; auto; destruct (rmapM f l); cbn [rbind rmap]; auto. apply perm_swap.
  - destruct (rmapM f l), (rmapM f l'), (rmapM f l''); auto; try contradiction. eapply perm_trans; eauto.
Qed.
Lemma pmap_perm g n n' : Permutation n n' -> permuted (pmap g n) (pmap g n').
Proof. apply rmapM_perm. Qed.
Lemma keys_perm (n n' : dict conn) : Permutation n n' -> Permutation (keys n) (keys n').
Proof. apply Permutation_map. Qed.
Lemma pmap_keys g n m : pmap g n = Ok m -> keys m = keys n.
Proof.
  revert m. induction n as [|[l c] n IH]; intros m H; [now inversion H|]. unfold pmap in H. cbn [rmapM fst snd] in H.
  destruct (g l c); cbn [rmap rbind] in H; [|discriminate]. destruct (rmapM _ n) eqn:E in H; cbn [rmap rbind] in H; [|discriminate].
  inversion H; subst. cbn [keys map fst]. f_equal. apply IH. exact E.
Qed.
Lemma pmap_In g n m l c' : pmap g n = Ok m -> In (l, c') m -> exists c, In (l, c) n /\ g l c = Ok c'.
Proof.
  revert m. induction n as [|[j c] n IH]; intros m H I; [inversion H; subst; destruct I|]. unfold pmap in H. cbn [rmapM fst snd] in H.
  destruct (g j c) as [d|] eqn:G; cbn [rmap rbind] in H; [|discriminate]. destruct (rmapM _ n) as [t|] eqn:E in H; cbn [rmap rbind] in H; [|discriminate].
  inversion H; subst. destruct I as [I|I].
  - inversion I; subst. exists c. split; [now left|exact G].
  - destruct (IH t E I) as (c0 & X & Y). exists c0. split; [now right|exact Y].
Qed.

(** A stage without references. *)
Lemma stage P f g n n' (ND : NoDup (keys n)) (PM : Permutation n n') (HP : forall l c, In (l, c) n -> P c)
  (F : forall m l c, P c -> f m l c = g l c) : permuted (over f n) (over f n') /\ (forall m, over f n = Ok m -> pmap g n = Ok m).
Proof.
  assert (ND' : NoDup (keys n')) by (eapply Permutation_NoDup; [apply keys_perm, PM|exact ND]).
  rewrite (over_pmap f g n ND), (over_pmap f g n' ND').
  - split; [apply pmap_perm, PM|auto].
  - intros m l c I. apply F. apply (HP l). apply (Permutation_in _ (Permutation_sym PM) I).
  - intros m l c I. apply F. apply (HP l), I.
Qed.

Definition plain (c : conn) : Prop := forall k, In k ref_keys -> r_set (n_r c k) = false.
Lemma plain_frame c c' : frame c c' -> plain c -> plain c'.
Proof. intros (_ & _ & _ & _ & R) P k I. rewrite R. apply P, I. Qed.
Lemma plain_second n c : plain c -> second_pass n c = second_pass [] c.
Proof.
  intros P. unfold second_pass. destruct (n_good c); [reflexivity|].
  assert (E : forall m ks, incl ks ref_keys -> fold_left (fun c k => ref_start m k c) ks c = c).
  { intros m ks. induction ks as [|k ks IH]; intros I; [reflexivity|]. cbn [fold_left].
    assert (X : ref_start m k c = c) by (unfold ref_start; rewrite P by (apply I; now left); reflexivity).
    rewrite X. apply IH. intros x y. apply I. now right. }
  rewrite !E by apply incl_refl. reflexivity.
Qed.
Lemma presolve_rset c c' : presolve c = Ok c' -> forall k, r_set (n_r c' k) = r_set (n_r c k).
Proof.
  unfold presolve. intros H k. set (o := set_offdesign (with_eqs c [] [])) in *.
  assert (O : r_set (n_r o k) = r_set (n_r c k)).
  { unfold o, set_offdesign. generalize (n_off (with_eqs c [] [])). intros l. change (n_r c k) with (n_r (with_eqs c [] []) k).
    generalize (with_eqs c [] []). induction l as [|e l IH]; intros x; [reflexivity|]. cbn [fold_left]. rewrite IH. reflexivity. }
  clearbody o. assert (S : forall s, simplify o = Ok s -> n_r s = n_r o).
  { unfold simplify. intros s E. repeat match type of E with
    | (if ?b then _ else _) = _ => destruct b
    | rbind ?r _ = _ => destruct r; cbn [rbind] in E
    | rmap _ ?r = _ => destruct r; cbn [rmap] in E
    end; inversion E; reflexivity. }
  destruct (n_known o); [destruct (simplify o) as [s|] eqn:E|]; cbn [rmap] in H; inversion H; subst; cbn.
  - rewrite (S s eq_refl). exact O.
  - exact O.
Qed.

Lemma order_initialise units a file n n' : NoDup (keys n) -> Permutation n n' -> (forall l c, In (l, c) n -> plain c) ->
  permuted (initialise units a file n) (initialise units a file n')
  /\ forall m, initialise units a file n = Ok m -> keys m = keys n.
Proof.
  intros ND PM HP. unfold initialise.
  pose proof (stage plain (fun _ _ => set_properties units) (fun _ => set_properties units) n n' ND PM HP (fun _ _ _ _ => eq_refl)) as S1.
  destruct S1 as (M1 & E1). destruct (over (fun _ _ => set_properties units) n) as [n1|] eqn:O1; destruct (over (fun _ _ => set_properties units) n') as [n1'|]; cbn [permuted] in M1; try contradiction; cbn [rbind]; [|split; [exact I|discriminate]].
  specialize (E1 n1 eq_refl). pose proof (pmap_keys _ _ _ E1) as K1.
  assert (HP1 : forall l c, In (l, c) n1 -> plain c).
  { intros l c J. destruct (pmap_In _ _ _ _ _ E1 J) as (c0 & J0 & F). destruct (set_properties_frame _ _ _ F) as (X & _). apply (plain_frame _ _ X), (HP l), J0. }
  assert (N1 : NoDup (keys n1)) by (rewrite K1; exact ND).
  destruct (stage plain (fun _ _ => presolve) (fun _ => presolve) n1 n1' N1 M1 HP1 (fun _ _ _ _ => eq_refl)) as (M2 & E2).
  destruct (over (fun _ _ => presolve) n1) as [n2|] eqn:O2; destruct (over (fun _ _ => presolve) n1') as [n2'|]; cbn [permuted] in M2; try contradiction; cbn [rbind]; [|split; [exact I|discriminate]].
  specialize (E2 n2 eq_refl). pose proof (pmap_keys _ _ _ E2) as K2.
  assert (HP2 : forall l c, In (l, c) n2 -> plain c).
  { intros l c J. destruct (pmap_In _ _ _ _ _ E2 J) as (c0 & J0 & F). intros k Ik. rewrite (presolve_rset _ _ F). apply (HP1 l c0 J0 k Ik). }
  assert (N2 : NoDup (keys n2)) by (rewrite K2; exact N1).
  destruct (stage plain (fun _ => first_pass units a file) (first_pass units a file) n2 n2' N2 M2 HP2 (fun _ _ _ _ => eq_refl)) as (M3 & E3).
  destruct (over (fun _ => first_pass units a file) n2) as [n3|] eqn:O3; destruct (over (fun _ => first_pass units a file) n2') as [n3'|]; cbn [permuted] in M3; try contradiction; cbn [rbind]; [|split; [exact I|discriminate]].
  specialize (E3 n3 eq_refl). pose proof (pmap_keys _ _ _ E3) as K3.
  assert (HP3 : forall l c, In (l, c) n3 -> plain c).
  { intros l c J. destruct (pmap_In _ _ _ _ _ E3 J) as (c0 & J0 & F). destruct (first_pass_kept _ _ _ _ _ _ F) as (X & _). apply (plain_frame _ _ X), (HP2 l), J0. }
  assert (N3 : NoDup (keys n3)) by (rewrite K3; exact N2).
  destruct (stage plain (fun net _ => second_pass net) (fun _ => second_pass []) n3 n3' N3 M3 HP3 (fun m _ c P => plain_second m c P)) as (M4 & E4).
  split; [exact M4|]. intros m Em. rewrite (over_keys _ _ _ Em). congruence.
Qed.

Lemma order_solve units a file sol n n' : NoDup (keys n) -> Permutation n n' -> no_references n ->
  permuted (solve units a file sol n) (solve units a file sol n').
Proof.
  intros ND PM HN. assert (HP : forall l c, In (l, c) n -> plain c) by (intros l c J k Ik; apply (HN l c k); [now apply In_dget|exact Ik]).
  destruct (order_initialise units a file n n' ND PM HP) as (M & K). unfold solve.
  destruct (initialise units a file n) as [m|]; destruct (initialise units a file n') as [m'|]; cbn [permuted] in M; try contradiction; cbn [rbind]; [|exact I].
  specialize (K m eq_refl).
  apply (stage (fun _ => True) (fun _ _ => results) (fun _ => results)); auto.
  - rewrite (keys_map (solved sol)), K. exact ND.
  - now apply Permutation_map.
Qed.

(* -------------------------------------------------- references: results *)

(** Connections that differ at most in the SI values of some properties. *)
Record but (D : list string) (c c' : conn) : Prop := {
  b_eq : forall k, ~ In k D -> n_c c k = n_c c' k; b_SI : forall k, with_SI None (n_c c k) = with_SI None (n_c c' k);
  b_r : n_r c = n_r c'; b_state : n_state c = n_state c'; b_phase : n_phase c = n_phase c';
  b_good : n_good c = n_good c'; b_known : n_known c = n_known c'; b_fluid : n_fluid c = n_fluid c'; b_off : n_off c = n_off c';
  b_solved : n_solved c = n_solved c'; b_eqs : n_eqs c = n_eqs c' }.

Lemma but_nil c c' : but [] c c' -> alike c c'.
Proof. intros []. constructor; auto. Qed.
Lemma but_refl D c : but D c c.
Proof. constructor; auto. Qed.
Lemma but_trans D a b c : but D a b -> but D b c -> but D a c.
Proof.
  intros X Y. destruct X as [x1 x2 x3 x4 x5 x6 x7 x8 x9 x10 x11], Y as [y1 y2 y3 y4 y5 y6 y7 y8 y9 y10 y11].
  constructor; [intros k N; rewrite (x1 k N); apply (y1 k N)|intros k; rewrite (x2 k); apply (y2 k)|congruence ..].
Qed.
Lemma but_sym D a b : but D a b -> but D b a.
Proof. intros X. destruct X as [x1 x2 x3 x4 x5 x6 x7 x8 x9 x10 x11]. constructor; [intros k N; symmetry; apply (x1 k N)|intros k; symmetry; apply (x2 k)|congruence ..]. Qed.
Lemma with_SI_twice x y k : with_SI x (with_SI y k) = with_SI x k.
Proof. reflexivity. Qed.
Lemma with_SI_eq k k' s : with_SI None k = with_SI None k' -> with_SI s k = with_SI s k'.
Proof. intros E. rewrite <- (with_SI_twice s None k), <- (with_SI_twice s None k'). now rewrite E. Qed.

(** Writing an SI value. *)
Lemma but_write D D' k s c c' : but D c c' -> (forall j, In j D -> j = k \/ In j D') -> but D' (upd k (with_SI s) c) (upd k (with_SI s) c').
Proof.
  intros [] H. constructor; auto.
  - intros j N. cbn. destruct (String.eqb j k) eqn:E; [apply with_SI_eq; auto|]. apply b_eq0. intros X. destruct (H j X) as [->|Y]; [|auto].
    now rewrite String.eqb_refl in E.
  - intros j. cbn. destruct (String.eqb j k); [rewrite !with_SI_twice|]; auto.
Qed.
Lemma but_get D c c' k : but D c c' -> ~ In k D -> SI c k = SI c' k.
Proof. intros B N. unfold SI. now rewrite (b_eq _ _ _ B k N). Qed.
Lemma but_isset D c c' k : but D c c' -> isset c k = isset c' k.
Proof. intros B. unfold isset. apply (f_equal k_set (b_SI _ _ _ B k)). Qed.
Lemma but_var D c c' k : but D c c' -> k_var (n_c c k) = k_var (n_c c' k).
Proof. intros B. apply (f_equal k_var (b_SI _ _ _ B k)). Qed.
Lemma but_phase D x c c' : but D c c' -> but D (with_phase x c) (with_phase x c').
Proof. intros []. constructor; auto. Qed.
Lemma but_upd g k c c' : but [] c c' -> but [] (upd k g c) (upd k g c').
Proof.
  intros []. assert (E : forall j, n_c c j = n_c c' j) by (intros; apply b_eq0; intros []).
  constructor; auto; intros j; cbn; rewrite (E j); auto.
Qed.
Lemma but_fold {A} (f : A -> conn -> conn) D l : (forall x c c', but D c c' -> but D (f x c) (f x c')) -> forall c c', but D c c' ->
  but D (fold_left (fun c x => f x c) l c) (fold_left (fun c x => f x c) l c').
Proof. intros H. induction l as [|x l IH]; intros c c' B; [exact B|]. cbn. apply IH, H, B. Qed.

Lemma agree_refl {A} (r : res A) : agree eq r r.
Proof. destruct r; reflexivity. Qed.
Ltac off := cbn [In]; intros X; repeat (destruct X as [X|X]; [discriminate X|]); exact X.

Lemma pure_but c c' : but ["v"] c c' -> agree (but ["v"]) (pure_results c) (pure_results c').
Proof.
  intros B. unfold pure_results. rewrite <- (b_fluid _ _ _ B).
  eapply agree_bind with (R := but ["v"]).
  - rewrite (but_isset _ _ _ "x" B). destruct (isset c' "x"); [exact B|].
    rewrite (but_get _ _ _ "p" B) by off. rewrite (but_get _ _ _ "h" B) by off.
    eapply agree_map; [apply agree_refl|]. intros x y <-. apply but_write with (D := ["v"]); [exact B|auto].
  - clear B. intros d d' B. rewrite (but_get _ _ _ "p" B) by off. rewrite (but_get _ _ _ "h" B) by off.
    eapply agree_bind with (R := but ["v"]).
    + destruct (call2 _ _ _) as [s|[]]; cbn [agree]; auto using but_phase.
    + clear B. intros e e' B. rewrite (but_isset _ _ _ "Td_bp" B). destruct (isset e' "Td_bp"); [exact B|].
      rewrite (but_get _ _ _ "p" B) by off. rewrite (but_get _ _ _ "h" B) by off.
      destruct (rbind _ _) as [q|[]]; cbn [agree]; auto; apply but_write with (D := ["v"]); auto.
Qed.
Lemma mixture_but c c' T : but ["v"] c c' -> mixture_ok c T = mixture_ok c' T.
Proof. intros B. unfold mixture_ok. rewrite (but_get _ _ _ "p" B) by off. rewrite (but_get _ _ _ "h" B) by off. now rewrite <- (b_fluid _ _ _ B). Qed.

Lemma results_but c c' : but ["T"; "v"] c c' -> agree (but []) (results c) (results c').
Proof.
  intros B0. assert (B : but ["T"; "v"] (with_good c) (with_good c')) by (destruct B0; constructor; auto).
  unfold results. generalize dependent (with_good c). generalize dependent (with_good c'). clear B0 c c'. intros c' c B. cbv zeta.
  rewrite <- (b_fluid _ _ _ B). rewrite (but_get _ _ _ "p" B) by off. rewrite (but_get _ _ _ "h" B) by off.
  set (f := n_fluid c). clearbody f.
  eapply agree_bind; [apply agree_refl|]. intros T ? <-.
  assert (B1 : but ["v"] (upd "T" (with_SI (Some T)) c) (upd "T" (with_SI (Some T)) c')) by (eapply but_write; [exact B|]; cbn [In]; intros j [<-|[<-|[]]]; auto).
  generalize dependent (upd "T" (with_SI (Some T)) c). generalize dependent (upd "T" (with_SI (Some T)) c'). clear B c c'. intros c' c B.
  eapply agree_bind with (R := fun x y => but ["v"] (fst x) (fst y) /\ snd x = snd y).
  - destruct (f_mixture f).
    + rewrite (mixture_but c c' T B). eapply agree_map; [apply agree_refl|]. intros b ? <-. auto.
    + eapply agree_map; [apply pure_but, B|]. intros x y X. auto.
  - clear B c c'. intros [c b] [c' b'] (B & E). cbn [fst snd] in B, E. subst b'.
    eapply agree_bind with (R := but []).
    + destruct b.
      * rewrite (but_get _ _ _ "p" B) by off. rewrite (but_get _ _ _ "h" B) by off. rewrite (but_get _ _ _ "m" B) by off.
        eapply agree_bind; [apply agree_refl|]. intros v ? <-. eapply agree_map; [apply agree_refl|]. intros s ? <-.
        apply but_write with (D := []); [|intros j []]. apply but_write with (D := ["v"]); [|cbn [In]; intros j [<-|[]]; auto].
        apply but_write with (D := ["v"]); auto.
      * cbn [agree fold_left]. apply but_write with (D := []); [|intros j []]. apply but_write with (D := ["v"]); [|cbn [In]; intros j [<-|[]]; auto].
        apply but_write with (D := ["v"]); auto. apply but_write with (D := ["v"]); auto.
    + clear B c c'. intros c c' B. eapply agree_map with (R := but []).
      * revert c c' B. assert (G : forall ks c c', but [] c c' ->
          agree (but []) (each (fun k c => rmap (fun v => upd k (with_val v) c) (from_SI k (SI c k) (k_unit (n_c c k)))) ks c)
                         (each (fun k c => rmap (fun v => upd k (with_val v) c) (from_SI k (SI c k) (k_unit (n_c c k)))) ks c')); [|intros; apply G; auto].
        induction ks as [|k ks IH]; intros c c' B; [exact B|]. unfold each. cbn [fold_left rbind]. unfold SI.
        rewrite (b_eq _ _ _ B k ltac:(intros [])). destruct (from_SI _ _ _) as [v|e]; cbn [rmap].
        -- apply IH. apply but_upd, B.
        -- rewrite !each_err. reflexivity.
      * intros x y X. apply but_fold; [|exact X]. intros; apply but_upd; auto.
Qed.

(** What the second pass may change. *)
Definition moves (c : conn) (k : string) : Prop := (k = "h" /\ k_var (n_c c "h") = true) \/ (In k ref_keys /\ r_set (n_r c k) = true /\ isset c k = false).
Definition only (c c' : conn) : Prop := but fpd_keys c c' /\ forall k, SI c k = SI c' k \/ moves c k.
Lemma moves_but D c c' k : but D c c' -> moves c k -> moves c' k.
Proof. intros B. unfold moves. rewrite (but_var _ _ _ "h" B), (but_isset _ _ _ k B), (b_r _ _ _ B). auto. Qed.
Lemma only_refl c : only c c.
Proof. split; [apply but_refl|auto]. Qed.
Lemma only_trans a b c : only a b -> only b c -> only a c.
Proof.
  intros (B & M) (B' & M'). split; [eapply but_trans; eauto|]. intros k. destruct (M k) as [E|X]; [|auto]. destruct (M' k) as [E'|X']; [left; congruence|].
  right. apply (moves_but _ _ _ k (but_sym _ _ _ B)), X'.
Qed.
Lemma only_write k s c : In k fpd_keys -> moves c k -> only c (upd k (with_SI s) c).
Proof.
  intros I M. split.
  - constructor; auto; intros j; cbn.
    + intros N. destruct (String.eqb j k) eqn:E; [|reflexivity]. apply String.eqb_eq in E. subst. tauto.
    + destruct (String.eqb j k); reflexivity.
  - intros j. unfold SI. cbn. destruct (String.eqb j k) eqn:E; [|auto]. apply String.eqb_eq in E. subst. auto.
Qed.
Lemma ref_keys_fpd k : In k ref_keys -> In k fpd_keys.
Proof. cbn. intuition. Qed.
Lemma refs_only n ks : incl ks ref_keys -> forall c, only c (fold_left (fun c k => ref_start n k c) ks c).
Proof.
  induction ks as [|k ks IH]; intros I c; [apply only_refl|]. cbn [fold_left]. eapply only_trans; [|apply IH; intros x y; apply I; now right].
  unfold ref_start. destruct (r_set (n_r c k)) eqn:R; cbn [andb]; [|apply only_refl]. destruct (isset c k) eqn:S; cbn [negb]; [apply only_refl|].
  assert (J : In k ref_keys) by (apply I; now left). apply only_write; [apply ref_keys_fpd, J|]. right. auto.
Qed.
Lemma h_fpd : In "h" fpd_keys.
Proof. cbn. auto. Qed.
Lemma attempt_only r c c' : k_var (n_c c "h") = true -> attempt r c (fun h => upd "h" (with_SI (Some h)) c) = Ok c' -> only c c'.
Proof.
  intros V. unfold attempt. destruct r as [x|[]]; try discriminate; intros H; inversion H; subst; try apply only_refl.
  apply only_write; [apply h_fpd|left; auto].
Qed.
Lemma precalc_only c c' : precalc c = Ok c' -> only c c'.
Proof.
  unfold precalc. destruct (k_var (n_c c "h")) eqn:V; [|inversion 1; apply only_refl]. intros H.
  destruct (if isset c "x" then _ else _) as [d|] eqn:E; cbn [rbind] in H; [|discriminate].
  assert (X : only c d) by (destruct (isset c "x"); [eapply attempt_only; eauto|inversion E; apply only_refl]).
  eapply only_trans; [exact X|]. destruct (isset d "T"); [|inversion H; apply only_refl].
  eapply attempt_only; [|exact H]. destruct X as (X & _). rewrite <- (but_var _ _ _ "h" X). exact V.
Qed.
Lemma phase_only c c' : phase_start c = Ok c' -> only c c'.
Proof.
  unfold phase_start. cbv zeta. intros H.
  destruct ((isset c "Td_bp" || match n_state c with Some _ => true | None => false end) && k_var (n_c c "h")) eqn:V; [|inversion H; apply only_refl].
  apply andb_prop in V. destruct V as (_ & V).
  repeat match type of H with
  | (if ?b then _ else _) = _ => destruct b
  | rmap _ ?r = _ => destruct r; cbn [rmap] in H
  end; inversion H; subst; try apply only_refl;
  match goal with |- only _ (if ?b then _ else _) => destruct b end; try apply only_refl; apply only_write; try apply h_fpd; left; auto.
Qed.
Lemma second_only n c c' : second_pass n c = Ok c' -> only c c'.
Proof.
  unfold second_pass. intros H. destruct (if n_good c then _ else _) as [d|] eqn:E; cbn [rbind] in H; [|discriminate].
  eapply only_trans; [|apply phase_only, H]. destruct (n_good c); [inversion E; apply only_refl|].
  eapply only_trans; [apply (refs_only n ref_keys), incl_refl|]. apply precalc_only, E.
Qed.

Lemma names_m b s : ~ In "m" (names b s).
Proof. unfold names. intros X. repeat match type of X with In _ (if ?b then _ else _) => destruct b end; cbn in X; intuition discriminate. Qed.

Lemma solved_but sol l c c' : but ["m"; "p"; "h"; "T"; "v"] c c' -> (forall k, In k ["m"; "p"; "h"] -> SI c k = SI c' k \/ k_var (n_c c k) = true) ->
  but ["T"; "v"] (solved sol l c) (solved sol l c').
Proof.
  intros B H. unfold solved. cbn [fold_left].
  assert (W : forall D k c c', but D c c' -> SI c k = SI c' k \/ k_var (n_c c k) = true -> forall D', (forall j, In j D -> j = k \/ In j D') ->
    but D' (if k_var (n_c c k) then upd k (with_SI (Some (sol l k))) c else c) (if k_var (n_c c' k) then upd k (with_SI (Some (sol l k))) c' else c')).
  { clear. intros D k c c' B H D' I. rewrite <- (but_var _ _ _ k B). destruct (k_var (n_c c k)) eqn:V; [eapply but_write; eauto|].
    destruct H as [E|E]; [|congruence]. destruct B. constructor; auto. intros j N. destruct (String.eqb j k) eqn:J.
    - apply String.eqb_eq in J. subst. pose proof (b_SI0 k) as X. unfold SI in E. destruct (n_c c k), (n_c c' k). cbn in *. inversion X. now subst.
    - apply b_eq0. intros Y. destruct (I j Y) as [->|Z]; [now rewrite String.eqb_refl in J|auto]. }
  assert (K : forall k j, j <> k -> forall c, n_c (if k_var (n_c c k) then upd k (with_SI (Some (sol l k))) c else c) j = n_c c j).
  { clear. intros k j N c. destruct (k_var (n_c c k)); [|reflexivity]. cbn. apply String.eqb_neq in N. now rewrite N. }
  apply (W ["h"; "T"; "v"]); [| |cbn; intuition].
  - apply (W ["p"; "h"; "T"; "v"]); [| |cbn; intuition].
    + apply (W ["m"; "p"; "h"; "T"; "v"]); [exact B|apply H; cbn; auto|cbn; intuition].
    + unfold SI. rewrite !(K "m" "p") by discriminate. apply H. cbn; auto.
  - unfold SI. rewrite !(K "p" "h"), !(K "m" "h") by discriminate. apply H. cbn; auto.
Qed.

Lemma perm_dget (n n' : dict conn) l : NoDup (keys n) -> Permutation n n' -> dget l n' = dget l n.
Proof.
  intros ND PM. assert (ND' : NoDup (keys n')) by (eapply Permutation_NoDup; [apply keys_perm, PM|exact ND]).
  destruct (dget l n) as [c|] eqn:E.
  - apply In_dget; [exact ND'|]. apply (Permutation_in _ PM), dget_In, E.
  - apply dget_None_notin. intros X. apply dget_None_notin in E. apply E. apply (Permutation_in _ (Permutation_sym (keys_perm _ _ PM)) X).
Qed.

Lemma order_results units a file sol net net' out out' l c : labelled net -> Permutation net net' ->
  solve units a file sol net = Ok out -> solve units a file sol net' = Ok out' -> dget l net = Some c -> unreferenced c "p" -> unreferenced c "h" ->
  exists o o', dget l out = Some o /\ dget l out' = Some o' /\ alike o o'.
Proof.
  intros (ND & NO) PM H H' D UP UH.
  assert (ND' : NoDup (keys net')) by (eapply Permutation_NoDup; [apply keys_perm, PM|exact ND]).
  destruct (solve_at _ _ _ _ _ _ _ _ ND H D) as (c1 & c2 & c3 & seen & c4 & o & A & B & C & S & R & G).
  destruct (solve_at _ _ _ _ _ _ l c ND' H') as (c1' & c2' & c3' & seen' & c4' & o' & A' & B' & C' & S' & R' & G').
  { rewrite (perm_dget _ _ _ ND PM). exact D. }
  assert (c1' = c1) by congruence. subst c1'. assert (c2' = c2) by congruence. subst c2'. assert (c3' = c3) by congruence. subst c3'.
  exists o, o'. split; [exact G|]. split; [exact G'|].
  destruct (second_only _ _ _ S) as (B1 & M1). destruct (second_only _ _ _ S') as (B2 & M2).
  destruct (set_properties_frame _ _ _ A) as ((_ & F2 & _ & _ & F5) & _ & F6 & _).
  assert (NO1 : NoDup (keys (n_off c1))) by (rewrite F2; apply (NO l), D).
  destruct (presolve_spec _ _ B NO1) as (P1 & _ & _ & P4 & P5 & _). pose proof (presolve_names _ _ B NO1) as NM.
  destruct (first_pass_kept _ _ _ _ _ _ C) as (Q1 & _ & _ & Q4 & _).
  assert (W : forall k, wants c1 k <-> wants c k) by (intros k; unfold wants; rewrite F2; destruct (F6 k) as (-> & _); reflexivity).
  assert (RS : forall k, r_set (n_r c3 k) = r_set (n_r c k)) by (intros k; destruct Q1 as (_ & _ & _ & _ & ->); destruct P1 as (_ & _ & _ & _ & ->); apply F5).
  assert (IS : forall k, isset c3 k = isset c2 k) by (intros k; unfold isset; apply (proj1 (Q4 k))).
  assert (VS : forall k, k_var (n_c c3 k) = k_var (n_c c2 k)) by (intros k; apply (proj1 (proj2 (Q4 k)))).
  assert (MP : forall k, In k ["m"; "p"; "h"] -> moves c3 k -> k_var (n_c c3 k) = true).
  { intros k Ik [(-> & V)|(_ & X & Y)]; [exact V|]. rewrite VS, P5 by exact Ik. rewrite RS in X. rewrite IS in Y. rewrite Y. cbn [negb andb].
    destruct (smem k (n_solved c2)) eqn:Z; [|reflexivity]. exfalso. destruct Ik as [<-|[<-|[<-|[]]]].
    - apply smem_In in Z. rewrite NM in Z. exact (names_m _ _ Z).
    - destruct UP as [U|U]; [congruence|]. apply W, P4 in U. congruence.
    - destruct UH as [U|U]; [congruence|]. apply W, P4 in U. congruence. }
  assert (MV : forall k, moves c3 k -> In k ["m"; "p"; "h"; "T"; "v"]) by (intros k [(-> & _)|(I & _)]; [cbn; auto|exact I]).
  assert (N : forall d, but fpd_keys c3 d -> (forall k, SI c3 k = SI d k \/ moves c3 k) -> but ["m"; "p"; "h"; "T"; "v"] c3 d).
  { intros d [] M. constructor; auto. intros k X. pose proof (b_SI0 k) as Y. destruct (M k) as [E|Z]; [|exfalso; apply X, MV, Z].
    unfold SI in E. destruct (n_c c3 k), (n_c d k). cbn in *. inversion Y. now subst. }
  assert (BB : but ["m"; "p"; "h"; "T"; "v"] c4 c4') by (eapply but_trans; [apply but_sym, N; auto|apply N; auto]).
  assert (BS : but ["T"; "v"] (solved sol l c4) (solved sol l c4')).
  { apply solved_but; [exact BB|]. intros k Ik. destruct (M1 k) as [E|X]; [destruct (M2 k) as [E'|X]; [left; congruence|]|]; right; rewrite <- (but_var _ _ _ k B1); apply MP; auto. }
  pose proof (results_but _ _ BS) as AG. rewrite R, R' in AG. apply but_nil, AG.
Qed.

Lemma order_system units a file net net' out out' l c : labelled net -> Permutation net net' ->
  initialise units a file net = Ok out -> initialise units a file net' = Ok out' -> dget l net = Some c ->
  exists o o', dget l out = Some o /\ dget l out' = Some o' /\ n_eqs o = n_eqs o'
    /\ forall k, k_var (n_c o k) = k_var (n_c o' k) /\ (isset o k = true -> k_var (n_c o k) = false -> SI o k = SI o' k).
Proof.
  intros (ND & NO) PM H H' D.
  assert (ND' : NoDup (keys net')) by (eapply Permutation_NoDup; [apply keys_perm, PM|exact ND]).
  destruct (initialise_at _ _ _ _ _ _ _ ND H D) as (c1 & c2 & c3 & seen & c4 & A & B & C & S & G & _).
  destruct (initialise_at _ _ _ _ _ l c ND' H') as (c1' & c2' & c3' & seen' & c4' & A' & B' & C' & S' & G' & _).
  { rewrite (perm_dget _ _ _ ND PM). exact D. }
  assert (c1' = c1) by congruence. subst c1'. assert (c2' = c2) by congruence. subst c2'. assert (c3' = c3) by congruence. subst c3'.
  exists c4, c4'. split; [exact G|]. split; [exact G'|].
  destruct (second_only _ _ _ S) as (B1 & M1). destruct (second_only _ _ _ S') as (B2 & M2).
  pose proof (but_trans _ _ _ _ (but_sym _ _ _ B1) B2) as BB. split; [apply (b_eqs _ _ _ BB)|]. intros k. split; [apply (but_var _ _ _ k BB)|].
  intros I V. assert (X : ~ moves c3 k).
  { intros [(-> & Y)|(_ & _ & Y)]; [rewrite (but_var _ _ _ "h" B1) in Y; congruence|rewrite (but_isset _ _ _ k B1) in Y; congruence]. }
  destruct (M1 k) as [E|Z]; [|contradiction]. destruct (M2 k) as [E'|Z]; [|contradiction]. congruence.
Qed.
