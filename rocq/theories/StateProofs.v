(** Lemmas: frames of the stages of the initialisation. *)
From Coq Require Import QArith Lqa.
From Verif Require Import Base UnitsModel UnitsSpec UnitsProofs StateModel StateSpec.
Open Scope string_scope.
Open Scope list_scope.

(* ---- loops ---- *)

Lemma each_err {A} (f : string -> A -> res A) ks e : fold_left (fun r k => rbind r (f k)) ks (Err e) = Err e.
Proof. induction ks; cbn; auto. Qed.

Lemma each_cons {A} (f : string -> A -> res A) k ks a a' : each f (k :: ks) a = Ok a' ->
  exists a1, f k a = Ok a1 /\ each f ks a1 = Ok a'.
Proof.
  unfold each. cbn [fold_left rbind]. destruct (f k a) as [a1|e]; [eauto|]. rewrite each_err. discriminate.
Qed.

Lemma each_app {A} (f : string -> A -> res A) k1 : forall k2 a a', each f (k1 ++ k2) a = Ok a' ->
  exists a1, each f k1 a = Ok a1 /\ each f k2 a1 = Ok a'.
Proof.
  induction k1 as [|k k1 IH]; intros k2 a a' H; [exists a; split; [reflexivity|exact H]|].
  cbn [app] in H. destruct (each_cons _ _ _ _ _ H) as (a1 & F & G).
  destruct (IH _ _ _ G) as (a2 & B & C). exists a2. split; [|exact C].
  unfold each in *. cbn [fold_left rbind]. rewrite F. exact B.
Qed.

Lemma each_inv {A} (R : A -> A -> Prop) (f : string -> A -> res A) :
  (forall a, R a a) -> (forall a b c, R a b -> R b c -> R a c) ->
  forall ks, (forall k a a', In k ks -> f k a = Ok a' -> R a a') -> forall a a', each f ks a = Ok a' -> R a a'.
Proof.
  intros Rr Rt. induction ks as [|k ks IH]; intros Hf a a' H; [inversion H; apply Rr|].
  destruct (each_cons _ _ _ _ _ H) as (a1 & F & G).
  eapply Rt; [eapply Hf; [left; reflexivity|exact F]|]. apply IH; [|exact G]. intros. eapply Hf; [right|]; eauto.
Qed.

Lemma each_at {A} (R : A -> A -> Prop) (f : string -> A -> res A) ks k :
  (forall a, R a a) -> (forall a b c, R a b -> R b c -> R a c) ->
  (forall j a a', j <> k -> f j a = Ok a' -> R a a') ->
  NoDup ks -> In k ks -> forall a a', each f ks a = Ok a' -> exists a1 a2, R a a1 /\ f k a1 = Ok a2 /\ R a2 a'.
Proof.
  intros Rr Rt Hf ND I a a' H. apply in_split in I. destruct I as (k1 & k2 & ->).
  destruct (each_app _ _ _ _ _ H) as (a1 & B & C). destruct (each_cons _ _ _ _ _ C) as (a2 & F & G).
  apply NoDup_remove_2 in ND.
  exists a1, a2. split; [|split; [exact F|]].
  - eapply each_inv; eauto. intros j x y J. apply Hf. intros ->. apply ND. apply in_or_app; auto.
  - eapply each_inv; eauto. intros j x y J. apply Hf. intros ->. apply ND. apply in_or_app; auto.
Qed.

(* ---- loops over the connections ---- *)

Definition visit (f : dict conn -> string -> conn -> res conn) (l : string) (net : dict conn) : res (dict conn) :=
  match dget l net with Some c => rmap (fun c' => dset l c' net) (f net l c) | None => Ok net end.

Lemma over_each f net : over f net = each (visit f) (keys net) net.
Proof. reflexivity. Qed.

Lemma keys_dset_present {V} k (v : V) d : dget k d <> None -> keys (dset k v d) = keys d.
Proof.
  unfold keys. induction d as [|[k1 v1] d IH]; cbn; [congruence|].
  destruct (String.eqb k k1) eqn:E; cbn; [reflexivity|]. intros H. now rewrite IH.
Qed.

Lemma visit_keys f l net net' : visit f l net = Ok net' -> keys net' = keys net.
Proof.
  unfold visit. destruct (dget l net) as [c|] eqn:D; [|now inversion 1].
  destruct (f net l c) as [c'|]; cbn; [|discriminate]. intros H; inversion H; subst.
  apply keys_dset_present. congruence.
Qed.

Lemma visit_other f l j net net' : visit f j net = Ok net' -> j <> l -> dget l net' = dget l net.
Proof.
  unfold visit. destruct (dget j net) as [c|] eqn:D; [|now inversion 1].
  destruct (f net j c) as [c'|]; cbn; [|discriminate]. intros H; inversion H; subst. intros N.
  apply dget_dset_neq. auto.
Qed.

Lemma over_keys f net net' : over f net = Ok net' -> keys net' = keys net.
Proof.
  rewrite over_each. apply (each_inv (fun a b => keys b = keys a)); [auto|congruence|].
  intros k a a' _. apply visit_keys.
Qed.

Lemma over_at f net net' l c : NoDup (keys net) -> over f net = Ok net' -> dget l net = Some c ->
  exists seen c', f seen l c = Ok c' /\ dget l net' = Some c'.
Proof.
  intros ND H D. rewrite over_each in H.
  destruct (each_at (fun a b : dict conn => dget l b = dget l a) (visit f) (keys net) l) with (a := net) (a' := net')
    as (n1 & n2 & R1 & F & R2); auto.
  - congruence.
  - intros j a a' N G. eapply visit_other; eauto.
  - apply dget_In in D. apply (in_map fst) in D. exact D.
  - unfold visit in F. rewrite R1, D in F. destruct (f n1 l c) as [c'|] eqn:E; cbn in F; [|discriminate].
    inversion F; subst. exists n1, c'. split; [exact E|]. rewrite R2. apply dget_dset_eq.
Qed.

(* ---- frames ---- *)

(** Nothing but the containers' values, units and the equations differ. *)
Definition frame (c c' : conn) : Prop :=
  n_fluid c' = n_fluid c /\ n_off c' = n_off c /\ n_known c' = n_known c /\ n_state c' = n_state c /\
  (forall k, r_set (n_r c' k) = r_set (n_r c k)).
Lemma frame_refl c : frame c c.
Proof. unfold frame. auto. Qed.
Lemma frame_trans a b c : frame a b -> frame b c -> frame a c.
Proof. unfold frame. intros (A1 & A2 & A3 & A4 & A5) (B1 & B2 & B3 & B4 & B5). repeat split; congruence. Qed.

Ltac conn_tac := unfold frame, upd, with_SI, with_val, with_val0, with_unit, with_var, with_set, with_eqs, with_good, with_phase, with_refs, SI, isset; cbn [n_c n_r n_state n_phase n_good n_known n_fluid n_off n_solved n_eqs k_set k_var k_val k_val0 k_SI k_unit r_set r_conn r_factor r_delta r_SI].

(** Containers that differ at most in unit and SI value. *)
Definition near (x y : cont) : Prop := k_set y = k_set x /\ k_var y = k_var x /\ k_val y = k_val x /\ k_val0 y = k_val0 x.

(* -- set_properties -- *)
Lemma set_property_frame units k c c' : set_property units k c = Ok c' ->
  frame c c' /\ n_good c' = n_good c /\ (forall j, near (n_c c j) (n_c c' j)) /\ (forall j, j <> k -> n_c c' j = n_c c j) /\
  k_unit (n_c c' k) = unit_of units k /\
  (isset c k = true -> to_SI k (k_val (n_c c k)) (unit_of units k) = Ok (SI c' k)) /\ (isset c k = false -> SI c' k = SI c k).
Proof.
  unfold set_property. destruct (isset c k) eqn:E.
  - destruct (to_SI k (k_val (n_c c k)) (unit_of units k)) as [x|] eqn:T; cbn [rmap]; [|discriminate].
    intros H; inversion H; subst; clear H. conn_tac. rewrite String.eqb_refl.
    repeat split; auto; try (intros; discriminate).
    + destruct (String.eqb j k); reflexivity.
    + destruct (String.eqb j k); reflexivity.
    + destruct (String.eqb j k); reflexivity.
    + destruct (String.eqb j k); reflexivity.
    + intros j N. apply String.eqb_neq in N. now rewrite N.
  - intros H; inversion H; subst; clear H. conn_tac. rewrite String.eqb_refl.
    repeat split; auto; try (intros; discriminate).
    + destruct (String.eqb j k); reflexivity.
    + destruct (String.eqb j k); reflexivity.
    + destruct (String.eqb j k); reflexivity.
    + destruct (String.eqb j k); reflexivity.
    + intros j N. apply String.eqb_neq in N. now rewrite N.
Qed.

Lemma set_ref_frame units k c c' : set_ref units k c = Ok c' ->
  frame c c' /\ n_good c' = n_good c /\ (forall j, n_c c' j = n_c c j).
Proof.
  unfold set_ref. destruct (r_set (n_r c k)) eqn:E.
  - destruct (convert_to_SI _ _ _) as [x|]; cbn [rmap]; [|discriminate].
    intros H; inversion H; subst; clear H. conn_tac. repeat split; auto.
    intros j. destruct (String.eqb j k) eqn:J; [|reflexivity]. apply String.eqb_eq in J; subst j. cbn. now rewrite E.
  - intros H; inversion H; subst. repeat split; auto.
Qed.

Lemma near_refl x : near x x. Proof. unfold near; auto. Qed.
Lemma near_trans x y z : near x y -> near y z -> near x z.
Proof. unfold near. intros (A & B & C & D) (E & F & G & H). repeat split; congruence. Qed.

Lemma fpd_nodup : NoDup fpd_keys.
Proof.
  vm_compute. repeat (constructor; [cbn; intros N; repeat (destruct N as [N|N]; [discriminate|]); exact N|]). constructor.
Qed.

Lemma set_properties_frame units c c' : set_properties units c = Ok c' ->
  frame c c' /\ n_good c' = n_good c /\ (forall j, near (n_c c j) (n_c c' j)) /\
  (forall k, In k fpd_keys -> k_unit (n_c c' k) = unit_of units k /\
     (isset c k = true -> to_SI k (k_val (n_c c k)) (unit_of units k) = Ok (SI c' k)) /\ (isset c k = false -> SI c' k = SI c k)).
Proof.
  unfold set_properties. destruct (each (set_property units) fpd_keys c) as [c1|] eqn:E; [|discriminate]. cbn [rbind]. intros H.
  assert (R : frame c1 c' /\ n_good c' = n_good c1 /\ forall j, n_c c' j = n_c c1 j).
  { revert H. apply (each_inv (fun c1 c' => frame c1 c' /\ n_good c' = n_good c1 /\ forall j, n_c c' j = n_c c1 j)).
    - intros a. split; [apply frame_refl|auto].
    - intros a b d (A & B & C) (A' & B' & C'). split; [eapply frame_trans; eauto|]. split; congruence.
    - intros k a a' _. apply set_ref_frame. }
  destruct R as (R1 & R2 & R3).
  assert (F : frame c c1 /\ n_good c1 = n_good c /\ forall j, near (n_c c j) (n_c c1 j)).
  { revert E. apply (each_inv (fun c c1 => frame c c1 /\ n_good c1 = n_good c /\ forall j, near (n_c c j) (n_c c1 j))).
    - intros a. split; [apply frame_refl|]. split; [auto|]. intros; apply near_refl.
    - intros a b d (A & B & C) (A' & B' & C'). split; [eapply frame_trans; eauto|]. split; [congruence|]. intros j. eapply near_trans; eauto.
    - intros k a a' _ G. destruct (set_property_frame _ _ _ _ G) as (X & Y & Z & _). auto. }
  destruct F as (F1 & F2 & F3).
  split; [eapply frame_trans; eauto|]. split; [congruence|]. split; [intros j; rewrite R3; apply F3|].
  intros k I.
  destruct (each_at (fun a b => n_c b k = n_c a k) (set_property units) fpd_keys k) with (a := c) (a' := c1) as (a1 & a2 & A & B & C); auto.
  - congruence.
  - intros j a a' N G. destruct (set_property_frame _ _ _ _ G) as (_ & _ & _ & X & _). apply X. auto.
  - apply fpd_nodup.
  - destruct (set_property_frame _ _ _ _ B) as (_ & _ & _ & _ & X & Y & Z). unfold SI, isset in *. rewrite R3, C. rewrite A in *. auto.
Qed.

(* -- set_offdesign -- *)
Lemma set_offdesign_from off : forall c,
  let c' := fold_left (fun c e => upd (fst e) (fun k => with_SI (snd e) (with_set k)) c) off c in
  frame c c' /\ n_good c' = n_good c /\ n_solved c' = n_solved c /\ n_eqs c' = n_eqs c /\
  (forall k, k_val (n_c c' k) = k_val (n_c c k) /\ k_val0 (n_c c' k) = k_val0 (n_c c k) /\ k_unit (n_c c' k) = k_unit (n_c c k)) /\
  (forall k, ~ In k (keys off) -> n_c c' k = n_c c k) /\
  (NoDup (keys off) -> forall k w, dget k off = Some w -> k_set (n_c c' k) = true /\ k_SI (n_c c' k) = w).
Proof.
  induction off as [|[k1 v1] off IH]; intros c; cbn [fold_left].
  - cbn. split; [apply frame_refl|]. split; [auto|]. split; [auto|]. split; [auto|]. split; [auto|]. split; [auto|]. discriminate.
  - set (c1 := upd (fst (k1, v1)) _ c). destruct (IH c1) as (A & B & C & D & E & F & G). clear IH.
    set (c' := fold_left _ off c1) in *. cbv zeta.
    assert (A1 : frame c c1) by (unfold c1; conn_tac; repeat split; auto).
    split; [eapply frame_trans; eauto|]. split; [exact B|]. split; [exact C|]. split; [exact D|].
    split; [|split].
    + intros k. destruct (E k) as (E1 & E2 & E3). rewrite E1, E2, E3. unfold c1; conn_tac. cbn [fst]. destruct (String.eqb k k1); auto.
    + intros k N. cbn [keys map fst] in N. rewrite F by (intros X; apply N; right; exact X). unfold c1; conn_tac. cbn [fst].
      destruct (String.eqb k k1) eqn:K; [|reflexivity]. apply String.eqb_eq in K. subst. exfalso; apply N; left; reflexivity.
    + cbn [keys map fst]. intros ND k w. inversion ND as [|? ? N1 N2]; subst. cbn [dget].
      destruct (String.eqb k k1) eqn:K; [|intros; now apply G].
      apply String.eqb_eq in K. subst k1. intros X; inversion X; subst. rewrite (F k N1). unfold c1; conn_tac. cbn [fst].
      rewrite String.eqb_refl. auto.
Qed.

(* -- presolve -- *)
(** The cases of the presolving. *)
Inductive outcome (c : conn) : list string -> Prop :=
| out_none : outcome c []
| out_T h : isset c "p" = true -> isset c "h" = false -> isset c "T" = true ->
    call2 (f_hpT (n_fluid c)) (SI c "p") (SI c "T") = Ok h -> SI c "h" = Some h -> outcome c ["h"; "T"]
| out_Td h Ts : isset c "p" = true -> isset c "h" = false -> isset c "T" = false -> isset c "Td_bp" = true ->
    call1 (f_Tsat (n_fluid c)) (SI c "p") = Ok Ts ->
    call2 (f_hpT (n_fluid c)) (SI c "p") (nlift Qplus (Some Ts) (k_val (n_c c "Td_bp"))) = Ok h -> SI c "h" = Some h -> outcome c ["h"; "Td_bp"]
| out_x h : isset c "p" = true -> isset c "h" = false -> isset c "T" = false -> isset c "Td_bp" = false -> isset c "x" = true ->
    call2 (f_hpQ (n_fluid c)) (SI c "p") (SI c "x") = Ok h -> SI c "h" = Some h -> outcome c ["h"; "x"]
| out_Tx p h : isset c "p" = false -> isset c "h" = false -> isset c "T" = true -> isset c "x" = true ->
    call1 (f_psat (n_fluid c)) (SI c "T") = Ok p -> call2 (f_hpQ (n_fluid c)) (Some p) (SI c "x") = Ok h ->
    SI c "p" = Some p -> SI c "h" = Some h -> outcome c ["T"; "x"; "p"; "h"].

Lemma simplify_outcome c c' : simplify c = Ok c' -> n_solved c = [] ->
  frame c c' /\ n_good c' = n_good c /\ n_eqs c' = n_eqs c /\ (forall k, near (n_c c k) (n_c c' k) /\ k_unit (n_c c' k) = k_unit (n_c c k)) /\
  (forall k, SI c' k = SI c k \/ (In k ["p"; "h"] /\ isset c k = false /\ In k (n_solved c'))) /\
  outcome c' (n_solved c').
Proof.
  intros H N0. unfold simplify in H. cbv zeta in H. destruct (Nat.ltb 3 _); [discriminate|].
  assert (Z : c' = c -> frame c c' /\ n_good c' = n_good c /\ n_eqs c' = n_eqs c /\ (forall k, near (n_c c k) (n_c c' k) /\ k_unit (n_c c' k) = k_unit (n_c c k)) /\
    (forall k, SI c' k = SI c k \/ (In k ["p"; "h"] /\ isset c k = false /\ In k (n_solved c'))) /\ outcome c' (n_solved c')).
  { intros ->. split; [apply frame_refl|]. split; [auto|]. split; [auto|]. split; [intros; split; [apply near_refl|auto]|]. split; [auto|]. rewrite N0. constructor. }
  destruct (isset c "h") eqn:Sh; cbn [negb andb] in H; [apply Z; congruence|].
  destruct (isset c "p") eqn:Sp; cbn [negb andb] in H.
  - destruct (isset c "T") eqn:ST.
    { destruct (call2 (f_hpT (n_fluid c)) (SI c "p") (SI c "T")) as [h|] eqn:E; cbn [rmap] in H; [|discriminate].
      inversion H; subst; clear H. split; [conn_tac; repeat split; auto|]. split; [reflexivity|]. split; [reflexivity|].
      split; [|split].
      - intros k. unfold near. conn_tac. destruct (String.eqb k "h"); auto.
      - intros k. unfold SI at 1. conn_tac. destruct (String.eqb k "h") eqn:K; [|auto]. apply String.eqb_eq in K; subst k.
        right. cbn. auto.
      - apply (out_T _ h); auto. }
    destruct (isset c "Td_bp") eqn:STd.
    { destruct (call1 (f_Tsat (n_fluid c)) (SI c "p")) as [Ts|] eqn:E1; cbn [rbind] in H; [|discriminate].
      destruct (call2 (f_hpT (n_fluid c)) (SI c "p") (nlift Qplus (Some Ts) (k_val (n_c c "Td_bp")))) as [h|] eqn:E; cbn [rmap] in H; [|discriminate].
      inversion H; subst; clear H. split; [conn_tac; repeat split; auto|]. split; [reflexivity|]. split; [reflexivity|].
      split; [|split].
      - intros k. unfold near. conn_tac. destruct (String.eqb k "h"); auto.
      - intros k. unfold SI at 1. conn_tac. destruct (String.eqb k "h") eqn:K; [|auto]. apply String.eqb_eq in K; subst k.
        right. cbn. auto.
      - apply (out_Td _ h Ts); auto. }
    destruct (isset c "x") eqn:Sx; [|apply Z; congruence].
    destruct (call2 (f_hpQ (n_fluid c)) (SI c "p") (SI c "x")) as [h|] eqn:E; cbn [rmap] in H; [|discriminate].
    inversion H; subst; clear H. split; [conn_tac; repeat split; auto|]. split; [reflexivity|]. split; [reflexivity|].
    split; [|split].
    + intros k. unfold near. conn_tac. destruct (String.eqb k "h"); auto.
    + intros k. unfold SI at 1. conn_tac. destruct (String.eqb k "h") eqn:K; [|auto]. apply String.eqb_eq in K; subst k.
      right. cbn. auto.
    + apply (out_x _ h); auto.
  - destruct (isset c "T") eqn:ST; cbn [andb] in H; [|apply Z; congruence].
    destruct (isset c "x") eqn:Sx; [|apply Z; congruence].
    destruct (call1 (f_psat (n_fluid c)) (SI c "T")) as [p|] eqn:E1; cbn [rbind] in H; [|discriminate].
    destruct (call2 (f_hpQ (n_fluid c)) (Some p) (SI c "x")) as [h|] eqn:E; cbn [rmap] in H; [|discriminate].
    inversion H; subst; clear H. split; [conn_tac; repeat split; auto|]. split; [reflexivity|]. split; [reflexivity|].
    split; [|split].
    + intros k. unfold near. conn_tac. destruct (String.eqb k "h"), (String.eqb k "p"); auto.
    + intros k. unfold SI at 1. conn_tac. destruct (String.eqb k "h") eqn:K; [apply String.eqb_eq in K; subst k; right; cbn; auto 10|].
      destruct (String.eqb k "p") eqn:K2; [|auto]. apply String.eqb_eq in K2; subst k. right; cbn; auto 10.
    + apply (out_Tx _ p h); auto.
Qed.

Lemma outcome_ext c c' ks : n_fluid c' = n_fluid c -> (forall k, isset c' k = isset c k /\ SI c' k = SI c k /\ k_val (n_c c' k) = k_val (n_c c k)) ->
  outcome c ks -> outcome c' ks.
Proof.
  intros F E O.
  assert (E1 : forall k, isset c' k = isset c k) by (intros k; apply E).
  assert (E2 : forall k, SI c' k = SI c k) by (intros k; apply E).
  assert (E3 : forall k, k_val (n_c c' k) = k_val (n_c c k)) by (intros k; apply E).
  destruct O; [constructor|eapply out_T|eapply out_Td|eapply out_x|eapply out_Tx]; rewrite ?F, ?E1, ?E2, ?E3; eauto.
Qed.

(** Summary of the presolving of one connection. *)
Lemma presolve_spec c c' : presolve c = Ok c' -> NoDup (keys (n_off c)) ->
  frame c c' /\ n_good c' = n_good c /\
  (forall k, k_val (n_c c' k) = k_val (n_c c k) /\ k_val0 (n_c c' k) = k_val0 (n_c c k) /\ k_unit (n_c c' k) = k_unit (n_c c k)) /\
  (forall k, isset c' k = true <-> wants c k) /\
  (forall k, In k ["m"; "p"; "h"] -> k_var (n_c c' k) = negb (isset c' k) && negb (smem k (n_solved c'))) /\
  (forall k, SI c' k = (match dget k (n_off c) with Some w => w | None => SI c k end) \/
     (In k ["p"; "h"] /\ isset c' k = false /\ In k (n_solved c'))) /\
  outcome c' (n_solved c') /\ n_eqs c' = equations c' /\ (n_known c = false -> n_solved c' = []).
Proof.
  intros H ND. unfold presolve in H.
  set (o := set_offdesign (with_eqs c [] [])) in *.
  assert (O : frame c o /\ n_good o = n_good c /\ n_solved o = [] /\ n_eqs o = [] /\
    (forall k, k_val (n_c o k) = k_val (n_c c k) /\ k_val0 (n_c o k) = k_val0 (n_c c k) /\ k_unit (n_c o k) = k_unit (n_c c k)) /\
    (forall k, ~ In k (keys (n_off c)) -> n_c o k = n_c c k) /\
    (forall k w, dget k (n_off c) = Some w -> k_set (n_c o k) = true /\ k_SI (n_c o k) = w)).
  { destruct (set_offdesign_from (n_off c) (with_eqs c [] [])) as (A & B & C & D & E & F & G).
    fold (set_offdesign (with_eqs c [] [])) in *. fold o in A, B, C, D, E, F, G.
    split; [eapply frame_trans; [|exact A]; conn_tac; repeat split; auto|]. split; [exact B|]. split; [exact C|]. split; [exact D|].
    split; [exact E|]. split; [exact F|]. intros k w X. exact (G ND k w X). }
  clearbody o. destruct O as (O1 & O2 & O3 & O4 & O5 & O6 & O7).
  destruct (if n_known o then simplify o else Ok o) as [s|e] eqn:S; cbn [rmap] in H; [|discriminate].
  assert (Q : frame o s /\ n_good s = n_good o /\ (forall k, near (n_c o k) (n_c s k) /\ k_unit (n_c s k) = k_unit (n_c o k)) /\
    (forall k, SI s k = SI o k \/ (In k ["p"; "h"] /\ isset o k = false /\ In k (n_solved s))) /\
    outcome s (n_solved s) /\ (n_known o = false -> n_solved s = [])).
  { destruct (n_known o) eqn:K.
    - destruct (simplify_outcome o s S O3) as (A & B & _ & C & D & E). repeat split; auto; try apply A; try apply C. discriminate.
    - inversion S; subst. split; [apply frame_refl|]. split; [auto|]. split; [intros; split; [apply near_refl|auto]|]. split; [auto|].
      split; [rewrite O3; constructor|auto]. }
  destruct Q as (Q1 & Q2 & Q3 & Q4 & Q5 & Q6).
  set (v := assign "h" (assign "p" (assign "m" s))) in *.
  assert (V : frame s v /\ n_good v = n_good s /\ n_solved v = n_solved s /\
    (forall k, k_set (n_c v k) = k_set (n_c s k) /\ k_val (n_c v k) = k_val (n_c s k) /\ k_val0 (n_c v k) = k_val0 (n_c s k) /\
       k_SI (n_c v k) = k_SI (n_c s k) /\ k_unit (n_c v k) = k_unit (n_c s k)) /\
    (forall k, k_var (n_c v k) = if smem k ["m"; "p"; "h"] then negb (k_set (n_c s k)) && negb (smem k (n_solved s)) else k_var (n_c s k))).
  { unfold v, assign. conn_tac. split; [repeat split; auto|]. split; [auto|]. split; [auto|]. split.
    - intros k. destruct (String.eqb k "h"), (String.eqb k "p"), (String.eqb k "m"); repeat split; auto.
    - intros k. cbn [smem existsb].
      destruct (String.eqb k "m") eqn:K1; [apply String.eqb_eq in K1; subst; reflexivity|].
      destruct (String.eqb k "p") eqn:K2; [apply String.eqb_eq in K2; subst; reflexivity|].
      destruct (String.eqb k "h") eqn:K3; [apply String.eqb_eq in K3; subst; reflexivity|]. reflexivity. }
  clearbody v. destruct V as (V1 & V2 & V3 & V4 & V5).
  cbv zeta in H. inversion H as [H']; clear H. rewrite H'.
  assert (C1 : frame v c' /\ n_good c' = n_good v /\ n_solved c' = n_solved v /\ (forall k, n_c c' k = n_c v k) /\ n_eqs c' = equations v).
  { rewrite <- H'. conn_tac. repeat split; auto. }
  clear H'. destruct C1 as (C1 & C2 & C3 & C4 & C5).
  assert (FR : frame c c') by (eapply frame_trans; [exact O1|]; eapply frame_trans; [exact Q1|]; eapply frame_trans; [exact V1|exact C1]).
  assert (SETS : forall k, isset c' k = isset o k).
  { intros k. unfold isset. rewrite C4. destruct (V4 k) as (X & _). destruct (Q3 k) as ((Y & _) & _). congruence. }
  assert (WANT : forall k, isset c' k = true <-> wants c k).
  { intros k. rewrite SETS. unfold wants, isset. destruct (dget k (n_off c)) as [w|] eqn:D.
    - destruct (O7 k w D) as (X & _). rewrite X. split; [|auto]. intros _. right.
      apply dget_In in D. apply (in_map fst) in D. exact D.
    - apply dget_None_notin in D. rewrite (O6 k D). tauto. }
  split; [exact FR|]. split; [congruence|]. split; [|split; [exact WANT|split; [|split; [|split; [|split]]]]].
  - intros k. rewrite C4. destruct (V4 k) as (_ & X1 & X2 & _ & X3). destruct (Q3 k) as ((_ & _ & Y1 & Y2) & Y3). destruct (O5 k) as (Z1 & Z2 & Z3).
    repeat split; congruence.
  - intros k I. rewrite C4, V5. assert (M : smem k ["m"; "p"; "h"] = true) by now apply smem_In. rewrite M.
    unfold isset. rewrite C4. destruct (V4 k) as (X & _). rewrite X, C3, V3. reflexivity.
  - intros k. unfold SI. rewrite C4. destruct (V4 k) as (_ & _ & _ & X & _). rewrite X. fold (SI s k).
    destruct (Q4 k) as [Y|(Y1 & Y2 & Y3)].
    + left. rewrite Y. unfold SI. destruct (dget k (n_off c)) as [w|] eqn:D; [apply (O7 k w D)|].
      apply dget_None_notin in D. now rewrite (O6 k D).
    + right. split; [exact Y1|]. split; [now rewrite SETS|]. now rewrite C3, V3.
  - rewrite C3, V3. apply (outcome_ext s); [|intros k|exact Q5].
    + destruct V1 as (X & _). destruct C1 as (Y & _). congruence.
    + unfold isset, SI. rewrite C4. destruct (V4 k) as (X1 & X2 & _ & X3 & _). auto.
  - rewrite C5. unfold equations, isset. rewrite C3. f_equal.
    + apply filter_ext. intros k. now rewrite C4.
    + f_equal. apply filter_ext. intros k. destruct C1 as (_ & _ & _ & _ & X). now rewrite X.
  - intros K. rewrite C3, V3. apply Q6. destruct O1 as (_ & _ & X & _). congruence.
Qed.
