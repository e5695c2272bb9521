(** Lemmas about user defined equations. *)
From Coq Require Import Reals Lra.
From Verif Require Import UdeModel UdeSpec NumDerivProofs.
Open Scope R_scope.

Lemma made obj l cs p t u : make obj l cs p t = Ok u ->
  exists s c, l = AStr s /\ cs = AList c /\ p <> AOtherDict /\ t <> TOther /\ u_label u = s /\ map fst (u_conns u) = c /\
    (forall x, In x (u_conns u) -> snd x = obj (fst x)) /\ (forall a, p = ADict a -> u_params u = a) /\ u_jac u = [].
Proof.
  unfold make. destruct l as [s|]; [|discriminate]. destruct cs as [c|]; [|discriminate]. intros H. exists s, c.
  assert (P : p <> AOtherDict) by (intros ->; discriminate). assert (T : t <> TOther) by (intros ->; destruct p; discriminate).
  assert (X : u = {| u_label := s; u_conns := map (fun c => (c, obj c)) c; u_params := match p with ADict a => a | _ => default_dict end;
      u_latex := update (match t with TDict d => d | _ => [] end) latex0; u_jac := [] |}).
  { destruct p, t; congruence. }
  subst u. cbn. split; [reflexivity|]. split; [reflexivity|]. split; [exact P|]. split; [exact T|]. split; [reflexivity|].
  split; [rewrite map_map; apply map_id|]. split; [|split; [intros a ->; reflexivity|reflexivity]].
  intros x I0. apply in_map_iff in I0. destruct I0 as (y & <- & _). reflexivity.
Qed.
Lemma rejected obj l cs p t : (l = AOtherLabel \/ cs = AOtherConns \/ p = AOtherDict \/ t = TOther) -> make obj l cs p t = Err TypeError.
Proof.
  unfold make. intros [-> |[-> |[-> | ->]]]; [reflexivity| | |]; destruct l; try reflexivity; destruct cs; try reflexivity; destruct p; reflexivity.
Qed.

Lemma own_params obj l1 l2 c1 c2 a1 a2 t1 t2 u1 u2 h k v : make obj l1 c1 (ADict a1) t1 = Ok u1 -> make obj l2 c2 (ADict a2) t2 = Ok u2 -> a1 <> a2 ->
  store (u_params u1) k v h (u_params u2) = h (u_params u2) /\ dget k (store (u_params u1) k v h (u_params u1)) = Some v.
Proof.
  intros M1 M2 N. destruct (made _ _ _ _ _ _ M1) as (? & ? & _ & _ & _ & _ & _ & _ & _ & P1 & _). destruct (made _ _ _ _ _ _ M2) as (? & ? & _ & _ & _ & _ & _ & _ & _ & P2 & _).
  rewrite (P1 a1 eq_refl), (P2 a2 eq_refl). unfold store. split.
  - destruct (Nat.eqb_spec a2 a1); [congruence|reflexivity].
  - rewrite Nat.eqb_refl. apply dget_dset_eq.
Qed.
Lemma shared_params : exists obj u1 u2 h k v, make obj (AStr "a") (AList []) AOmitted TOmitted = Ok u1 /\ make obj (AStr "b") (AList []) AOmitted TOmitted = Ok u2 /\
  dget k (h (u_params u2)) = None /\ dget k (store (u_params u1) k v h (u_params u2)) = Some v.
Proof.
  exists (fun _ => 0%nat). eexists. eexists. exists (fun _ => []), "x"%string, 1. split; [reflexivity|]. split; [reflexivity|]. split; reflexivity.
Qed.

Lemma named_ude k f v : pname f = "ude"%string -> ude_numeric_deriv k f v = numeric_deriv k (call_pos f) v.
Proof.
  intros N. unfold ude_numeric_deriv, call_kw, call_pos. rewrite N. unfold numeric_deriv, fluid_deriv, central_inplace. cbn [String.eqb Ascii.eqb Bool.eqb]. reflexivity.
Qed.
Lemma named_affine k f v a b : pname f = "ude"%string -> k <> VFluid -> stepwidth k <> 0 -> (forall x, body f x = Ok (a * x + b)) -> ude_numeric_deriv k f v = (v, Ok a).
Proof.
  intros N K S0 B. rewrite named_ude by exact N. rewrite <- (numeric_deriv_affine k a b v K S0). unfold call_pos, numeric_deriv, fluid_deriv, central_inplace.
  destruct k; rewrite !B; reflexivity.
Qed.
Lemma other_name k f v : pname f <> "ude"%string -> exists w, ude_numeric_deriv k f v = (w, Err TypeError).
Proof.
  intros N. unfold ude_numeric_deriv, numeric_deriv, fluid_deriv, central_inplace, call_kw.
  destruct (String.eqb_spec (pname f) "ude") as [E|_]; [congruence|]. destruct k; eexists; reflexivity.
Qed.
Lemma unnamed : exists f k v w, (forall x, call_pos f x = Ok x) /\ ude_numeric_deriv k f v = (w, Err TypeError) /\ w <> v.
Proof.
  exists {| pname := "eq"; body := fun x => Ok x |}, Vm, 1, (1 + / 10000). split; [reflexivity|]. split; [reflexivity|lra].
Qed.

Lemma remap_conns_spec net cs cs' : remap_conns net cs = Ok cs' ->
  map fst cs' = map fst cs /\ forall c, In c cs' -> dget (fst c) net = Some (snd c).
Proof.
  unfold remap_conns. revert cs'. induction cs as [|c cs IH]; intros cs' H.
  - cbn in H. assert (cs' = []) as -> by congruence. split; [reflexivity|intros ? []].
  - cbn in H. destruct (dget (fst c) net) as [o|] eqn:D; [|discriminate]. cbn [rbind] in H.
    destruct (rmapM _ cs) as [r|] eqn:E; [|discriminate]. cbn [rmap] in H. assert (cs' = (fst c, o) :: r) as -> by congruence.
    destruct (IH r eq_refl) as (A & B). split; [cbn; now rewrite A|]. intros x [<-|X]; [exact D|now apply B].
Qed.
Lemma remap_conns_total net cs : (forall c, In c cs -> dget (fst c) net <> None) -> exists cs', remap_conns net cs = Ok cs'.
Proof.
  unfold remap_conns. induction cs as [|c cs IH]; intros H; [eexists; reflexivity|]. cbn. destruct (dget (fst c) net) eqn:D; [|exfalso; apply (H c); [now left|exact D]].
  destruct IH as (r & R); [intros x X; apply H; now right|]. cbn [rbind]. rewrite R. eexists. reflexivity.
Qed.
Lemma remap_conns_missing net cs c : In c cs -> dget (fst c) net = None -> remap_conns net cs = Err KeyError.
Proof.
  unfold remap_conns. induction cs as [|x cs IH]; intros I0 D; [destruct I0|]. cbn. destruct (dget (fst x) net) eqn:E; [|reflexivity].
  cbn [rbind]. destruct I0 as [-> |I0]; [congruence|]. now rewrite (IH I0 D).
Qed.

Lemma remap_ok net us : (forall u c, In u us -> In c (u_conns u) -> dget (fst c) net <> None) ->
  exists us', remap net us = (us', None) /\ Forall2 (fresh net) us us'.
Proof.
  induction us as [|u us IH]; intros H; [exists []; split; [reflexivity|constructor]|]. cbn.
  destruct (remap_conns_total net (u_conns u)) as (cs & C); [intros c I0; apply (H u c); [now left|exact I0]|]. rewrite C.
  destruct IH as (r & R & F); [intros x c X Y; apply (H x c); [now right|exact Y]|]. rewrite R. eexists. split; [reflexivity|]. constructor; [|exact F].
  destruct (remap_conns_spec _ _ _ C) as (A & B). unfold fresh. cbn. auto 10.
Qed.
Lemma remap_missing net us u c : In u us -> In c (u_conns u) -> dget (fst c) net = None -> snd (remap net us) = Some KeyError.
Proof.
  induction us as [|x us IH]; intros I0 J D; [destruct I0|]. cbn. destruct (remap_conns net (u_conns x)) as [cs|e] eqn:E.
  - destruct I0 as [-> |I0]; [rewrite (remap_conns_missing _ _ _ J D) in E; discriminate|]. specialize (IH I0 J D). destruct (remap net us) as (r, e). exact IH.
  - assert (M : exists y, In y (u_conns x) /\ dget (fst y) net = None).
    { destruct (existsb (fun y => match dget (fst y) net with None => true | _ => false end) (u_conns x)) eqn:X.
      - apply existsb_exists in X. destruct X as (y & Y & Z). exists y. split; [exact Y|]. now destruct (dget (fst y) net).
      - exfalso. destruct (remap_conns_total net (u_conns x)) as (? & C); [|congruence]. intros y Y Z.
        assert (T : existsb (fun y => match dget (fst y) net with None => true | _ => false end) (u_conns x) = true) by (apply existsb_exists; exists y; rewrite Z; now split). congruence. }
    destruct M as (y & Y & Z). rewrite (remap_conns_missing _ _ _ Y Z) in E. cbn. congruence.
Qed.

Lemma update_get {V} (new : dict V) : NoDup (map fst new) -> forall d k,
  dget k (update new d) = match dget k new with Some v => Some v | None => dget k d end.
Proof.
  induction new as [|[k0 v0] new IH]; intros N d k; [reflexivity|]. inversion N as [|? ? N1 N2]; subst. cbn [update].
  rewrite (IH N2). cbn [dget]. destruct (String.eqb_spec k k0) as [->|E].
  - assert (X : dget k0 new = None). { destruct (dget k0 new) eqn:G; [|reflexivity]. exfalso. apply N1. apply dget_In in G. now apply in_map with (f := fst) in G. }
    rewrite X. apply dget_dset_eq.
  - destruct (dget k new); [reflexivity|]. apply dget_dset_neq. congruence.
Qed.
Lemma texts : forall obj l cs p t u,
  make obj l cs p t = Ok u ->
  (t = TOmitted -> forall k, dget k (u_latex u) = report_text k)
  /\ (forall d, t = TDict d -> NoDup (map fst d) ->
      forall k, dget k (u_latex u) = match dget k d with Some v => Some v | None => report_text k end).
Proof.
  intros obj l cs p t u M. unfold make in M. destruct l; [|discriminate]. destruct cs; [|discriminate].
  assert (D : forall k, dget k latex0 = report_text k) by (intros k; cbn; unfold report_text; repeat destruct (String.eqb k _); reflexivity).
  split.
  - intros -> k. destruct p; try discriminate; injection M as <-; apply D.
  - intros d -> N k. destruct p; try discriminate; injection M as <-; cbn [u_latex]; rewrite (update_get _ N), D; reflexivity.
Qed.

Lemma remap_kept : forall net us, map u_label (fst (remap net us)) = map u_label us
  /\ map u_params (fst (remap net us)) = map u_params us
  /\ map (fun u => map fst (u_conns u)) (fst (remap net us)) = map (fun u => map fst (u_conns u)) us.
Proof.
  intros net us. induction us as [|u us IH]; [repeat split|]. cbn. destruct (remap_conns net (u_conns u)) as [cs|e] eqn:E; [|repeat split].
  destruct (remap net us) as (r, e). cbn in *. destruct IH as (A & B & C). rewrite A, B, C.
  destruct (remap_conns_spec _ _ _ E) as (D & _). rewrite D. repeat split.
Qed.
