(** Balances of the busses in the Sankey tables. *)
From Coq Require Import QArith Qabs Lqa.
From Verif Require Import Base ExergyModel AnalysisModel AnalysisSpec AnalysisProofs SankeyModel SankeySpec SankeyProofs SankeyProofs2.
Open Scope Q_scope.
Open Scope list_scope.

Definition sel := (string * string -> bool)%type.
Definition wrow (c : column) (w : sel) (r : (string * string) * vec) : Q := if w (fst r) then amount (cell c (snd r)) else 0.
Definition wsum (c : column) (w : sel) (t : table) : Q := fold_right (fun r s => wrow c w r + s) 0 t.
Definition tsum (c : column) (w : sel) (sk : dict table) : Q := fold_right (fun e s => wsum c w (snd e) + s) 0 sk.
Definition fin (c : column) (w : sel) (t : table) : Prop := forall r, In r t -> w (fst r) = true -> cell c (snd r) <> None.
Definition every : sel := fun _ => true.
Definition to (u : string) : sel := fun k => String.eqb (fst k) u.

Lemma outflow_wsum c g sk : outflow c g sk = wsum c every (table_of g sk).
Proof. reflexivity. Qed.
Lemma inflow_tsum c g sk : inflow c g sk = tsum c (to g) sk.
Proof. reflexivity. Qed.

Lemma wsum_cons c w r t : wsum c w (r :: t) = wrow c w r + wsum c w t.
Proof. reflexivity. Qed.
Lemma tsum_cons c w e sk : tsum c w (e :: sk) = wsum c w (snd e) + tsum c w sk.
Proof. reflexivity. Qed.
Lemma fin_cons c w r t : fin c w (r :: t) -> fin c w t.
Proof. intros F r' I. apply F. now right. Qed.

Lemma tset_new c (w : sel) k v t : ~ In k (map fst t) -> wsum c w (tset k v t) == wsum c w t + (if w k then amount (cell c v) else 0).
Proof.
  induction t as [|(k', v') t IH]; cbn [tset map fst]; intros N.
  - rewrite wsum_cons. unfold wrow, wsum. cbn [fst snd fold_right]. lra.
  - rewrite key_eqb_neq by (intros ->; apply N; now left). rewrite !wsum_cons, IH; [lra|]. intros I. apply N. now right.
Qed.
Lemma tset_off c (w : sel) k v t : w k = false -> wsum c w (tset k v t) == wsum c w t.
Proof.
  intros W. induction t as [|(k', v') t IH]; cbn [tset].
  - rewrite wsum_cons. unfold wrow, wsum. cbn [fst snd fold_right]. rewrite W. lra.
  - destruct (key_eqb k k') eqn:E.
    + apply key_eqb_eq in E. subst k'. rewrite !wsum_cons. unfold wrow. cbn [fst]. rewrite W. lra.
    + rewrite !wsum_cons, IH. lra.
Qed.
Lemma tset_In k v t r : In r (tset k v t) -> r = (k, v) \/ In r t.
Proof.
  induction t as [|(k', v') t IH]; cbn [tset]; intros I; [destruct I as [<-|[]]; auto|].
  destruct (key_eqb k k') eqn:E.
  - apply key_eqb_eq in E. subst. destruct I as [<-|I]; [auto|right; now right].
  - destruct I as [<-|I]; [right; now left|]. destruct (IH I); [auto|right; now right].
Qed.
Lemma tget_tset_eq k v t : tget k (tset k v t) = Some v.
Proof.
  induction t as [|(k', v') t IH]; cbn [tset tget]; [now rewrite key_eqb_refl|].
  destruct (key_eqb k k') eqn:E; cbn [tget]; rewrite E; auto.
Qed.
Lemma tget_tset_neq k k' v t : k <> k' -> tget k (tset k' v t) = tget k t.
Proof.
  intros N. induction t as [|(k0, v0) t IH]; cbn [tset tget]; [now rewrite key_eqb_neq|].
  destruct (key_eqb k' k0) eqn:E; cbn [tget].
  - apply key_eqb_eq in E. subst. now rewrite key_eqb_neq.
  - destruct (key_eqb k k0); auto.
Qed.
Lemma tset_fin c w k v t : fin c w t -> (w k = true -> cell c v <> None) -> fin c w (tset k v t).
Proof. intros F V r I W. apply tset_In in I. destruct I as [->|I]; [now apply V|now apply F]. Qed.

Lemma cell_vadd c a b : cell c (vadd a b) = nadd (cell c a) (cell c b).
Proof. destruct a as [[a1 a2] a3], b as [[b1 b2] b3], c; reflexivity. Qed.
Lemma cell_vzero c : cell c vzero = Some 0.
Proof. destruct c; reflexivity. Qed.

Lemma tset_on c (w : sel) k v t u : tget k t = Some u -> w k = true ->
  wsum c w (tset k v t) == wsum c w t - amount (cell c u) + amount (cell c v).
Proof.
  intros G W. induction t as [|(k', v') t IH]; cbn [tset tget] in *; [discriminate|].
  destruct (key_eqb k k') eqn:E.
  - injection G as <-. apply key_eqb_eq in E. subst k'. rewrite !wsum_cons. unfold wrow. cbn [fst snd]. rewrite W. lra.
  - rewrite !wsum_cons, (IH G). lra.
Qed.
Lemma tadd_on c (w : sel) k v t x : fin c w t -> w k = true -> cell c v = Some x ->
  fin c w (tadd k v t) /\ wsum c w (tadd k v t) == wsum c w t + x.
Proof.
  intros F W X. unfold tadd. destruct (tget k t) as [u|] eqn:G.
  - assert (U : cell c u <> None) by (apply tget_In in G; apply (F _ G W)).
    destruct (cell c u) as [y|] eqn:Y; [|contradiction].
    assert (V : cell c (vadd u v) = Some (y + x)) by (rewrite cell_vadd, Y, X; reflexivity). split.
    + apply tset_fin; [exact F|]. rewrite V. discriminate.
    + rewrite (tset_on _ _ _ _ _ _ G W), V, Y. cbn [amount]. lra.
  - assert (V : cell c (vadd vzero v) = Some (0 + x)) by (rewrite cell_vadd, cell_vzero, X; reflexivity). split.
    + apply tset_fin; [exact F|]. rewrite V. discriminate.
    + rewrite tset_new by (now apply tget_None). rewrite W, V. cbn [amount]. lra.
Qed.
Lemma tadd_off c (w : sel) k v t : fin c w t -> w k = false -> fin c w (tadd k v t) /\ wsum c w (tadd k v t) == wsum c w t.
Proof.
  intros F W. unfold tadd. split; [|now apply tset_off]. apply tset_fin; [exact F|]. congruence.
Qed.

(* ---------------------------------------------------------------- tables *)

Lemma table_dset_eq g t (sk : dict table) : table_of g (dset g t sk) = t.
Proof. unfold table_of. now rewrite dget_dset_eq. Qed.
Lemma table_dset_neq g g' t (sk : dict table) : g <> g' -> table_of g (dset g' t sk) = table_of g sk.
Proof. intros N. unfold table_of. now rewrite dget_dset_neq. Qed.
Lemma tsum_dset c w g t (sk : dict table) : tsum c w (dset g t sk) == tsum c w sk - wsum c w (table_of g sk) + wsum c w t.
Proof.
  induction sk as [|(g', t') sk IH]; cbn [dset].
  - change (tsum c w [(g, t)]) with (wsum c w t + 0). change (tsum c w []) with 0. change (wsum c w (table_of g [])) with 0. lra.
  - unfold table_of in *. cbn [dget]. destruct (String.eqb g g') eqn:E; rewrite !tsum_cons; cbn [snd]; [lra|]. rewrite IH. lra.
Qed.
Lemma In_dset (sk : dict table) g t a b : In (a, b) (dset g t sk) -> b = t /\ a = g \/ In (a, b) sk.
Proof.
  induction sk as [|(g', t') sk IH]; cbn [dset]; intros I.
  - destruct I as [E|[]]. injection E as <- <-. auto.
  - destruct (String.eqb g g') eqn:Q.
    + destruct I as [E|I]; [injection E as <- <-; left; split; [reflexivity|symmetry; now apply String.eqb_eq]|right; now right].
    + destruct I as [E|I]; [right; now left|]. destruct (IH I); [auto|right; now right].
Qed.
Lemma table_In g (sk : dict table) r : In r (table_of g sk) -> exists t, In (g, t) sk /\ In r t.
Proof. unfold table_of. destruct (dget g sk) as [t|] eqn:E; [|intros []]. intros I. exists t. split; [now apply dget_In|exact I]. Qed.

(** All flows into and out of the node are numbers. *)
Definition numbers (u : string) (sk : dict table) : Prop :=
  forall c, fin c every (table_of u sk) /\ forall g t, In (g, t) sk -> fin c (to u) t.
Definition surplus (c : column) (u : string) (sk : dict table) : Q := outflow c u sk - inflow c u sk.
Definition SD (u : string) (sk : dict table) : Q := surplus Chemical u sk + surplus Physical u sk + surplus Massless u sk.

(** One table replaced, seen from a node. *)
Lemma replaced_off u g t sk : g <> u -> numbers u sk ->
  (forall c, fin c (to u) (table_of g sk) -> fin c (to u) t /\ wsum c (to u) t == wsum c (to u) (table_of g sk)) ->
  numbers u (dset g t sk) /\ forall c, surplus c u (dset g t sk) == surplus c u sk.
Proof.
  intros N F H. assert (G : forall c, fin c (to u) (table_of g sk)).
  { intros c r I. apply table_In in I. destruct I as (t0 & A & B). apply (proj2 (F c) _ _ A r B). }
  split.
  - intros c. destruct (F c) as (A & B). split; [rewrite table_dset_neq by auto; exact A|].
    intros g' t' I. apply In_dset in I. destruct I as [(-> & ->)|I]; [now apply H|now apply (B g')].
  - intros c. unfold surplus. rewrite outflow_wsum, inflow_tsum, outflow_wsum, inflow_tsum.
    rewrite table_dset_neq by auto. rewrite tsum_dset. destruct (H c (G c)) as (_ & ->). lra.
Qed.
Lemma replaced_in u g t sk x : g <> u -> numbers u sk ->
  (forall c, fin c (to u) (table_of g sk) -> fin c (to u) t /\ wsum c (to u) t == wsum c (to u) (table_of g sk) + x c) ->
  numbers u (dset g t sk) /\ forall c, surplus c u (dset g t sk) == surplus c u sk - x c.
Proof.
  intros N F H. assert (G : forall c, fin c (to u) (table_of g sk)).
  { intros c r I. apply table_In in I. destruct I as (t0 & A & B). apply (proj2 (F c) _ _ A r B). }
  split.
  - intros c. destruct (F c) as (A & B). split; [rewrite table_dset_neq by auto; exact A|].
    intros g' t' I. apply In_dset in I. destruct I as [(-> & ->)|I]; [now apply H|now apply (B g')].
  - intros c. unfold surplus. rewrite outflow_wsum, inflow_tsum, outflow_wsum, inflow_tsum.
    rewrite table_dset_neq by auto. rewrite tsum_dset. destruct (H c (G c)) as (_ & ->). lra.
Qed.
Lemma replaced_out u t sk x : numbers u sk ->
  (forall c, fin c every (table_of u sk) -> fin c every t /\ wsum c every t == wsum c every (table_of u sk) + x c) ->
  (forall c, fin c (to u) (table_of u sk) -> fin c (to u) t /\ wsum c (to u) t == wsum c (to u) (table_of u sk)) ->
  numbers u (dset u t sk) /\ forall c, surplus c u (dset u t sk) == surplus c u sk + x c.
Proof.
  intros F H J. assert (G : forall c, fin c (to u) (table_of u sk)).
  { intros c r I. apply table_In in I. destruct I as (t0 & A & B). apply (proj2 (F c) _ _ A r B). }
  split.
  - intros c. destruct (F c) as (A & B). split; [rewrite table_dset_eq; now apply H|].
    intros g' t' I. apply In_dset in I. destruct I as [(-> & ->)|I]; [now apply J|now apply (B g')].
  - intros c. destruct (F c) as (A & _). unfold surplus. rewrite outflow_wsum, inflow_tsum, outflow_wsum, inflow_tsum.
    rewrite table_dset_eq. rewrite tsum_dset. destruct (J c (G c)) as (_ & ->). destruct (H c A) as (_ & ->). lra.
Qed.

(* ---------------------------------------------------------------- shares *)

Definition pos_col (pos : nat) : column := match pos with 0%nat => Chemical | 1%nat => Physical | _ => Massless end.
Definition col_eqb (a b : column) : bool := match a, b with Chemical, Chemical | Physical, Physical | Massless, Massless => true | _, _ => false end.
Definition part (c : column) (l : list (nat * num)) : Q :=
  sumq l (fun e => if col_eqb c (pos_col (fst e)) then amount (snd e) else 0).

Lemma share_on c (w : sel) target cat pos v t x : fin c w t -> w (target, cat) = true -> v = Some x ->
  fin c w (add_share target cat pos v t) /\ wsum c w (add_share target cat pos v t) == wsum c w t + (if col_eqb c (pos_col pos) then x else 0).
Proof.
  intros F W ->. unfold add_share.
  destruct pos as [|[|pos]], c; cbn [col_eqb pos_col]; apply tadd_on; try exact F; try exact W; reflexivity.
Qed.
Lemma share_off c (w : sel) target cat pos v t : fin c w t -> w (target, cat) = false ->
  fin c w (add_share target cat pos v t) /\ wsum c w (add_share target cat pos v t) == wsum c w t.
Proof. intros F W. unfold add_share. apply tadd_off; assumption. Qed.

Lemma shares_off c (w : sel) target cat ports scale l t t' : (forall x, w (target, x) = false) ->
  add_shares target cat ports scale l t = Ok t' -> fin c w t -> fin c w t' /\ wsum c w t' == wsum c w t.
Proof.
  intros W. revert t. induction l as [|(pos, v) l IH]; cbn [add_shares]; intros t H F; [injection H as <-; split; [exact F|reflexivity]|].
  assert (S : forall cat v, fin c w (add_share target cat pos v t) /\ wsum c w (add_share target cat pos v t) == wsum c w t) by (intros; apply share_off; auto).
  assert (R : forall cat0 v0, add_shares target cat ports scale l (add_share target cat0 pos v0 t) = Ok t' -> fin c w t' /\ wsum c w t' == wsum c w t).
  { intros cat0 v0 E. destruct (S cat0 v0) as (A & B). destruct (IH _ E A) as (A' & B'). split; [exact A'|]. now rewrite B'. }
  destruct v as [q|].
  - destruct (Qeq_bool q 0); [now apply IH|]. destruct (Nat.ltb pos 2); [destruct ports; [discriminate|]|]; eapply R; eassumption.
  - destruct (Nat.ltb pos 2); [destruct ports; [discriminate|]|]; eapply R; eassumption.
Qed.
Lemma shares_on c (w : sel) target cat ports scale kappa l t t' : (forall x, w (target, x) = true) ->
  (forall q, exists y, scale (Some q) = Some y /\ y == q * kappa) -> (forall e, In e l -> snd e <> None) ->
  add_shares target cat ports scale l t = Ok t' -> fin c w t -> fin c w t' /\ wsum c w t' == wsum c w t + part c l * kappa.
Proof.
  intros W SC. revert t. induction l as [|(pos, v) l IH]; cbn [add_shares]; intros t NN H F.
  { injection H as <-. split; [exact F|]. unfold part. cbn. lra. }
  destruct v as [q|]; [|exfalso; apply (NN (pos, None)); [now left|reflexivity]].
  assert (NL : forall e, In e l -> snd e <> None) by (intros e I; apply NN; now right).
  assert (PC : part c ((pos, Some q) :: l) == (if col_eqb c (pos_col pos) then q else 0) + part c l) by (unfold part; cbn [sumq fold_right fst snd amount]; reflexivity).
  destruct (Qeq_bool q 0) eqn:Z.
  { destruct (IH _ NL H F) as (A & B). split; [exact A|]. rewrite B, PC. apply Qeq_bool_iff in Z. destruct (col_eqb c (pos_col pos)); [rewrite Z|]; lra. }
  destruct (SC q) as (y & Y & YQ).
  assert (R : forall cat0, add_shares target cat ports scale l (add_share target cat0 pos (scale (Some q)) t) = Ok t' -> fin c w t' /\ wsum c w t' == wsum c w t + part c ((pos, Some q) :: l) * kappa).
  { intros cat0 E. destruct (share_on c w target cat0 pos (scale (Some q)) t y F (W cat0) Y) as (A & B). destruct (IH _ NL E A) as (A' & B'). split; [exact A'|].
    rewrite B', B, PC. destruct (col_eqb c (pos_col pos)); [rewrite YQ|]; lra. }
  destruct (Nat.ltb pos 2); [destruct ports; [discriminate|]|]; eapply R; eassumption.
Qed.
