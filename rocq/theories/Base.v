(** Common vocabulary of all model files: Python exceptions as values and
    Python dictionaries as association lists in insertion order. *)
From Coq Require Export String.
From Coq Require Export List Bool Arith ZArith Lia.
Export ListNotations.

(** The exception classes raised in /repo that the model distinguishes
    (src/tespy/tools/helpers.py 67-82 for the TESPy* ones, Python built-ins for
    the others). *)
Inductive pyerr :=
| KeyError | ValueError | TypeError | IndexError | AttributeError
| ZeroDivisionError | UnboundLocalError | NotImplementedError | RecursionError | AssertionError
| TESPyNetworkError | TESPyConnectionError | TESPyComponentError.

(** Outcome of a Python call: a value or a raised exception.
    Python exceptions, as in tools/helpers.py 105-137. *)
Inductive res (A : Type) :=
| Ok (a : A)
| Err (e : pyerr).
Arguments Ok {A} a.
Arguments Err {A} e.

(** The next statement, unless an exception was raised (Python semantics) *)
Definition rbind {A B : Type} (r : res A) (f : A -> res B) : res B :=
  match r with Ok a => f a | Err e => Err e end.

(** The same for a statement that does not raise (Python semantics) *)
Definition rmap {A B : Type} (f : A -> B) (r : res A) : res B :=
  match r with Ok a => Ok (f a) | Err e => Err e end.

(** Whether a call returned (Python semantics) *)
Definition is_ok {A : Type} (r : res A) : bool :=
  match r with Ok _ => true | Err _ => false end.

(** Sequencing over a list, stopping at the first exception (a Python list
    comprehension whose body may raise). As in helpers.py 26-38. *)
Fixpoint rmapM {A B : Type} (f : A -> res B) (l : list A) : res (list B) :=
  match l with
  | [] => Ok []
  | a :: l' => rbind (f a) (fun b => rmap (cons b) (rmapM f l'))
  end.

(** Python dictionaries with string keys: association lists in insertion order
    with at most one entry per key ([dset] preserves that). Python semantics. *)
Definition dict (V : Type) := list (string * V).

(** d[k] or d.get(k) (Python semantics) *)
Fixpoint dget {V : Type} (k : string) (d : dict V) : option V :=
  match d with
  | [] => None
  | (k', v) :: d' => if String.eqb k k' then Some v else dget k d'
  end.

(** d[k] = v (Python semantics) *)
Fixpoint dset {V : Type} (k : string) (v : V) (d : dict V) : dict V :=
  match d with
  | [] => [(k, v)]
  | (k', v') :: d' =>
      if String.eqb k k' then (k', v) :: d' else (k', v') :: dset k v d'
  end.

(** del d[k] (Python semantics) *)
Fixpoint ddel {V : Type} (k : string) (d : dict V) : dict V :=
  match d with
  | [] => []
  | (k', v') :: d' => if String.eqb k k' then d' else (k', v') :: ddel k d'
  end.

(** k in d (Python semantics) *)
Definition dmem {V : Type} (k : string) (d : dict V) : bool :=
  match dget k d with Some _ => true | None => false end.

(** d.keys() (Python semantics) *)
Definition keys {V : Type} (d : dict V) : list string := map fst d.

(** k in l (Python semantics) *)
Definition smem (k : string) (l : list string) : bool :=
  existsb (String.eqb k) l.

(* ---- lemmas about dictionaries ---- *)

Lemma dget_dset_eq {V} k (v : V) d : dget k (dset k v d) = Some v.
Proof.
  induction d as [|[k' v'] d IH]; cbn.
  - now rewrite String.eqb_refl.
  - destruct (String.eqb k k') eqn:E; cbn; rewrite E; auto.
Qed.

Lemma dget_dset_neq {V} k k' (v : V) d :
  k <> k' -> dget k (dset k' v d) = dget k d.
Proof.
  intros Hn; induction d as [|[k1 v1] d IH]; cbn.
  - apply String.eqb_neq in Hn; now rewrite Hn.
  - destruct (String.eqb k' k1) eqn:E; cbn.
    + apply String.eqb_eq in E; subst k1.
      apply String.eqb_neq in Hn; now rewrite Hn.
    + destruct (String.eqb k k1); auto.
Qed.

Lemma dget_In {V} k (v : V) d : dget k d = Some v -> In (k, v) d.
Proof.
  induction d as [|[k1 v1] d IH]; cbn; [discriminate|].
  destruct (String.eqb k k1) eqn:E.
  - apply String.eqb_eq in E; intros H; inversion H; subst; auto.
  - intros H; right; auto.
Qed.

Lemma dget_None_notin {V} k (d : dict V) : dget k d = None <-> ~ In k (keys d).
Proof.
  induction d as [|[k1 v1] d IH]; cbn; [tauto|].
  destruct (String.eqb k k1) eqn:E.
  - apply String.eqb_eq in E; subst; split; [discriminate|]. intros H; exfalso; auto.
  - apply String.eqb_neq in E. rewrite IH. split.
    + intros H [H1|H1]; [congruence|auto].
    + intros H H1; apply H; auto.
Qed.

Lemma dmem_In {V} k (d : dict V) : dmem k d = true <-> In k (keys d).
Proof.
  unfold dmem. destruct (dget k d) eqn:E.
  - split; [|auto]. intros _. apply dget_In in E.
    change k with (fst (k, v)). now apply in_map.
  - apply dget_None_notin in E. split; [discriminate|tauto].
Qed.

Lemma keys_dset {V} k (v : V) d k' :
  In k' (keys (dset k v d)) <-> k' = k \/ In k' (keys d).
Proof.
  induction d as [|[k1 v1] d IH]; cbn.
  - intuition.
  - destruct (String.eqb k k1) eqn:E; cbn.
    + apply String.eqb_eq in E; subst; intuition.
    + rewrite IH. intuition.
Qed.

Lemma NoDup_keys_dset {V} k (v : V) d :
  NoDup (keys d) -> NoDup (keys (dset k v d)).
Proof.
  induction d as [|[k1 v1] d IH]; cbn; intros H.
  - constructor; auto.
  - inversion H as [|? ? Hn Hd]; subst.
    destruct (String.eqb k k1) eqn:E; cbn.
    + now constructor.
    + constructor; [|auto]. fold (keys (dset k v d)).
      rewrite keys_dset. apply String.eqb_neq in E. intros [H1|H1]; [congruence|auto].
Qed.

Lemma In_dget {V} k (v : V) d : NoDup (keys d) -> In (k, v) d -> dget k d = Some v.
Proof.
  induction d as [|[k1 v1] d IH]; cbn; intros Hn H; [tauto|].
  inversion Hn as [|? ? Hk Hd]; subst.
  destruct H as [H|H].
  - inversion H; subst. now rewrite String.eqb_refl.
  - destruct (String.eqb k k1) eqn:E; [|auto].
    apply String.eqb_eq in E; subst. exfalso; apply Hk.
    change k1 with (fst (k1, v)). now apply in_map.
Qed.

Lemma keys_ddel_incl {V} k (d : dict V) k' : In k' (keys (ddel k d)) -> In k' (keys d).
Proof.
  induction d as [|[k1 v1] d IH]; cbn; [tauto|].
  destruct (String.eqb k k1); cbn; intuition.
Qed.

Lemma NoDup_keys_ddel {V} k (d : dict V) : NoDup (keys d) -> NoDup (keys (ddel k d)).
Proof.
  induction d as [|[k1 v1] d IH]; cbn; intros H; [constructor|].
  inversion H as [|? ? Hn Hd]; subst.
  destruct (String.eqb k k1); [auto|]. cbn. constructor; [|auto].
  intros H1; apply Hn. eapply keys_ddel_incl; eauto.
Qed.

Lemma dget_ddel_eq {V} k (d : dict V) : NoDup (keys d) -> dget k (ddel k d) = None.
Proof.
  induction d as [|[k1 v1] d IH]; cbn; intros H; [auto|].
  inversion H as [|? ? Hn Hd]; subst.
  destruct (String.eqb k k1) eqn:E.
  - apply String.eqb_eq in E; subst. now apply dget_None_notin.
  - cbn. rewrite E. auto.
Qed.

Lemma dget_ddel_neq {V} k k' (d : dict V) : k <> k' -> dget k (ddel k' d) = dget k d.
Proof.
  intros Hn; induction d as [|[k1 v1] d IH]; cbn; [auto|].
  destruct (String.eqb k' k1) eqn:E.
  - apply String.eqb_eq in E; subst. apply String.eqb_neq in Hn; now rewrite Hn.
  - cbn. destruct (String.eqb k k1); auto.
Qed.

Lemma smem_In k l : smem k l = true <-> In k l.
Proof.
  unfold smem. rewrite existsb_exists. split.
  - intros (x & H & E). apply String.eqb_eq in E; now subst.
  - intros H; exists k; split; [auto|apply String.eqb_refl].
Qed.

(** Python sets of strings: lists read as sets. s.add(k), Python semantics. *)
Definition sadd (k : string) (l : list string) : list string := if smem k l then l else k :: l.
(** s.remove(k) (Python semantics) *)
Definition srem (k : string) (l : list string) : list string :=
  filter (fun x => negb (String.eqb k x)) l.

Lemma sadd_In k l x : In x (sadd k l) <-> x = k \/ In x l.
Proof.
  unfold sadd. destruct (smem k l) eqn:E.
  - apply smem_In in E. split; [auto|]. intros [->|H]; auto.
  - cbn. intuition.
Qed.

Lemma srem_In k l x : In x (srem k l) <-> x <> k /\ In x l.
Proof.
  unfold srem. rewrite filter_In, negb_true_iff, String.eqb_neq. intuition.
Qed.

(** Attribute tables read as functions: update at one key. Python semantics. *)
Definition upd {V : Type} (k : string) (v : V) (f : string -> V) : string -> V :=
  fun x => if String.eqb x k then v else f x.

Lemma upd_eq {V} k (v : V) f : upd k v f k = v.
Proof. unfold upd. now rewrite String.eqb_refl. Qed.

Lemma upd_neq {V} k k' (v : V) f : k' <> k -> upd k v f k' = f k'.
Proof. intros H. unfold upd. apply String.eqb_neq in H. now rewrite H. Qed.
