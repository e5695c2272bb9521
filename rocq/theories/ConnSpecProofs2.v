(** Names of fluids with a back end. *)
From Coq Require Import String Ascii List Bool Arith Lia.
From Verif Require Import Base ConnSpecModel.
Open Scope nat_scope.
Open Scope string_scope.

(** The string has no colon. *)
Fixpoint no_colon (s : string) : Prop :=
  match s with EmptyString => True | String a s' => a <> ":"%char /\ no_colon s' end.

Lemma prefix_no : forall a s, a <> ":"%char -> prefix "::" (String a s) = false.
Proof. intros a s H. change (prefix "::" (String a s)) with (if ascii_dec ":" a then prefix ":" s else false). destruct (ascii_dec ":" a) as [E|E]; [now subst|reflexivity]. Qed.


Lemma index_cons : forall a s, a <> ":"%char ->
  index 0 "::" (String a s) = match index 0 "::" s with Some n => Some (S n) | None => None end.
Proof. intros a s H. cbn [index]. rewrite prefix_no by exact H. reflexivity. Qed.

Lemma index_none : forall s, no_colon s -> index 0 "::" s = None.
Proof.
  induction s as [|a s IH]; intros H; [reflexivity|]. destruct H as [Ha H]. rewrite index_cons by exact Ha. now rewrite IH.
Qed.

Lemma index_app : forall be s, no_colon be -> index 0 "::" (be ++ "::" ++ s) = Some (String.length be).
Proof.
  induction be as [|a be IH]; intros s H.
  - destruct s; reflexivity.
  - destruct H as [Ha H]. change (String a be ++ "::" ++ s) with (String a (be ++ "::" ++ s)).
    rewrite index_cons by exact Ha. now rewrite IH.
Qed.

Lemma substring_all : forall s n, String.length s <= n -> substring 0 n s = s.
Proof.
  induction s as [|a s IH]; intros n H; [destruct n; reflexivity|]. destruct n as [|n]; cbn in *; [lia|]. now rewrite IH by lia.
Qed.

Lemma substring_head : forall be s, substring 0 (String.length be) (be ++ s) = be.
Proof. induction be as [|a be IH]; intros s; cbn; [destruct s; reflexivity|now rewrite IH]. Qed.

Lemma substring_tail : forall be s n, String.length s <= n -> substring (String.length be) n (be ++ s) = s.
Proof.
  induction be as [|a be IH]; intros s n H; cbn [String.length append]; [now apply substring_all|].
  cbn. now apply IH.
Qed.

Lemma append_length : forall a b, String.length (a ++ b) = String.length a + String.length b.
Proof. induction a as [|x a IH]; intros b; cbn; [reflexivity|now rewrite IH]. Qed.

Lemma append_assoc : forall a b c, (a ++ b) ++ c = a ++ (b ++ c).
Proof. induction a as [|x a IH]; intros b c; cbn; [reflexivity|now rewrite IH]. Qed.

Lemma rest_after : forall be s, substring (String.length be + 2) (String.length (be ++ "::" ++ s)) (be ++ "::" ++ s) = s.
Proof.
  intros be s. rewrite <- append_assoc. replace (String.length be + 2) with (String.length (be ++ "::")) by (now rewrite append_length).
  apply substring_tail. rewrite append_length. lia.
Qed.

Lemma back_end_names : forall be fluid rest, no_colon be -> no_colon fluid ->
  split_back_end fluid = Ok (None, fluid)
  /\ split_back_end (be ++ "::" ++ fluid) = Ok (Some be, fluid)
  /\ split_back_end (be ++ "::" ++ fluid ++ "::" ++ rest) = Err ValueError.
Proof.
  intros be fluid rest Hb Hf. unfold split_back_end. split; [|split].
  - now rewrite index_none.
  - rewrite index_app by exact Hb. rewrite rest_after. rewrite index_none by exact Hf. now rewrite substring_head.
  - rewrite index_app by exact Hb. rewrite rest_after. now rewrite index_app.
Qed.
