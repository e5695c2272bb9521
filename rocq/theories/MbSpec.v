(** Vocabulary for statements about moving boundary heat exchangers. *)
From Coq Require Import Reals Qreals Sorting.Sorted.
From Verif Require Import MbModel ReportSpec.
Open Scope nat_scope.

(** A list of numbers contains a number. *)
Definition has (l : list Q) (q : Q) : Prop := exists x, In x l /\ (x == q)%Q.
(** Heat goes from the hot to the cold side. *)
Definition exchanging (hot cold : side) (d : Q) : Prop :=
  (0 < mass hot)%Q /\ (0 < mass cold)%Q /\ same_data hot = true /\ same_data cold = true /\
  (h_out hot <= h_in hot)%Q /\ (h_in cold <= h_out cold)%Q /\
  (mass hot * (h_in hot - h_out hot) == d)%Q /\ (mass cold * (h_out cold - h_in cold) == d)%Q.
(** Enthalpies of the phase changes of a pure fluid. *)
Definition phase_change (f : fluid) (p h : Q) : Prop :=
  pure f = true /\ exists hl hg, hsat f p 0 = Ok hl /\ hsat f p 1 = Ok hg /\ (h = hl \/ h = hg).
Definition saturation_ok (f : fluid) : Prop := forall p hl hg, hsat f p 0 = Ok hl -> hsat f p 1 = Ok hg -> (hl <= hg)%Q.
(** Equal enthalpies have equal temperatures. *)
Definition T_proper (f : fluid) : Prop := forall p h h', (h == h')%Q -> Tph f p h = Tph f p h'.
(** Two neighbours in a list. *)
Definition neighbours (l : list Q) (a b : Q) : Prop := exists l1 l2, l = l1 ++ a :: b :: l2.
(** Difference of the temperatures where [q] has been transferred. *)
Definition difference (hot cold : side) (q : Q) : Q :=
  (Tph (fl hot) (p_in hot) (h_out hot + q / mass hot) - Tph (fl cold) (p_in cold) (h_in cold + q / mass cold))%Q.

(** [u] is the sum of heat by mean difference over the sections; the mean is the
    logarithmic one unless the differences at both ends are closer than 1e-6 K. *)
Inductive total (D : Q -> Q) : list Q -> R -> Prop :=
| total_one : forall q, total D [q] 0
| total_more : forall q1 q2 qs L r,
    (0 < L)%R -> between (Q2R (D q1)) (Q2R (D q2)) L ->
    ((1 # 1000000) < Qabs (D q2 - D q1) -> is_log_mean (Q2R (D q1)) (Q2R (D q2)) L)%Q ->
    total D (q2 :: qs) r -> total D (q1 :: q2 :: qs) (Q2R (q2 - q1) / L + r).
