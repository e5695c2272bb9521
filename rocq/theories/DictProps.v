(** C43: recursive dictionary merge. *)
From Verif Require Import DictModel DictSpec DictProofs DictWitness.
Open Scope string_scope.
Open Scope list_scope.

(** C43 – the merged dictionary holds a value at a path of keys exactly when the
    second dictionary holds it there, or the first does and the second holds no
    value there or further up. *)
Theorem C43_values :
  forall dict1 dict2 r,
    wf_dict dict2 -> merge_dicts dict1 dict2 = Ok r ->
    forall path z,
      value_at path r = Some z <->
      value_at path dict2 = Some z \/
      (value_at path dict1 = Some z /\
       forall q, prefix_of q path -> value_at q dict2 = None).
Proof. exact (fun t1 t2 r Hw H => merge_values t2 Hw t1 r H). Qed.
Print Assumptions C43_values.

(** C43 – exactly the keys of both. *)
Theorem C43_keys :
  forall d1 d2 r,
    NoDup (keys d2) -> merge_dicts (Node d1) (Node d2) = Ok r ->
    exists dr, r = Node dr /\ forall k, In k (keys dr) <-> In k (keys d1) \/ In k (keys d2).
Proof. exact (fun d1 d2 r Hn H => merge_keys d2 d1 r Hn H). Qed.
Print Assumptions C43_keys.

(** C43 – merging raises exactly when the first dictionary holds a plain value
    where the second has entries underneath. *)
Theorem C43_raises_exactly_on_conflict :
  forall dict1 d2,
    wf_dict (Node d2) ->
    (is_ok (merge_dicts dict1 (Node d2)) = false <-> conflict dict1 (Node d2)).
Proof. exact (fun t1 d2 Hw => merge_ok_iff d2 Hw t1). Qed.
Print Assumptions C43_raises_exactly_on_conflict.

Example C43_case :
  wf_dict ex_default /\
  merge_dicts ex_user ex_default =
    Ok (Node [("Connections", Node [("1", Node [("p", Leaf 7)])]); ("x", Leaf 2);
              ("Components", Node [])]) /\
  conflict (Node [("x", Leaf 1)]) (Node [("x", Node [("y", Leaf 2)])]).
Proof.
  split; [|split; [reflexivity|]].
  - constructor.
    + cbn. repeat constructor; cbn; intuition discriminate.
    + cbn. intros k t [H|[H|[H|[]]]]; inversion H; subst; constructor; cbn; try constructor; tauto.
  - exists ["x"], "y". cbn. split; discriminate.
Qed.
