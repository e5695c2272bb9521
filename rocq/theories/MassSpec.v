(** Vocabulary for statements about mass flow reduction. *)
From Verif Require Import MassModel.
Open Scope nat_scope.

(** Every connection owns its container: nothing is shared and no reset pending. *)
Definition own (conns : list nat) (s : mstate) : Prop :=
  (forall c d, In c conns -> In d conns -> ms_of s c = ms_of s d -> c = d) /\
  (forall c, In c conns -> ms_tmp s c = None).

(** The user's specification of the mass flow of [c]. *)
Definition mspec (s : mstate) (c : nat) : option Q :=
  let x := ms_heap s (ms_of s c) in if mc_set x then Some (mc_val x) else None.

(** Branches: disjoint non-empty lists of connections. *)
Definition branches_ok (branches : list (list nat)) (conns : list nat) : Prop :=
  NoDup (concat branches) /\ ~ In [] branches /\ incl (concat branches) conns.

(** At most one specification per branch and no reference within a branch. *)
Definition admissible (mref : nat -> option nat) (s : mstate) (b : list nat) : Prop :=
  (forall c d, In c b -> In d b -> mspec s c <> None -> mspec s d <> None -> c = d) /\
  (forall c d, In c b -> mref c = Some d -> ~ In d b).

(** The solver changes values of containers that are not specified. *)
Definition solver_ok (work : (nat -> mcont) -> (nat -> mcont) + pyerr) : Prop :=
  forall h h', work h = inl h' -> forall a, mc_set (h' a) = mc_set (h a) /\
    (mc_set (h a) = true -> mc_val (h' a) = mc_val (h a)).

(** Any number of solves, one after the other, until one raises. *)
Fixpoint solves (mref : nat -> option nat) (bs : list (list nat)) (conns : list nat)
  (works : list ((nat -> mcont) -> (nat -> mcont) + pyerr)) (s : mstate) : mstate * option pyerr :=
  match works with
  | [] => (s, None)
  | w :: ws => match solve_massflow mref bs conns w s with
               | (s', None) => solves mref bs conns ws s'
               | (s', Some e) => (s', Some e)
               end
  end.

(** The user withdraws the specification of one connection (m=None). *)
Definition withdraw (c : nat) (s : mstate) : mstate :=
  {| ms_heap := fupd (ms_of s c) {| mc_set := false; mc_val := mc_val (ms_heap s (ms_of s c)) |} (ms_heap s);
     ms_of := ms_of s; ms_tmp := ms_tmp s |}.
