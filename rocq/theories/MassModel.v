(** Mass flow reduction: sharing of mass flow containers between the connections
    of a branch, and its reset.
    Models src/tespy/networks/network.py 970-1024 (presolve_massflow_topology)
    and 1126-1134 (mass flow part of reset_topology_reduction_specifications). *)
From Coq Require Export QArith.
From Verif Require Export Base.
Open Scope nat_scope.

(** A mass flow container (tools/data_containers.py, FluidProperties): the flag
    and the value in SI units. *)
Record mcont := { mc_set : bool; mc_val : Q }.

(** Connections hold references to containers: [ms_of] is the attribute [m],
    [ms_tmp] the attribute [_m_tmp] ([None] if the attribute does not exist).
    network.py 974-1024, 1127-1139. *)
Record mstate := { ms_heap : nat -> mcont; ms_of : nat -> nat; ms_tmp : nat -> option nat }.

(** Assignment to one attribute, as in network.py 974-1024 *)
Definition fupd {V : Type} (k : nat) (v : V) (f : nat -> V) : nat -> V := fun x => if Nat.eqb x k then v else f x.

(** c.m.is_set, network.py 974-1024 *)
Definition m_is_set (s : mstate) (c : nat) : bool := mc_set (ms_heap s (ms_of s c)).

Section R.
(** [mref c]: the connection referenced by [c.m_ref], if that is specified. *)
Variable mref : nat -> option nat.

(** 978-996: one pass over the connections of a branch, counting specifications
    and remembering the last specified connection. *)
Fixpoint scan (branch cs : list nat) (s : mstate) (num : nat) (main : option nat) : res (nat * option nat) :=
  match cs with
  | [] => Ok (num, main)
  | c :: cs' =>
      let num' := if m_is_set s c then S num else num in
      let main' := if m_is_set s c then Some c else main in
      match mref c with
      | Some d => if existsb (Nat.eqb d) branch then Err TESPyNetworkError else scan branch cs' s num' main'
      | None => scan branch cs' s num' main'
      end
  end.

(** 1000-1004, 1020-1024: [c._m_tmp = c.m; c.m = main_conn.m]. *)
Definition alias_one (main : nat) (s : mstate) (c : nat) : mstate :=
  {| ms_heap := ms_heap s; ms_of := fupd c (ms_of s main) (ms_of s); ms_tmp := fupd c (Some (ms_of s c)) (ms_tmp s) |}.
(** network.py 974-1024: all other connections of the branch *)
Definition alias (main : nat) (cs : list nat) (s : mstate) : mstate := fold_left (alias_one main) cs s.

(** 974-1024: one branch. *)
Definition presolve_branch (branch : list nat) (s : mstate) : mstate * option pyerr :=
  match scan branch branch s 0 None with
  | Err e => (s, Some e)
  | Ok (1, Some main) => (alias main branch s, None)
  | Ok (0, _) =>
      match branch with
      | [] => (s, Some IndexError)
      | main :: cs => (alias main cs s, None)
      end
  | Ok _ => (s, Some TESPyNetworkError)
  end.

(** Network.presolve_massflow_topology, network.py 974-1024: loop over the branches *)
Fixpoint presolve_massflow (branches : list (list nat)) (s : mstate) : mstate * option pyerr :=
  match branches with
  | [] => (s, None)
  | b :: bs =>
      match presolve_branch b s with
      | (s', None) => presolve_massflow bs s'
      | (s', Some e) => (s', Some e)
      end
  end.
End R.

(** 1127-1134: reset of one connection. *)
Definition reset_one (s : mstate) (c : nat) : mstate :=
  match ms_tmp s c with
  | None => s
  | Some a =>
      let value := mc_val (ms_heap s (ms_of s c)) in
      {| ms_heap := fupd a {| mc_set := mc_set (ms_heap s a); mc_val := value |} (ms_heap s);
         ms_of := fupd c a (ms_of s); ms_tmp := fupd c None (ms_tmp s) |}
  end.
(** Network.reset_topology_reduction_specifications, network.py 1127-1139, mass flows *)
Definition reset_massflow (conns : list nat) (s : mstate) : mstate := fold_left reset_one conns s.

(** 1852-2011: the mass flow part of solve. If preparation or iteration raises,
    the reset is not reached. [work] is what the solver does to the containers. *)
Definition solve_massflow (mref : nat -> option nat) (branches : list (list nat)) (conns : list nat)
  (work : (nat -> mcont) -> (nat -> mcont) + pyerr) (s : mstate) : mstate * option pyerr :=
  match presolve_massflow mref branches s with
  | (s1, Some e) => (s1, Some e)
  | (s1, None) =>
      match work (ms_heap s1) with
      | inr e => (s1, Some e)
      | inl h => (reset_massflow conns {| ms_heap := h; ms_of := ms_of s1; ms_tmp := ms_tmp s1 |}, None)
      end
  end.
