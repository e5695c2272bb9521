(** When a solution may start. *)
From Coq Require Import String List Bool.
From Verif Require Import Base TopoModel TopoSpec CheckedModel.
Import ListNotations.

(** There are connections, no port is used twice, and every component has as many connections as ports. *)
Definition connected (W : world) (n : net) : Prop :=
  n_conns n <> []
  /\ NoDup (map (fun c => (w_source W c, w_source_id W c)) (map snd (n_conns n)))
  /\ NoDup (map (fun c => (w_target W c, w_target_id W c)) (map snd (n_conns n)))
  /\ (forall k, has_comp n k ->
       length (filter (fun c => Nat.eqb (w_source W c) k) (map snd (n_conns n))) = length (w_outlets W k)
       /\ length (filter (fun c => Nat.eqb (w_target W c) k) (map snd (n_conns n))) = length (w_inlets W k)).

(** What a user does: add and delete connections, start a solution. *)
Inductive act := AAdd (args : list arg) | ADel (cs : list nat) | ASolve.

Definition run (W : world) order branches (a : act) (n : net) : net * option pyerr :=
  match a with
  | AAdd args => add_conns W order args n
  | ADel cs => del_conns W order cs n
  | ASolve => solve_check W branches n
  end.

(** Any sequence, exceptions caught. *)
Definition acts (W : world) order branches (l : list act) (n : net) : net :=
  fold_left (fun n a => fst (run W order branches a n)) l n.

(** No deletion raises. *)
Fixpoint deletes_fine (W : world) order branches (l : list act) (n : net) : Prop :=
  match l with
  | [] => True
  | a :: l' => (forall cs, a = ADel cs -> snd (run W order branches a n) = None)
               /\ deletes_fine W order branches l' (fst (run W order branches a n))
  end.
