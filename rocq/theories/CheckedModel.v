(** Network.check_network and its call in Network.solve. *)
From Coq Require Import String List Bool.
From Verif Require Import Base TopoModel.
Import ListNotations.

(** check_network (networks/network.py 691-710). The creation of branches (704-705) only reads the
    tables; it may raise. *)
Definition check_network (W : world) (branches : net -> option pyerr) (n : net) : net * option pyerr :=
  match n_conns n with
  | [] => (n, Some TESPyNetworkError)
  | _ :: _ =>
      match check_conns W n with
      | Some e => (n, Some e)
      | None =>
          let n := init_components W n in
          match check_components W (map snd (n_comps n)) n with
          | Some e => (n, Some e)
          | None => match branches n with
                    | Some e => (n, Some e)
                    | None => (n_with_results n (n_results n) true, None)
                    end
          end
      end
  end.

(** The check at the start of solve (networks/network.py 1943-1944). *)
Definition solve_check (W : world) (branches : net -> option pyerr) (n : net) : net * option pyerr :=
  if n_checked n then (n, None) else check_network W branches n.
