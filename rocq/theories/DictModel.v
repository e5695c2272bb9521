(** Recursive dictionary merge.
    Models src/tespy/tools/helpers.py 53-64 (merge_dicts), used by
    tools/optimization.py 72-73 and tools/document_models.py 56. *)
From Verif Require Export Base.
Open Scope nat_scope.

(** A nested Python dictionary with string keys; leaves (anything that is not a
    Mapping) are represented by a number. As in helpers.py 26-38, 56-64. *)
Inductive tree :=
| Leaf (z : Z)
| Node (d : list (string * tree)).

(** helpers.py 60: result.get(key, {}). *)
Definition getd (k : string) (d : dict tree) : tree :=
  match dget k d with Some t => t | None => Node [] end.

(** helpers.py 53-64: merge_dicts(dict1, dict2). Both arguments are deep copied
    by the code, so values (no sharing) are a faithful picture. A leaf as first
    argument has no `get` (AttributeError) and no item assignment (TypeError); a
    leaf as second argument has no `items` (AttributeError). *)
Fixpoint merge_dicts (t1 t2 : tree) {struct t2} : res tree :=
  match t2 with
  | Leaf _ => Err AttributeError
  | Node kvs =>
      (fix go (acc : tree) (l : list (string * tree)) : res tree :=
         match l with
         | [] => Ok acc
         | (k, v) :: l' =>
             match acc with
             | Leaf _ => Err (match v with Node _ => AttributeError | Leaf _ => TypeError end)
             | Node d =>
                 match v with
                 | Node _ => rbind (merge_dicts (getd k d) v) (fun s => go (Node (dset k s d)) l')
                 | Leaf _ => go (Node (dset k v d)) l'
                 end
             end
         end) t1 kvs
  end.
