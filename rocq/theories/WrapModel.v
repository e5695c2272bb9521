(** Fluid wrapper branches: the connections that share fluids and their property engines.
    Models /repo/src/tespy/networks/network.py 735-766 and the methods
    start_fluid_wrapper_branch / propagate_wrapper_to_target of the component classes. *)
From Verif Require Export TopoModel BranchModel.
Open Scope nat_scope.
Open Scope string_scope.

Section W.
Variable W : world.
Variable n : net.

(** What a component does with a branch that arrives on a connection: return at once, or
    record itself and go on with outlet connections, recording itself once before or once
    per outlet. component.py 320-327. *)
Inductive visit := Return | Visit (each : bool) (os : list nat).

(** component.py 320-322: the outlet of the same position. *)
Definition pass (k c : nat) : res visit :=
  match index c (inl W n k) with
  | None => Err ValueError
  | Some i => rmap (fun o => Visit false [o]) (item (outl W n k) i)
  end.
(** merge.py 341-347, combustion/base.py 236-242: once per branch. *)
Definition first_out (k : nat) (i : nat) (comps : list nat) : res visit :=
  if nmem k comps then Ok Return else rmap (fun o => Visit false [o]) (item (outl W n k) i).
(** droplet_separator.py 320-326 (drum.py 350-351): once per branch, all outlets. *)
Definition all_out_once (k : nat) (comps : list nat) : visit :=
  if nmem k comps then Return else Visit true (outl W n k).

(** propagate_wrapper_to_target of the classes: component.py 319-327, sink.py 77-79,
    cycle_closer.py 158-160, merge.py 340-347, separator.py 205-209, splitter.py 156-160,
    droplet_separator.py 319-326, drum.py 350-351, combustion/base.py 235-242, engine.py
    334-349, fuel_cell.py 761-773, water_electrolyzer.py 1084-1096. *)
Definition arrive (k c : nat) (comps : list nat) : res visit :=
  match kind_of W k with
  | Sink | CycleCloser => Ok (Visit false [])
  | Through | Source => pass k c
  | Merge | Combustion => first_out k 0 comps
  | Separator => Ok (Visit false (outl W n k))
  | Node =>
      if String.eqb (w_class W k) "DropletSeparator" then Ok (all_out_once k comps)
      else if String.eqb (w_class W k) "Splitter" then Ok (Visit false (outl W n k))
      else pass k c
  | Drum => Ok (all_out_once k comps)
  | Engine => if nmem c (skipn 2 (inl W n k)) then first_out k 2 comps else pass k c
  | FuelCell | Electrolyzer =>
      rbind (item (inl W n k) 0) (fun i0 => if Nat.eqb c i0 then pass k c else Ok (Visit false []))
  end.

(** The recursion over the components; connections and components of the branch grow. Out
    of fuel: Python's RecursionError. component.py 320-327. *)
Fixpoint spread (fuel : nat) (conns comps : list nat) (k : nat) : res (list nat * list nat) :=
  match fuel with
  | 0 => Err RecursionError
  | S fuel' =>
      rbind (arrive k (last conns 0) comps) (fun v =>
      match v with
      | Return => Ok (conns, comps)
      | Visit each os =>
          (fix loop os conns comps :=
             match os with
             | [] => Ok (conns, comps)
             | o :: os' =>
                 rbind (spread fuel' (conns ++ [o])%list (if each then comps ++ [k] else comps)%list (w_target W o))
                   (fun r => loop os' (fst r) (snd r))
             end) os conns (if each then comps else comps ++ [k])%list
      end)
  end.

(** start_fluid_wrapper_branch: source.py 86, cycle_closer.py 146, fuel_cell.py 736,
    water_electrolyzer.py 1059. *)
Definition wrapper_starts (k : nat) : res (list nat) :=
  match kind_of W k with
  | Source | CycleCloser => rmap (fun o => [o]) (item (outl W n k) 0)
  | FuelCell => rmap (fun o => [o]) (item (outl W n k) 1)
  | Electrolyzer => Ok (skipn 1 (outl W n k))
  | _ => Err AttributeError
  end.
(** source.py 87-93 and the same in the other classes; network.py 743-744. *)
Fixpoint wrapper_list (fuel : nat) (k : nat) (os : list nat) (bs : dict (list nat * list nat)) : res (dict (list nat * list nat)) :=
  match os with
  | [] => Ok bs
  | o :: os' => rbind (spread fuel [o] [k] (w_target W o)) (fun b => wrapper_list fuel k os' (dset (w_label W o) b bs))
  end.
(** network.py 737-747: all components *)
Fixpoint wrapper_all (fuel : nat) (ks : list nat) (bs : dict (list nat * list nat)) : res (dict (list nat * list nat)) :=
  match ks with
  | [] => Ok bs
  | k :: ks' => rbind (wrapper_starts k) (fun os => rbind (wrapper_list fuel k os bs) (wrapper_all fuel ks'))
  end.
(** network.py 738-741. *)
Definition wrapper_source (k : nat) : bool := smem (w_class W k) ["Source"; "CycleCloser"; "WaterElectrolyzer"; "FuelCell"].
(** network.py 737-744: the branches before merging. *)
Definition wrapper_branches (fuel : nat) : res (dict (list nat * list nat)) :=
  wrapper_all fuel (filter wrapper_source (map snd (n_comps n))) [].
End W.

(** [set(a) & set(b)] has an element (network.py 752-756). *)
Definition common (a b : list nat) : bool := existsb (fun x => nmem x b) a.

Section M.
(** The order in which Python lists a set. *)
Variable order : list nat -> list nat.

(** network.py 750-764: the inner loop for one branch; the branch data are shared between
    both dictionaries, [alive] are the keys of the second. *)
Fixpoint merge_one (name : string) (obs : list string) (data : dict (list nat * list nat)) (alive : list string)
  : dict (list nat * list nat) * list string :=
  match obs with
  | [] => (data, alive)
  | ob :: obs' =>
      if String.eqb ob name then merge_one name obs' data alive
      else
        match dget name data, dget ob data with
        | Some b, Some o =>
            if common (fst b) (fst o) && smem ob alive
            then (dset name (order (fst b ++ fst o), order (snd b ++ snd o))%list data, srem ob alive)
            else merge_one name obs' data alive
        | _, _ => (data, alive)
        end
  end.
(** network.py 747-749: the outer loop. *)
Fixpoint merge_all (names : list string) (obs : list string) (data : dict (list nat * list nat)) (alive : list string)
  : dict (list nat * list nat) * list string :=
  match names with
  | [] => (data, alive)
  | name :: names' =>
      if smem name alive
      then let (data', alive') := merge_one name obs data alive in merge_all names' obs data' alive'
      else merge_all names' obs data alive
  end.
(** network.py 746-766. *)
Definition merge_branches (bs : dict (list nat * list nat)) : dict (list nat * list nat) :=
  let (data, alive) := merge_all (keys bs) (keys bs) bs (keys bs) in
  filter (fun b => smem (fst b) alive) data.
End M.

(** network.py 735-766. *)
Definition create_fluid_wrapper_branches (W : world) (n : net) (order : list nat -> list nat) (fuel : nat) : res (dict (list nat * list nat)) :=
  rmap (merge_branches order) (wrapper_branches W n fuel).
