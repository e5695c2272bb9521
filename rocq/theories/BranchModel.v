(** Mass flow branches.
    Models src/tespy/networks/network.py 691-733, src/tespy/tools/helpers.py
    24-38 and the start_branch / propagate_to_target methods of the component
    classes. The side effects of some of these methods on fluid values are not
    part of this model. *)
From Verif Require Export TopoModel.
Open Scope nat_scope.
Open Scope string_scope.

(** The classes that override the branch methods; all others use component.py
    305-317. *)
Inductive kind :=
| Through | Source | Sink | CycleCloser | Merge | Separator | Node | Drum
| Combustion | Engine | FuelCell | Electrolyzer.

(** The class of a component, by the overrides of the branch methods (component.py 305-327 and the files cited below) *)
Definition kind_of_class (cls : string) : kind :=
  if String.eqb cls "Source" then Source
  else if String.eqb cls "Sink" then Sink
  else if String.eqb cls "CycleCloser" then CycleCloser
  else if String.eqb cls "Merge" then Merge
  else if String.eqb cls "Separator" then Separator
  else if smem cls ["Splitter"; "DropletSeparator"; "NodeBase"] then Node
  else if String.eqb cls "Drum" then Drum
  else if smem cls ["CombustionChamber"; "DiabaticCombustionChamber"] then Combustion
  else if String.eqb cls "CombustionEngine" then Engine
  else if String.eqb cls "FuelCell" then FuelCell
  else if String.eqb cls "WaterElectrolyzer" then Electrolyzer
  else Through.

(** source.py 71, cycle_closer.py 131, merge.py 323, separator.py 186,
    combustion/base.py 213, fuel_cell.py 720, water_electrolyzer.py 1037,
    component.py 306. *)
Definition is_branch_source (k : kind) : bool :=
  match k with
  | Source | CycleCloser | Merge | Separator | Combustion | Engine | FuelCell | Electrolyzer => true
  | Through | Sink | Node | Drum => false
  end.

(** A branch: the dictionary with keys connections, components, subbranches.
    As in source.py 75-83. *)
Inductive branch := Branch (conns : list nat) (comps : list nat) (subs : dict branch).

(** list.index on objects. As in engine.py 321-332. *)
Fixpoint index (x : nat) (l : list nat) : option nat :=
  match l with
  | [] => None
  | y :: l' => if Nat.eqb y x then Some 0 else option_map S (index x l')
  end.

Section W.
Variable W : world.
Variable n : net.

(** The kind of a component of the network (component.py 305-327) *)
Definition kind_of (k : nat) : kind := kind_of_class (w_class W k).

(** [lst[i]]. Python lists, as in component.py 310-317. *)
Definition item (l : list nat) (i : nat) : res nat :=
  match nth_error l i with Some x => Ok x | None => Err IndexError end.

(** propagate_to_target of the classes: component.py 309-317, sink.py 74,
    cycle_closer.py 155, merge.py 337, separator.py 202, combustion/base.py 232,
    engine.py 320-332, nodes/base.py 205-214, drum.py 353-382, fuel_cell.py
    744-759, water_electrolyzer.py 1069-1082. [fuel] bounds the recursion depth:
    running out of it is Python's RecursionError (the real limit is that of the
    interpreter). Arguments: the branch dictionary, then the component. *)
Fixpoint propagate (fuel : nat) (conns comps : list nat) (subs : dict branch) (k : nat) : res branch :=
  match fuel with
  | 0 => Err RecursionError
  | S fuel' =>
      let inconn := last conns 0 in
      let go_through :=
        match index inconn (inl W n k) with
        | None => Err ValueError
        | Some i => rbind (item (outl W n k) i) (fun o =>
            propagate fuel' (conns ++ [o])%list (comps ++ [w_target W o])%list subs (w_target W o))
        end in
      match kind_of k with
      | Sink | CycleCloser | Merge | Separator | Combustion => Ok (Branch conns comps subs)
      | Through | Source => go_through
      | Engine =>
          if nmem inconn (skipn 2 (inl W n k)) then Ok (Branch conns comps subs) else go_through
      | FuelCell | Electrolyzer =>
          rbind (item (inl W n k) 0) (fun i0 =>
          if Nat.eqb inconn i0 then go_through else Ok (Branch conns comps subs))
      | Node =>
          (fix loop os subs :=
             match os with
             | [] => Ok (Branch conns comps subs)
             | o :: os' =>
                 rbind (propagate fuel' [o] [k; w_target W o] [] (w_target W o)) (fun b =>
                 loop os' (dset (w_label W o) b subs))
             end) (outl W n k) subs
      | Drum =>
          if String.eqb (w_target_id W inconn) "in2" then Ok (Branch conns comps subs)
          else
            rbind (item (outl W n k) 0) (fun o1 =>
            rbind (propagate fuel' [o1] [k; w_target W o1] [] (w_target W o1)) (fun b1 =>
            let subs1 := dset (w_label W o1) b1 subs in
            rbind (item (outl W n k) 1) (fun o2 =>
            if Nat.eqb (last (match b1 with Branch _ cs _ => cs end) 0) k
            then propagate fuel' (conns ++ [o2])%list (comps ++ [w_target W o2])%list subs1 (w_target W o2)
            else rbind (propagate fuel' [o2] [k; w_target W o2] [] (w_target W o2)) (fun b2 =>
                 Ok (Branch conns comps (dset (w_label W o2) b2 subs1))))))
      end
  end.

(** The outlet connections start_branch starts from: source.py 74, cycle_closer.py
    134, merge.py 326 ([outl[0]]), separator.py 189 (all), combustion/base.py
    216-218 with 248-249 and engine.py 370-371 ([outl[0]], [outl[2]]), fuel_cell.py
    723 ([outl[1]]), water_electrolyzer.py 1040 ([outl[1:]]). *)
Definition start_conns (k : nat) : res (list nat) :=
  match kind_of k with
  | Source | CycleCloser | Merge | Combustion => rmap (fun o => [o]) (item (outl W n k) 0)
  | Separator => Ok (outl W n k)
  | Engine => rmap (fun o => [o]) (item (outl W n k) 2)
  | FuelCell => rmap (fun o => [o]) (item (outl W n k) 1)
  | Electrolyzer => Ok (skipn 1 (outl W n k))
  | Through | Sink | Node | Drum => Err AttributeError
  end.

(** start_branch of the classes, and network.py 724-725 for all starting points. *)
Definition start_one (fuel : nat) (k o : nat) : res branch :=
  propagate fuel [o] [k; w_target W o] [] (w_target W o).

(** start_branch for all outlets of a branch source, combustion/base.py 217-230, water_electrolyzer.py 1041-1055 *)
Fixpoint start_list (fuel : nat) (k : nat) (os : list nat) (bs : dict branch) : res (dict branch) :=
  match os with
  | [] => Ok bs
  | o :: os' => rbind (start_one fuel k o) (fun b => start_list fuel k os' (dset (w_label W o) b bs))
  end.

(** network.py 714-722: all branch sources *)
Fixpoint start_branches (fuel : nat) (ks : list nat) (bs : dict branch) : res (dict branch) :=
  match ks with
  | [] => Ok bs
  | k :: ks' =>
      rbind (start_conns k) (fun os => rbind (start_list fuel k os bs) (start_branches fuel ks'))
  end.

(** network.py 712-725. *)
Definition create_branches (fuel : nat) : res (dict branch) :=
  let starts := filter (fun k => is_branch_source (kind_of k)) (map snd (n_comps n)) in
  match starts with
  | [] => Err TESPyNetworkError
  | _ => start_branches fuel starts []
  end.
End W.

(** helpers.py 24-38: get_all_subdictionaries, connection and component lists of
    a branch followed by those of its subbranches. *)
Fixpoint flatten_branch (b : branch) : list (list nat * list nat) :=
  match b with
  | Branch cs ks subs =>
      (cs, ks) :: (fix go (d : dict branch) := match d with [] => [] | (_, b') :: d' => flatten_branch b' ++ go d' end) subs
  end%list.

(** helpers.py 26-38 *)
Definition get_all_subdictionaries (d : dict branch) : list (list nat * list nat) :=
  flat_map (fun lb => flatten_branch (snd lb)) d.

(** network.py 727: massflow_branches. *)
Definition massflow_branches (d : dict branch) : list (list nat * list nat) := get_all_subdictionaries d.

(** network.py 729-733: fluid_branches. *)
Definition fluid_branches (d : dict branch) : dict (list (list nat * list nat)) :=
  map (fun lb => (fst lb, match snd lb with Branch cs ks subs => (cs, ks) :: get_all_subdictionaries subs end)) d.

(** network.py 691-710: check_network (without the fluid wrapper branches). *)
Definition check_network (W : world) (fuel : nat) (n : net) : net * res (dict branch) :=
  match n_conns n with
  | [] => (n, Err TESPyNetworkError)
  | _ =>
      match check_conns W n with
      | Some e => (n, Err e)
      | None =>
          let n1 := init_components W n in
          match check_components W (map snd (n_comps n1)) n1 with
          | Some e => (n1, Err e)
          | None =>
              match create_branches W n1 fuel with
              | Err e => (n1, Err e)
              | Ok bs => (n_with_results n1 (n_results n1) true, Ok bs)
              end
          end
      end
  end.
