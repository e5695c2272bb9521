(** Fluid composition reduction: propagation of fluids, engines and mixing rules
    through a fluid wrapper branch, sharing of fluid containers between the
    connections of a fluid branch, and its reset.
    Models src/tespy/networks/network.py 907-968 (propagate_fluid_wrappers),
    1026-1124 (presolve_fluid_topology), 1135-1139 (fluid part of
    reset_topology_reduction_specifications) and src/tespy/connections/
    connection.py 464-487 (fluid part of _fluid_specification) and 596-609
    (_create_fluid_wrapper). *)
From Coq Require Export QArith.
From Verif Require Export Base MassModel.
Open Scope nat_scope.
Open Scope list_scope.

(** A fluid container (tools/data_containers.py, FluidComposition). [fc_val] is
    the address of the dictionary [val], which several containers can share; the
    other members are never shared. Engines are represented by their names and
    a wrapper by engine and back end it was made with. *)
Record fcont := {
  fc_val : nat;
  fc_val0 : dict Q;
  fc_set : list string;
  fc_var : list string;
  fc_engine : dict string;
  fc_back : dict (option string);
  fc_wrap : dict (string * option string)
}.

(** [fs_of] is the attribute [fluid] of a connection, [fs_tmp] the attribute
    [_fluid_tmp] ([None] if it does not exist), [fs_mix] the attribute
    [mixing_rule], [fs_pot] the attribute [_potential_fluids], [fs_new] an
    address that is free for a new container or dictionary. network.py 1028-1124. *)
Record fstate := {
  fs_dict : nat -> dict Q;
  fs_cont : nat -> fcont;
  fs_of : nat -> nat;
  fs_tmp : nat -> option nat;
  fs_mix : nat -> option string;
  fs_pot : nat -> list string;
  fs_new : nat
}.

(** c.fluid, network.py 1028-1124 *)
Definition cont_of (s : fstate) (c : nat) : fcont := fs_cont s (fs_of s c).
(** [c.fluid.val]; network.py 1028-1124 *)
Definition frac (s : fstate) (c : nat) : dict Q := fs_dict s (fc_val (cont_of s c)).

(** Assignment to entries of a dictionary of fractions, network.py 1028-1124 *)
Definition set_dict (a : nat) (d : dict Q) (s : fstate) : fstate :=
  {| fs_dict := fupd a d (fs_dict s); fs_cont := fs_cont s; fs_of := fs_of s; fs_tmp := fs_tmp s;
     fs_mix := fs_mix s; fs_pot := fs_pot s; fs_new := fs_new s |}.
(** Assignment to attributes of a container, network.py 1028-1124 *)
Definition set_cont (a : nat) (x : fcont) (s : fstate) : fstate :=
  {| fs_dict := fs_dict s; fs_cont := fupd a x (fs_cont s); fs_of := fs_of s; fs_tmp := fs_tmp s;
     fs_mix := fs_mix s; fs_pot := fs_pot s; fs_new := fs_new s |}.

(** [ERR], src/tespy/tools/global_vars.py 12. *)
Definition ERR : Q := 1 # 1000000.

(** connection.py 470-484: one entry of [set_attr(fluid={...})]. *)
Definition set_fluid (c : nat) (f : string) (q : option Q) (s : fstate) : fstate :=
  let x := cont_of s c in
  match q with
  | None =>
      set_cont (fs_of s c)
        {| fc_val := fc_val x; fc_val0 := fc_val0 x; fc_set := srem f (fc_set x); fc_var := sadd f (fc_var x);
           fc_engine := fc_engine x; fc_back := fc_back x; fc_wrap := fc_wrap x |} s
  | Some q =>
      set_cont (fs_of s c)
        {| fc_val := fc_val x; fc_val0 := fc_val0 x; fc_set := sadd f (fc_set x); fc_var := srem f (fc_var x);
           fc_engine := fc_engine x; fc_back := dset f None (fc_back x); fc_wrap := fc_wrap x |}
        (set_dict (fc_val x) (dset f q (frac s c)) s)
  end.
(** connection.py 489-490: [set_attr(fluid_engines=...)]. *)
Definition set_engines (c : nat) (e : dict string) (s : fstate) : fstate :=
  let x := cont_of s c in
  set_cont (fs_of s c)
    {| fc_val := fc_val x; fc_val0 := fc_val0 x; fc_set := fc_set x; fc_var := fc_var x;
       fc_engine := e; fc_back := fc_back x; fc_wrap := fc_wrap x |} s.
(** connection.py 455-456: [set_attr(mixing_rule=...)]. *)
Definition set_mixing (c : nat) (r : option string) (s : fstate) : fstate :=
  {| fs_dict := fs_dict s; fs_cont := fs_cont s; fs_of := fs_of s; fs_tmp := fs_tmp s;
     fs_mix := fupd c r (fs_mix s); fs_pot := fs_pot s; fs_new := fs_new s |}.

(** A Python set as a list without repetitions. As in network.py 1028-1124. *)
Fixpoint sset (l : list string) : list string :=
  match l with [] => [] | x :: l' => sadd x (sset l') end.

(** network.py 913-921: engines and back ends of the fluids that are set, later
    connections overriding earlier ones. *)
Definition collect {V : Type} (get : fcont -> dict V) (conns : list nat) (s : fstate) : dict V :=
  fold_left (fun acc c =>
    fold_left (fun acc f => match dget f (get (cont_of s c)) with Some e => dset f e acc | None => acc end)
      (fc_set (cont_of s c)) acc) conns [].

(** network.py 936-939; [any_fluids0] repeats [any_fluids]. *)
Definition potential (conns : list nat) (s : fstate) : list string :=
  sset (concat (map (fun c => fc_set (cont_of s c)) conns)
        ++ concat (map (fun c => keys (frac s c)) conns)
        ++ concat (map (fun c => keys (frac s c)) conns)).

(** network.py 923-932. *)
Definition rules (conns : list nat) (s : fstate) : list string :=
  sset (concat (map (fun c => match fs_mix s c with Some r => [r] | None => [] end) conns)).

(** network.py 951-961: the starting fractions of one connection. *)
Definition start_fractions (pot : list string) (x : fcont) (d : dict Q) : dict Q :=
  match pot with
  | [f] => dset f 1%Q d
  | _ => fold_left (fun d f =>
           if negb (smem f (fc_set x)) && negb (dmem f d) then
             match dget f (fc_val0 x) with
             | None => dset f (1 / inject_Z (Z.of_nat (length pot)))%Q d
             | Some q => dset f q d
             end
           else d) pot d
  end.

(** connection.py 596-609. *)
Definition create_wrapper (d : dict Q) (x : fcont) : fcont :=
  fold_left (fun x f =>
    if dmem f (fc_wrap x) then x
    else
      let engine := if dmem f (fc_engine x) then fc_engine x else dset f "CoolPropWrapper"%string (fc_engine x) in
      let back := if dmem f (fc_back x) then fc_back x else dset f None (fc_back x) in
      {| fc_val := fc_val x; fc_val0 := fc_val0 x; fc_set := fc_set x; fc_var := fc_var x;
         fc_engine := engine; fc_back := back;
         fc_wrap := dset f (match dget f engine with Some e => e | None => ""%string end,
                            match dget f back with Some b => b | None => None end) (fc_wrap x) |})
    (keys d) x.

(** network.py 949-968: one connection. *)
Definition propagate_one (rule : string) (pot : list string) (engines : dict string) (backs : dict (option string))
  (s : fstate) (c : nat) : fstate :=
  let x := cont_of s c in
  let d := start_fractions pot x (frac s c) in
  let x' := create_wrapper d
    {| fc_val := fc_val x; fc_val0 := fc_val0 x; fc_set := fc_set x; fc_var := fc_var x;
       fc_engine := fold_left (fun acc fe => dset (fst fe) (snd fe) acc) engines (fc_engine x);
       fc_back := fold_left (fun acc fe => dset (fst fe) (snd fe) acc) backs (fc_back x);
       fc_wrap := fc_wrap x |} in
  {| fs_dict := fupd (fc_val x) d (fs_dict s); fs_cont := fupd (fs_of s c) x' (fs_cont s);
     fs_of := fs_of s; fs_tmp := fs_tmp s; fs_mix := fupd c (Some rule) (fs_mix s);
     fs_pot := fupd c pot (fs_pot s); fs_new := fs_new s |}.

(** network.py 907-968: one fluid wrapper branch. *)
Definition propagate (conns : list nat) (s : fstate) : fstate * option pyerr :=
  match rules conns s with
  | _ :: _ :: _ => (s, Some TESPyNetworkError)
  | rs =>
      let rule := match rs with r :: _ => r | [] => "ideal-cond"%string end in
      match potential conns s with
      | [] => (s, Some TESPyNetworkError)
      | pot => (fold_left (propagate_one rule pot (collect fc_engine conns s) (collect fc_back conns s)) conns s, None)
      end
  end.

(** network.py 1062-1067: the fractions fixed in a branch. *)
Fixpoint fixed_of (d : dict Q) (set specs : list string) (acc : dict Q) : res (dict Q) :=
  match specs with
  | [] => Ok acc
  | f :: specs' =>
      if smem f set then
        match dget f d with
        | Some q => fixed_of d set specs' (dset f q acc)
        | None => Err KeyError
        end
      else fixed_of d set specs' acc
  end.
(** network.py 1028-1124: the fractions specified in a branch *)
Fixpoint fixed_fractions (specs : list string) (cs : list (dict Q * list string)) (acc : dict Q) : res (dict Q) :=
  match cs with
  | [] => Ok acc
  | (d, set) :: cs' => rbind (fixed_of d set specs acc) (fun acc' => fixed_fractions specs cs' acc')
  end.

(** sum of a list, network.py 1028-1124 *)
Definition qsum (l : list Q) : Q := fold_right Qplus 0%Q l.
(** dict.values, network.py 1028-1124 *)
Definition values {V : Type} (d : dict V) : list V := map snd d.
(** len(set(l)) < len(l), network.py 1028-1124 *)
Fixpoint has_dup (l : list string) : bool :=
  match l with [] => false | x :: l' => smem x l' || has_dup l' end.
(** Comparison of floats, network.py 1028-1124 *)
Definition Qltb (a b : Q) : bool := negb (Qle_bool b a).

(** network.py 1069-1098: the missing fractions; result: fixed fractions and variable fluids. *)
Definition complete (main_val : dict Q) (fixed : dict Q) : res (dict Q * list string) :=
  let sum := qsum (values fixed) in
  let missing := filter (fun f => negb (dmem f fixed)) (keys main_val) in
  if Qltb (1 + ERR) sum then Err ValueError
  else if Qltb sum (1 - ERR) then
    if (Z.of_nat (length main_val) - Z.of_nat (length fixed) =? 1)%Z then
      match missing with
      | [] => Err IndexError
      | f :: _ => Ok (dset f (1 - sum)%Q fixed, [])
      end
    else Ok (fixed, missing)
  else Ok (fold_left (fun acc f => dset f 0%Q acc) missing fixed, []).

(** One connection of the branch refers to the container of the main connection, network.py 1028-1124 *)
Definition alias_fluid_one (main : nat) (s : fstate) (c : nat) : fstate :=
  {| fs_dict := fs_dict s; fs_cont := fs_cont s; fs_of := fupd c (fs_of s main) (fs_of s);
     fs_tmp := fupd c (Some (fs_of s c)) (fs_tmp s); fs_mix := fs_mix s; fs_pot := fs_pot s; fs_new := fs_new s |}.

(** network.py 1037-1047, 1100-1110: the main connection's new container holds
    copies of everything except [val0], the others alias the main container. *)
Definition alias_fluid (main : nat) (others : list nat) (s : fstate) : fstate :=
  let x := cont_of s main in
  let a := fs_new s in
  let s1 := {| fs_dict := fupd a (frac s main) (fs_dict s);
               fs_cont := fupd a {| fc_val := a; fc_val0 := []; fc_set := fc_set x; fc_var := fc_var x;
                                    fc_engine := fc_engine x; fc_back := fc_back x; fc_wrap := fc_wrap x |} (fs_cont s);
               fs_of := fs_of s; fs_tmp := fupd main (Some a) (fs_tmp s); fs_mix := fs_mix s; fs_pot := fs_pot s;
               fs_new := S a |} in
  fold_left (alias_fluid_one main) others s1.

(** The main container gets fractions and flags, network.py 1028-1124 *)
Definition with_comp (main : nat) (d : dict Q) (set var : list string) (s : fstate) : fstate :=
  let x := cont_of s main in
  set_cont (fs_of s main)
    {| fc_val := fc_val x; fc_val0 := fc_val0 x; fc_set := set; fc_var := var;
       fc_engine := fc_engine x; fc_back := fc_back x; fc_wrap := fc_wrap x |}
    (set_dict (fc_val x) d s).

(** network.py 1028-1110: one fluid branch (all its connections). *)
Definition presolve_fluid_branch (conns : list nat) (s : fstate) : fstate * option pyerr :=
  match conns with
  | [] => (s, Some IndexError)
  | main :: others =>
      let specs := concat (map (fun c => fc_set (cont_of s c)) conns) in
      match specs with
      | [] =>
          let s1 := alias_fluid main others s in
          match fs_pot s main with
          | [] => (s1, Some IndexError)
          | [f] => (with_comp main (dset f 1%Q (frac s1 main)) (fc_set (cont_of s1 main)) (fc_var (cont_of s1 main)) s1, None)
          | _ => (with_comp main (frac s1 main) (fc_set (cont_of s1 main)) (keys (frac s1 main)) s1, None)
          end
      | _ =>
          if has_dup specs then (s, Some TESPyNetworkError)
          else
            match rbind (fixed_fractions specs (map (fun c => (frac s c, fc_set (cont_of s c))) conns) [])
                        (complete (frac s main)) with
            | Err e => (s, Some e)
            | Ok (fixed, variable) =>
                let s1 := alias_fluid main others s in
                (with_comp main (fold_left (fun acc fq => dset (fst fq) (snd fq) acc) fixed (frac s1 main))
                   (keys fixed) variable s1, None)
            end
      end
  end.

(** The loop over the fluid branches, network.py 1028-1124 *)
Fixpoint presolve_fluids (branches : list (list nat)) (s : fstate) : fstate * option pyerr :=
  match branches with
  | [] => (s, None)
  | b :: bs =>
      match presolve_fluid_branch b s with
      | (s', None) => presolve_fluids bs s'
      | (s', Some e) => (s', Some e)
      end
  end.

(** network.py 1135-1139: [val = c.fluid.val; c.fluid = c._fluid_tmp; c.fluid.val = val]. *)
Definition reset_fluid_one (s : fstate) (c : nat) : fstate :=
  match fs_tmp s c with
  | None => s
  | Some a =>
      let v := fc_val (cont_of s c) in
      let x := fs_cont s a in
      {| fs_dict := fs_dict s;
         fs_cont := fupd a {| fc_val := v; fc_val0 := fc_val0 x; fc_set := fc_set x; fc_var := fc_var x;
                              fc_engine := fc_engine x; fc_back := fc_back x; fc_wrap := fc_wrap x |} (fs_cont s);
         fs_of := fupd c a (fs_of s); fs_tmp := fupd c None (fs_tmp s); fs_mix := fs_mix s; fs_pot := fs_pot s;
         fs_new := fs_new s |}
  end.
(** Network.reset_topology_reduction_specifications, network.py 1127-1139, fluids *)
Definition reset_fluids (conns : list nat) (s : fstate) : fstate := fold_left reset_fluid_one conns s.

(** The fluid part of solve with one fluid wrapper branch (network.py 1852-2011):
    [work] is what the solver does to the composition dictionaries, given which
    fluids are variable. On an exception the reset is not reached. *)
Definition solve_fluids (conns : list nat) (branches : list (list nat))
  (work : fstate -> (nat -> dict Q) + pyerr) (s : fstate) : fstate * option pyerr :=
  match propagate conns s with
  | (s0, Some e) => (s0, Some e)
  | (s0, None) =>
      match presolve_fluids branches s0 with
      | (s1, Some e) => (s1, Some e)
      | (s1, None) =>
          match work s1 with
          | inr e => (s1, Some e)
          | inl h =>
              (reset_fluids conns {| fs_dict := h; fs_cont := fs_cont s1; fs_of := fs_of s1; fs_tmp := fs_tmp s1;
                                     fs_mix := fs_mix s1; fs_pot := fs_pot s1; fs_new := fs_new s1 |}, None)
          end
      end
  end.
