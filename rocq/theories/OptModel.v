(** Optimisation problems.
    Source: /repo/src/tespy/tools/optimization.py 56-304.
    Numbers are exact rationals. The model of the user (solve_model, get_param,
    get_objective) and the evolution algorithm are oracles that may raise;
    printing is left out. *)
From Coq Require Export QArith.
From Verif Require Export Base.
Open Scope nat_scope.
Open Scope list_scope.

(** Leaf of the variables: the bounds of the user, a dictionary with min and max
    (optimization.py 87, 90, 94-95), or a number written by [fitness] (179, 182). *)
Inductive cell := Bounds (lo hi : Q) | Value (x : Q).
(** What a label of the variables holds: a dictionary of parameters or one leaf
    (optimization.py 83-96). *)
Inductive entry := Params (d : dict cell) | Single (c : cell).
(** Right hand side of a constraint: a number or the name of another entry of the
    constraints (optimization.py 127-130, 139-149). *)
Inductive limit := Number (q : Q) | Other (k : string).
(** One level of limits: object type, label, parameter (optimization.py 121-123). *)
Definition limits := dict (dict (dict limit)).
(** The constraints; a reference names object type, label and parameter
    (optimization.py 128, 141-142). *)
Record constraints := { upper_limits : limits; lower_limits : limits; refs : dict (string * string * string) }.

(** The attributes of a problem (optimization.py 65-102). The dictionaries of the
    object types are heap objects, because input_dict is a shallow copy of
    variables (98); dictionaries further down are only reached through them. *)
Record problem := {
  heap : nat -> dict entry;
  variables : dict nat;
  input_dict : dict nat;
  constr : constraints;
  objective : string;
  variable_list : list string;
  bounds : list Q * list Q;
  nic : nat;
  constraint_list : list string
}.

(** optimization.py 66-73 and helpers.py 53-64: the missing object types are added
    at the end. The user's dictionary is copied. *)
Definition with_default {V} (k : string) (d : dict (dict V)) : dict (dict V) :=
  if dmem k d then d else d ++ [(k, [])].
(** optimization.py 57-102: the variables given with both groups present *)
Definition merged {V} (d : dict (dict V)) : dict (dict V) := with_default "Components" (with_default "Connections" d).

(** optimization.py 84, 177. *)
Definition nested (obj : string) : bool := (String.eqb obj "Connections" || String.eqb obj "Components")%bool.

(** optimization.py 86-91, 94-95: subscripting a number raises TypeError. *)
Definition bounds_of (c : cell) : res (Q * Q) :=
  match c with Bounds lo hi => Ok (lo, hi) | Value _ => Err TypeError end.

(** optimization.py 84-96: name and bounds of the decision variables of one label.
    Below Connections and Components a bounds dictionary without parameter level is
    subscripted once too often (TypeError); elsewhere a parameter level has no entry
    min (KeyError; a parameter called min is left out). *)
Definition label_vars (obj label : string) (e : entry) : res (list (string * (Q * Q))) :=
  if nested obj then
    match e with
    | Params d => rmapM (fun pc => rmap (pair (obj ++ "-" ++ label ++ "-" ++ fst pc)%string) (bounds_of (snd pc))) d
    | Single _ => Err TypeError
    end
  else
    match e with
    | Params _ => Err KeyError
    | Single c => rmap (fun b => [((obj ++ "-" ++ label)%string, b)]) (bounds_of c)
    end.
(** optimization.py 81-96: the same for all labels of all object types. *)
Definition all_vars (v : dict (dict entry)) : res (list (string * (Q * Q))) :=
  rmap (@concat _) (rmapM (fun od => rmap (@concat _) (rmapM (fun le => label_vars (fst od) (fst le) (snd le)) (snd od))) v).

(** Enumeration of the constraints of one direction in the order of the three loops
    (optimization.py 121-123). *)
Definition enum (l : limits) : list (string * string * string * limit) :=
  concat (map (fun od => concat (map (fun lc => map (fun pc => (fst od, fst lc, fst pc, snd pc)) (snd lc)) (snd od))) l).

(** optimization.py 125-136: text of a constraint; [show] is str of a number. *)
Definition constraint_name (show : Q -> string) (c : constraints) (dir : string) (x : string * string * string * limit) : res string :=
  match x with
  | (obj, label, param, lim) =>
      rmap (fun r => (obj ++ "-" ++ label ++ "-" ++ param ++ dir ++ r)%string)
        (match lim with
         | Number q => Ok (show q)
         | Other k => match dget k (refs c) with
                      | Some (o, l, p) => Ok (o ++ "-" ++ l ++ "-" ++ p)%string
                      | None => Err KeyError
                      end
         end)
  end.

(** Addresses for the dictionaries of the object types (optimization.py 72). *)
Definition alloc (v : dict (dict entry)) : dict nat := combine (keys v) (seq 0 (length v)).

(** optimization.py 56-102; pygmo is installed. *)
Definition init (show : Q -> string) (user : dict (dict entry)) (c : constraints) (obj : string) : res problem :=
  let v := merged user in
  let c' := {| upper_limits := merged (upper_limits c); lower_limits := merged (lower_limits c); refs := refs c |} in
  rbind (all_vars v) (fun nb =>
  rbind (rmapM (constraint_name show c' "<=") (enum (upper_limits c'))) (fun cu =>
  rbind (rmapM (constraint_name show c' ">=") (enum (lower_limits c'))) (fun cl =>
  Ok {| heap := fun a => nth a (map snd v) []; variables := alloc v; input_dict := alloc v; constr := c'; objective := obj;
        variable_list := map fst nb; bounds := (map (fun x => fst (snd x)) nb, map (fun x => snd (snd x)) nb);
        nic := length cu + length cl; constraint_list := cu ++ cl |}))).

(** The user's model: solve_model, get_param and get_objective (optimization.py
    141-148, 185-186); [M] is whatever state it keeps. *)
Record user_model (M : Type) := {
  solve_model : dict (dict entry) -> M -> M * option pyerr;
  get_param : M -> string -> string -> string -> res Q;
  get_objective : M -> string -> res Q
}.
Arguments solve_model {M}. Arguments get_param {M}. Arguments get_objective {M}.

(** optimization.py 178-180: for param in params: input_dict[obj][label][param] = x[i]. *)
Fixpoint write_params (ps : list string) (xs : list Q) (d : dict cell) : dict cell * list Q * option pyerr :=
  match ps with
  | [] => (d, xs, None)
  | p :: ps' => match xs with
                | [] => (d, xs, Some IndexError)
                | x :: xs' => write_params ps' xs' (dset p (Value x) d)
                end
  end.
(** optimization.py 176-183 for the labels of one object type; the list of labels is
    read from the dictionary that is written, whose keys do not change. The loop
    [for param in params] over a number raises TypeError. *)
Fixpoint write_labels (obj : string) (todo : list (string * entry)) (xs : list Q) (d : dict entry) : dict entry * list Q * option pyerr :=
  match todo with
  | [] => (d, xs, None)
  | (l, e) :: todo' =>
      if nested obj then
        match e with
        | Params ps => match write_params (keys ps) xs ps with
                       | (ps', xs', None) => write_labels obj todo' xs' (dset l (Params ps') d)
                       | (ps', xs', Some er) => (dset l (Params ps') d, xs', Some er)
                       end
        | Single _ => (d, xs, Some TypeError)
        end
      else match xs with
           | [] => (d, xs, Some IndexError)
           | x :: xs' => write_labels obj todo' xs' (dset l (Single (Value x)) d)
           end
  end.
(** optimization.py 174-183: the loop runs over variables and writes to the
    dictionary input_dict holds for the same object type. *)
Fixpoint write_all (todo : dict nat) (inp : dict nat) (xs : list Q) (h : nat -> dict entry) : (nat -> dict entry) * option pyerr :=
  match todo with
  | [] => (h, None)
  | (obj, a) :: todo' =>
      match dget obj inp with
      | None => (h, Some KeyError)
      | Some b =>
          match write_labels obj (h a) xs (h b) with
          | (d, xs', None) => write_all todo' inp xs' (fun k => if Nat.eqb k b then d else h k)
          | (d, xs', Some e) => ((fun k => if Nat.eqb k b then d else h k), Some e)
          end
      end
  end.

(** The content of variables or input_dict (optimization.py 98, 185). *)
Definition content (h : nat -> dict entry) (d : dict nat) : dict (dict entry) := map (fun ka => (fst ka, h (snd ka))) d.

(** optimization.py 138-153: limit minus value, with the sign of the direction. *)
Definition evaluate {M} (um : user_model M) (m : M) (c : constraints) (lower : bool) (x : string * string * string * limit) : res Q :=
  match x with
  | (obj, label, param, lim) =>
      rmap (fun d => if lower then d else (- d)%Q)
        (match lim with
         | Number q => rmap (fun v => (q - v)%Q) (get_param um m obj label param)
         | Other k =>
             match dget k (refs c) with
             | None => Err KeyError
             | Some (o, l, p) =>
                 rbind (get_param um m o l p) (fun r => rmap (fun v => (r - v)%Q) (get_param um m obj label param))
             end
         end)
  end.

(** optimization.py 160-191. The user's model does not write to the dictionary it is
    given. Result: the problem, the state of the user's model and
    the returned list or the exception. *)
Definition fitness {M} (um : user_model M) (x : list Q) (pm : problem * M) : (problem * M) * res (list Q) :=
  let (pb, m) := pm in
  match write_all (variables pb) (input_dict pb) x (heap pb) with
  | (h, e) =>
      let pb' := {| heap := h; variables := variables pb; input_dict := input_dict pb; constr := constr pb;
                    objective := objective pb; variable_list := variable_list pb; bounds := bounds pb; nic := nic pb;
                    constraint_list := constraint_list pb |} in
      match e with
      | Some er => ((pb', m), Err er)
      | None =>
          match solve_model um (content h (input_dict pb)) m with
          | (m', Some er) => ((pb', m'), Err er)
          | (m', None) =>
              ((pb', m'),
               rbind (get_objective um m' (objective pb)) (fun f =>
               rbind (rmapM (evaluate um m' (constr pb) false) (enum (upper_limits (constr pb)))) (fun cu =>
               rbind (rmapM (evaluate um m' (constr pb) true) (enum (lower_limits (constr pb)))) (fun cl =>
               Ok (f :: cu ++ cl)))))
          end
      end
  end.

(** A population: decision vector and fitness vector of each individual
    (optimization.py 218, 223). *)
Definition population := list (list Q * list Q).
(** A row of the table individuals: generation, individual, vectors (none yet: nan)
    (optimization.py 252-263). *)
Definition row := ((nat * nat) * option (list Q * list Q))%type.

(** Assignment with loc: an existing row is filled, another one is appended
    (optimization.py 219, 224-227). *)
Fixpoint fill (k : nat * nat) (v : list Q * list Q) (t : list row) : list row :=
  match t with
  | [] => [(k, Some v)]
  | (k', v') :: t' => if (Nat.eqb (fst k) (fst k') && Nat.eqb (snd k) (snd k'))%bool then (k', Some v) :: t' else (k', v') :: fill k v t'
  end.
(** optimization.py 217-228; decision and fitness vectors are written in one go. *)
Fixpoint process (gen ind : nat) (p : population) (t : list row) : list row :=
  match p with
  | [] => t
  | v :: p' => process gen (S ind) p' (fill (gen, ind) v t)
  end.
(** optimization.py 252-263: the empty table. *)
Definition empty_table (num_ind num_gen : nat) : list row :=
  concat (map (fun g => map (fun i => ((g, i), None)) (seq 0 num_ind)) (seq 0 num_gen)).
(** optimization.py 230-232: all constraint columns below zero; comparing nan is
    false, so an unfilled row is valid only without constraints. *)
Definition valid (ncon : nat) (r : row) : bool :=
  match snd r with
  | Some (_, _ :: cs) => forallb (fun c => match Qcompare c 0 with Lt => true | _ => false end) cs
  | _ => Nat.eqb ncon 0
  end.
(** optimization.py 267-283: [n] generations from [gen] on. *)
Fixpoint generations (evolve : population -> population) (n gen : nat) (p : population) (t : list row) : population * list row :=
  match n with
  | 0 => (p, t)
  | S n' => generations evolve n' (S gen) (evolve p) (process gen 0 p t)
  end.
(** optimization.py 265-304: [num_gen - 1] generations in the loop, then the last one
    (285-288). The result is the population returned and the table. *)
Definition run (evolve : population -> population) (p : population) (num_ind num_gen : nat) : population * list row :=
  let (p', t) := generations evolve (num_gen - 1) 0 p (empty_table num_ind num_gen) in
  (p', process (num_gen - 1) 0 p' t).
(** The column valid at the end of run (optimization.py 230-232, 288). *)
Definition valid_column (ncon : nat) (t : list row) : list ((nat * nat) * bool) := map (fun r => (fst r, valid ncon r)) t.
