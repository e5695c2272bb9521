(** Vocabulary for statements about optimisation problems. *)
From Verif Require Import OptModel.
Open Scope nat_scope.

(** A decision variable: object type, label and, below Connections and Components,
    parameter. *)
Definition place := (string * string * option string)%type.
(** What a dictionary of variables holds at a place. *)
Definition leaf (v : dict (dict entry)) (q : place) : option cell :=
  match q with
  | (o, l, k) =>
      match dget o v with
      | None => None
      | Some d =>
          match dget l d, k with
          | Some (Params ps), Some p => dget p ps
          | Some (Single c), None => Some c
          | _, _ => None
          end
      end
  end.
(** Keys of Python dictionaries are different. *)
Definition python_dict (v : dict (dict entry)) : Prop :=
  NoDup (keys v) /\
  forall o d, In (o, d) v -> NoDup (keys d) /\ forall l ps, In (l, Params ps) d -> NoDup (keys ps).
(** The name of a decision variable in the results. *)
Definition pname (q : place) : string :=
  match q with
  | (o, l, Some p) => (o ++ "-" ++ l ++ "-" ++ p)%string
  | (o, l, None) => (o ++ "-" ++ l)%string
  end.

(** Any number of evaluations one after the other, raising or not. *)
Fixpoint evaluations {M} (um : user_model M) (xs : list (list Q)) (pm : problem * M) : problem * M :=
  match xs with
  | [] => pm
  | x :: xs' => evaluations um xs' (fst (fitness um x pm))
  end.

(** The value a limit stands for. *)
Definition limit_value {M} (um : user_model M) (m : M) (c : constraints) (l : limit) : option Q :=
  match l with
  | Number q => Some q
  | Other k => match dget k (refs c) with
               | Some (o, lb, p) => match get_param um m o lb p with Ok q => Some q | Err _ => None end
               | None => None
               end
  end.
(** A constraint as the user writes it: upper or lower limit of a parameter. *)
Record constraint := { is_upper : bool; c_obj : string; c_label : string; c_param : string; c_limit : limit }.
Definition stated (c : constraints) (k : constraint) : Prop :=
  exists d e, dget (c_obj k) (if is_upper k then upper_limits c else lower_limits c) = Some d /\
    dget (c_label k) d = Some e /\ dget (c_param k) e = Some (c_limit k).
(** The parameter is within the limit. *)
Definition fulfilled {M} (um : user_model M) (m : M) (c : constraints) (k : constraint) : Prop :=
  exists v b, get_param um m (c_obj k) (c_label k) (c_param k) = Ok v /\ limit_value um m c (c_limit k) = Some b /\
    if is_upper k then (v <= b)%Q else (b <= v)%Q.
Definition python_limits (l : limits) : Prop :=
  NoDup (keys l) /\ forall o d, In (o, d) l -> NoDup (keys d) /\ forall lb e, In (lb, e) d -> NoDup (keys e).

(** A population after a number of steps. *)
Fixpoint after (evolve : population -> population) (n : nat) (p : population) : population :=
  match n with O => p | S n' => after evolve n' (evolve p) end.
