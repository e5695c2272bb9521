(** User defined equations.
    Models UserDefinedEquation of /repo/src/tespy/tools/helpers.py 164-379 and what
    networks/network.py 2075-2081 does to it. Registration is RegModel, assembly
    AssemblyModel. *)
From Coq Require Import Reals.
From Verif Require Export Base NumDerivModel.
Open Scope R_scope.

(** Dictionaries are objects: a heap maps addresses to them. The dictionary made when
    the [def] was executed (helpers.py 166, [params={}]) is the one at address 0. *)
Definition heap := nat -> dict R.
(** The object of the default argument params, helpers.py 331-367 *)
Definition default_dict : nat := 0%nat.
(** [d[key] = value] on the dictionary at an address, as a user does it with
    [ude.params] (helpers.py 344). *)
Definition store (a : nat) (k : string) (v : R) (h : heap) : heap :=
  fun b => if Nat.eqb b a then dset k v (h b) else h b.

(** Arguments as far as the constructor looks at them: a string or something else
    (322), a list of connections or something else (329), a dictionary, nothing passed,
    or something else (341, 355). *)
Inductive sarg := AStr (s : string) | AOtherLabel.
(** The argument conns, helpers.py 331-367 *)
Inductive larg := AList (conns : list string) | AOtherConns.
(** The argument params, helpers.py 331-367 *)
Inductive darg := ADict (a : nat) | AOmitted | AOtherDict.
(** A dictionary of texts by value: helpers.py 350-356 copies it into a new one. *)
Inductive targ := TDict (d : dict string) | TOmitted | TOther.

(** The equation: connections as labels and the objects they name; the function with the
    name of its parameter. helpers.py 331-371. *)
Record ufunc := { pname : string; body : R -> res R }.
(** The object, helpers.py 331-367 *)
Record ude := { u_label : string; u_conns : list (string * nat); u_params : nat; u_latex : dict string; u_jac : list (nat * R) }.

(** helpers.py 350-354. *)
Definition latex0 : dict string :=
  [("equation", "\text{equation string not available}"); ("lines", "[]"); ("maps", "[]")]%string.
(** dict.update. As in helpers.py 331-367. *)
Fixpoint update {V : Type} (new d : dict V) : dict V :=
  match new with [] => d | (k, v) :: new' => update new' (dset k v d) end.

(** helpers.py 322-361; [obj] is the object of a connection's label. *)
Definition make (obj : string -> nat) (label : sarg) (conns : larg) (params : darg) (latex : targ) : res ude :=
  match label with
  | AOtherLabel => Err TypeError
  | AStr s =>
      match conns with
      | AOtherConns => Err TypeError
      | AList cs =>
          match params with
          | AOtherDict => Err TypeError
          | _ =>
              let a := match params with ADict a => a | _ => default_dict end in
              match latex with
              | TOther => Err TypeError
              | _ =>
                  let t := match latex with TDict d => d | _ => [] end in
                  Ok {| u_label := s; u_conns := map (fun c => (c, obj c)) cs; u_params := a;
                        u_latex := update t latex0; u_jac := [] |}
              end
          end
      end
  end.

(** A call with the equation as only argument, by position (helpers.py 364). *)
Definition call_pos (f : ufunc) (x : R) : res R := body f x.
(** The same by keyword (helpers.py 373, [ude=self]). *)
Definition call_kw (f : ufunc) (kw : string) (x : R) : res R :=
  if String.eqb (pname f) kw then body f x else Err TypeError.
(** helpers.py 367-373. *)
Definition ude_numeric_deriv (k : dvar) (f : ufunc) (v : R) : R * res R :=
  numeric_deriv k (fun x => call_kw f "ude" x) v.

(** network.py 2077-2079: the connections of the network with these labels. *)
Definition remap_conns (net : dict nat) (cs : list (string * nat)) : res (list (string * nat)) :=
  rmapM (fun c => match dget (fst c) net with Some o => Ok (fst c, o) | None => Err KeyError end) cs.
(** network.py 2075-2081, equations by label in the order of registration; those before
    the one that raises stay changed. *)
Fixpoint remap (net : dict nat) (us : list ude) : list ude * option pyerr :=
  match us with
  | [] => ([], None)
  | u :: us' =>
      match remap_conns net (u_conns u) with
      | Err e => (u :: us', Some e)
      | Ok cs =>
          let u' := {| u_label := u_label u; u_conns := cs; u_params := u_params u; u_latex := u_latex u; u_jac := [] |} in
          let (r, e) := remap net us' in (u' :: r, e)
      end
  end.
