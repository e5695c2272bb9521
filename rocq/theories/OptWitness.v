(** Objects used in the examples and refutations of OptProps.v. *)
From Verif Require Import OptModel OptSpec OptProofs OptProofs2.
Open Scope nat_scope.
Open Scope list_scope.

Definition ex_user : dict (dict entry) :=
  [("Connections", [("1", Params [("p", Bounds 1 10); ("m", Bounds 2 3)])]); ("load", [("full", Single (Bounds 0 1))])]%string.
Definition ex_limits : constraints :=
  {| upper_limits := [("Connections", [("1", [("p", Other "ref"%string)])])]%string;
     lower_limits := [("Connections", [("1", [("m", Number 2)])])]%string; refs := [("ref", ("Connections", "1", "m"))]%string |}.
