(** Objects used in the examples and refutations of ConnSpecProps.v. *)
From Verif Require Import ConnSpecModel ConnSpecSpec ConnSpecProofs ConnSpecProofs2.
Open Scope string_scope.
Open Scope list_scope.

Definition ex_parse (_ : string) : option pnum := None.
Definition ex_kw : dict pv :=
  [("m", PNum (Fin 5)); ("p0", PNum (Fin 3)); ("T", PNone); ("h", PRef 7 2 (-5)); ("design", PList ["T"; "p"])].
Definition ex_fluids : list (dict pv) :=
  [[("fluid", PDict [("INCOMP::water", DNum (Fin 1)); ("air", DNum (Fin 0))])];
   [("fluid", PDict [("water", DNone)]); ("fluid_balance", PBool true)]].
