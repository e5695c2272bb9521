(** Vocabulary for ambient temperatures. *)
From Verif Require Import Base NetUnitsModel AmbModel.
Open Scope list_scope.

(** The number given last. *)
Fixpoint last_given (l : list astep) (x : Q) : Q :=
  match l with
  | [] => x
  | SetTamb (ANum y) :: l' => last_given l' y
  | _ :: l' => last_given l' x
  end.
Definition never_variable (l : list astep) : Prop := ~ In (SetTamb AVar) l.
