(** Vocabulary for user defined equations. *)
From Verif Require Import UdeModel.

(** The equation with the connections of a network and no derivatives yet. *)
Definition fresh (net : dict nat) (u u' : ude) : Prop :=
  u_label u' = u_label u /\ u_params u' = u_params u /\ u_latex u' = u_latex u /\ u_jac u' = [] /\
  map fst (u_conns u') = map fst (u_conns u) /\ forall c, In c (u_conns u') -> dget (fst c) net = Some (snd c).


(** The texts a report reads of an equation and what it shows if they are not given. *)
Definition report_text (k : string) : option string :=
  if String.eqb k "equation" then Some "\text{equation string not available}"%string
  else if String.eqb k "lines" then Some "[]"%string
  else if String.eqb k "maps" then Some "[]"%string
  else None.
