(** What the preparation of particular classes is to achieve. *)
From Verif Require Import PrepModel TableModel TableSpec.
From Verif Require CharModel OffModel.
Open Scope string_scope.
Open Scope list_scope.

(** The user asks for subcooling or not. *)
Definition asks (b : bool) : list (string * carg) := [("subcooling", CV (PBool b))].
(** The values Python takes for false. *)
Inductive counts_as_no : pv -> Prop :=
| no_none : counts_as_no PNone
| no_bool : counts_as_no (PBool false)
| no_zero : forall q, (q == 0)%Q -> counts_as_no (PNum (Fin q))
| no_text : counts_as_no (PStr "")
| no_list : counts_as_no (PList [])
| no_dict : counts_as_no (PDict []).
(** [x] is not in the range of the line. *)
Definition outside (c : CharModel.charline) (x : Q) : Prop := (x < hd 0 (CharModel.cl_x c) \/ last (CharModel.cl_x c) 0 < x)%Q.
(** The load of the engine. *)
Definition load (design : option Q) (P : Q) : Q := match design with Some d => (P / d)%Q | None => 1%Q end.
(** The only fluid with a share above the precision. *)
Definition pure (fd : dict Q) (f : string) : Prop :=
  exists l r x, fd = l ++ (f, x) :: r /\ (UpdateModel.ERR < x)%Q /\ Forall (fun y => (snd y <= UpdateModel.ERR)%Q) (l ++ r).
