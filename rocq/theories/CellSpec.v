(** What a user expects of the results of a component. *)
From Verif Require Import CellModel TableSpec.
Open Scope string_scope.
Open Scope list_scope.

(** The value a parameter has. *)
Definition value (k : comp) (p : string) : option pv := option_map q_val (dget p (k_params k)).
(** The parameters of the class that take numbers, in the order of the class. *)
Definition numbers (c : cls) : list string :=
  map fst (filter (fun kr => match t_kind (snd kr) with KCp => true | _ => false end) (class_params c)).
(** A parameter without an equation that follows from the others: heat transfer to the ambient if its
    temperature is known, losses of a collector if its balance is specified. *)
Definition arises (c : cls) (k : comp) (p : string) : bool :=
  (String.eqb p "kA" && dmem "Tamb" (class_params c) && specified k "Tamb"
   || String.eqb p "Q_loss" && dmem "energy_group" (class_params c) && specified k "energy_group")%bool.
(** The user gave a number for the parameter and did not withdraw it. *)
Definition fixed (k : comp) (p : string) : Prop := specified k p = true /\ var_flag k p = false.
(** A converged calculation satisfies the specified numbers: what is computed from the solution is what
    was specified, for all parameters something depends on. *)
Definition satisfied (c : cls) (k : comp) (r : run) : Prop :=
  r_end r = Complete -> r_converged r = true -> forall p v, fixed k p -> ~ In p (ignored c) -> value k p = Some v -> r_calc r p = v.
