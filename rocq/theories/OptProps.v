(** C136-C140: optimisation problems. *)
From Verif Require Import OptModel OptSpec OptProofs OptProofs2 OptWitness.
Open Scope nat_scope.
Open Scope list_scope.

(** C136 – the decision variables are the places the user gave bounds for, each once;
    names, bounds and entries of decision vectors have the same order. In every
    evaluation, whatever was evaluated before, the model gets each entry at its place
    and nothing else; a vector that is too short raises IndexError. *)
Theorem C136_decision_variables : forall show user c obj pb,
  python_dict user -> init show user c obj = Ok pb ->
  exists pl, NoDup pl /\ (forall q, In q pl <-> leaf user q <> None) /\ variable_list pb = map pname pl /\
    length (fst (bounds pb)) = length pl /\ length (snd (bounds pb)) = length pl /\
    Forall2 (fun q b => leaf user q = Some (Bounds (fst b) (snd b))) pl (combine (fst (bounds pb)) (snd (bounds pb))) /\
    forall (M : Type) (um : user_model M) hist m0 x, let s := evaluations um hist (pb, m0) in
      bounds (fst s) = bounds pb /\ variable_list (fst s) = variable_list pb /\
      (length pl <= length x -> exists d, Forall2 (fun q v => leaf d q = Some (Value v)) pl (firstn (length pl) x) /\
         (forall q, leaf d q <> None -> In q pl) /\
         snd (fst (fitness um x s)) = fst (solve_model um d (snd s)) /\
         (forall e, snd (solve_model um d (snd s)) = Some e -> snd (fitness um x s) = Err e)) /\
      (length x < length pl -> snd (fst (fitness um x s)) = snd s /\ snd (fitness um x s) = Err IndexError).
Proof. exact decision_variables. Qed.
Print Assumptions C136_decision_variables.

Example C136_ex : exists pb, init w_show ex_user ex_limits "eta" = Ok pb /\
  variable_list pb = ["Connections-1-p"; "Connections-1-m"; "load-full"]%string /\
  snd (fst (fitness w_model [4; 3; 1]%Q (fst (fitness w_model [7]%Q (pb, []))))) =
    [("Connections", [("1", Params [("p", Value 4); ("m", Value 3)])]); ("load", [("full", Single (Value 1))]); ("Components", [])]%string /\
  snd (fitness w_model [7]%Q (pb, [])) = Err IndexError.
Proof. eexists. split; [vm_compute; reflexivity|]. vm_compute. repeat split. Qed.

(** C137 – the constraints the user states, each once, have one entry each in the fitness
    vector after the objective, in the order of the names; the entry is at most zero
    exactly if the solved model fulfils the constraint. *)
Theorem C137_constraints : forall show user c obj pb,
  python_dict user -> python_limits (upper_limits c) -> python_limits (lower_limits c) ->
  init show user c obj = Ok pb ->
  exists cl, NoDup cl /\ (forall k, In k cl <-> stated c k) /\ nic pb = length cl /\
    Forall2 (fun k n => exists r, n = (c_obj k ++ "-" ++ c_label k ++ "-" ++ c_param k ++ (if is_upper k then "<=" else ">=") ++ r)%string) cl (constraint_list pb) /\
    forall (M : Type) (um : user_model M) hist m0 x m' r,
      snd (fst (fitness um x (evaluations um hist (pb, m0)))) = m' -> snd (fitness um x (evaluations um hist (pb, m0))) = Ok r ->
      exists f vs, r = f :: vs /\ get_objective um m' obj = Ok f /\ Forall2 (fun k v => (v <= 0)%Q <-> fulfilled um m' c k) cl vs.
Proof. exact constraints_evaluated. Qed.
Print Assumptions C137_constraints.

Example C137_ex : exists pb, init w_show ex_user ex_limits "eta" = Ok pb /\ nic pb = 2 /\
  constraint_list pb = ["Connections-1-p<=Connections-1-m"; "Connections-1-m>=q"]%string /\
  snd (fitness w_model [4; 3; 1]%Q (pb, [])) = Ok [1; - (3 - 4); 2 - 3]%Q.
Proof. eexists. split; [vm_compute; reflexivity|]. split; [reflexivity|]. split; reflexivity. Qed.

(** C138 – an individual that fulfils every constraint, one of them exactly, is reported
    as not valid. *)
Theorem C138_valid_refuted : exists show user c obj pb (um : user_model (dict (dict entry))) m0 x f cs,
  python_dict user /\ init show user c obj = Ok pb /\ snd (fitness um [x] (pb, m0)) = Ok (f :: cs) /\
  (forall k, stated c k -> fulfilled um (snd (fst (fitness um [x] (pb, m0)))) c k) /\
  (forall v, In v cs -> (v <= 0)%Q) /\
  valid (nic pb) ((0, 0), Some ([x], f :: cs)) = false.
Proof. exact on_limit. Qed.
Print Assumptions C138_valid_refuted.

(** C138 – valid are the individuals with all entries below zero, that is those that
    fulfil every constraint with room to spare. *)
Theorem C138_valid_partial : forall k x f cs n,
  valid n (k, Some (x, f :: cs)) = true <-> forall c, In c cs -> (c < 0)%Q.
Proof. exact valid_strict. Qed.
Print Assumptions C138_valid_partial.

(** C139 – an evaluation overwrites the bounds in the variables of the problem; they can no
    longer be used to set up a problem. *)
Theorem C139_variables_refuted : exists show user c obj pb (um : user_model (dict (dict entry))) m0 x q,
  python_dict user /\ init show user c obj = Ok pb /\ leaf (content (heap pb) (variables pb)) q = leaf user q /\
  let pb' := fst (fst (fitness um [x] (pb, m0))) in
  leaf (content (heap pb') (variables pb')) q = Some (Value x) /\
  (exists pb2, init show (content (heap pb) (variables pb)) c obj = Ok pb2) /\
  init show (content (heap pb') (variables pb')) c obj = Err TypeError.
Proof. exact bounds_lost. Qed.
Print Assumptions C139_variables_refuted.

(** C139 – two decision variables can have one name, and with it one column. *)
Theorem C139_names_refuted : exists show user c obj pb, python_dict user /\ init show user c obj = Ok pb /\
  exists n, variable_list pb = [n; n] /\ bounds pb = ([1; 2], [10; 20])%Q.
Proof. exact same_name. Qed.
Print Assumptions C139_names_refuted.

(** C140 – a run over generations of [num_ind] individuals evolves the population one time
    less than there are generations, returns the last one, and the table holds decision and fitness
    vector of every individual of every generation in one row each. *)
Theorem C140_run : forall evolve p num_ind num_gen,
  0 < num_gen -> (forall k, length (after evolve k p) = num_ind) ->
  let (p', t) := run evolve p num_ind num_gen in
  p' = after evolve (num_gen - 1) p /\ NoDup (map fst t) /\
  forall g i v, In ((g, i), v) t <-> g < num_gen /\ i < num_ind /\ v = nth_error (after evolve g p) i.
Proof. exact run_recorded. Qed.
Print Assumptions C140_run.

Example C140_ex :
  let evolve := map (fun v : list Q * list Q => (map (fun q => q + 1)%Q (fst v), snd v)) in
  snd (run evolve [([1], [5; -1]); ([2], [6; 0])]%Q 2 2) =
  [((0, 0), Some ([1%Q], [5; -1]%Q)); ((0, 1), Some ([2%Q], [6; 0]%Q)); ((1, 0), Some ([1 + 1]%Q, [5; -1]%Q)); ((1, 1), Some ([2 + 1]%Q, [6; 0]%Q))] /\
  valid_column 1 (snd (run evolve [([1], [5; -1]); ([2], [6; 0])]%Q 2 2)) = [((0, 0), true); ((0, 1), false); ((1, 0), true); ((1, 1), false)].
Proof. split; reflexivity. Qed.
