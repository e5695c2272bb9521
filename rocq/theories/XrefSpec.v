(** What a reader expects of labels, references and figures of a report.
    Source: /repo/src/tespy/tools/document_models.py. *)
From Verif Require Import Base XrefModel.
Open Scope string_scope.
Open Scope list_scope.

(** Every reference has its target. *)
Definition resolved (l : list item) : Prop :=
  (forall x, In (RefEq x) l -> In (Eq x) l) /\
  (forall x, In (RefFig x) l -> exists f c, In (Fig x f c) l).
(** Labels in the order of the text. *)
Definition eq_labels (l : list item) : list string := flat_map (fun i => match i with Eq x => [x] | _ => [] end) l.
Definition fig_labels (l : list item) : list string := flat_map (fun i => match i with Fig x _ _ => [x] | _ => [] end) l.
(** What a file contains in the end: the last drawing. *)
Fixpoint content (file : string) (l : list item) : option nat :=
  match l with
  | [] => None
  | Plot f c :: l => match content file l with Some d => Some d | None => if String.eqb f file then Some c else None end
  | _ :: l => content file l
  end.
(** Every figure shows the characteristic it was made for. *)
Definition figures_right (l : list item) : Prop := forall lb f c, In (Fig lb f c) l -> content f l = Some c.

(** [x] is an element of a group in force. *)
Definition element (m : cl) (x : string) : Prop := exists g es k, In (g, es) (c_groups m) /\ In (x, k) es.
(** As in all classes of tespy: characteristics and groups of characteristics have documented
    equations and are not themselves in a group. *)
Definition charts_documented (m : cl) : Prop :=
  (forall c d k, In (c, d, k) (c_chars m) -> d = true /\ ~ element m c) /\
  (forall g d es e k, In (g, d, es) (c_groups m) -> In (e, Some k) es -> d = true /\ ~ element m g).

(** A name without underscore. *)
Definition plain (s : string) : Prop := forall a b, s <> (a ++ "_" ++ b)%string.
(** Names of the equations of a constraint. *)
Definition constraint_names (k : constr) : list string :=
  match k with Single l => [l] | Charted l => [l] | Stoich l fs => map (fun f => (l ++ "_" ++ f)%string) fs end.
(** All names of a class. *)
Definition own_names (m : cl) : list string :=
  flat_map constraint_names (c_constr m) ++ map fst (c_params m) ++ map (fun g => fst (fst g)) (c_groups m) ++ map (fun c => fst (fst c)) (c_chars m).
(** The names of a network are apart from each other. *)
Definition distinct_names (n : net) : Prop :=
  NoDup (n_props n) /\ NoDup (n_fluids n) /\ (forall p, ~ In (text p) (n_fluids n)) /\
  NoDup (map (fun u => under (u_label u)) (n_udes n)) /\
  NoDup (map c_name (n_classes n)) /\
  (forall m, In m (n_classes n) ->
     plain (c_name m) /\ ~ In (c_name m) ["Connection"; "UserDefinedEquation"; "Bus"] /\ NoDup (own_names m)).
(** At most one bus has a given total. *)
Definition one_total (n : net) : Prop := length (filter b_set (n_busses n)) <= 1.

(** Parameters that may be drawn for a class. *)
Definition drawable (m : cl) (p : string) : Prop :=
  In (Charted p) (c_constr m) \/ (exists d k, In (p, d, k) (c_chars m)) \/
  (exists g d es k, In (g, d, es) (c_groups m) /\ In (p, Some k) es).
(** Names of files are apart from each other: class names, parameters of which none begins another,
    labels (also of equations) that do not become equal by their spaces; a component has one characteristic on busses. *)
Definition distinct_files (n : net) : Prop :=
  NoDup (map (fun u => under (u_label u)) (n_udes n)) /\
  NoDup (map c_name (n_classes n)) /\
  (forall m, In m (n_classes n) ->
     plain (c_name m) /\ c_name m <> "Bus" /\ c_name m <> "UDE" /\
     (forall p q r s, drawable m p -> drawable m q -> p <> q -> (p ++ "_" ++ r)%string <> (q ++ "_" ++ s)%string) /\
     (forall l l', In l (c_comps m) -> In l' (c_comps m) -> under l = under l' -> l = l')) /\
  (forall b b' r r', In b (n_busses n) -> In b' (n_busses n) -> In r (b_rows b) -> In r' (b_rows b') ->
     w_const r = false -> w_const r' = false -> under (w_comp r) = under (w_comp r') -> w_char r = w_char r').

(** Characteristics shown in the figures of busses, in order. *)
Definition bus_charts (l : list item) : list nat :=
  flat_map (fun i => match i with Fig lb _ c => if String.prefix "Bus_CharLine_" lb then [c] else [] | _ => [] end) l.
(** A row of some bus. *)
Definition bus_row (n : net) (r : brow) : Prop := exists b, In b (n_busses n) /\ In r (b_rows b).
(** A characteristic is used with one base. *)
Definition one_base (n : net) : Prop := forall r r', bus_row n r -> bus_row n r' -> w_char r = w_char r' -> w_base r = w_base r'.
