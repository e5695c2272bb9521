(** The same network entered in two sets of units. *)
From Coq Require Import QArith.
From Verif Require Import Base UnitsModel StateModel StateSpec.
Open Scope string_scope.
Open Scope list_scope.

(** Every property has a unit that is known for it. *)
Definition units_ok (u : string -> string) : Prop := forall k, In k fpd_keys -> unit_known k (entry_unit u k) = Some true.
(** Two outcomes agree: both raise the same exception or both results are related. *)
Definition agree {A : Type} (R : A -> A -> Prop) (r1 r2 : res A) : Prop :=
  match r1, r2 with Ok x, Ok y => R x y | Err e, Err f => e = f | _, _ => False end.
(** Two numbers, possibly nan, stand for the same SI value of a property. *)
Definition means_same (k u1 u2 : string) (v1 v2 : num) : Prop :=
  match v1, v2 with
  | Some x, Some y => exists s t, convert_to_SI k x u1 = Ok s /\ convert_to_SI k y u2 = Ok t /\ s == t
  | None, None => True
  | _, _ => False
  end.
(** A property function gives equal results for equal numbers. *)
Definition respects1 (f : Q -> res Q) : Prop := forall x y, x == y -> agree Qeq (f x) (f y).
Definition respects2 {A : Type} (R : A -> A -> Prop) (f : Q -> Q -> res A) : Prop :=
  forall x y x' y', x == x' -> y == y' -> agree R (f x y) (f x' y').
Definition respectful (f : fluid) : Prop :=
  respects2 Qeq (f_hpT f) /\ respects2 Qeq (f_hpQ f) /\ respects1 (f_psat f) /\ respects1 (f_Tsat f) /\ respects2 Qeq (f_Tph f) /\
  respects2 Qeq (f_Qph f) /\ respects2 Qeq (f_vph f) /\ respects2 Qeq (f_sph f) /\ respects2 eq (f_phase f).
(** Two connections are the same but for the units their values are given in. *)
Record twin (u1 u2 : string -> string) (c1 c2 : conn) : Prop := {
  t_fluid : n_fluid c1 = n_fluid c2; t_respectful : respectful (n_fluid c1);
  t_state : n_state c1 = n_state c2; t_phase : n_phase c1 = n_phase c2; t_good : n_good c1 = n_good c2; t_known : n_known c1 = n_known c2;
  t_off : n_off c1 = n_off c2; t_solved : n_solved c1 = n_solved c2; t_eqs : n_eqs c1 = n_eqs c2;
  t_set : forall k, k_set (n_c c1 k) = k_set (n_c c2 k);
  t_var : forall k, k_var (n_c c1 k) = k_var (n_c c2 k);
  t_SI : forall k, same (k_SI (n_c c1 k)) (k_SI (n_c c2 k));
  t_val : forall k, In k fpd_keys -> k_set (n_c c1 k) = true ->
    means_same k (entry_unit u1 k) (entry_unit u2 k) (k_val (n_c c1 k)) (k_val (n_c c2 k));
  t_val0 : forall k, In k ["m"; "p"; "h"] -> means_same k (u1 k) (u2 k) (k_val0 (n_c c1 k)) (k_val0 (n_c c2 k));
  t_rset : forall k, r_set (n_r c1 k) = r_set (n_r c2 k);
  t_rconn : forall k, r_conn (n_r c1 k) = r_conn (n_r c2 k);
  t_rfactor : forall k, r_factor (n_r c1 k) = r_factor (n_r c2 k);
  t_rdelta : forall k, In k ref_keys -> r_set (n_r c1 k) = true ->
    means_same (if String.eqb k "T" then "Td_bp" else k) (u1 k) (u2 k) (Some (r_delta (n_r c1 k))) (Some (r_delta (n_r c2 k))) }.
(** A difference to the boiling temperature is not specified, or it is the same number
    in both units and degrees have the same size. *)
Definition degrees_alike (u1 u2 : string -> string) (c1 c2 : conn) : Prop :=
  wants c1 "Td_bp" -> (forall v, means_same "Td_bp" (u1 "T") (u2 "T") (Some v) (Some v)) /\ same (k_val (n_c c1 "Td_bp")) (k_val (n_c c2 "Td_bp")).
(** No start value of the mass flow has to be made up, or the unit of mass flow is the
    same. *)
Definition flow_alike (u1 u2 : string -> string) (c : conn) : Prop :=
  wants c "m" \/ n_good c = true \/ k_val0 (n_c c "m") <> None \/ u1 "m" = u2 "m".
(** Two networks with the same connections, related one by one. *)
Definition paired (R : conn -> conn -> Prop) (n1 n2 : dict conn) : Prop :=
  keys n1 = keys n2 /\ forall l c1 c2, dget l n1 = Some c1 -> dget l n2 = Some c2 -> R c1 c2.
Definition twins (u1 u2 : string -> string) : dict conn -> dict conn -> Prop := paired (twin u1 u2).
(** The two exceptions do not matter. *)
Definition plainly (u1 u2 : string -> string) : dict conn -> dict conn -> Prop :=
  paired (fun c1 c2 => degrees_alike u1 u2 c1 c2 /\ flow_alike u1 u2 c1).
(** Reported values stand for the same SI value in the respective units. *)
Definition reports_same (u1 u2 : string -> string) (c1 c2 : conn) : Prop :=
  forall k, In k fpd_keys -> means_same k (entry_unit u1 k) (entry_unit u2 k) (k_val (n_c c1 k)) (k_val (n_c c2 k)).
(** One calculation after the other, stopping at an exception. *)
Fixpoint solves (units : string -> string) (runs : list (proposals * (string -> string -> Q))) (net : dict conn) : res (dict conn) :=
  match runs with
  | [] => Ok net
  | (a, sol) :: more => rbind (solve units a None sol net) (solves units more)
  end.
