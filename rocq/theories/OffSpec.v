(** Vocabulary for statements about characteristics in equations. *)
From Verif Require Import CharModel CharSpec OffModel.
Open Scope Q_scope.

(** A connection in its design state. *)
Definition at_design (vol : Q -> Q -> Q) (p : port) : Prop :=
  om p == omd p /\ op p == opd p /\ om p * vol (op p) (oh p) == ovd p.
(** Design values that can be divided by. *)
Definition proper (p : port) : Prop := ~ omd p == 0 /\ ~ opd p == 0 /\ ~ ovd p == 0 /\ ~ op p == 0.
(** Parameters characteristics can depend on. *)
Definition known (param : string) : Prop := In param ["m"; "m_out"; "v"; "pr"]%string.
(** The characteristic has the value 1 in design. *)
Definition passes (c : charline) : Prop := forall x, x == 1 -> exists v, cl_evaluate c x = Ok v /\ v == 1.
(** Numbers inside closed limits. *)
Definition within (lo hi x : Q) : Prop := lo <= x /\ x <= hi.
(** First and last element. *)
Definition ends_of (l : list Q) (lo hi : Q) : Prop := nth_error l 0 = Some lo /\ nth_error l (length l - 1) = Some hi.
