(** Vocabulary for labels and subsystems. *)
From Coq Require Import Ascii.
From Verif Require Import TopoModel TopoSpec SubsysModel.
Open Scope string_scope.
Open Scope list_scope.

(** [sub] is a part of [s]. *)
Definition part_of (sub s : string) : Prop := exists a b, s = (a ++ sub ++ b)%string.
(** A character does not occur in a string. *)
Definition without (ch : ascii) (s : string) : Prop := ~ part_of (String ch "") s.
(** A connection of one of the subsystems. *)
Definition in_subsystem (subs : list (dict nat)) (c : nat) : Prop := exists s k, In s subs /\ In (k, c) s.
(** Every connection has the default label. *)
Definition default_labels (W : world) (n : net) : Prop :=
  forall c, has_conn n c -> w_label W c =
    default_label (w_clabel W (w_source W c)) (w_source_id W c) (w_clabel W (w_target W c)) (w_target_id W c).
