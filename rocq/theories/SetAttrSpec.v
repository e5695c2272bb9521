(** What counts as a well formed call of set_attr, written independently of the
    code, for connections and components. *)
From Verif Require Import ConnSpecModel CompSpecModel.
Open Scope string_scope.
Open Scope list_scope.

(** The properties of a connection that may be named in design and offdesign. *)
Definition property_names : list string :=
  ["m"; "p"; "h"; "vol"; "s"; "T"; "v"; "x"; "Td_bp"; "fluid"; "fluid_balance"]
  ++ ["m_ref"; "p_ref"; "h_ref"; "T_ref"; "v_ref"].
(** The keywords a connection understands: values, references, starting values,
    composition and settings. *)
Definition connection_keywords : list string :=
  ["m"; "p"; "h"; "vol"; "s"; "T"; "v"; "x"; "Td_bp"]
  ++ ["m_ref"; "p_ref"; "h_ref"; "T_ref"; "v_ref"]
  ++ ["m0"; "p0"; "h0"; "vol0"; "s0"; "T0"; "v0"; "x0"; "Td_bp0"]
  ++ ["fluid"; "fluid0"; "fluid_engines"; "fluid_balance"; "state"; "mixing_rule"]
  ++ ["design"; "offdesign"; "design_path"; "local_design"; "local_offdesign"; "printout"].
(** The values a setting of a connection can have. *)
Definition well_typed (k : string) (v : pv) : Prop :=
  (In k ["design"; "offdesign"] -> exists l, v = PList l /\ forall x, In x l -> In x property_names) /\
  (In k ["local_design"; "local_offdesign"; "printout"; "fluid_balance"] -> exists b, v = PBool b) /\
  (k = "state" -> v = PNone \/ v = PStr "l" \/ v = PStr "g") /\
  (In k ["fluid"; "fluid0"; "fluid_engines"] -> exists d, v = PDict d) /\
  (In k ["vol"; "s"; "x"; "Td_bp"] -> forall o f d, v <> PRef o f d).

(** The settings of a component beside its parameters. *)
Definition component_settings : list string :=
  ["design"; "offdesign"; "local_design"; "local_offdesign"; "printout"; "char_warnings"; "design_path"; "fkt_group"].
(** The fields a container has that a user may want to write. *)
Definition has_value (k : pkind) : Prop := k = KCp \/ k = KSimple.
Definition has_curve (k : pkind) : Prop := k = KCc \/ k = KCm.
Definition has_field (k : pkind) (f : field) : Prop :=
  match f with
  | FIsSet _ => True
  | FIsVar _ => k = KCp
  | FVal _ => has_value k
  | FChar _ => has_curve k
  | FOther n _ =>
      (In n ["val_SI"; "d"; "min_val"; "max_val"; "design"; "is_result"] -> k = KCp) /\
      (n = "param" -> has_curve k) /\
      (n = "elements" -> exists es, k = KGcp es \/ k = KGcc es)
  end.
