(** Vocabulary of the statements about files that are accepted. *)
From Coq Require Import QArith.
From Verif Require Import Base UnitsModel NetUnitsModel IoModel.
Open Scope string_scope.
Open Scope list_scope.

(** A tree that a json file can hold *)
Inductive json : value -> Prop :=
| json_none : json VNone
| json_bool : forall b, json (VBool b)
| json_num : forall x, json (VNum x)
| json_str : forall s, json (VStr s)
| json_list : forall l, (forall x, In x l -> json x) -> json (VList l)
| json_dict : forall d, (forall k x, In (k, x) d -> json x) -> json (VDict d).
(** Parameter lists name parameters, flags are truth values *)
Definition valid_attrs (o : obj) : Prop :=
  forall k v, dget k (o_attrs o) = Some v ->
    (k = "design" \/ k = "offdesign" -> exists l, v = VList (map VStr l) /\ forall s, In s l -> In s (o_listed o))
    /\ (k = "printout" \/ k = "local_design" \/ k = "local_offdesign" \/ k = "char_warnings" -> exists b, v = VBool b).
(** Every entry is an attribute or a parameter of the object *)
Definition known_entries (data : dict value) (o : obj) : Prop :=
  forall k, In k (keys data) -> In k (keys (o_params o)) \/ In k (keys (o_attrs o)).
(** A parameter read from the entry [d]: only known attributes, the values of the
    file, a line has as many abscissae as ordinates, the value of a property is its
    starting value as well *)
Definition read_from (d : dict value) (c : container) : Prop :=
  (forall k, In k (keys d) -> In k (keys (c_attrs c)))
  /\ (NoDup (keys d) -> forall k v, dget k d = Some v -> k <> "char_func" -> k <> "val0" -> dget k (c_attrs c) = Some v)
  /\ (c_kind c = KCC -> NoDup (keys d) -> In "char_func" (keys d) ->
      exists x y e, dget "char_func" (c_attrs c) = Some (VLine x y e) /\ length x = length y)
  /\ (c_kind c = KProp -> NoDup (keys d) -> exists x, dget "val" d = Some x /\ dget "val0" (c_attrs c) = Some x).
(** A component of a file *)
Definition from_file (reg : dict class) (files : dict (dict value)) (l cls : string) (o : obj) : Prop :=
  exists k file data, dget cls reg = Some k /\ In (cls, file) files /\ In (l, VDict data) file
  /\ o_listed o = o_listed (k_new k l) /\ keys (o_params o) = keys (o_params (k_new k l)) /\ keys (o_attrs o) = keys (o_attrs (k_new k l))
  /\ known_entries data o
  /\ (valid_attrs (k_new k l) -> valid_attrs o)
  /\ (NoDup (keys data) -> forall p d c, dget p data = Some (VDict d) -> dget p (o_params o) = Some c -> read_from d c).
(** A connection between two components *)
Definition joined (reg : dict class) (comps : dict (string * obj)) (c : conn) : Prop :=
  n_source c <> n_target c
  /\ (exists cls o k, dget (n_source c) comps = Some (cls, o) /\ dget cls reg = Some k /\ In (n_sid c) (connectors (k_out k) o))
  /\ (exists cls o k, dget (n_target c) comps = Some (cls, o) /\ dget cls reg = Some k /\ In (n_tid c) (connectors (k_in k) o)).
(** The references of a connection *)
Definition references_in (labels : list string) (c : conn) : Prop :=
  forall p r x f d, dget p (o_params (n_obj c)) = Some r -> dget "ref" (c_attrs r) = Some (VRef x f d) -> In x labels.
(** A component on a bus *)
Definition valid_row (w : row) : Prop :=
  (w_base w = VStr "bus" \/ w_base w = VStr "component") /\ exists x y e, w_char w = VLine x y e /\ length x = length y.
