(** Vocabulary of the statements about export and import. *)
From Coq Require Import QArith.
From Verif Require Import Base UnitsModel NetUnitsModel IoModel.
Open Scope string_scope.
Open Scope list_scope.

(** Attribute [k] of two containers is the same. *)
Definition same_attr (k : string) (c c' : container) : Prop := dget k (c_attrs c) = dget k (c_attrs c').
(** The attribute is there and can be written. *)
Definition writes (k : string) (c : container) : Prop := exists v, dget k (c_attrs c) = Some v /\ jsonable v = true.
(** The two containers are of one class: same kind, same attributes. *)
Definition alike (c c' : container) : Prop := c_kind c = c_kind c' /\ forall k, dget k (c_attrs c) = None <-> dget k (c_attrs c') = None.

(** The specification of a parameter of a component that must survive. *)
Definition user_data (k : kind) : list string :=
  match k with
  | KCp => ["val"; "val_SI"; "is_set"; "d"; "min_val"; "max_val"; "is_var"]
  | KSimple => ["val"; "is_set"]
  | KCC => ["char_func"; "is_set"; "param"; "char_params"]
  | KCM => ["char_func"; "is_set"; "param"]
  | KProp => ["val"; "val0"; "val_SI"; "is_set"; "unit"]
  | _ => []
  end.
(** A container of a component with the values of its class. *)
Definition good_param (c : container) : Prop :=
  match c_kind c with
  | KCp | KSimple => forall k, In k (user_data (c_kind c)) -> writes k c
  | KCC => (forall k, In k ["is_set"; "param"; "char_params"] -> writes k c) /\
      (dget "char_func" (c_attrs c) = Some VNone \/
       exists x y e, dget "char_func" (c_attrs c) = Some (VLine x y e) /\ length x = length y)
  | KCM => (forall k, In k ["is_set"; "param"] -> writes k c) /\
      (dget "char_func" (c_attrs c) = Some VNone \/
       exists x y z n, dget "char_func" (c_attrs c) = Some (VMap x y z) /\ length x = length y /\ length y = length z /\
         forall row, In row (y ++ z) -> length row = n)
  | KGroup => True
  | _ => False
  end.
(** Lists of parameters and flags of a component or connection. *)
Definition good_attr (listed : list string) (k : string) (v : value) : Prop :=
  jsonable v = true /\
  (In k ["design"; "offdesign"] -> exists l, v = VList (map VStr l) /\ forall s, In s l -> In s listed) /\
  (In k ["printout"; "local_design"; "local_offdesign"; "char_warnings"] -> exists b, v = VBool b).

(** What is set on a component besides its parameters. *)
Definition comp_attrs : list string :=
  ["design"; "offdesign"; "local_design"; "local_offdesign"; "design_path"; "printout"; "fkt_group"; "char_warnings"].
(** A component of class [k] with label [l]. *)
Definition good_comp (k : class) (l : string) (o : obj) : Prop :=
  NoDup (keys (o_params o)) /\
  (forall p, In p (keys (o_params o)) -> ~ In p comp_attrs) /\
  (forall a, In a comp_attrs -> dmem a (o_attrs (k_new k l)) = true /\
     exists v, dget a (o_attrs o) = Some v /\ good_attr (o_listed (k_new k l)) a v) /\
  (forall p, match dget p (o_params o), dget p (o_params (k_new k l)) with
             | Some c, Some f => alike c f /\ good_param c /\ (dget "char_func" (c_attrs f) = None \/ dget "char_func" (c_attrs f) = Some VNone)
             | None, None => True
             | _, _ => False
             end) /\
  (forall q, In q [k_in k; k_out k] ->
     match q with
     | Fixed _ => True
     | Counted p _ _ => exists c, dget p (o_params o) = Some c /\ c_kind c = KSimple
     end).

(** Fluid composition: mass fractions, fixed fluids, engines and back ends. *)
Definition good_fluid (usable : string -> string -> value -> option pyerr) (engines : list string) (c : container) : Prop :=
  exists v s e b,
    dget "val" (c_attrs c) = Some (VDict v) /\ dget "is_set" (c_attrs c) = Some (VSet s) /\
    dget "engine" (c_attrs c) = Some (VDict (map (fun x => (fst x, VEngine (snd x))) e)) /\ dget "back_end" (c_attrs c) = Some (VDict b) /\
    NoDup (keys v) /\ jsonable (VDict v) = true /\ jsonable (VDict b) = true /\
    (forall f n, In (f, n) e -> In n engines) /\
    (forall f, In f (keys v) ->
       usable (match dget f e with Some n => n | None => "CoolPropWrapper" end) f (match dget f b with Some x => x | None => VNone end) = None).
(** A reference to a connection of the network, or none. *)
Definition good_ref (labels : list string) (c : container) : Prop :=
  writes "is_set" c /\ writes "unit" c /\
  (dget "ref" (c_attrs c) = Some VNone \/ exists l f d, dget "ref" (c_attrs c) = Some (VRef l f d) /\ In l labels).
(** A property container of a connection. *)
Definition good_data (usable : string -> string -> value -> option pyerr) (engines labels : list string) (c : container) : Prop :=
  match c_kind c with
  | KProp | KSimple => forall k, In k (user_data (c_kind c)) -> writes k c
  | KFlu => good_fluid usable engines c
  | KRef => good_ref labels c
  | _ => False
  end.
(** What is set on a connection besides its properties and survives. *)
Definition conn_attrs : list string := ["design_path"; "design"; "offdesign"; "local_design"; "printout"; "mixing_rule"].
(** A connection with the properties of class Connection. *)
Definition good_conn (usable : string -> string -> value -> option pyerr) (engines labels : list string) (reg : dict class)
    (comps : dict (string * obj)) (c : conn) : Prop :=
  (exists ks os a kt ot b,
     dget (n_source c) comps = Some (ks, os) /\ dget ks reg = Some a /\ In (n_sid c) (connectors (k_out a) os) /\
     dget (n_target c) comps = Some (kt, ot) /\ dget kt reg = Some b /\ In (n_tid c) (connectors (k_in b) ot)) /\
  n_source c <> n_target c /\
  keys (o_params (n_obj c)) = keys new_data /\
  (forall p x f, dget p (o_params (n_obj c)) = Some x -> dget p new_data = Some f -> alike x f /\ good_data usable engines labels x) /\
  (forall a, In a conn_attrs -> exists v, dget a (o_attrs (n_obj c)) = Some v /\ good_attr (o_listed new_conn) a v).

(** A bus whose components belong to the network. *)
Definition good_bus (comps : dict (string * obj)) (b : bus) : Prop :=
  c_kind (b_P b) = KSimple /\ writes "val" (b_P b) /\ writes "is_set" (b_P b) /\ NoDup (keys (b_rows b)) /\
  forall l w, In (l, w) (b_rows b) ->
    l <> "P" /\ dmem l comps = true /\ (w_param w = VNone \/ exists s, w_param w = VStr s) /\
    (w_base w = VStr "bus" \/ w_base w = VStr "component") /\ exists x y e, w_char w = VLine x y e /\ length x = length y.

(** Known units, ranges with two numbers. *)
Definition good_units (s : netunits) : Prop :=
  (forall p, In p ["m"; "p"; "h"; "T"; "x"; "v"; "s"] -> exists u, dget p (nu_unit s) = Some u /\ unit_known p u = Some true) /\
  (forall p, In p ["m"; "p"; "h"] -> exists a b, dget p (nu_range s) = Some [a; b]).

(** A network as built with the methods of the classes, without the cases of C120. *)
Definition good_net (usable : string -> string -> value -> option pyerr) (reg : dict class) (engines : list string) (n : net) : Prop :=
  good_units (t_units n) /\
  NoDup (keys (t_comps n)) /\ NoDup (keys (t_conns n)) /\ NoDup (keys (t_busses n)) /\ t_conns n <> [] /\
  (forall l cls o, In (l, (cls, o)) (t_comps n) ->
     (exists k, dget cls reg = Some k /\ good_comp k l o) /\
     exists x, In x (t_conns n) /\ (n_source (snd x) = l \/ n_target (snd x) = l)) /\
  (forall l c, In (l, c) (t_conns n) -> good_conn usable engines (keys (t_conns n)) reg (t_comps n) c) /\
  (forall l b, In (l, b) (t_busses n) -> good_bus (t_comps n) b).

(** A directory in which nothing stays that is read again: component files of other
    classes, and a file of busses if the network has none. *)
Definition clean (reg : dict class) (n : net) (d : dir) : Prop :=
  NoDup (keys (d_comps d)) /\
  (forall cls, In cls (keys (d_comps d)) -> dget cls reg = None \/ exists l o, In (l, (cls, o)) (t_comps n)) /\
  (t_busses n <> [] \/ d_busses d = None).

(** A parameter of a component after export and import. *)
Definition kept_param (fresh c c' : container) : Prop :=
  c_kind c' = c_kind c /\ (forall k, In k (user_data (c_kind c)) -> same_attr k c c') /\
  (forall k, ~ In k (user_data (c_kind c)) -> same_attr k fresh c').
(** A component after export and import. *)
Definition kept_comp (k : class) (l : string) (o o' : obj) : Prop :=
  (forall a, In a comp_attrs -> dget a (o_attrs o') = dget a (o_attrs o)) /\
  forall p, match dget p (o_params o), dget p (o_params o'), dget p (o_params (k_new k l)) with
            | Some c, Some c', Some fresh => kept_param fresh c c'
            | None, None, None => True
            | _, _, _ => False
            end.
(** The fluids after export and import: same fractions, same members, same engines
    and back ends, where missing ones got the default. *)
Definition kept_fluid (c c' : container) : Prop :=
  same_attr "val" c c' /\
  (exists s, dget "is_set" (c_attrs c) = Some (VSet s) /\ dget "is_set" (c_attrs c') = Some (VList (map VStr s))) /\
  exists v e e' b b',
    dget "val" (c_attrs c) = Some (VDict v) /\
    dget "engine" (c_attrs c) = Some (VDict e) /\ dget "engine" (c_attrs c') = Some (VDict e') /\
    dget "back_end" (c_attrs c) = Some (VDict b) /\ dget "back_end" (c_attrs c') = Some (VDict b') /\
    forall f, dget f e' = match dget f e with Some x => Some x | None => if dmem f v then Some (VEngine "CoolPropWrapper") else None end /\
              dget f b' = match dget f b with Some x => Some x | None => if dmem f v then Some VNone else None end.
(** A reference after export and import: the same one; a set one is set. *)
Definition kept_ref (c c' : container) : Prop :=
  same_attr "ref" c c' /\
  (dget "ref" (c_attrs c) <> Some VNone -> dget "is_set" (c_attrs c) = Some (VBool true) -> same_attr "is_set" c c').
(** A property of a connection after export and import. *)
Definition kept_data (c c' : container) : Prop :=
  c_kind c' = c_kind c /\
  match c_kind c with
  | KFlu => kept_fluid c c'
  | KRef => kept_ref c c'
  | _ => forall k, In k (user_data (c_kind c)) -> same_attr k c c'
  end.
(** A connection after export and import. *)
Definition kept_conn (c c' : conn) : Prop :=
  n_source c' = n_source c /\ n_sid c' = n_sid c /\ n_target c' = n_target c /\ n_tid c' = n_tid c /\
  (forall a, In a conn_attrs -> dget a (o_attrs (n_obj c')) = dget a (o_attrs (n_obj c))) /\
  forall p, match dget p (o_params (n_obj c)), dget p (o_params (n_obj c')) with
            | Some x, Some x' => kept_data x x'
            | None, None => True
            | _, _ => False
            end.
(** A bus after export and import: value, components, parameter, base and line. *)
Definition kept_bus (b b' : bus) : Prop :=
  same_attr "val" (b_P b) (b_P b') /\ same_attr "is_set" (b_P b) (b_P b') /\
  forall l, match dget l (b_rows b), dget l (b_rows b') with
            | Some w, Some w' => w_param w' = w_param w /\ w_base w' = w_base w /\ w_char w' = w_char w
            | None, None => True
            | _, _ => False
            end.
(** Units and ranges after export and import. *)
Definition kept_units (s s' : netunits) : Prop :=
  (forall p, In p ["m"; "p"; "h"; "T"; "x"; "v"; "s"] -> dget p (nu_unit s') = dget p (nu_unit s)) /\
  (forall p, In p ["m"; "p"; "h"] -> exists r r', dget p (nu_range s) = Some r /\ dget p (nu_range s') = Some r' /\ Forall2 Qeq r r').
(** The network after export and import. *)
Definition kept_net (reg : dict class) (n n' : net) : Prop :=
  kept_units (t_units n) (t_units n') /\
  (forall l, match dget l (t_comps n), dget l (t_comps n') with
             | Some (cls, o), Some (cls', o') => cls' = cls /\ exists k, dget cls reg = Some k /\ kept_comp k l o o'
             | None, None => True
             | _, _ => False
             end) /\
  keys (t_conns n') = keys (t_conns n) /\
  (forall l c c', dget l (t_conns n) = Some c -> dget l (t_conns n') = Some c' -> kept_conn c c') /\
  keys (t_busses n') = keys (t_busses n) /\
  (forall l b b', dget l (t_busses n) = Some b -> dget l (t_busses n') = Some b' -> kept_bus b b').

(** The class of a component and the containers of a network. *)
Definition class_of (l : string) (n : net) : option string := option_map fst (dget l (t_comps n)).
Definition conn_attr (l a : string) (n : net) : option value :=
  match dget l (t_conns n) with Some c => dget a (o_attrs (n_obj c)) | None => None end.
Definition conn_param (l p a : string) (n : net) : option value :=
  match dget l (t_conns n) with
  | Some c => match dget p (o_params (n_obj c)) with Some x => dget a (c_attrs x) | None => None end
  | None => None
  end.
Definition comp_param (l p a : string) (n : net) : option value :=
  match dget l (t_comps n) with
  | Some (_, o) => match dget p (o_params o) with Some x => dget a (c_attrs x) | None => None end
  | None => None
  end.
