(** Subsystems and labels.  Models /repo/src/tespy/components/subsystem.py 41-85,
    components/component.py 102-121, connections/connection.py 232-249 and
    networks/network.py 349-361.  The bodies of create_comps and create_conns are
    written by the user: a subsystem is the dictionary of connections they leave. *)
From Coq Require Import Ascii.
From Verif Require Import TopoModel.
Open Scope string_scope.
Open Scope list_scope.

(** [x in label] for strings, subsystem.py 48, component.py 111. *)
Fixpoint occurs (sub s : string) : bool :=
  String.prefix sub s || match s with EmptyString => false | String _ r => occurs sub r end.
(** A label given by the user: a string or another object, component.py 106. *)
Inductive label_arg := LStr (s : string) | LOther.
(** component.py 105-121: the label of a component, or the exception. *)
Definition component_label (a : label_arg) : res string :=
  match a with
  | LOther => Err ValueError
  | LStr s => if existsb (fun x => occurs x s) [";"; ","; "."] then Err ValueError else Ok s
  end.
(** subsystem.py 43-53: the label of a subsystem, or the exception. *)
Definition subsystem_label (a : label_arg) : res string :=
  match a with
  | LOther => Err ValueError
  | LStr s => if Nat.ltb 0 (length (filter (fun x => occurs x s) [";"; ", "; "."])) then Err ValueError else Ok s
  end.
(** connection.py 240-246: the label of a connection without and with a label given. *)
Definition default_label (source outlet target inlet : string) : string :=
  (source ++ ":" ++ outlet ++ "_" ++ target ++ ":" ++ inlet)%string.
(** connection.py 241-246 *)
Definition connection_label (source outlet target inlet : string) (a : option label_arg) : res string :=
  match a with
  | None => Ok (default_label source outlet target inlet)
  | Some (LStr s) => Ok s
  | Some LOther => Err TypeError
  end.

(** network.py 359-361: the connections of a subsystem, one call of add_conns each *)
Fixpoint add_each (W : world) (order : list nat -> list nat) (cs : list nat) (n : net) : net * option pyerr :=
  match cs with
  | [] => (n, None)
  | c :: cs => match add_conns W order [AConn c] n with
               | (n', None) => add_each W order cs n'
               | (n', Some e) => (n', Some e)
               end
  end.
(** Network.add_subsys, network.py 349-361; a subsystem is its dictionary [conns] *)
Fixpoint add_subsys (W : world) (order : list nat -> list nat) (subs : list (dict nat)) (n : net) : net * option pyerr :=
  match subs with
  | [] => (n, None)
  | s :: subs => match add_each W order (map snd s) n with
                 | (n', None) => add_subsys W order subs n'
                 | (n', Some e) => (n', Some e)
                 end
  end.
