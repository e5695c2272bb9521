(** The registries of user defined equations and busses of a network, and the
    table of components of a bus.
    Models src/tespy/networks/network.py 569-661 and 668-689, 783-791 (tables of
    results) and src/tespy/connections/bus.py 330-405. *)
From Coq Require Export QArith.
From Verif Require Export Base.
Open Scope nat_scope.
Open Scope string_scope.

(** What a results table holds (network.py 632-638: columns of a bus; 786-791:
    parameters of a component class; "Connection": results of connections). *)
Inductive table := TBus | TClass | TConnection.

(** network.py 181-207: the dictionaries of a network; busses and equations are
    numbered (object identity). *)
Record reg := { r_ude : dict nat; r_bus : dict nat; r_results : dict table }.

(** Network.set_defaults, network.py 170-232 *)
Definition empty_reg : reg := {| r_ude := []; r_bus := []; r_results := [] |}.

(** Assignment to user_defined_eq, network.py 579-614 *)
Definition r_with_ude (r : reg) d := {| r_ude := d; r_bus := r_bus r; r_results := r_results r |}.
(** Assignment to busses and results, network.py 626-656 *)
Definition r_with_bus (r : reg) d t := {| r_ude := r_ude r; r_bus := d; r_results := t |}.

(** Arguments: an object of the right class, or another object. network.py 579-656. *)
Inductive oarg := AObj (o : nat) | AWrong.

Section L.
(** The immutable labels of the objects. *)
Variable ulabel blabel : nat -> string.

(** network.py 569-599: add_ude. *)
Fixpoint add_ude (args : list oarg) (r : reg) : reg * option pyerr :=
  match args with
  | [] => (r, None)
  | AWrong :: _ => (r, Some TypeError)
  | AObj u :: args' =>
      if dmem (ulabel u) (r_ude r) then (r, Some ValueError)
      else add_ude args' (r_with_ude r (dset (ulabel u) u (r_ude r)))
  end.

(** network.py 601-614: del_ude. *)
Fixpoint del_ude (us : list nat) (r : reg) : reg * option pyerr :=
  match us with
  | [] => (r, None)
  | u :: us' =>
      if dmem (ulabel u) (r_ude r) then del_ude us' (r_with_ude r (ddel (ulabel u) (r_ude r)))
      else (r, Some KeyError)
  end.

(** network.py 668-689: check_busses. *)
Definition check_busses (a : oarg) (r : reg) : option pyerr :=
  match a with
  | AWrong => Some TypeError
  | AObj b =>
      if existsb (Nat.eqb b) (map snd (r_bus r)) then Some TESPyNetworkError
      else if dmem (blabel b) (r_bus r) then Some TESPyNetworkError
      else None
  end.

(** network.py 616-638: add_busses. *)
Fixpoint add_busses (args : list oarg) (r : reg) : reg * option pyerr :=
  match args with
  | [] => (r, None)
  | a :: args' =>
      match check_busses a r, a with
      | Some e, _ => (r, Some e)
      | None, AWrong => (r, Some TypeError)
      | None, AObj b =>
          add_busses args' (r_with_bus r (dset (blabel b) b (r_bus r)) (dset (blabel b) TBus (r_results r)))
      end
  end.

(** network.py 640-656: del_busses; deleting the results table raises KeyError if
    it is missing. *)
Fixpoint del_busses (bs : list nat) (r : reg) : reg * option pyerr :=
  match bs with
  | [] => (r, None)
  | b :: bs' =>
      if existsb (Nat.eqb b) (map snd (r_bus r)) then
        let d := ddel (blabel b) (r_bus r) in
        if dmem (blabel b) (r_results r)
        then del_busses bs' (r_with_bus r d (ddel (blabel b) (r_results r)))
        else (r_with_bus r d (r_results r), Some KeyError)
      else del_busses bs' r
  end.
End L.

(** network.py 783-791 for the class names of the components, and 1194: the
    results tables created when a network is prepared. *)
Definition init_tables (classes : list string) (r : reg) : reg :=
  r_with_bus r (r_bus r)
    (dset "Connection" TConnection
       (fold_left (fun t c => if dmem c t then t else dset c TClass t) classes (r_results r))).

(* ---- components of a bus ---- *)

(** Values in the dictionaries passed to add_comps. [BNum]: float(v) succeeds;
    strings are assumed not to be numbers. bus.py 330-409. *)
Inductive bval := BNum (q : Q) | BStr (s : string) | BChar (c : nat) | BNone | BOther.

(** A characteristic: the bus's own, a CharLine object, or a constant factor.
    bus.py 330-409. *)
Inductive bchar := COwn | CObj (c : nat) | CConst (q : Q).

(** A row of the table of components, bus.py 186-195. *)
Record brow := { b_param : option string; b_pref : option Q; b_char : bchar; b_base : string }.

(** bus.py 336-338: defaults. *)
Definition default_row : brow := {| b_param := None; b_pref := None; b_char := COwn; b_base := "component" |}.

(** Tables indexed by components (object identity). As in bus.py 330-409. *)
Definition btable := list (nat * brow).

(** Row of a component, bus.py 330-409 *)
Fixpoint bget (k : nat) (t : btable) : option brow :=
  match t with [] => None | (k', v) :: t' => if Nat.eqb k k' then Some v else bget k t' end.
(** Row written, bus.py 330-409 *)
Fixpoint bset (k : nat) (v : brow) (t : btable) : btable :=
  match t with [] => [(k, v)] | (k', v') :: t' => if Nat.eqb k k' then (k', v) :: t' else (k', v') :: bset k v t' end.

(** bus.py 348-398: one key of the dictionary; other keys are ignored. *)
Definition row_item (k : string) (v : bval) (w : brow) : brow + pyerr :=
  if String.eqb k "param" then
    match v with
    | BStr s => inl {| b_param := Some s; b_pref := b_pref w; b_char := b_char w; b_base := b_base w |}
    | BNone => inl {| b_param := None; b_pref := b_pref w; b_char := b_char w; b_base := b_base w |}
    | _ => inr TypeError
    end
  else if String.eqb k "char" then
    match v with
    | BChar c => inl {| b_param := b_param w; b_pref := b_pref w; b_char := CObj c; b_base := b_base w |}
    | BNum q => inl {| b_param := b_param w; b_pref := b_pref w; b_char := CConst q; b_base := b_base w |}
    | _ => inr TypeError
    end
  else if String.eqb k "P_ref" then
    match v with
    | BNum q => inl {| b_param := b_param w; b_pref := Some q; b_char := b_char w; b_base := b_base w |}
    | BNone => inl {| b_param := b_param w; b_pref := None; b_char := b_char w; b_base := b_base w |}
    | _ => inr TypeError
    end
  else if String.eqb k "base" then
    match v with
    | BStr s => if smem s ["bus"; "component"]
        then inl {| b_param := b_param w; b_pref := b_pref w; b_char := b_char w; b_base := s |}
        else inr ValueError
    | _ => inr ValueError
    end
  else inl w.

(** bus.py 348-398: the loop over the items. *)
Fixpoint row_items (items : dict bval) (w : brow) : brow * option pyerr :=
  match items with
  | [] => (w, None)
  | (k, v) :: items' =>
      match row_item k v w with inl w' => row_items items' w' | inr e => (w, Some e) end
  end.

(** An argument of add_comps: a dictionary with its 'comp' entry ([None] if absent,
    [Some None] if not a component) and its other entries, or another object.
    bus.py 330-409. *)
Inductive barg := BDict (comp : option (option nat)) (items : dict bval) | BNotDict.

(** bus.py 330-405: add_comps. *)
Fixpoint add_comps (args : list barg) (t : btable) : btable * option pyerr :=
  match args with
  | [] => (t, None)
  | BDict (Some (Some c)) items :: args' =>
      match row_items items default_row with
      | (w, None) => add_comps args' (bset c w t)
      | (w, Some e) => (bset c w t, Some e)
      end
  | _ :: _ => (t, Some TypeError)
  end.
