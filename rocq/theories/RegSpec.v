(** Vocabulary for statements about registries. *)
From Verif Require Import RegModel.
Open Scope nat_scope.
Open Scope string_scope.

Definition has_ude (r : reg) (u : nat) : Prop := exists l, In (l, u) (r_ude r).
Definition has_bus (r : reg) (b : nat) : Prop := exists l, In (l, b) (r_bus r).
Definition objs (args : list oarg) : list nat :=
  flat_map (fun a => match a with AObj o => [o] | AWrong => [] end) args.

(** Operations of the user; [Prepare] is the set-up of results tables in solve. *)
Inductive rop :=
| AddUde (args : list oarg) | DelUde (us : list nat)
| AddBus (args : list oarg) | DelBus (bs : list nat) | Prepare (classes : list string).

Definition run_rop (ulabel blabel : nat -> string) (o : rop) (r : reg) : reg * option pyerr :=
  match o with
  | AddUde a => add_ude ulabel a r
  | DelUde u => del_ude ulabel u r
  | AddBus a => add_busses blabel a r
  | DelBus b => del_busses blabel b r
  | Prepare c => (init_tables c r, None)
  end.

(** State after a history; exceptions are caught by the user. *)
Definition rhistory ulabel blabel (ops : list rop) : reg :=
  fold_left (fun r o => fst (run_rop ulabel blabel o r)) ops empty_reg.

(** What the last entry given for a key says, or the default. *)
Definition given {A} (items : dict bval) (k : string) (read : bval -> option A) (default : A) : A :=
  match dget k items with
  | Some v => match read v with Some a => a | None => default end
  | None => default
  end.
Definition as_param v := match v with BStr s => Some (Some s) | BNone => Some None | _ => None end.
Definition as_pref v := match v with BNum q => Some (Some q) | BNone => Some None | _ => None end.
Definition as_char v := match v with BNum q => Some (CConst q) | BChar c => Some (CObj c) | _ => None end.
Definition as_base v := match v with BStr s => Some s | _ => None end.

(** State of a bus after a history of add_comps calls. *)
Definition bhistory (calls : list (list barg)) : btable :=
  fold_left (fun t a => fst (add_comps a t)) calls [].
