(** What a message is and where it has to arrive. *)
From Coq Require Import String List Bool Arith.
From Verif Require Import Base LogModel.
Import ListNotations.
Open Scope nat_scope.
Open Scope string_scope.

(** Settings of a handler. *)
Definition settings (h : handler) := (h_kind h, h_level h, h_format h, h_datefmt h, h_rotation h).

(** The record [r] arrives once, as last one, at every handler whose level it reaches, and at no other. *)
Definition arrives (r : lrecord) (hs hs' : list handler) : Prop :=
  Forall2 (fun h h' => settings h' = settings h
     /\ (h_level h <= r_level r -> h_received h' = (h_received h ++ [r])%list)
     /\ (r_level r < h_level h -> h_received h' = h_received h)) hs hs'.

(** Frame of the stack a call asks for: by default the caller itself, else the given one of the frames above. *)
Definition asked_frame (stack : list string) (kw : kwargs) : option string :=
  nth_error stack (match kw_stack kw with None => 0 | Some s => pred s end).

(** Frames are counted from 1. *)
Definition proper_stack (kw : kwargs) : Prop := kw_stack kw <> Some 0.

(** The record a call has to produce. *)
Definition message (level : nat) (stack : list string) (msg : string) (args : list string) (extra : dict nat) (exc : bool)
  (kw : kwargs) : lrecord :=
  {| r_level := level; r_msg := msg; r_args := args; r_frame := asked_frame stack kw; r_extra := extra; r_exc := exc |}.

(** Extra attributes passed by the caller. *)
Definition given_extra (kw : kwargs) : dict nat := match kw_extra kw with Some e => e | None => [] end.

(** Extra attributes the caller gives for the limits of the progress. *)
Definition gives (k : string) (kw : kwargs) (v : nat) : Prop := exists e, kw_extra kw = Some e /\ dget k e = Some v.
(** The caller leaves it open. *)
Definition leaves (k : string) (kw : kwargs) : Prop := forall e, kw_extra kw = Some e -> dget k e = None.

(** Number of records with a message among those received. *)
Definition copies (msg : string) (rs : list lrecord) : nat :=
  List.length (filter (fun r => String.eqb (r_msg r) msg) rs).
(** Number of lines with a message on the console. *)
Definition console_lines (msg : string) (hs : list handler) : nat :=
  list_sum (map (fun h => match h_kind h with Console => copies msg (h_received h) | LogFile _ => 0 end) hs).
