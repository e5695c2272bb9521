(** Vocabulary for statements about fluid composition reduction. *)
From Verif Require Import MassModel FluidModel.
Open Scope nat_scope.

Definition fset (s : fstate) (c : nat) : list string := fc_set (cont_of s c).
Definition fvar (s : fstate) (c : nat) : list string := fc_var (cont_of s c).

(** The user fixed the fraction of [f] to [q] on some connection of the branch. *)
Definition fixed_by (s : fstate) (b : list nat) (f : string) (q : Q) : Prop :=
  exists c, In c b /\ In f (fset s c) /\ dget f (frac s c) = Some q.
(** [f] is a fluid of the branch whose fraction is not fixed. *)
Definition open_fluid (s : fstate) (main : nat) (b : list nat) (f : string) : Prop :=
  In f (keys (frac s main)) /\ forall c, In c b -> ~ In f (fset s c).
(** The sum of all fixed fractions. *)
Definition total (s : fstate) (b : list nat) : Q :=
  fold_right Qplus 0%Q
    (concat (map (fun c => map (fun f => match dget f (frac s c) with Some q => q | None => 0%Q end) (fset s c)) b)).
Definition fixed_twice (s : fstate) (b : list nat) : Prop :=
  exists c d f, In c b /\ In d b /\ c <> d /\ In f (fset s c) /\ In f (fset s d).
Definition no_specs (s : fstate) (b : list nat) : Prop := forall c, In c b -> fset s c = [].
Definition dict_sum (d : dict Q) : Q := fold_right Qplus 0%Q (map snd d).

(** A branch as the reduction finds it: sets and dictionaries without repetitions,
    the fluids fixed anywhere in the branch are fluids of each connection (see
    [C19_propagate]), addresses in use are below the next free one. *)
Definition sound_branch (s : fstate) (b : list nat) : Prop :=
  NoDup b /\
  (forall c, In c b -> NoDup (fset s c) /\ NoDup (keys (frac s c)) /\
     fs_of s c < fs_new s /\ fc_val (cont_of s c) < fs_new s) /\
  (forall c d f, In c b -> In d b -> In f (fset s c) -> In f (keys (frac s d))) /\
  (forall c, In c b -> fs_pot s c <> [] /\ forall f, In f (keys (frac s c)) <-> In f (fs_pot s c)).

(** Connections as the user's specifications leave them. *)
Definition sound_conns (s : fstate) (conns : list nat) : Prop :=
  NoDup conns /\
  forall c, In c conns -> NoDup (fset s c) /\ NoDup (keys (frac s c)) /\
    fs_of s c < fs_new s /\ fc_val (cont_of s c) < fs_new s /\ incl (fset s c) (keys (frac s c)).
(** Every connection owns its container and no reset is pending. *)
Definition own_fluid (s : fstate) (conns : list nat) : Prop :=
  (forall c d, In c conns -> In d conns -> fs_of s c = fs_of s d -> c = d) /\
  (forall c, In c conns -> fs_tmp s c = None).
(** Composition dictionaries are not shared across branches. *)
Definition separate (s : fstate) (branches : list (list nat)) : Prop :=
  forall b b' c d, In b branches -> In b' branches -> In c b -> In d b' -> b <> b' ->
    fc_val (cont_of s c) <> fc_val (cont_of s d).
(** The user's specification of fluid [f] on connection [c]. *)
Definition fspec (s : fstate) (c : nat) (f : string) : option Q :=
  if smem f (fset s c) then dget f (frac s c) else None.
(** The solver changes the fractions of variable fluids only and keeps the
    dictionaries free of repetitions. *)
Definition work_ok (conns : list nat) (work : fstate -> (nat -> dict Q) + pyerr) : Prop :=
  forall s h, work s = inl h -> forall c f, In c conns -> ~ In f (fvar s c) ->
    dget f (h (fc_val (cont_of s c))) = dget f (frac s c).
(** The user specifies starting values: set_attr(fluid0=...). *)
Definition set_fluid0 (c : nat) (d : dict Q) (s : fstate) : fstate :=
  let x := cont_of s c in
  set_cont (fs_of s c)
    {| fc_val := fc_val x; fc_val0 := fold_left (fun acc fq => dset (fst fq) (snd fq) acc) d (fc_val0 x);
       fc_set := fc_set x; fc_var := fc_var x; fc_engine := fc_engine x; fc_back := fc_back x; fc_wrap := fc_wrap x |} s.
(** Freshly made connections, numbered from 0. *)
Definition new_conns (n : nat) : fstate := {|
  fs_dict := fun _ => [];
  fs_cont := fun a => {| fc_val := a; fc_val0 := []; fc_set := []; fc_var := []; fc_engine := []; fc_back := []; fc_wrap := [] |};
  fs_of := fun c => c; fs_tmp := fun _ => None; fs_mix := fun _ => None; fs_pot := fun _ => []; fs_new := n |}.
(** A solver that leaves the starting values. *)
Definition idle (s : fstate) : (nat -> dict Q) + pyerr := inl (fs_dict s).
(** Engine and back end used for fluid [f] on connection [c]. *)
Definition wrapper_of (s : fstate) (c : nat) (f : string) : option (string * option string) := dget f (fc_wrap (cont_of s c)).
(** A connection specifies the engine of a fluid whose fraction it fixes. *)
Definition engine_given (s : fstate) (c : nat) (f e : string) : Prop :=
  In f (fset s c) /\ dget f (fc_engine (cont_of s c)) = Some e.
