(** The scalar Newton solver.
    Models src/tespy/tools/helpers.py 513-565 (newton_with_kwargs) over exact
    rationals. The function and its derivative are oracles that may raise. *)
From Coq Require Export QArith Qabs.
From Verif Require Export Base.
Open Scope nat_scope.

(** The tol_mode argument: "rel", "abs" or any other string (helpers.py 515,
    557-562). *)
Inductive tolmode := ModeRel | ModeAbs | ModeBoth.

(** Arguments of newton_with_kwargs (helpers.py 513-516) except the start value
    and max_iter, which change during the loop. [nk_f]/[nk_df] are
    the calls of `function` and `derivative` with function_kwargs, as functions
    of the entry under [parameter]. *)
Record newton_args := {
  nk_f : Q -> res Q;
  nk_df : Q -> res Q;
  nk_target : Q;
  nk_valmin : Q;
  nk_valmax : Q;
  nk_tol_rel : Q;
  nk_tol_abs : Q;
  nk_mode : tolmode
}.

(** What the model records about a run: the returned value, the number of loop
    iterations, the argument and residual of the last function evaluation and
    whether the loop was left because of the iteration limit. Only [no_x] is
    returned by the real function. helpers.py 519-565. *)
Record newton_out := {
  no_x : Q; no_iter : nat; no_prev : Q; no_residual : Q; no_exhausted : bool
}.

(** helpers.py 527-528. *)
Definition eff_mode (a : newton_args) : tolmode :=
  match nk_mode a with
  | ModeRel => if Qle_bool (Qabs (nk_target a)) (2 * nk_tol_rel a)%Q then ModeAbs else ModeRel
  | m => m
  end.

(** helpers.py 557-562: the loop condition after an iteration. *)
Definition not_converged (a : newton_args) (residual : Q) : bool :=
  let abs_bad := Qle_bool (nk_tol_abs a) (Qabs residual) in
  let rel_bad := Qle_bool (nk_tol_rel a) (Qabs (residual / nk_target a)) in
  if (match eff_mode a with ModeAbs => true | _ => false end) || Qeq_bool (nk_target a) 0
  then abs_bad
  else match eff_mode a with
       | ModeRel => rel_bad
       | _ => rel_bad || abs_bad
       end.

(** helpers.py 537-540. *)
Definition clamp (lo hi x : Q) : Q :=
  let x1 := if Qle_bool lo x then x else lo in
  if Qle_bool x1 hi then x1 else hi.

(** helpers.py 530-565: the while loop. [fuel] bounds the recursion; [None] is
    "not finished within fuel iterations". A zero derivative raises
    ZeroDivisionError (Python floats; numpy floats would give inf/nan). *)
Fixpoint newton_loop (fuel : nat) (a : newton_args) (x : Q) (iteration : nat)
    (relax : Q) (max_iter : nat) : option (res newton_out) :=
  match fuel with
  | O => None
  | S fuel' =>
      match nk_f a x, nk_df a x with
      | Err e, _ => Some (Err e)
      | Ok fx, Err e => Some (Err e)
      | Ok fx, Ok dfx =>
          if Qeq_bool dfx 0 then Some (Err ZeroDivisionError) else
          let residual := (nk_target a - fx)%Q in
          let x' := clamp (nk_valmin a) (nk_valmax a) (x + residual / dfx * relax)%Q in
          let iteration' := S iteration in
          let '(relax', max_iter') :=
            if Nat.eqb iteration' 5 then ((3#4)%Q, 12) else (relax, max_iter) in
          if Nat.ltb max_iter' iteration' then
            Some (Ok {| no_x := x'; no_iter := iteration'; no_prev := x;
                        no_residual := residual; no_exhausted := true |})
          else if not_converged a residual then
            newton_loop fuel' a x' iteration' relax' max_iter'
          else
            Some (Ok {| no_x := x'; no_iter := iteration'; no_prev := x;
                        no_residual := residual; no_exhausted := false |})
      end
  end.

(** helpers.py 513-565: newton_with_kwargs. *)
Definition newton (fuel : nat) (a : newton_args) (val0 : Q) (max_iter : nat)
  : option (res newton_out) :=
  newton_loop fuel a val0 0 1%Q max_iter.
