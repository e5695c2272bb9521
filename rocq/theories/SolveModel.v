(** The control flow of a calculation: check of determination, Newton loop and
    what happens afterwards.
    Models src/tespy/networks/network.py 1952-2011 (end of solve), 2014-2068
    (solve_loop) and 2070-2125 (solve_determination). *)
From Coq Require Export QArith Qabs.
From Verif Require Export Base.
Open Scope nat_scope.
Open Scope list_scope.

(** Norm of the residual vector: a number, inf or nan. network.py 2017-2068. *)
Inductive fnum := Fin (q : Q) | Inf | NaN.
(** a < b on floats, network.py 2017-2068 *)
Definition flt (a b : fnum) : bool :=
  match a, b with
  | Fin x, Fin y => negb (Qle_bool y x)
  | Fin _, Inf => true
  | _, _ => false
  end.
(** a >= b on floats, network.py 2017-2068 *)
Definition fge (a b : fnum) : bool :=
  match a, b with
  | Fin x, Fin y => Qle_bool y x
  | Inf, Fin _ => true
  | Inf, Inf => true
  | _, _ => false
  end.
(** a * 0.95, network.py 2017-2068 *)
Definition f95 (a : fnum) : fnum := match a with Fin x => Fin (x * (95 # 100)) | o => o end.

(** [ERR ** 0.5] with ERR = 1e-6 (tools/global_vars.py 12). *)
Definition tol : Q := 1 # 1000.

(** [residual_history[-k:]] and [residual_history[-k]]. network.py 2017-2068. *)
Definition lastn (k : nat) (l : list fnum) : list fnum := skipn (length l - k) l.
(** The k-th last residual, network.py 2017-2068 *)
Definition at_end (k : nat) (l : list fnum) : fnum := nth (length l - k) l NaN.

(** 2034-2038: the convergence test. *)
Definition conv_test (min_iter iter : nat) (hist : list fnum) : bool :=
  Nat.leb min_iter (iter + 1) && forallb (fun n => flt n (Fin tol)) (lastn 2 hist).

(** 2042-2050: the progress test. *)
Definition stagnates (iter : nat) (hist : list fnum) : bool :=
  Nat.ltb 40 iter &&
  (forallb (fun n => fge n (f95 (at_end 3 hist))) (skipn (iter - 3) hist) &&
   fge (at_end 1 hist) (f95 (at_end 2 hist))).

Section L.
Variable S0 : Type.
(** One solve_control(): the new state and either an exception or the norm of
    the residual (evaluated at the state before the update) and the flag
    lin_dep set by matrix_inversion. *)
Variable step : S0 -> S0 * res (fnum * bool).

(** What a run of solve_loop leaves behind, network.py 2017-2068 *)
Record outcome := { oc_state : S0; oc_conv : bool; oc_progress : bool; oc_lindep : option bool; oc_hist : list fnum; oc_err : option pyerr }.

(** 2027-2050; [ld] is the current value of the attribute lin_dep ([None]: not
    yet created). [fuel] is the number of iterations left of range(max_iter). *)
Fixpoint loop (min_iter fuel iter : nat) (hist : list fnum) (ld : option bool) (s : S0) : outcome :=
  match fuel with
  | 0 => {| oc_state := s; oc_conv := false; oc_progress := true; oc_lindep := ld; oc_hist := hist; oc_err := None |}
  | S fuel' =>
      match step s with
      | (s', Err e) => {| oc_state := s'; oc_conv := false; oc_progress := true; oc_lindep := ld; oc_hist := hist; oc_err := Some e |}
      | (s', Ok (n, d)) =>
          let hist' := hist ++ [n] in
          if conv_test min_iter iter hist' || d then
            {| oc_state := s'; oc_conv := negb d; oc_progress := true; oc_lindep := Some d; oc_hist := hist'; oc_err := None |}
          else if stagnates iter hist' then
            {| oc_state := s'; oc_conv := false; oc_progress := false; oc_lindep := Some d; oc_hist := hist'; oc_err := None |}
          else loop min_iter fuel' (S iter) hist' (Some d) s'
      end
  end.
(** Network.solve_loop, network.py 2017-2068 *)
Definition solve_loop (min_iter max_iter : nat) (ld : option bool) (s : S0) : outcome := loop min_iter max_iter 0 [] ld s.

(** 2103-2125: the numbers of equations and of variables. *)
Definition determination (n_eq n_vars : nat) : option pyerr :=
  if Nat.ltb n_vars n_eq then Some TESPyNetworkError
  else if Nat.ltb n_eq n_vars then Some TESPyNetworkError
  else None.

(** 1952-2011 after initialise(): the outcome and whether postprocessing ran.
    With max_iter = 0 on a network never solved before the attribute lin_dep
    does not exist (1966). *)
Definition solve (n_eq n_vars min_iter max_iter : nat) (ld : option bool) (s : S0) : outcome * bool :=
  match determination n_eq n_vars with
  | Some e => ({| oc_state := s; oc_conv := false; oc_progress := true; oc_lindep := ld; oc_hist := []; oc_err := Some e |}, false)
  | None =>
      let o := solve_loop min_iter max_iter ld s in
      match oc_err o, oc_lindep o with
      | Some _, _ => (o, false)
      | None, None => ({| oc_state := oc_state o; oc_conv := oc_conv o; oc_progress := oc_progress o;
                          oc_lindep := None; oc_hist := oc_hist o; oc_err := Some AttributeError |}, false)
      | None, Some true => (o, false)
      | None, Some false => (o, oc_progress o)
      end
  end.
End L.
Arguments oc_state {S0}. Arguments oc_conv {S0}. Arguments oc_progress {S0}. Arguments oc_lindep {S0}.
Arguments oc_hist {S0}. Arguments oc_err {S0}.

(** One Newton iteration for a single equation f(x) = 0 with derivative df
    (2227-2245 matrix_inversion, 2255-2258 update_variables for h): the norm is
    |f| before the update; a zero derivative is a singular matrix. *)
Definition newton_step (f df : Q -> Q) (x : Q) : Q * res (fnum * bool) :=
  if Qeq_bool (df x) 0 then (x, Ok (Fin (Qabs (f x)), true))
  else (Qred (x - f x / df x), Ok (Fin (Qabs (f x)), false)).
