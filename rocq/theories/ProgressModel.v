(** Progress information of the iteration, networks/network.py iterinfo_body. *)
From Coq Require Import Reals ZArith.
Open Scope R_scope.

(** tools/global_vars.py 12 *)
Definition ERR : R := / 1000000.
(** network.py 2180: numpy.finfo(float).eps is 2^-52 *)
Definition EPS : R := / 4503599627370496.

(** network.py 2181-2188: the logarithm of the norm of the residuals on a scale from the
    limits in 2181 and 2182 *)
Definition scaled (r : R) : R :=
  let progress_min := ln ERR in
  let progress_max := ln (sqrt ERR) * -1 in
  let progress_val := ln (Rmax r ERR) * -1 in
  (progress_val - progress_min) / (progress_max - progress_min).

(** network.py 2167-2193: the number handed to the logger; [None] is a norm that is nan,
    [int] cuts off the decimals of a nonnegative number *)
Definition progress (r : option R) : Z :=
  match r with
  | None => (-1)%Z
  | Some r =>
      if Rlt_dec (EPS * 100) r
      then Int_part (Rmax 0 (Rmin 1 (scaled r)) * 100)
      else 100%Z
  end.
