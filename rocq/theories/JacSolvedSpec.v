(** Reference quantities for the meaning of solved equations with temperatures. *)
From Coq Require Import Reals.
Open Scope R_scope.

(** Logarithmic mean of two temperature differences, the textbook formula quoted in
    heat_exchangers/base.py 480-490 and simple.py 520-535. *)
Definition lmtd (a b : R) : R := (a - b) / ln (a / b).
