(** Vocabulary for the statements about characteristic lines and maps. *)
From Coq Require Import Sorting.Sorted.
From Verif Require Import CharModel.
Open Scope Q_scope.

(** Abscissae are strictly increasing. *)
Definition increasing (xs : list Q) : Prop := StronglySorted Qlt xs.

(** Two neighbouring entries of a list. *)
Definition neighbours {A : Type} (a b : A) (l : list A) : Prop :=
  exists l1 l2, l = l1 ++ a :: b :: l2.

(** The straight line through two points. *)
Definition line_through (p q : Q * Q) (x : Q) : Q :=
  snd p + (x - fst p) * ((snd q - snd p) / (fst q - fst p)).

(** The straight line between two numbers: value at fraction f. *)
Definition mix (f a b : Q) : Q := (1 - f) * a + f * b.

(** The line whose points are P. *)
Definition pts_line (P : list (Q * Q)) (ex : bool) : charline :=
  {| cl_x := map fst P; cl_y := map snd P; cl_extrapolate := ex |}.

(** A map as the constructor leaves it, with the user's obligation of
    increasing x and increasing y rows. *)
Record cm_ok (c : charmap) : Prop := {
  ok_nonempty : cm_x c <> [];
  ok_x : increasing (cm_x c);
  ok_ly : length (cm_y c) = length (cm_x c);
  ok_lz : length (cm_z c) = length (cm_x c);
  ok_width : exists n, (0 < n)%nat /\
     (forall r, In r (cm_y c) -> length r = n) /\ (forall r, In r (cm_z c) -> length r = n);
  ok_rows : forall r, In r (cm_y c) -> increasing r
}.

(** Elementwise [a + f (b - a)]. *)
Definition row_mix (f : Q) (r0 r1 : list Q) : list Q := zipq (fun a b => a + f * (b - a)) r0 r1.

(** The speed line at x: border rows outside the table, mixed rows inside. *)
Inductive speedline (c : charmap) (x : Q) : list Q -> list Q -> Prop :=
| sl_below x0 y0 z0 :
    nth_error (cm_x c) 0 = Some x0 -> x <= x0 ->
    nth_error (cm_y c) 0 = Some y0 -> nth_error (cm_z c) 0 = Some z0 ->
    speedline c x y0 z0
| sl_above xn yn zn :
    nth_error (cm_x c) (length (cm_x c) - 1) = Some xn -> xn < x ->
    nth_error (cm_y c) (length (cm_x c) - 1) = Some yn ->
    nth_error (cm_z c) (length (cm_x c) - 1) = Some zn ->
    speedline c x yn zn
| sl_between i x0 x1 y0 y1 z0 z1 :
    nth_error (cm_x c) i = Some x0 -> nth_error (cm_x c) (S i) = Some x1 -> x0 < x -> x <= x1 ->
    nth_error (cm_y c) i = Some y0 -> nth_error (cm_y c) (S i) = Some y1 ->
    nth_error (cm_z c) i = Some z0 -> nth_error (cm_z c) (S i) = Some z1 ->
    speedline c x (row_mix ((x - x0) / (x1 - x0)) y0 y1) (row_mix ((x - x0) / (x1 - x0)) z0 z1).

(** Two maps hold the same numbers. *)
Definition tables_eq (t t' : list (list Q)) : Prop := Forall2 (Forall2 Qeq) t t'.
Definition map_eq (c c' : charmap) : Prop :=
  cm_x c = cm_x c' /\ tables_eq (cm_y c) (cm_y c') /\ tables_eq (cm_z c) (cm_z c').

