(** Moving boundary heat exchanger: sections, temperatures at the sections, pinch and
    heat transfer coefficient.
    Source: /repo/src/tespy/components/heat_exchangers/movingboundary.py 288-570.
    Numbers are exact rationals up to the logarithms; the fluid properties are
    oracles. Mass flows are not zero (division of Python floats by zero raises,
    of numpy floats gives inf or nan). Warnings are left out. *)
From Coq Require Export QArith Qabs Qround.
From Coq Require Import Reals Qreals.
From Verif Require Export Base.
Open Scope nat_scope.
Open Scope list_scope.

(** global_vars.py 12. *)
Definition ERR : Q := 1 # 1000000.

(** Fluid of one side: pure or not (movingboundary.py 322-325), saturation enthalpy at
    pressure and vapour content (329-330), temperature at pressure and enthalpy (407, 411). *)
Record fluid := { pure : bool; hsat : Q -> Q -> res Q; Tph : Q -> Q -> Q }.
(** One side: fluid data equal at both connections (movingboundary.py 306), pressure and
    enthalpy at inlet and outlet, mass flow at the inlet (310-321, 378). *)
Record side := { fl : fluid; same_data : bool; p_in : Q; p_out : Q; h_in : Q; h_out : Q; mass : Q }.

(** Comparison of floats, as in movingboundary.py 333-343. *)
Definition qlt (a b : Q) : bool := match Qcompare a b with Lt => true | _ => false end.

(** movingboundary.py 318-319: pressure and enthalpy at the end with the smaller
    enthalpy, enthalpy at the other end. *)
Definition ordered (s : side) : Q * Q * Q :=
  if qlt (h_out s) (h_in s) then (p_out s, h_out s, h_in s) else (p_in s, h_in s, h_out s).

(** movingboundary.py 289-344: ends and phase changes in order of enthalpy. *)
Definition h_steps (s : side) : res (list Q) :=
  if negb (same_data s) then Err ValueError else
  match ordered s with
  | (p, h1, h2) =>
      if pure (fl s) then
        match hsat (fl s) p 1 with
        | Err ValueError | Err NotImplementedError => Ok [h1; h2]
        | Err e => Err e
        | Ok hg =>
            match hsat (fl s) p 0 with
            | Err ValueError | Err NotImplementedError => Ok [h1; h2]
            | Err e => Err e
            | Ok hl =>
                if qlt h1 hl then
                  if qlt (hg + ERR) h2 then Ok [h1; hl; hg; h2]
                  else if qlt (hl + ERR) h2 then Ok [h1; hl; h2] else Ok [h1; h2]
                else if qlt h1 (hg - ERR) then
                  if qlt (hg + ERR) h2 then Ok [h1; hg; h2] else Ok [h1; h2]
                else Ok [h1; h2]
            end
        end
      else Ok [h1; h2]
  end.

(** movingboundary.py 363-366. *)
Fixpoint Q_sections (h : list Q) (m : Q) : list Q :=
  match h with
  | a :: (b :: _) as h' => ((b - a) * m)%Q :: Q_sections h' m
  | _ => []
  end.
(** numpy.cumsum (movingboundary.py 379, 383). *)
Fixpoint cumsum (acc : Q) (l : list Q) : list Q :=
  match l with [] => [] | x :: l' => (acc + x)%Q :: cumsum (acc + x)%Q l' end.
(** sorted (movingboundary.py 385), stable. *)
Fixpoint insert (x : Q) (l : list Q) : list Q :=
  match l with [] => [x] | y :: l' => if qlt y x then y :: insert x l' else x :: y :: l' end.
(** movingboundary.py 385. *)
Definition sorted (l : list Q) : list Q := fold_right insert [] l.

(** movingboundary.py 368-385. *)
Definition assign_sections (hot cold : side) : res (list Q) :=
  rbind (h_steps hot) (fun hh =>
  rbind (h_steps cold) (fun hc =>
  Ok (sorted (cumsum 0 (Q_sections hc (mass cold)) ++ (0%Q :: removelast (cumsum 0 (Q_sections hh (mass hot)))))))).

(** movingboundary.py 404-409: temperature of the hot side where the heat [q] has been
    transferred, counted from its outlet. *)
Definition T_hot (hot : side) (q : Q) : Q := Tph (fl hot) (p_in hot) (h_out hot + q / mass hot)%Q.
(** movingboundary.py 405, 410-413: the same for the cold side, counted from its inlet. *)
Definition T_cold (cold : side) (q : Q) : Q := Tph (fl cold) (p_in cold) (h_in cold + q / mass cold)%Q.
(** movingboundary.py 516-519: differences at the sections. *)
Definition td_at (hot cold : side) (qs : list Q) : list Q := map (fun q => (T_hot hot q - T_cold cold q)%Q) qs.

(** min of a list; of an empty one it raises ValueError (movingboundary.py 520). *)
Definition minimum (l : list Q) : res Q :=
  match l with [] => Err ValueError | x :: l' => Ok (fold_left (fun a y => if qlt y a then y else a) l' x) end.
(** movingboundary.py 505-520. *)
Definition td_pinch (hot cold : side) : res Q :=
  rbind (assign_sections hot cold) (fun qs => minimum (td_at hot cold qs)).

(** round(x, 6) up to the factor (movingboundary.py 448): the nearest integer, the even one
    of two. *)
Definition round6 (x : Q) : Z :=
  let y := (x * 1000000)%Q in
  let f := Qfloor y in
  match Qcompare (y - inject_Z f) (1 # 2) with
  | Lt => f
  | Gt => (f + 1)%Z
  | Eq => if Z.even f then f else (f + 1)%Z
  end.

Open Scope R_scope.
(** movingboundary.py 443-451: logarithmic mean of the absolute differences [a] and [b]
    at both ends; division by zero and logarithm of zero raise. *)
Definition td_log (a b : Q) : res R :=
  if Z.eqb (round6 b) (round6 a) then Ok (Q2R b)
  else if Qeq_bool a 0 then Err ZeroDivisionError
  else if Qeq_bool b 0 then Err ValueError
  else Ok ((Q2R b - Q2R a) / ln (Q2R b / Q2R a)).
(** movingboundary.py 452-455: heat by difference; a zero difference gives inf or nan in
    the code, an error here. *)
Definition UA_section (q : Q) (t : R) : res R := if Req_EM_T t 0 then Err ZeroDivisionError else Ok (Q2R (Qabs q) / t).

(** movingboundary.py 437-456, 466-470: sum over the sections; [qs] are the limits of the
    sections, [tds] the differences there. *)
Fixpoint UA_sum (qs tds : list Q) : res R :=
  match qs, tds with
  | q1 :: (q2 :: _) as qs', t1 :: (t2 :: _) as tds' =>
      rbind (td_log (Qabs t1) (Qabs t2)) (fun t =>
      rbind (UA_section (q2 - q1) t) (fun u => rmap (fun r => u + r) (UA_sum qs' tds')))
  | _, _ => Ok 0
  end.
(** movingboundary.py 458-470: sections, temperatures and sum. *)
Definition calc_UA (hot cold : side) : res R :=
  rbind (assign_sections hot cold) (fun qs => UA_sum qs (td_at hot cold qs)).
