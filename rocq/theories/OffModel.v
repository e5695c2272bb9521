(** Equations that use characteristics, and the checks of parameter limits and of the
    ranges of characteristics after a calculation.
    Models /repo/src/tespy/components/component.py 450-514, 815-845,
    tools/characteristics.py 128-148, 351-431 and the characteristic equations of
    turbines, pumps, compressors, valves and heat exchangers.
    Numbers are exact rationals; design values are not zero and no value is nan unless said
    otherwise. *)
From Verif Require Export CharModel.
Open Scope Q_scope.

(** A connection as the equations see it: values in SI units and design values.
    data_containers.py 520-529. *)
Record port := { om : Q; op : Q; oh : Q; omd : Q; opd : Q; ovd : Q }.
(** data_containers.py 198: char_params. Keys left out have the defaults of get_char_expr
    (component.py 450). *)
Record cparams := { ctype : string; cin : nat; cout : nat }.
(** component.py 338-427: the default parameters *)
Definition default_params : cparams := {| ctype := "rel"; cin := 0; cout := 0 |}.

Section E.
(** v_mix_ph for the fluid of the component: specific volume from pressure and enthalpy. *)
Variable vol : Q -> Q -> Q.
(** isentropic: enthalpy after an isentropic change to a pressure. *)
Variable isentropic : Q -> Q -> Q -> Q.

(** self.inl[i] and self.outl[i]. component.py 476-514. *)
Definition at_port (l : list port) (i : nat) : res port :=
  match nth_error l i with Some p => Ok p | None => Err IndexError end.

(** component.py 450-514 get_char_expr; [None] is the returned False. *)
Definition get_char_expr (inl outl : list port) (param : string) (c : cparams) : res (option Q) :=
  if String.eqb (ctype c) "rel" then
    if String.eqb param "m" then rmap (fun i => Some (om i / omd i)) (at_port inl (cin c))
    else if String.eqb param "m_out" then rmap (fun o => Some (om o / omd o)) (at_port outl (cout c))
    else if String.eqb param "v" then rmap (fun i => Some (om i * vol (op i) (oh i) / ovd i)) (at_port inl (cin c))
    else if String.eqb param "pr" then
      rbind (at_port outl (cout c)) (fun o => rmap (fun i => Some ((op o * opd i) / (op i * opd o))) (at_port inl (cin c)))
    else Err ValueError
  else
    if String.eqb param "m" then rmap (fun i => Some (om i)) (at_port inl (cin c))
    else if String.eqb param "m_out" then rmap (fun o => Some (om o)) (at_port outl (cout c))
    else if String.eqb param "v" then rmap (fun i => Some (om i * vol (op i) (oh i))) (at_port inl (cin c))
    else if String.eqb param "pr" then
      rbind (at_port outl (cout c)) (fun o => rmap (fun i => Some (op o / op i)) (at_port inl (cin c)))
    else Ok None.

(** False as a number (numpy and comparisons treat it as 0). *)
Definition as_num (e : option Q) : Q := match e with Some q => q | None => 0 end.
(** [if not expr: raise ValueError] (turbine.py 364-370, pump.py 279-283, compressor.py
    280-284, valve.py 188-192). *)
Definition checked (e : option Q) : res Q := if Qeq_bool (as_num e) 0 then Err ValueError else Ok (as_num e).

(** A characteristic of a component: data_containers.py 195-200. *)
Record cchar := { ch : charline; ch_param : string; ch_params : cparams }.

(** turbine.py 347-387 eta_s_char_func: the expression is evaluated without char_params. *)
Definition turbine_eta_s_char (inl outl : list port) (eta_d : Q) (c : cchar) : res Q :=
  rbind (get_char_expr inl outl (ch_param c) default_params) (fun e =>
  rbind (checked e) (fun x =>
  rbind (at_port inl 0) (fun i => rbind (at_port outl 0) (fun o =>
  rmap (fun f => - (oh o - oh i) + eta_d * f * (isentropic (op i) (oh i) (op o) - oh i)) (cl_evaluate (ch c) x))))).
(** turbine.py 179-208 eta_s_func. *)
Definition turbine_eta_s (i o : port) (eta : Q) : Q := - (oh o - oh i) + (isentropic (op i) (oh i) (op o) - oh i) * eta.

(** pump.py 263-300, compressor.py 264-301 eta_s_char_func. *)
Definition pump_eta_s_char (inl outl : list port) (eta_d : Q) (c : cchar) : res Q :=
  rbind (get_char_expr inl outl (ch_param c) (ch_params c)) (fun e =>
  rbind (checked e) (fun x =>
  rbind (at_port inl 0) (fun i => rbind (at_port outl 0) (fun o =>
  rmap (fun f => (oh o - oh i) * eta_d * f - (isentropic (op i) (oh i) (op o) - oh i)) (cl_evaluate (ch c) x))))).
(** pump.py 191-218, compressor.py 192-219 eta_s_func. *)
Definition pump_eta_s (i o : port) (eta : Q) : Q := (oh o - oh i) * eta - (isentropic (op i) (oh i) (op o) - oh i).

(** pump.py 348-365 flow_char_func. *)
Definition flow_char_func (inl outl : list port) (c : cchar) : res Q :=
  rbind (get_char_expr inl outl (ch_param c) (ch_params c)) (fun e =>
  rbind (at_port inl 0) (fun i => rbind (at_port outl 0) (fun o =>
  rmap (fun f => op o - op i - f) (cl_evaluate (ch c) (as_num e))))).
(** valve.py 173-196 dp_char_func. *)
Definition dp_char_func (inl outl : list port) (c : cchar) : res Q :=
  rbind (get_char_expr inl outl (ch_param c) (ch_params c)) (fun e =>
  rbind (checked e) (fun x =>
  rbind (at_port inl 0) (fun i => rbind (at_port outl 0) (fun o =>
  rmap (fun f => op i - op o - f) (cl_evaluate (ch c) x))))).

(** Division of Python floats (the values of characteristics are Python floats,
    characteristics.py 117-126). *)
Definition fdiv (a b : Q) : res Q := if Qeq_bool b 0 then Err ZeroDivisionError else Ok (a / b).
(** heat_exchangers/base.py 567-574: the factor on kA from both sides. *)
Definition kA_factor (f1 f2 : Q) : res Q :=
  rbind (fdiv 1 f1) (fun a => rbind (fdiv 1 f2) (fun b => fdiv 2 (a + b))).
(** heat_exchangers/base.py 543-582 kA_char_func; [td_log] is the logarithmic temperature
    difference (576, C33). *)
Definition kA_char_func (inl outl : list port) (kA_d td_log : Q) (c1 c2 : cchar) : res Q :=
  rbind (get_char_expr inl outl (ch_param c1) (ch_params c1)) (fun e1 =>
  rbind (get_char_expr inl outl (ch_param c2) (ch_params c2)) (fun e2 =>
  rbind (cl_evaluate (ch c1) (as_num e1)) (fun f1 => rbind (cl_evaluate (ch c2) (as_num e2)) (fun f2 =>
  rbind (kA_factor f1 f2) (fun fkA =>
  rbind (at_port inl 0) (fun i => rbind (at_port outl 0) (fun o =>
  Ok (om i * (oh o - oh i) + kA_d * fkA * td_log)))))))).
(** heat_exchangers/base.py 474-495 kA_func. *)
Definition kA_func (i o : port) (kA td_log : Q) : Q := om i * (oh o - oh i) + kA * td_log.
(** heat_exchangers/simple.py 672: the factor on kA of simple heat exchangers. *)
Definition kA_factor_simple (f : Q) : res Q := rbind (fdiv 1 f) (fun a => fdiv 2 (1 + a)).
(** heat_exchangers/simple.py 620-674 kA_char_group_func. *)
Definition kA_char_group_func (inl outl : list port) (kA_d td_log : Q) (c : cchar) : res Q :=
  rbind (get_char_expr inl outl (ch_param c) (ch_params c)) (fun e =>
  rbind (at_port inl 0) (fun i => rbind (at_port outl 0) (fun o =>
  rbind (cl_evaluate (ch c) (as_num e)) (fun f => rbind (kA_factor_simple f) (fun fkA =>
  Ok (om i * (oh o - oh i) + kA_d * fkA * td_log)))))).

(* ---- checks after a calculation ---- *)

(** Warnings of the checks: a value above or below its limit; an operating point outside of
    the range of a characteristic, with the limit named in the message.
    component.py 817-845, characteristics.py 137-148, 369-416. *)
Inductive warning := Above (p : string) | Below (p : string) | RangeAbove (lim : Q) | RangeBelow (lim : Q).

(** global_vars.py 12. *)
Definition ERR : Q := 1 # 1000000.

(** characteristics.py 128-148 CharLine.get_domain_errors. *)
Definition line_domain (c : charline) (x : Q) : res (list warning) :=
  rbind (pyidx (cl_x c) (-1)) (fun hi =>
  if negb (Qle_bool x hi) then Ok [RangeAbove hi]
  else rbind (pyidx (cl_x c) 0) (fun lo =>
    if negb (Qle_bool lo x) then rmap (fun m => [RangeBelow m]) (pyidx (cl_x c) 1) else Ok [])).

(** Parameters of a component: a property with value (nan: [None]) and limits, a
    characteristic, a group of characteristics by the names of its elements, or another.
    data_containers.py 241-245, 354-364, 405-409. *)
Inductive pdata :=
| PProp (val : option Q) (lo hi : Q)
| PChar (is_set : bool) (c : cchar)
| PGroup (is_set : bool) (elements : list string)
| POther.

(** component.py 836-838, 842-845: one characteristic. *)
Definition check_char (inl outl : list port) (c : cchar) : res (list warning) :=
  rbind (get_char_expr inl outl (ch_param c) (ch_params c)) (fun e => line_domain (ch c) (as_num e)).
(** get_attr of an element of a group that is a characteristic. component.py 281-286. *)
Definition get_char (ps : dict pdata) (e : string) : res cchar :=
  match dget e ps with Some (PChar _ c) => Ok c | _ => Err AttributeError end.
(** component.py 840-845: the elements of a group in their order. *)
Fixpoint check_group (inl outl : list port) (ps : dict pdata) (es : list string) : res (list warning) :=
  match es with
  | [] => Ok []
  | e :: es' => rbind (rbind (get_char ps e) (check_char inl outl)) (fun w =>
                rmap (fun w' => (w ++ w')%list) (check_group inl outl ps es'))
  end.
(** component.py 818-845: one parameter. *)
Definition check_one (inl outl : list port) (ps : dict pdata) (p : string) (d : pdata) : res (list warning) :=
  match d with
  | PProp None _ _ => Ok []
  | PProp (Some v) lo hi =>
      if negb (Qle_bool v (hi + ERR)) then Ok [Above p]
      else if negb (Qle_bool (lo - ERR) v) then Ok [Below p] else Ok []
  | PChar is_set c => if is_set then check_char inl outl c else Ok []
  | PGroup is_set es => if is_set then check_group inl outl ps es else Ok []
  | POther => Ok []
  end.
(** component.py 815-845 check_parameter_bounds. *)
Fixpoint check_all (inl outl : list port) (ps : dict pdata) (l : dict pdata) : res (list warning) :=
  match l with
  | [] => Ok []
  | (p, d) :: l' => rbind (check_one inl outl ps p d) (fun w => rmap (fun w' => (w ++ w')%list) (check_all inl outl ps l'))
  end.
(** Component.check_parameter_bounds, component.py 817-845 *)
Definition check_parameter_bounds (inl outl : list port) (ps : dict pdata) : res (list warning) := check_all inl outl ps ps.
End E.

(** characteristics.py 351-386 CharMap.get_domain_errors_x: the warnings and the row; [None]
    is a row of nan (0/0 in 383 for a map of one row). *)
Definition map_domain_x (c : charmap) (x : Q) : res (list warning * option arr) :=
  let xpos := searchsorted (cm_x c) x in
  rbind (pyidx (cm_x c) (-1)) (fun hi => rbind (pyidx (cm_x c) 0) (fun lo =>
  if Nat.eqb xpos (length (cm_x c)) && negb (Qeq_bool x hi) then Ok ([RangeAbove hi], Some (View (xpos - 1)))
  else if Nat.eqb xpos 0 && negb (Qeq_bool x lo) then Ok ([RangeBelow lo], Some (View 0))
  else
    rbind (pyidx (cm_x c) (Z.of_nat xpos - 1)) (fun x0 =>
    rbind (pyidx (cm_x c) (Z.of_nat xpos)) (fun x1 =>
    rbind (pyidx (cm_y c) (Z.of_nat xpos - 1)) (fun y0 =>
    rbind (pyidx (cm_y c) (Z.of_nat xpos)) (fun y1 =>
    if Qeq_bool (x1 - x0) 0 then Ok ([], None)
    else let f := (x - x0) / (x1 - x0) in
         Ok ([], Some (Fresh (zipq (fun a b => a + f * (b - a)) y0 y1))))))))).
(** characteristics.py 388-416 CharMap.get_domain_errors_y; nan sorts behind every number,
    so the position is 0, and differs from every number. The limit named in the message is
    not a number then; 0 stands for it. *)
Definition map_domain_y (y : Q) (yarr : option (list Q)) : res (list warning) :=
  match yarr with
  | None => Ok [RangeBelow 0]
  | Some ya =>
      let ypos := searchsorted ya y in
      rbind (pyidx ya (-1)) (fun hi => rbind (pyidx ya 0) (fun lo =>
      if Nat.eqb ypos (length ya) && negb (Qeq_bool y hi) then Ok [RangeAbove hi]
      else if Nat.eqb ypos 0 && negb (Qeq_bool y lo) then Ok [RangeBelow lo] else Ok []))
  end.
(** compressor.py 671-678, one map: [yarr *= (1 - igva / 100)] works in place. Returns the
    map as the check leaves it and the warnings. *)
Definition check_map (c : charmap) (x y igva : Q) : charmap * res (list warning) :=
  match map_domain_x c x with
  | Err e => (c, Err e)
  | Ok (w, None) => (c, rmap (fun w' => (w ++ w')%list) (map_domain_y y None))
  | Ok (w, Some a) =>
      let '(ty, a') := scale_inplace (cm_y c) a (1 - igva / 100) in
      ({| cm_x := cm_x c; cm_y := ty; cm_z := cm_z c |},
       rmap (fun w' => (w ++ w')%list) (map_domain_y y (Some (deref ty a'))))
  end.
