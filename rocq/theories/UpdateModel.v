(** The end of a Newton iteration: applying the increment and the checks of the
    new values.  Models src/tespy/networks/network.py 2247-2303
    (update_variables, check_variable_bounds), 2328-2387
    (check_connection_properties), src/tespy/connections/connection.py 712-718,
    965-1050 (bound checks of a connection), tools/fluid_properties/helpers.py
    40-57 (single_fluid) and the convergence_check methods of the components
    (turbomachinery/compressor.py 567-588, turbine.py 435-460, pump.py 409-440,
    combustion/base.py 1190-1276).
    Values are rationals; nan and rounding are not modelled.  Debug messages are
    left out.  Fluid property functions are arbitrary functions that may raise. *)
From Coq Require Export QArith Qround.
From Verif Require Export Base.
Open Scope nat_scope.
Open Scope list_scope.

(** [ERR], src/tespy/tools/global_vars.py 12. *)
Definition ERR : Q := 1 # 1000000.

(** Python comparisons [a < b] and [a <= b]. As in connection.py 966-1050. *)
Definition qlt (a b : Q) : bool := negb (Qle_bool b a).
(** As in connection.py 966-1050 *)
Definition qle (a b : Q) : bool := Qle_bool a b.

(** The values that an iteration changes: mass flows by container (several
    connections of a branch share one), pressures and enthalpies by connection
    (never shared), mass fractions by fluid container, component variables, and
    the attribute [fluid_data] of a connection (the fractions at the last call of
    [build_fluid_data]). network.py 2253-2386. *)
Record vstate := {
  v_m : nat -> Q;
  v_p : nat -> Q;
  v_h : nat -> Q;
  v_f : nat -> dict Q;
  v_c : nat -> Q;
  v_fd : nat -> dict Q
}.

(** Assignment to one attribute, as in network.py 2253-2283 *)
Definition nupd {V : Type} (k : nat) (v : V) (f : nat -> V) : nat -> V :=
  fun x => if Nat.eqb x k then v else f x.

(** Assignment to m.val_SI, network.py 2253-2303 *)
Definition set_m a q s := {| v_m := nupd a q (v_m s); v_p := v_p s; v_h := v_h s; v_f := v_f s; v_c := v_c s; v_fd := v_fd s |}.
(** Assignment to p.val_SI, connection.py 966-978 *)
Definition set_p a q s := {| v_m := v_m s; v_p := nupd a q (v_p s); v_h := v_h s; v_f := v_f s; v_c := v_c s; v_fd := v_fd s |}.
(** Assignment to h.val_SI, connection.py 982-1050 *)
Definition set_h a q s := {| v_m := v_m s; v_p := v_p s; v_h := nupd a q (v_h s); v_f := v_f s; v_c := v_c s; v_fd := v_fd s |}.
(** Assignment to fluid.val, network.py 2253-2283 *)
Definition set_f a d s := {| v_m := v_m s; v_p := v_p s; v_h := v_h s; v_f := nupd a d (v_f s); v_c := v_c s; v_fd := v_fd s |}.
(** Assignment to the value of a component variable, network.py 2253-2303 *)
Definition set_c a q s := {| v_m := v_m s; v_p := v_p s; v_h := v_h s; v_f := v_f s; v_c := nupd a q (v_c s); v_fd := v_fd s |}.
(** Connection.build_fluid_data, connection.py 713-718 *)
Definition set_fd a d s := {| v_m := v_m s; v_p := v_p s; v_h := v_h s; v_f := v_f s; v_c := v_c s; v_fd := nupd a d (v_fd s) |}.

(** A method that changes values and may raise: the values at that time.
    As in network.py 2253-2386. *)
Definition out := (vstate * option pyerr)%type.
(** The next statement, unless an exception was raised, network.py 2253-2386 *)
Definition andthen (r : out) (f : vstate -> out) : out :=
  match snd r with None => f (fst r) | Some _ => r end.
(** A Python for loop over such a method. As in network.py 2253-2386. *)
Fixpoint each {A : Type} (f : A -> vstate -> out) (l : list A) (s : vstate) : out :=
  match l with
  | [] => (s, None)
  | x :: l' => andthen (f x s) (each f l')
  end.

(** ** update_variables *)

(** An entry of [variables_dict] (network.py 1118-1124, 1216-1225, 1291-1294):
    what it refers to. *)
Inductive uvar :=
| UM (a : nat)
| UP (c : nat)
| UH (c : nat)
| UF (a : nat) (f : string)
| UC (a : nat).

(** The limits [min_val] and [max_val] of a component variable. network.py 2287-2303. *)
Record limits := { c_min : nat -> Q; c_max : nat -> Q }.

(** network.py 2267-2277: snapping a fraction. *)
Definition snap (q : Q) : Q := if qlt q ERR then 0%Q else if qlt (1 - ERR) q then 1%Q else q.
(** network.py 2282-2286. *)
Definition clip (lo hi q : Q) : Q := if qlt q lo then lo else if qlt hi q then hi else q.
(** [max(1, x)] of Python. *)
Definition pymax1 (x : Q) : Q := if qlt 1 x then x else 1%Q.

(** network.py 2256-2286: one entry; [col] is the [J_col] of the container,
    [inc] the list of increments. *)
Definition update_one (L : limits) (inc : list Q) (e : uvar * nat) (s : vstate) : out :=
  match nth_error inc (snd e) with
  | None => (s, Some IndexError)
  | Some d =>
      match fst e with
      | UM a => (set_m a (v_m s a + d)%Q s, None)
      | UH c => (set_h c (v_h s c + d)%Q s, None)
      | UP c =>
          if Qeq_bool (v_p s c) 0 then (s, Some ZeroDivisionError)
          else let relax := pymax1 ((-2) * d / v_p s c)%Q in
               (set_p c (v_p s c + d / relax)%Q s, None)
      | UF a f =>
          match dget f (v_f s a) with
          | None => (s, Some KeyError)
          | Some q => (set_f a (dset f (snap (q + d)%Q) (v_f s a)) s, None)
          end
      | UC a => (set_c a (clip (c_min L a) (c_max L a) (v_c s a + d)%Q) s, None)
      end
  end.

(** Network.update_variables, network.py 2253-2283 *)
Definition update_variables (L : limits) (inc : list Q) (vars : list (uvar * nat)) (s : vstate) : out :=
  each (update_one L inc) vars s.

(** ** Bound checks of a connection *)

(** A fluid property wrapper: limits and property functions. wrappers.py 135-283. *)
Record wrapper := {
  w_pmin : Q; w_pmax : Q; w_Tmin : Q; w_Tmax : Q;
  w_Tph : Q -> Q -> res Q;
  w_hpT : Q -> Q -> res Q;
  w_hpQ : Q -> Q -> res Q
}.

(** A connection: its number, the addresses of its mass flow and its fluid
    container, [good_starting_values], whether temperature and superheating are
    specified, [Td_bp.val_SI], the specified phase, the wrappers by fluid and
    [h_mix_pT] as a function of pressure, temperature and fluid data.
    connection.py 966-1050. *)
Record conn := {
  k_id : nat; k_m : nat; k_fl : nat;
  k_good : bool; k_T : bool; k_Td : bool; k_Tdv : Q; k_state : option string;
  k_wrap : dict wrapper;
  k_hmix : Q -> Q -> dict Q -> res Q
}.

(** What is unknown ([is_var]): mass flow containers, pressures and enthalpies of
    connections, fluids of a fluid container. network.py 1209-1225. *)
Record unknowns := { x_m : nat -> bool; x_p : nat -> bool; x_h : nat -> bool; x_f : nat -> list string }.

(** Ranges of the network in SI units and the number of the iteration.
    network.py 2337-2386. *)
Record netpar := { m_lo : Q; m_hi : Q; p_lo : Q; p_hi : Q; h_lo : Q; h_hi : Q; iter : nat }.

(** helpers.py 40-41 and 50-57. *)
Definition number_of_fluids (fd : dict Q) : nat := length (filter (fun x => qlt ERR (snd x)) fd).
(** single_fluid, fluid_properties/helpers.py 52-57 with get_pure_fluid 45-47 *)
Definition single_fluid (fd : dict Q) : option string :=
  if Nat.ltb 1 (number_of_fluids fd) then None
  else match filter (fun x => qlt ERR (snd x)) fd with [] => None | x :: _ => Some (fst x) end.

(** connection.py 965-979. *)
Definition check_pressure_bounds (w : wrapper) (c : conn) (s : vstate) : out :=
  let p := v_p s (k_id c) in
  if qlt (w_pmax w) p then (set_p (k_id c) (w_pmax w) s, None)
  else if qlt p (w_pmin w) then
    match w_Tph w p (v_h s (k_id c)) with
    | Ok _ => (s, None)
    | Err ValueError => (set_p (k_id c) (w_pmin w + 10)%Q s, None)
    | Err e => (s, Some e)
    end
  else (s, None).

(** connection.py 983-992: the lower limit of the enthalpy. *)
Definition hmin_of (w : wrapper) (p : Q) : res Q :=
  match w_hpT w p (w_Tmin w + (1 # 10))%Q with
  | Err ValueError => w_hpT w p (w_Tmin w * (105 # 100))%Q
  | r => r
  end.

(** connection.py 1001-1009: the upper limit, the temperature is reduced by one
    per cent until the property function does not raise.  [fuel] bounds the
    number of rounds. *)
Fixpoint hmax_loop (fuel : nat) (w : wrapper) (p T : Q) : res Q :=
  match fuel with
  | O => Err RecursionError
  | S n =>
      match w_hpT w p T with
      | Err ValueError =>
          let T' := (T * (99 # 100))%Q in
          if qlt T' (w_Tmin w) then Err ValueError else hmax_loop n w p T'
      | r => r
      end
  end.
(** A sufficient number of rounds for positive limits (see [hmax_fuel_enough] in
    UpdateProofs.v). For the loop of connection.py 982-1011. *)
Definition hmax_fuel (w : wrapper) : nat := Z.to_nat (Qceiling (100 * (w_Tmax w / w_Tmin w))) + 2.
(** Connection.check_enthalpy_bounds, connection.py 982-1011: the upper limit *)
Definition hmax_of (w : wrapper) (p : Q) : res Q := hmax_loop (hmax_fuel w) w p (w_Tmax w).

(** connection.py 981-1013. *)
Definition check_enthalpy_bounds (w : wrapper) (c : conn) (s : vstate) : out :=
  let p := v_p s (k_id c) in
  let h := v_h s (k_id c) in
  match hmin_of w p with
  | Err e => (s, Some e)
  | Ok hmin =>
      if qlt h hmin then
        (set_h (k_id c) (if qlt hmin 0 then hmin * (9999 # 10000) else hmin * (10001 # 10000))%Q s, None)
      else
        match hmax_of w p with
        | Err e => (s, Some e)
        | Ok hmax =>
            if qlt hmax h then (set_h (k_id c) (hmax * (9999 # 10000))%Q s, None) else (s, None)
        end
  end.

(** state.val == x, connection.py 1015-1024 *)
Definition state_is (c : conn) (x : string) : bool :=
  match k_state c with Some y => String.eqb y x | None => false end.

(** connection.py 1015-1026. *)
Definition check_two_phase_bounds (w : wrapper) (c : conn) (s : vstate) : out :=
  let p := v_p s (k_id c) in
  let h := v_h s (k_id c) in
  if qlt 0 (k_Tdv c) || state_is c "g" then
    match w_hpQ w p 1 with
    | Err e => (s, Some e)
    | Ok hs => if qlt h hs then (set_h (k_id c) (hs * (101 # 100))%Q s, None) else (s, None)
    end
  else if qlt (k_Tdv c) 0 || state_is c "l" then
    match w_hpQ w p 0 with
    | Err e => (s, Some e)
    | Ok hs => if qlt hs h then (set_h (k_id c) (hs * (99 # 100))%Q s, None) else (s, None)
    end
  else (s, None).

(** max, as in connection.py 1035-1050 *)
Fixpoint qmax_list (x : Q) (l : list Q) : Q :=
  match l with [] => x | y :: l' => qmax_list (if qlt x y then y else x) l' end.
(** min, as in connection.py 1035-1050 *)
Fixpoint qmin_list (x : Q) (l : list Q) : Q :=
  match l with [] => x | y :: l' => qmin_list (if qlt y x then y else x) l' end.

(** connection.py 1028-1050. *)
Definition check_temperature_bounds (c : conn) (s : vstate) : out :=
  match rmapM (fun fw => match dget (fst fw) (v_f s (k_fl c)) with
                         | None => Err KeyError
                         | Some q => Ok (if qlt ERR q then Some (snd fw) else None)
                         end) (k_wrap c) with
  | Err e => (s, Some e)
  | Ok ws =>
      let ws' := fold_right (fun o l => match o with Some w => w :: l | None => l end) [] ws in
      match ws' with
      | [] => (s, Some ValueError)
      | w :: l =>
          let Tmin := (qmax_list (w_Tmin w) (map w_Tmin l) * (101 # 100))%Q in
          let Tmax := (qmin_list (w_Tmax w) (map w_Tmax l) * (99 # 100))%Q in
          let p := v_p s (k_id c) in
          match k_hmix c p Tmin (v_fd s (k_id c)), k_hmix c p Tmax (v_fd s (k_id c)) with
          | Err e, _ => (s, Some e)
          | _, Err e => (s, Some e)
          | Ok hmin, Ok hmax =>
              let s1 := if qlt (v_h s (k_id c)) hmin then set_h (k_id c) hmin s else s in
              (if qlt hmax (v_h s1 (k_id c)) then set_h (k_id c) hmax s1 else s1, None)
          end
      end
  end.

(** network.py 2337-2348: pure fluid. *)
Definition check_pure (N : netpar) (X : unknowns) (w : wrapper) (c : conn) (s : vstate) : out :=
  andthen (if x_p X (k_id c) then check_pressure_bounds w c s else (s, None)) (fun s =>
  if x_h X (k_id c) then
    andthen (check_enthalpy_bounds w c s) (fun s =>
    if (k_Td c || match k_state c with Some _ => true | None => false end) && Nat.ltb (iter N) 3
    then check_two_phase_bounds w c s else (s, None))
  else (s, None)).

(** network.py 2351-2375: mixture. *)
Definition check_mixture (N : netpar) (X : unknowns) (c : conn) (s : vstate) : out :=
  let s1 :=
    if x_p X (k_id c) then
      if qle (v_p s (k_id c)) (p_lo N) then set_p (k_id c) (p_lo N) s
      else if qle (p_hi N) (v_p s (k_id c)) then set_p (k_id c) (p_hi N) s else s
    else s in
  if x_h X (k_id c) then
    let s2 :=
      if qlt (v_h s1 (k_id c)) (h_lo N) then set_h (k_id c) (h_lo N) s1
      else if qlt (h_hi N) (v_h s1 (k_id c)) then set_h (k_id c) (h_hi N) s1 else s1 in
    if k_T c then check_temperature_bounds c s2 else (s2, None)
  else (s1, None).

(** network.py 2378-2385. *)
Definition check_mass_flow (N : netpar) (X : unknowns) (c : conn) (s : vstate) : vstate :=
  if qle (v_m s (k_m c)) (m_lo N) && x_m X (k_m c) then set_m (k_m c) (m_lo N) s
  else if qle (m_hi N) (v_m s (k_m c)) && x_m X (k_m c) then set_m (k_m c) (m_hi N) s
  else s.

(** network.py 2328-2385.  The wrapper of the single fluid exists by
    construction of [fluid_data]; KeyError otherwise. *)
Definition check_connection_properties (N : netpar) (X : unknowns) (c : conn) (s : vstate) : out :=
  andthen
    (match single_fluid (v_fd s (k_id c)) with
     | Some fl => match dget fl (k_wrap c) with
                  | Some w => check_pure N X w c s
                  | None => (s, Some KeyError)
                  end
     | None => if Nat.ltb (iter N) 4 && negb (k_good c) then check_mixture N X c s else (s, None)
     end)
    (fun s => (check_mass_flow N X c s, None)).

(** ** check_variable_bounds *)

(** [sum(d.values())]; as in network.py 2337-2386 *)
Definition qsum (l : list Q) : Q := fold_left Qplus l 0%Q.
(** sum(fluid.val.values()), network.py 2337-2386 *)
Definition total (d : dict Q) : Q := qsum (map snd d).

(** network.py 2293-2294: dividing the variable fractions by the total. *)
Fixpoint scale (fs : list string) (t : Q) (d : dict Q) : dict Q * option pyerr :=
  match fs with
  | [] => (d, None)
  | f :: fs' =>
      match dget f d with
      | None => (d, Some KeyError)
      | Some q => if Qeq_bool t 0 then (d, Some ZeroDivisionError) else scale fs' t (dset f (q / t)%Q d)
      end
  end.

(** network.py 2291-2294. *)
Definition normalise (X : unknowns) (a : nat) (s : vstate) : out :=
  let r := scale (x_f X a) (total (v_f s a)) (v_f s a) in (set_f a (fst r) s, snd r).

(** connection.py 712-718. *)
Definition build_fluid_data (c : conn) (s : vstate) : vstate := set_fd (k_id c) (v_f s (k_fl c)) s.

(** network.py 2288-2297: body of the first loop. *)
Definition check_conn (N : netpar) (X : unknowns) (c : conn) (s : vstate) : out :=
  andthen (normalise X (k_fl c) s) (fun s => check_connection_properties N X c (build_fluid_data c s)).

(** Components with a convergence check.  A pump with a flow characteristic has
    the specific volume at its inlet (a function of the state) and the first, second and last
    sampling point of the characteristic.  A combustion chamber has its
    inlets, its outlet, the names of oxygen, carbon dioxide, water and the fuels
    and whether the air ratio is below two and not specified.
    pump.py 418-440, combustion/base.py 1202-1276. *)
Inductive comp :=
| Compressor (i o : conn)
| Turbine (i o : conn)
| Pump (i o : conn) (flow : option ((vstate -> res Q) * Q * Q * Q))
| Combustion (ins : list conn) (o : conn) (o2 co2 h2o : string) (fuels : list string) (lamb_small : bool)
| OtherComp.

(** compressor.py 578-588. *)
Definition conv_compressor (X : unknowns) (i o : conn) (s : vstate) : vstate :=
  let i := k_id i in let o := k_id o in
  let s := if x_p X o && qlt (v_p s o) (v_p s i) then set_p o (v_p s i * (11 # 10))%Q s else s in
  let s := if x_h X o && qlt (v_h s o) (v_h s i) then set_h o (v_h s i * (11 # 10))%Q s else s in
  let s := if x_p X i && qlt (v_p s o) (v_p s i) then set_p i (v_p s o * (9 # 10))%Q s else s in
  if x_h X i && qlt (v_h s o) (v_h s i) then set_h i (v_h s o * (9 # 10))%Q s else s.

(** turbine.py 446-460. *)
Definition conv_turbine (X : unknowns) (ci co : conn) (s : vstate) : vstate :=
  let i := k_id ci in let o := k_id co in
  let s :=
    if k_good ci then s
    else
      let s := if qle (v_p s i) 100000 && x_p X i then set_p i 100000 s else s in
      let s := if qlt (v_h s i) 1000000 && x_h X i then set_h i 1000000 s else s in
      if qlt (v_h s o) 500000 && x_h X o then set_h o 500000 s else s in
  let s := if qle (v_h s i) (v_h s o) && x_h X o then set_h o (v_h s i * (9 # 10))%Q s else s in
  if qle (v_p s i) (v_p s o) && x_p X o then set_p o (v_p s i * (9 # 10))%Q s else s.

(** pump.py 421-440; the specific volume is never zero. *)
Definition conv_pump (X : unknowns) (ci co : conn) (flow : option ((vstate -> res Q) * Q * Q * Q)) (s : vstate) : out :=
  let i := k_id ci in let o := k_id co in
  let s := if x_p X o && qlt (v_p s o) (v_p s i) then set_p o (v_p s o * 2)%Q s else s in
  let s := if x_p X i && qlt (v_p s o) (v_p s i) then set_p i (v_p s o * (1 # 2))%Q s else s in
  let s := if x_h X o && qlt (v_h s o) (v_h s i) then set_h o (v_h s o * (11 # 10))%Q s else s in
  let s := if x_h X i && qlt (v_h s o) (v_h s i) then set_h i (v_h s o * (9 # 10))%Q s else s in
  match flow with
  | None => (s, None)
  | Some (volf, x0, x1, xl) =>
      match volf s with
      | Err e => (s, Some e)
      | Ok vol =>
          let expr := (v_m s (k_m ci) * vol)%Q in
          if qlt xl expr && x_m X (k_m ci) then (set_m (k_m ci) (xl / vol)%Q s, None)
          else if qlt expr x1 && x_m X (k_m ci) then (set_m (k_m ci) (x0 / vol)%Q s, None)
          else (s, None)
      end
  end.

(** combustion/base.py 1204-1208: correction and sum of the inlet mass flows. *)
Fixpoint comb_inlets (X : unknowns) (l : list conn) (acc : Q) (s : vstate) : vstate * Q :=
  match l with
  | [] => (s, acc)
  | i :: l' =>
      let s := if qlt (v_m s (k_m i)) 0 && x_m X (k_m i) then set_m (k_m i) (1 # 100) s else s in
      comb_inlets X l' (acc + v_m s (k_m i))%Q s
  end.

(** Lines 1237-1239: mass flow of a fluid entering. *)
Fixpoint comb_mf (l : list conn) (f : string) (acc : Q) (s : vstate) : res Q :=
  match l with
  | [] => Ok acc
  | i :: l' => match dget f (v_f s (k_fl i)) with
               | None => Err KeyError
               | Some q => comb_mf l' f (acc + q * v_m s (k_m i))%Q s
               end
  end.

(** Lines 1214-1230: keeping a fraction between two limits. *)
Definition comb_band (hi v_hi v_lo q : Q) : Q :=
  let q := if qlt hi q then v_hi else q in
  if qlt q (1 # 1000) then v_lo else q.

(** Lines 1213-1242: one variable fluid at the outlet. *)
Definition comb_fluid (ins : list conn) (a : nat) (o2 co2 h2o : string) (fuels : list string) (m : Q)
    (f : string) (s : vstate) : out :=
  match dget f (v_f s a) with
  | None => (s, Some KeyError)
  | Some q =>
      let put x := (set_f a (dset f x (v_f s a)) s, @None pyerr) in
      if String.eqb f o2 then put (comb_band (1 # 4) (1 # 5) (1 # 20) q)
      else if String.eqb f co2 then put (comb_band (1 # 10) (75 # 1000) (1 # 50) q)
      else if String.eqb f h2o then put (comb_band (1 # 10) (75 # 1000) (1 # 50) q)
      else if smem f fuels then put (if qlt 0 q then 0%Q else q)
      else
        match comb_mf ins f 0 s with
        | Err e => (s, Some e)
        | Ok mf =>
            if Qeq_bool m 0 then (s, Some ZeroDivisionError)
            else let d := (q - mf / m)%Q in
                 if qlt (3 # 100) d || qlt d (- (3 # 100)) then put (mf / m)%Q else (s, None)
        end
  end.

(** Lines 1262-1264: fuel fraction of an inlet. *)
Fixpoint comb_fuel (fuels : list string) (d : dict Q) (acc : Q) : res Q :=
  match fuels with
  | [] => Ok acc
  | f :: l => match dget f d with None => Err KeyError | Some q => comb_fuel l d (acc + q)%Q end
  end.

(** Lines 1258-1273: [found] is [fuel_found], which is reset for every inlet,
    [fi] is [fuel_inlet], [air] is [air_tmp] ([None] while unbound). *)
Fixpoint comb_search (X : unknowns) (l : list conn) (fuels : list string) (found : bool) (fi : option conn)
    (air : option Q) (s : vstate) : res (bool * option conn * option Q) :=
  match l with
  | [] => Ok (found, fi, air)
  | i :: l' =>
      if k_good i then comb_search X l' fuels false fi air s
      else
        match comb_fuel fuels (v_f s (k_fl i)) 0 with
        | Err e => Err e
        | Ok fuel =>
            let hit := qlt (75 # 100) fuel && x_m X (k_m i) in
            comb_search X l' fuels hit (if hit then Some i else fi)
              (if qlt fuel (75 # 100) then Some (v_m s (k_m i)) else air) s
        end
  end.

(** combustion/base.py 1201-1276. *)
Definition conv_combustion (X : unknowns) (ins : list conn) (o : conn) (o2 co2 h2o : string) (fuels : list string)
    (lamb_small : bool) (s : vstate) : out :=
  let r := comb_inlets X ins 0 s in
  andthen (each (comb_fluid ins (k_fl o) o2 co2 h2o fuels (snd r)) (x_f X (k_fl o)) (fst r)) (fun s =>
  andthen (normalise X (k_fl o) s) (fun s =>
  let s := build_fluid_data o s in
  let s := if qlt (v_m s (k_m o)) 0 && x_m X (k_m o) then set_m (k_m o) 10 s else s in
  let s := if negb (k_good o) && (qlt (v_h s (k_id o)) 750000 && x_h X (k_id o))
           then set_h (k_id o) 1000000 s else s in
  if lamb_small then
    match comb_search X ins fuels false None None s with
    | Err e => (s, Some e)
    | Ok (true, Some i, Some air) => (set_m (k_m i) (air / 25)%Q s, None)
    | Ok (true, _, _) => (s, Some UnboundLocalError)
    | Ok (false, _, _) => match ins with [] => (s, Some UnboundLocalError) | _ => (s, None) end
    end
  else (s, None))).

(** convergence_check of the classes: compressor.py 576-588, turbine.py 444-460, pump.py 418-440, combustion/base.py 1202-1276, component.py 848 *)
Definition convergence_check (X : unknowns) (cp : comp) (s : vstate) : out :=
  match cp with
  | Compressor i o => (conv_compressor X i o s, None)
  | Turbine i o => (conv_turbine X i o s, None)
  | Pump i o flow => conv_pump X i o flow s
  | Combustion ins o o2 co2 h2o fuels lamb_small => conv_combustion X ins o o2 co2 h2o fuels lamb_small s
  | OtherComp => (s, None)
  end.

(** network.py 2286-2303. *)
Definition check_variable_bounds (N : netpar) (X : unknowns) (conns : list conn) (comps : list comp) (s : vstate) : out :=
  andthen (each (check_conn N X) conns s) (fun s =>
  if Nat.ltb (iter N) 3 then
    andthen (each (convergence_check X) comps s) (each (check_connection_properties N X) conns)
  else (s, None)).
