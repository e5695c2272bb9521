(** Specified states of connections, starting values and reported values.
    Source: /repo/src/tespy/connections/connection.py 611-671, 903-963;
    networks/network.py 1141-1176, 1208-1225, 1291-1294, 1530-1562, 1598-1608,
    1661-1733, 1766-1832, 2468-2472.
    Numbers are exact rationals, nan is [None].  The property functions of the
    composition of a connection are functions of pressure and enthalpy or
    temperature that may raise; nan as argument raises ValueError (CoolProp).  The
    start value of the iteration of mixture temperatures is left out.  Every
    connection owns its mass flow container (sharing is modelled in MassModel and
    ModeModel), unknown compositions stay as they are.  The solver is an oracle
    that returns a value for every unknown m, p and h. *)
From Coq Require Import QArith Qabs.
From Verif Require Import Base UnitsModel.
Open Scope string_scope.
Open Scope list_scope.

(** A float; nan is None; data_containers.py 520-529. *)
Definition num := option Q.
(** A FluidProperties container, data_containers.py 484-500 *)
Record cont := { k_set : bool; k_var : bool; k_val : num; k_val0 : num; k_SI : num; k_unit : string }.
(** A reference with its flag, data_containers.py 520-529 and connection.py 1169-1189 *)
Record ref := { r_set : bool; r_conn : string; r_factor : Q; r_delta : Q; r_SI : num }.
(** Property functions of a composition, functions.py 88-200, 224-231: h(p, T), h(p, x),
    p_sat(T), T_sat(p), T(p, h), x(p, h), v(p, h), s(p, h), phase *)
Record fluid := {
  f_mixture : bool; f_hpT : Q -> Q -> res Q; f_hpQ : Q -> Q -> res Q; f_psat : Q -> res Q; f_Tsat : Q -> res Q;
  f_Tph : Q -> Q -> res Q; f_Qph : Q -> Q -> res Q; f_vph : Q -> Q -> res Q; f_sph : Q -> Q -> res Q;
  f_phase : Q -> Q -> res string }.
(** A connection, connection.py 254-276: containers and references by name, state,
    reported phase, [good_starting_values], known composition ([not fluid.is_var]),
    property functions, design values of what is set in offdesign mode (network.py
    1598-1602), names of presolved containers ([_solved]), names of the equations *)
Record conn := {
  n_c : string -> cont; n_r : string -> ref; n_state : option string; n_phase : option string; n_good : bool;
  n_known : bool; n_fluid : fluid; n_off : dict num; n_solved : list string; n_eqs : list string }.

(** one container replaced, e.g. network.py 1175 *)
Definition upd (k : string) (g : cont -> cont) (c : conn) : conn :=
  {| n_c := fun j => if String.eqb j k then g (n_c c j) else n_c c j; n_r := n_r c; n_state := n_state c; n_phase := n_phase c;
     n_good := n_good c; n_known := n_known c; n_fluid := n_fluid c; n_off := n_off c; n_solved := n_solved c; n_eqs := n_eqs c |}.
(** [val_SI = x], e.g. connection.py 651 *)
Definition with_SI (x : num) (k : cont) : cont :=
  {| k_set := k_set k; k_var := k_var k; k_val := k_val k; k_val0 := k_val0 k; k_SI := x; k_unit := k_unit k |}.
(** [val = x], connection.py 956 *)
Definition with_val (x : num) (k : cont) : cont :=
  {| k_set := k_set k; k_var := k_var k; k_val := x; k_val0 := k_val0 k; k_SI := k_SI k; k_unit := k_unit k |}.
(** [val0 = x], network.py 1808 *)
Definition with_val0 (x : num) (k : cont) : cont :=
  {| k_set := k_set k; k_var := k_var k; k_val := k_val k; k_val0 := x; k_SI := k_SI k; k_unit := k_unit k |}.
(** [unit = u], network.py 1157 *)
Definition with_unit (u : string) (k : cont) : cont :=
  {| k_set := k_set k; k_var := k_var k; k_val := k_val k; k_val0 := k_val0 k; k_SI := k_SI k; k_unit := u |}.
(** [is_var = b], network.py 1213 *)
Definition with_var (b : bool) (k : cont) : cont :=
  {| k_set := k_set k; k_var := b; k_val := k_val k; k_val0 := k_val0 k; k_SI := k_SI k; k_unit := k_unit k |}.
(** [is_set = True], network.py 1600 *)
Definition with_set (k : cont) : cont :=
  {| k_set := true; k_var := false; k_val := k_val k; k_val0 := k_val0 k; k_SI := k_SI k; k_unit := k_unit k |}.
(** containers and the SI value, e.g. connection.py 650 *)
Definition SI (c : conn) (k : string) : num := k_SI (n_c c k).
(** [container.is_set], e.g. connection.py 631 *)
Definition isset (c : conn) (k : string) : bool := k_set (n_c c k).
(** presolved containers and equations, connection.py 614-625 *)
Definition with_eqs (c : conn) (solved eqs : list string) : conn :=
  {| n_c := n_c c; n_r := n_r c; n_state := n_state c; n_phase := n_phase c; n_good := n_good c; n_known := n_known c;
     n_fluid := n_fluid c; n_off := n_off c; n_solved := solved; n_eqs := eqs |}.
(** [good_starting_values = True], network.py 1562, 2471 *)
Definition with_good (c : conn) : conn :=
  {| n_c := n_c c; n_r := n_r c; n_state := n_state c; n_phase := n_phase c; n_good := true; n_known := n_known c;
     n_fluid := n_fluid c; n_off := n_off c; n_solved := n_solved c; n_eqs := n_eqs c |}.
(** [phase.val = x], connection.py 939-942 *)
Definition with_phase (x : option string) (c : conn) : conn :=
  {| n_c := n_c c; n_r := n_r c; n_state := n_state c; n_phase := x; n_good := n_good c; n_known := n_known c;
     n_fluid := n_fluid c; n_off := n_off c; n_solved := n_solved c; n_eqs := n_eqs c |}.
(** references replaced, network.py 1164 *)
Definition with_refs (c : conn) (r : string -> ref) : conn :=
  {| n_c := n_c c; n_r := r; n_state := n_state c; n_phase := n_phase c; n_good := n_good c; n_known := n_known c;
     n_fluid := n_fluid c; n_off := n_off c; n_solved := n_solved c; n_eqs := n_eqs c |}.
(** float operations keep nan, e.g. network.py 1708-1712 *)
Definition nlift (f : Q -> Q -> Q) (a b : num) : num :=
  match a, b with Some x, Some y => Some (f x y) | _, _ => None end.
(** a property function called with floats, e.g. connection.py 650 *)
Definition call1 {A : Type} (f : Q -> res A) (a : num) : res A := match a with Some x => f x | None => Err ValueError end.
(** the same with two arguments, e.g. connection.py 651 *)
Definition call2 {A : Type} (f : Q -> Q -> res A) (a b : num) : res A :=
  match a, b with Some x, Some y => f x y | _, _ => Err ValueError end.
(** convert_to_SI with nan, helpers.py 85-110 *)
Definition to_SI (k : string) (v : num) (u : string) : res num :=
  match v with Some x => rmap Some (convert_to_SI k x u) | None => rmap (fun _ => None) (convert_to_SI k 0 u) end.
(** convert_from_SI with nan, helpers.py 113-137 *)
Definition from_SI (k : string) (v : num) (u : string) : res num :=
  match v with Some x => rmap Some (convert_from_SI k x u) | None => rmap (fun _ => None) (convert_from_SI k 0 u) end.
(** a statement for each key, stopping at an exception, e.g. network.py 1150 *)
Definition each {A : Type} (f : string -> A -> res A) (ks : list string) (a : A) : res A :=
  fold_left (fun r k => rbind r (f k)) ks (Ok a).

(* ------------------------------------------------------------- specified values *)

(** network.py 1156-1159: unit of a property *)
Definition unit_of (units : string -> string) (k : string) : string := units (if String.eqb k "Td_bp" then "T" else k).
(** init_set_properties for one property, network.py 1156-1176 *)
Definition set_property (units : string -> string) (k : string) (c : conn) : res conn :=
  let u := unit_of units k in
  let c1 := upd k (with_unit u) c in
  if isset c k then rmap (fun x => upd k (with_SI x) c1) (to_SI k (k_val (n_c c k)) u) else Ok c1.
(** the references, network.py 1161-1172; differences of temperature as Td_bp *)
Definition set_ref (units : string -> string) (k : string) (c : conn) : res conn :=
  let r := n_r c k in
  if r_set r then rmap (fun d => with_refs c (fun j => if String.eqb j k
      then {| r_set := true; r_conn := r_conn r; r_factor := r_factor r; r_delta := r_delta r; r_SI := Some d |} else n_r c j))
    (convert_to_SI (if String.eqb k "T" then "Td_bp" else k) (r_delta r) (units k))
  else Ok c.
(** properties that can be referenced, network.py 1191 *)
Definition ref_keys : list string := ["m"; "p"; "h"; "T"; "v"].
(** init_set_properties, network.py 1151-1176 *)
Definition set_properties (units : string -> string) (c : conn) : res conn :=
  rbind (each (set_property units) fpd_keys c) (each (set_ref units) ref_keys).
(** offdesign parameters, network.py 1598-1602 *)
Definition set_offdesign (c : conn) : conn :=
  fold_left (fun c e => upd (fst e) (fun k => with_SI (snd e) (with_set k)) c) (n_off c) c.

(* ---------------------------------------------------------------------- presolving *)

(** connection.py 628-638: the specifications counted *)
Definition counted (c : conn) : list string := filter (isset c) ["m"; "p"; "h"; "T"; "x"; "Td_bp"; "v"].
(** simplify_specifications, connection.py 627-671 *)
Definition simplify (c : conn) : res conn :=
  let f := n_fluid c in
  let solve_h ks h := upd "h" (with_SI (Some h)) (with_eqs c ("h" :: ks) (n_eqs c)) in
  if Nat.ltb 3 (length (counted c)) then Err TESPyNetworkError
  else if negb (isset c "h") && isset c "p" then
    if isset c "T" then rmap (solve_h ["T"]) (call2 (f_hpT f) (SI c "p") (SI c "T"))
    else if isset c "Td_bp" then
      rbind (call1 (f_Tsat f) (SI c "p")) (fun Ts =>
      rmap (solve_h ["Td_bp"]) (call2 (f_hpT f) (SI c "p") (nlift Qplus (Some Ts) (k_val (n_c c "Td_bp")))))
    else if isset c "x" then rmap (solve_h ["x"]) (call2 (f_hpQ f) (SI c "p") (SI c "x"))
    else Ok c
  else if negb (isset c "h") && negb (isset c "p") && isset c "T" && isset c "x" then
    rbind (call1 (f_psat f) (SI c "T")) (fun p =>
    rmap (fun h => upd "h" (with_SI (Some h)) (upd "p" (with_SI (Some p)) (with_eqs c ["T"; "x"; "p"; "h"] (n_eqs c))))
      (call2 (f_hpQ f) (Some p) (SI c "x")))
  else Ok c.
(** _assign_variable_space, network.py 1208-1225 *)
Definition assign (k : string) (c : conn) : conn :=
  upd k (with_var (negb (isset c k) && negb (smem k (n_solved c)))) c.
(** preprocess, connection.py 616-622, in the order of connection.py 673-710 *)
Definition equations (c : conn) : list string :=
  filter (fun k => isset c k && negb (smem k (n_solved c))) ["T"; "v"; "x"; "Td_bp"]
  ++ map (fun k => String.append k "_ref") (filter (fun k => r_set (n_r c k)) ref_keys).
(** network.py 1291-1294 and 1605-1608; the presolve flags are taken back *)
Definition presolve (c : conn) : res conn :=
  let c := set_offdesign (with_eqs c [] []) in
  rmap (fun c => let c' := assign "h" (assign "p" (assign "m" c)) in with_eqs c' (n_solved c') (equations c'))
    (if n_known c then simplify c else Ok c).

(* ------------------------------------------------------------------ starting values *)

(** A row of connections.csv: value and unit of m, p, h; network.py 1844-1850. *)
Definition row := string -> num * string.
(** init_conn_params_from_path, network.py 1544-1562 *)
Definition from_path (file : option (dict row)) (l : string) (c : conn) : conn :=
  match file with
  | None => c
  | Some d => match dget l d with
              | None => c
              | Some w => with_good (fold_left (fun c k => upd k (fun x => with_unit (snd (w k)) (with_val0 (fst (w k)) x)) c) ["m"; "p"; "h"] c)
              end
  end.
(** init_val0, network.py 1804-1832: [rnd] is the random number, [vs] and [vt] the
    values proposed by source and target, 0 if there is none *)
Definition init_val0 (units : string -> string) (rnd vs vt : Q) (k : string) (x : cont) : res cont :=
  match k_val0 x with
  | Some _ => Ok x
  | None =>
      if String.eqb k "m" then Ok (with_val0 (Some (rnd + 1)%Q) x)
      else
        let v := if Qeq_bool vs 0 then
                   if Qeq_bool vt 0 then if String.eqb k "p" then 100000%Q else 1000000%Q else vt
                 else if Qeq_bool vt 0 then vs else ((vs + vt) / 2)%Q in
        rmap (fun q => with_val0 (Some q) x) (convert_from_SI k v (units k))
  end.
(** The oracles of the initialisation: random numbers in [0, 1), start values
    proposed by the components (initialise_source, initialise_target) *)
Record proposals := { a_rnd : string -> Q; a_src : string -> string -> Q; a_tgt : string -> string -> Q }.
(** network.py 1693-1698 *)
Definition start_value (units : string -> string) (a : proposals) (l k : string) (c : conn) : res conn :=
  if k_var (n_c c k) then
    rbind (if n_good c then Ok (n_c c k) else init_val0 units (a_rnd a l) (a_src a l k) (a_tgt a l k) k (n_c c k)) (fun x =>
    rmap (fun s => upd k (fun _ => with_SI s x) c) (to_SI k (k_val0 x) (k_unit x)))
  else Ok c.
(** first loop of init_properties, network.py 1677-1698 *)
Definition first_pass (units : string -> string) (a : proposals) (file : option (dict row)) (l : string) (c : conn) : res conn :=
  each (start_value units a l) ["m"; "p"; "h"] (from_path file l c).
(** network.py 1705-1712: values of referenced connections *)
Definition ref_start (net : dict conn) (k : string) (c : conn) : conn :=
  let r := n_r c k in
  if r_set r && negb (isset c k) then
    let other := match dget (r_conn r) net with Some o => SI o k | None => None end in
    upd k (with_SI (nlift Qplus (nlift Qmult other (Some (r_factor r))) (r_SI r))) c
  else c.
(** a statement in [try: .. except ValueError: pass], network.py 1781-1790 *)
Definition attempt (r : res Q) (c : conn) (g : Q -> conn) : res conn :=
  match r with Ok x => Ok (g x) | Err ValueError => Ok c | Err e => Err e end.
(** init_precalc_properties, network.py 1779-1790 *)
Definition precalc (c : conn) : res conn :=
  if k_var (n_c c "h") then
    let g c h := upd "h" (with_SI (Some h)) c in
    rbind (if isset c "x" then attempt (call2 (f_hpQ (n_fluid c)) (SI c "p") (SI c "x")) c (g c) else Ok c) (fun c =>
    if isset c "T" then attempt (call2 (f_hpT (n_fluid c)) (SI c "p") (SI c "T")) c (g c) else Ok c)
  else Ok c.
(** comparison of floats: nan compares false, network.py 1721 *)
Definition nlt (a b : num) : bool := match a, b with Some x, Some y => negb (Qle_bool y x) | _, _ => false end.
(** network.py 1720-1730 *)
Definition phase_start (c : conn) : res conn :=
  let is s := match n_state c with Some t => String.eqb t s | None => false end in
  if (isset c "Td_bp" || match n_state c with Some _ => true | None => false end) && k_var (n_c c "h") then
    if (nlt (Some 0%Q) (SI c "Td_bp") && isset c "Td_bp") || is "g" then
      rmap (fun h => if nlt (SI c "h") (Some h) then upd "h" (with_SI (Some (h * (1001 # 1000))%Q)) c else c)
        (call2 (f_hpQ (n_fluid c)) (SI c "p") (Some 1%Q))
    else if (nlt (SI c "Td_bp") (Some 0%Q) && isset c "Td_bp") || is "l" then
      rmap (fun h => if nlt (Some h) (SI c "h") then upd "h" (with_SI (Some (h * (999 # 1000))%Q)) c else c)
        (call2 (f_hpQ (n_fluid c)) (SI c "p") (Some 0%Q))
    else Ok c
  else Ok c.
(** second loop of init_properties, network.py 1702-1730, one connection *)
Definition second_pass (net : dict conn) (c : conn) : res conn :=
  rbind (if n_good c then Ok c else precalc (fold_left (fun c k => ref_start net k c) ref_keys c)) phase_start.
(** a loop over the connections where each sees the others; as in network.py 1672-1733. *)
Definition over (f : dict conn -> string -> conn -> res conn) (net : dict conn) : res (dict conn) :=
  fold_left (fun r l => rbind r (fun net =>
    match dget l net with Some c => rmap (fun c' => dset l c' net) (f net l c) | None => Ok net end)) (keys net) (Ok net).
(** initialise, network.py 877-902, for the parts above *)
Definition initialise (units : string -> string) (a : proposals) (file : option (dict row)) (net : dict conn) : res (dict conn) :=
  rbind (over (fun _ _ => set_properties units) net) (fun net =>
  rbind (over (fun _ _ => presolve) net) (fun net =>
  rbind (over (fun _ => first_pass units a file) net) (fun net =>
  over (fun net _ => second_pass net) net))).

(* ------------------------------------------------------------------ solving, results *)

(** solve_loop, network.py 2014-2068: new values of the unknowns *)
Definition solved (sol : string -> string -> Q) (l : string) (c : conn) : conn :=
  fold_left (fun c k => if k_var (n_c c k) then upd k (with_SI (Some (sol l k))) c else c) ["m"; "p"; "h"] c.
(** a value set to the result or nan, connection.py 933-948 *)
Definition catch (r : res Q) : res num := match r with Ok x => Ok (Some x) | Err ValueError => Ok None | Err e => Err e end.
(** connection.py 933-948: vapour content, phase and boiling point difference of a
    pure fluid; the last handler writes the vapour content *)
Definition pure_results (c : conn) : res conn :=
  let f := n_fluid c in
  rbind (if isset c "x" then Ok c else rmap (fun x => upd "x" (with_SI x) c) (catch (call2 (f_Qph f) (SI c "p") (SI c "h")))) (fun c =>
  rbind (match call2 (f_phase f) (SI c "p") (SI c "h") with
         | Ok s => Ok (with_phase (Some s) c) | Err ValueError => Ok (with_phase None c) | Err e => Err e end) (fun c =>
  if isset c "Td_bp" then Ok c
  else match rbind (call2 (f_Tph f) (SI c "p") (SI c "h")) (fun T => rmap (fun Ts => (T - Ts)%Q) (call1 (f_Tsat f) (SI c "p"))) with
       | Ok d => Ok (upd "Td_bp" (with_SI (Some d)) c)
       | Err ValueError => Ok (upd "x" (with_SI None) c)
       | Err e => Err e
       end)).
(** connection.py 908-920: is the temperature of a mixture consistent; 1e-3 is
    [ERR ** .5] *)
Definition mixture_ok (c : conn) (T : Q) : res bool :=
  rbind (call2 (f_hpT (n_fluid c)) (SI c "p") (Some T)) (fun hT =>
  match SI c "h" with
  | None => Ok true
  | Some h => if Qle_bool (Qabs (hT - h)) (1 # 1000) then Ok true
              else if Qeq_bool h 0 then Err ZeroDivisionError
              else Ok (Qle_bool (Qabs ((hT - h) / h)) (1 # 1000))
  end).
(** calc_results, connection.py 903-962, with network.py 2471 *)
Definition results (c : conn) : res conn :=
  let c := with_good c in
  let f := n_fluid c in
  rbind (call2 (f_Tph f) (SI c "p") (SI c "h")) (fun T =>
  let c := upd "T" (with_SI (Some T)) c in
  rbind (if f_mixture f then rmap (fun ok => (c, ok)) (mixture_ok c T) else rmap (fun c => (c, true)) (pure_results c)) (fun '(c, ok) =>
  rbind (if ok : bool then
           rbind (call2 (f_vph f) (SI c "p") (SI c "h")) (fun v =>
           rmap (fun s => upd "s" (with_SI (Some s)) (upd "v" (with_SI (nlift Qmult (Some v) (SI c "m"))) (upd "vol" (with_SI (Some v)) c)))
             (call2 (f_sph f) (SI c "p") (SI c "h")))
         else Ok (fold_left (fun c k => upd k (with_SI None) c) ["T"; "vol"; "v"; "s"] c)) (fun c =>
  rmap (fun c => fold_left (fun c k => upd k (fun x => with_val0 (k_val x) x) c) ["m"; "p"; "h"] c)
    (each (fun k c => rmap (fun v => upd k (with_val v) c) (from_SI k (SI c k) (k_unit (n_c c k)))) fpd_keys c)))).
(** solve, network.py 1903-2010, for the parts above *)
Definition solve (units : string -> string) (a : proposals) (file : option (dict row)) (sol : string -> string -> Q) (net : dict conn)
  : res (dict conn) :=
  rbind (initialise units a file net) (fun net =>
  over (fun _ _ => results) (map (fun e => (fst e, solved sol (fst e) (snd e))) net)).
