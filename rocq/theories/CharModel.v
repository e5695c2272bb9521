(** Characteristic lines and maps.
    Models src/tespy/tools/characteristics.py 55-126 (CharLine) and 219-349
    (CharMap), and the two map equations of
    src/tespy/components/turbomachinery/compressor.py 349-388, 453-502.
    Numbers are exact rationals. nan arguments are not modelled. *)
From Coq Require Export QArith.
From Verif Require Export Base.
Open Scope nat_scope.

(** Python/numpy subscript with a possibly negative index.
    As in characteristics.py 113-126. *)
Definition pyidx {A : Type} (l : list A) (i : Z) : res A :=
  let n := Z.of_nat (length l) in
  if (i <? - n)%Z || (n <=? i)%Z then Err IndexError
  else match nth_error l (Z.to_nat (if (i <? 0)%Z then (n + i)%Z else i)) with
       | Some a => Ok a
       | None => Err IndexError
       end.

(** np.searchsorted(xs, x) with side='left': the number of leading entries
    below x. numpy uses bisection; on sorted input both give the leftmost
    insertion point. Unsorted input is not covered by any theorem.
    As in characteristics.py 113-126, 273-285. *)
Fixpoint searchsorted (xs : list Q) (x : Q) : nat :=
  match xs with
  | [] => 0
  | a :: xs' => if Qle_bool x a then 0 else S (searchsorted xs' x)
  end.

(** characteristics.py 55-66: a CharLine object. *)
Record charline := { cl_x : list Q; cl_y : list Q; cl_extrapolate : bool }.

(** characteristics.py 55-80: constructor with the length check. *)
Definition CharLine_new (x y : list Q) (extrapolate : bool) : res charline :=
  if Nat.eqb (length x) (length y)
  then Ok {| cl_x := x; cl_y := y; cl_extrapolate := extrapolate |}
  else Err ValueError.

(** characteristics.py 125-126: interpolation between neighbours xpos-1 and
    xpos. A zero-width segment gives nan or inf in numpy; the model reports
    ZeroDivisionError instead (it cannot occur for strictly increasing x). *)
Definition interp (xs ys : list Q) (x : Q) (xpos : Z) : res Q :=
  rbind (pyidx xs (xpos - 1)) (fun x0 =>
  rbind (pyidx xs xpos) (fun x1 =>
  if Qeq_bool (x1 - x0) 0 then Err ZeroDivisionError else
  let yfrac := ((x - x0) / (x1 - x0))%Q in
  rbind (pyidx ys (xpos - 1)) (fun y0 =>
  rbind (pyidx ys xpos) (fun y1 =>
  Ok (y0 + yfrac * (y1 - y0))%Q)))).

(** characteristics.py 82-126: CharLine.evaluate. *)
Definition cl_evaluate (c : charline) (x : Q) : res Q :=
  let xpos := searchsorted (cl_x c) x in
  if Nat.eqb xpos (length (cl_x c)) then
    if cl_extrapolate c then interp (cl_x c) (cl_y c) x (-1)
    else pyidx (cl_y c) (-1)
  else if Nat.eqb xpos 0 then
    if cl_extrapolate c then interp (cl_x c) (cl_y c) x 1
    else pyidx (cl_y c) 0
  else interp (cl_x c) (cl_y c) x (Z.of_nat xpos).

(** characteristics.py 219-232: a CharMap object; y and z are two-dimensional
    arrays given as lists of rows. *)
Record charmap := { cm_x : list Q; cm_y : list (list Q); cm_z : list (list Q) }.

(** Shape of a two-dimensional numpy array: rows all of the same length.
    characteristics.py 222-253. *)
Definition rectangular (n : nat) (rows : list (list Q)) : bool :=
  forallb (fun r => Nat.eqb (length r) n) rows.

(** characteristics.py 219-253: constructor. Non-rectangular input makes
    astype(float) raise ValueError (230-232). *)
Definition CharMap_new (x : list Q) (y z : list (list Q)) : res charmap :=
  let n := match y with [] => 0 | r :: _ => length r end in
  let m := match z with [] => 0 | r :: _ => length r end in
  if negb (rectangular n y) || negb (rectangular m z) then Err ValueError
  else if negb (Nat.eqb (length x) (length y)) then Err ValueError
  else if negb (Nat.eqb (length y) (length z)) || negb (Nat.eqb n m) then Err ValueError
  else Ok {| cm_x := x; cm_y := y; cm_z := z |}.

(** Elementwise numpy arithmetic on rows. characteristics.py 273-285. *)
Fixpoint zipq (f : Q -> Q -> Q) (a b : list Q) : list Q :=
  match a, b with
  | x :: a', y :: b' => f x y :: zipq f a' b'
  | _, _ => []
  end.

(** The arrays returned by evaluate_x are either a view of row [r] of the map
    (basic indexing of a numpy array does not copy) or a fresh array.
    characteristics.py 273-285. *)
Inductive arr := View (r : nat) | Fresh (a : list Q).

(** Contents of an array handed out for the table [t]. characteristics.py 273-285. *)
Definition deref (t : list (list Q)) (a : arr) : list Q :=
  match a with View r => nth r t [] | Fresh l => l end.

(** characteristics.py 255-285: CharMap.evaluate_x. *)
Definition cm_evaluate_x (c : charmap) (x : Q) : res (arr * arr) :=
  let xpos := searchsorted (cm_x c) x in
  if Nat.eqb xpos (length (cm_x c)) then
    (* self.y[xpos - 1]; an empty map would index with -1 *)
    if Nat.eqb xpos 0 then Err IndexError else Ok (View (xpos - 1), View (xpos - 1))
  else if Nat.eqb xpos 0 then Ok (View 0, View 0)
  else
    rbind (pyidx (cm_x c) (Z.of_nat xpos - 1)) (fun x0 =>
    rbind (pyidx (cm_x c) (Z.of_nat xpos)) (fun x1 =>
    if Qeq_bool (x1 - x0) 0 then Err ZeroDivisionError else
    let f := ((x - x0) / (x1 - x0))%Q in
    rbind (pyidx (cm_y c) (Z.of_nat xpos - 1)) (fun y0 =>
    rbind (pyidx (cm_y c) (Z.of_nat xpos)) (fun y1 =>
    rbind (pyidx (cm_z c) (Z.of_nat xpos - 1)) (fun z0 =>
    rbind (pyidx (cm_z c) (Z.of_nat xpos)) (fun z1 =>
    Ok (Fresh (zipq (fun a b => a + f * (b - a))%Q y0 y1),
        Fresh (zipq (fun a b => a + f * (b - a))%Q z0 z1)))))))).

(** characteristics.py 287-311: CharMap.evaluate_y. *)
Definition cm_evaluate_y (y : Q) (yarr zarr : list Q) : res Q :=
  let ypos := searchsorted yarr y in
  if Nat.eqb ypos (length yarr) then pyidx zarr (Z.of_nat ypos - 1)
  else if Nat.eqb ypos 0 then pyidx zarr 0
  else interp yarr zarr y (Z.of_nat ypos).

(** characteristics.py 313-349: CharMap.evaluate. *)
Definition cm_evaluate (c : charmap) (x y : Q) : res Q :=
  rbind (cm_evaluate_x c x) (fun '(ya, za) =>
  cm_evaluate_y y (deref (cm_y c) ya) (deref (cm_z c) za)).

(** In-place [a *= k]: through a view the table itself changes; a fresh array
    changes alone. Returns the table and the array's contents. characteristics.py 404-416. *)
Definition scale_inplace (t : list (list Q)) (a : arr) (k : Q) : list (list Q) * arr :=
  match a with
  | View r => (firstn r t ++ map (fun v => v * k)%Q (nth r t []) :: skipn (S r) t, View r)
  | Fresh l => (t, Fresh (map (fun v => v * k)%Q l))
  end.

(** The table part shared by compressor.py 382-388 (char_map_pr_func) and
    486-490 (char_map_eta_s_func): evaluate the map at (x, y) after scaling the
    two arrays in place by [ky] and [kz]. Returns the value and the map as the
    call leaves it. For char_map_pr_func ky = kz = 1 - igva/100, for
    char_map_eta_s_func ky = 1 - igva/100 and kz = 1 - igva^2/10000. *)
Definition compressor_map (c : charmap) (x y ky kz : Q) : charmap * res Q :=
  match cm_evaluate_x c x with
  | Err e => (c, Err e)
  | Ok (ya, za) =>
      let '(ty, ya') := scale_inplace (cm_y c) ya ky in
      let '(tz, za') := scale_inplace (cm_z c) za kz in
      let c' := {| cm_x := cm_x c; cm_y := ty; cm_z := tz |} in
      (c', cm_evaluate_y y (deref ty ya') (deref tz za'))
  end.

(** compressor.py 349-388, table part: residual contribution as a function of
    the speed line index x, the corrected mass flow y and igva. *)
Definition char_map_pr (c : charmap) (x y igva : Q) : charmap * res Q :=
  compressor_map c x y (1 - igva / 100)%Q (1 - igva / 100)%Q.

(** compressor.py 453-502, table part. *)
Definition char_map_eta_s (c : charmap) (x y igva : Q) : charmap * res Q :=
  compressor_map c x y (1 - igva / 100)%Q (1 - igva * igva / 10000)%Q.
