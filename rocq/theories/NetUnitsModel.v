(** Unit and range settings of a Network.
    Models src/tespy/networks/network.py 166-232 (the unit/range part of
    set_defaults) and 234-326 (set_attr). *)
From Verif Require Export UnitsModel.
Open Scope string_scope.

(** The part of the Network object touched by set_attr: attributes
    [<prop>_unit], [<prop>_range_SI], [<prop>_range] and [iterinfo]
    (network.py 207-232). [nu_iter = None] stands for a non-boolean value. *)
Record netunits := {
  nu_unit : dict string;
  nu_range_SI : dict (list Q);
  nu_range : dict (list Q);
  nu_iter : option bool
}.

(** The keyword arguments of set_attr that have an effect; unknown keywords are
    ignored by the code. A range is [None] when the argument is not a list;
    [kw_iter = Some None] when iterinfo is passed and not a bool. Unit values
    are strings (an unhashable value would raise TypeError, not modelled).
    network.py 276-326. *)
Record nukw := {
  kw_unit : dict string;
  kw_range : dict (option (list Q));
  kw_iter : option (option bool)
}.

(** The properties with ranges, network.py 289, 312. *)
Definition range_props : list string := ["m"; "p"; "h"].

(** network.py 209-223, default units and ranges. The non-SI ranges do not exist
    before the first set_attr call. *)
Definition nu_defaults : netunits :=
  {| nu_unit := SI_unit;
     nu_range_SI := [ ("m", [-1000000000000#1; 1000000000000#1]);
                      ("p", [200#1; 30000000#1]);
                      ("h", [1000#1; 7000000#1]) ]%Q;
     nu_range := [];
     nu_iter := Some true |}.

(** network.py 276-287: the loop over the unit keywords. *)
Fixpoint set_units (props : list string) (kw : nukw) (s : netunits)
  : netunits * option pyerr :=
  match props with
  | [] => (s, None)
  | prop :: ps =>
      match dget prop (kw_unit kw) with
      | None => set_units ps kw s
      | Some u =>
          match unit_known prop u with
          | Some true =>
              set_units ps kw
                {| nu_unit := dset prop u (nu_unit s);
                   nu_range_SI := nu_range_SI s;
                   nu_range := nu_range s;
                   nu_iter := nu_iter s |}
          | Some false => (s, Some ValueError)
          | None => (s, Some KeyError)
          end
      end
  end.

(** self.get_attr('<prop>_unit'), network.py 294, 317 with 328-347. *)
Definition get_unit (prop : string) (s : netunits) : res string :=
  match dget prop (nu_unit s) with Some u => Ok u | None => Err KeyError end.

(** network.py 289-309: the loop over the range keywords. After storing the
    range the code reads limits[0] and limits[1] for the log message, which
    raises IndexError for a list of fewer than two entries. *)
Fixpoint set_ranges (props : list string) (kw : nukw) (s : netunits)
  : netunits * option pyerr :=
  match props with
  | [] => (s, None)
  | prop :: ps =>
      match dget prop (kw_range kw) with
      | None => set_ranges ps kw s
      | Some None => (s, Some TypeError)
      | Some (Some vals) =>
          match rbind (get_unit prop s)
                      (fun u => rmapM (fun v => convert_to_SI prop v u) vals) with
          | Err e => (s, Some e)
          | Ok vals_SI =>
              let s' := {| nu_unit := nu_unit s;
                           nu_range_SI := dset prop vals_SI (nu_range_SI s);
                           nu_range := nu_range s;
                           nu_iter := nu_iter s |} in
              if (length vals_SI <? 2)%nat then (s', Some IndexError)
              else set_ranges ps kw s'
          end
      end
  end.

(** network.py 311-319: update of the non-SI ranges. *)
Fixpoint update_ranges (props : list string) (s : netunits)
  : netunits * option pyerr :=
  match props with
  | [] => (s, None)
  | prop :: ps =>
      match dget prop (nu_range_SI s) with
      | None => (s, Some KeyError)
      | Some vals_SI =>
          match rbind (get_unit prop s)
                      (fun u => rmapM (fun v => convert_from_SI prop v u) vals_SI) with
          | Err e => (s, Some e)
          | Ok vals =>
              update_ranges ps
                {| nu_unit := nu_unit s;
                   nu_range_SI := nu_range_SI s;
                   nu_range := dset prop vals (nu_range s);
                   nu_iter := nu_iter s |}
          end
      end
  end.

(** network.py 321-326: iterinfo is stored first, then its type is checked. *)
Definition set_iter (kw : nukw) (s : netunits) : netunits * option pyerr :=
  let it := match kw_iter kw with Some v => v | None => nu_iter s end in
  let s' := {| nu_unit := nu_unit s; nu_range_SI := nu_range_SI s;
               nu_range := nu_range s; nu_iter := it |} in
  (s', match it with Some _ => None | None => Some TypeError end).

(** network.py 234-326: Network.set_attr. *)
Definition nu_set_attr (kw : nukw) (s : netunits) : netunits * option pyerr :=
  let '(s1, e1) := set_units fpd_keys kw s in
  match e1 with Some _ => (s1, e1) | None =>
  let '(s2, e2) := set_ranges range_props kw s1 in
  match e2 with Some _ => (s2, e2) | None =>
  let '(s3, e3) := update_ranges range_props s2 in
  match e3 with Some _ => (s3, e3) | None => set_iter kw s3 end end end.

(** A history of set_attr calls; calls that raise are caught by the caller.
    network.py 276-326. *)
Definition nu_history (kws : list nukw) (s : netunits) : netunits :=
  fold_left (fun s kw => fst (nu_set_attr kw s)) kws s.
