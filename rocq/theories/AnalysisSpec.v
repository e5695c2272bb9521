(** Vocabulary of the statements about ExergyAnalysis. *)
From Coq Require Import QArith Qabs.
From Verif Require Import Base ExergyModel AnalysisModel.
Open Scope Q_scope.

Definition sumq {A : Type} (l : list A) (g : A -> Q) : Q := fold_right (fun x acc => g x + acc) 0 l.
(** nan counts as zero *)
Definition zero_if_nan (a : num) : Q := match a with Some q => q | None => 0 end.

(** The bus of a component: the first one that lists it *)
Fixpoint first_bus (label : string) (bs : list bus) : option (bus * member) :=
  match bs with
  | [] => None
  | b :: bs' => match dget label (u_comps b) with Some m => Some (b, m) | None => first_bus label bs' end
  end.
Definition place (an : analysis) (k : comp) := first_bus (k_label k) (all_busses an).

(** What the bus of a component carries, [e k] being the exergy the component
    exchanges with it: positive if supplied to the component *)
Definition received (an : analysis) (e : comp -> Q) (k : comp) : Q :=
  match place an k with
  | None => 0
  | Some (_, m) => if b_base m then e k else - e k
  end.
(** The same on the other side of the efficiency *)
Definition drawn (an : analysis) (e : comp -> Q) (k : comp) : Q :=
  match place an k with
  | None => 0
  | Some (_, m) => if b_base m then e k / b_eff m else - (e k * b_eff m)
  end.
Inductive role := Fuel | Product | Loss | Internal.
Definition role_eqb (a b : role) : bool :=
  match a, b with Fuel, Fuel | Product, Product | Loss, Loss | Internal, Internal => true | _, _ => false end.
Definition role_of (an : analysis) (b : bus) : role :=
  if is_in b (an_F an) then Fuel else if is_in b (an_P an) then Product
  else if is_in b (an_L an) then Loss else Internal.
(** What the components of the busses of one role draw altogether *)
Definition drawn_from (an : analysis) (e : comp -> Q) (ks : list comp) (r : role) : Q :=
  sumq ks (fun k => match place an k with
                    | Some (b, _) => if role_eqb (role_of an b) r then drawn an e k else 0
                    | None => 0
                    end).

(** Exergy of the connections entering and leaving a component *)
Definition entering (ls : list link) (k : comp) : Q :=
  sumq ls (fun l => if String.eqb (n_tgt l) (k_label k) then n_chem l + n_phys l else 0).
Definition leaving (ls : list link) (k : comp) : Q :=
  sumq ls (fun l => if String.eqb (n_src l) (k_label k) then n_chem l + n_phys l else 0).

(** The balance of a component: what enters and is not passed on is destroyed; a
    component without a value for the destruction destroys nothing. *)
Definition balanced (an : analysis) (ls : list link) (e : comp -> Q) (k : comp) : Prop :=
  exists bal, k_balance k = Ok bal
  /\ zero_if_nan (E_D bal) == entering ls k - leaving ls k + received an e k
  /\ forall b m, place an k = Some (b, m) ->
       bus_total (E_bus bal) = Ok (Some (e k)) /\ (b_base m = true -> ~ b_eff m == 0).

(** The aggregated row of a component keeps its destruction and that of its bus
    row: both are numbers, or nothing is lost. *)
Definition kept (rows : dict bus_row) (c : comp_row) : Prop :=
  forall r, dget (c_label c) rows = Some r ->
  (c_D c <> None /\ row_D r <> None) \/ zero_if_nan (c_D c) + zero_if_nan (row_D r) == 0.
