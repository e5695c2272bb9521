(** C151-C153: user defined equations. *)
From Coq Require Import Reals Lra.
From Verif Require Import UdeModel UdeSpec UdeProofs.
Open Scope R_scope.

(** C151 – two equations made without parameters have the same dictionary: a parameter
    set for one is a parameter of the other. *)
Theorem C151_shared_refuted : exists obj u1 u2 h k v, make obj (AStr "a") (AList []) AOmitted TOmitted = Ok u1 /\ make obj (AStr "b") (AList []) AOmitted TOmitted = Ok u2 /\
  dget k (h (u_params u2)) = None /\ dget k (store (u_params u1) k v h (u_params u2)) = Some v.
Proof. exact shared_params. Qed.
Print Assumptions C151_shared_refuted.

(** C151 – equations made with dictionaries of their own. Missing: equations made without. *)
Theorem C151_own_partial : forall obj l1 l2 c1 c2 a1 a2 t1 t2 u1 u2 h k v,
  make obj l1 c1 (ADict a1) t1 = Ok u1 -> make obj l2 c2 (ADict a2) t2 = Ok u2 -> a1 <> a2 ->
  store (u_params u1) k v h (u_params u2) = h (u_params u2) /\ dget k (store (u_params u1) k v h (u_params u1)) = Some v.
Proof. exact own_params. Qed.
Print Assumptions C151_own_partial.

(** C152 – an equation that can be evaluated, its parameter not named "ude": the numerical
    derivative raises TypeError and leaves the variable changed. *)
Theorem C152_name_refuted : exists f k v w, (forall x, call_pos f x = Ok x) /\ ude_numeric_deriv k f v = (w, Err TypeError) /\ w <> v.
Proof. exact unnamed. Qed.
Print Assumptions C152_name_refuted.

(** C152 – it does so for every function with another parameter name. *)
Theorem C152_other_names_partial : forall k f v,
  pname f <> "ude"%string -> exists w, ude_numeric_deriv k f v = (w, Err TypeError).
Proof. exact other_name. Qed.
Print Assumptions C152_other_names_partial.

(** C152 – with the name "ude" the derivative of an affine equation is its slope and the
    variable is restored. Missing: other names, and mass fractions (C46). *)
Theorem C152_named_partial : forall k f v a b,
  pname f = "ude"%string -> k <> VFluid -> stepwidth k <> 0 -> (forall x, body f x = Ok (a * x + b)) -> ude_numeric_deriv k f v = (v, Ok a).
Proof. exact named_affine. Qed.
Print Assumptions C152_named_partial.

Example C152_ex : ude_numeric_deriv Vm {| pname := "ude"; body := fun x => Ok (3 * x + 1) |} 5 = (5, Ok 3).
Proof. apply (named_affine Vm _ 5 3 1); [reflexivity|discriminate|cbn; lra|reflexivity]. Qed.

(** C153 – an equation keeps label, connections in their order, and the dictionary passed. *)
Theorem C153_made : forall obj l cs p t u,
  make obj l cs p t = Ok u ->
  exists s c, l = AStr s /\ cs = AList c /\ p <> AOtherDict /\ t <> TOther /\ u_label u = s /\ map fst (u_conns u) = c /\
    (forall x, In x (u_conns u) -> snd x = obj (fst x)) /\ (forall a, p = ADict a -> u_params u = a) /\ u_jac u = [].
Proof. exact made. Qed.
Print Assumptions C153_made.

(** C153 – arguments of other types raise TypeError. *)
Theorem C153_rejected : forall obj l cs p t,
  (l = AOtherLabel \/ cs = AOtherConns \/ p = AOtherDict \/ t = TOther) -> make obj l cs p t = Err TypeError.
Proof. exact rejected. Qed.
Print Assumptions C153_rejected.

(** C153 – at the start of a calculation every equation refers to the connections of the
    network with the labels of its connections, in their order, and has no derivatives. *)
Theorem C153_remapped : forall net us,
  (forall u c, In u us -> In c (u_conns u) -> dget (fst c) net <> None) ->
  exists us', remap net us = (us', None) /\ Forall2 (fresh net) us us'.
Proof. exact remap_ok. Qed.
Print Assumptions C153_remapped.

(** C153 – connections the network does not have raise KeyError. *)
Theorem C153_unknown : forall net us u c,
  In u us -> In c (u_conns u) -> dget (fst c) net = None -> snd (remap net us) = Some KeyError.
Proof. exact remap_missing. Qed.
Print Assumptions C153_unknown.

(** C153 – whether or not it raises, no equation is lost or added and the labels, parameters and labels of the connections stay. *)
Theorem C153_kept : forall net us, map u_label (fst (remap net us)) = map u_label us
  /\ map u_params (fst (remap net us)) = map u_params us
  /\ map (fun u => map fst (u_conns u)) (fst (remap net us)) = map (fun u => map fst (u_conns u)) us.
Proof. exact remap_kept. Qed.
Print Assumptions C153_kept.

(** C153 – the texts for the report are the ones given, the others have their defaults. *)
Theorem C153_texts : forall obj l cs p t u,
  make obj l cs p t = Ok u ->
  (t = TOmitted -> forall k, dget k (u_latex u) = report_text k)
  /\ (forall d, t = TDict d -> NoDup (map fst d) ->
      forall k, dget k (u_latex u) = match dget k d with Some v => Some v | None => report_text k end).
Proof. exact texts. Qed.
Print Assumptions C153_texts.

Example C153_ex : exists u, make (fun _ => 7%nat) (AStr "a") (AList ["c"%string]) AOmitted TOmitted = Ok u /\
  u_conns u = [("c"%string, 7%nat)] /\ map u_conns (fst (remap [("c"%string, 9%nat)] [u])) = [[("c"%string, 9%nat)]].
Proof. eexists. split; [reflexivity|]. split; reflexivity. Qed.
