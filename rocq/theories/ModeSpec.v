(** Vocabulary of the statements about design and offdesign mode. *)
From Coq Require Import QArith.
From Verif Require Import Base ModeModel.
Open Scope string_scope.
Open Scope list_scope.

(** A calculation: mode, design path, values found by the solver *)
Record run := { r_mode : string; r_path : option string; r_sol : solution }.
Definition offdesign (r : run) : bool := String.eqb (r_mode r) "offdesign".
(** Calculations one after the other; [None] if one of them raises *)
Fixpoint runs (u : units) (files : string -> file) (rs : list run) (st : net) : option net :=
  match rs with
  | [] => Some st
  | r :: rs' => match solve u files (r_mode r) (r_path r) (r_sol r) st with
                | (st', None) => runs u files rs' st'
                | (_, Some _) => None
                end
  end.
(** A container of a connection other than the mass flow, a parameter of a
    component *)
Definition prop (st : net) (l v : string) : option cont :=
  match dget l (t_conns st) with Some c => dget v (n_props c) | None => None end.
Definition param (st : net) (l v : string) : option par :=
  match dget l (t_comps st) with Some c => dget v (p_pars c) | None => None end.
Definition reference (st : net) (l v : string) : option bool :=
  match dget l (t_conns st) with Some c => dget v (n_flags c) | None => None end.
(** The names of containers and flags on a connection differ, the mass flow is
    kept apart *)
Definition wf (st : net) : Prop :=
  forall l c v, dget l (t_conns st) = Some c -> In v (keys (n_props c)) -> v <> "m" /\ ~ In v (keys (n_flags c)).
(** What is specified after a sequence of calculations ending with [last]: [des]
    and [off] are the parameter lists, [b] the specification before, [seen] tells
    that there was an offdesign calculation *)
Definition expected (des off : list string) (seen : bool) (last : run) (v : string) (b : bool) : bool :=
  if offdesign last then if smem v off then true else if smem v des then false else b
  else if seen then if smem v off then false else if smem v des then true else b
  else b.
(** The design value of a property of a connection and of a parameter of a
    component in the tables *)
Definition table_conn (fi : file) (l v : string) : option Q :=
  match dget l (f_conns fi) with Some row => match dget v row with Some x => x | None => None end | None => None end.
Definition table_comp (fi : file) (l v : string) : option Q :=
  match dget l (f_comps fi) with Some row => match dget v row with Some x => x | None => None end | None => None end.
(** The tables of an object with its own path or that of the network *)
Definition tables (files : string -> file) (own : option string) (path : string) : file :=
  match own with Some p => files p | None => files path end.
(** The mass flow container in use at a connection *)
Definition mass (st : net) (l : string) : option cont :=
  match dget l (t_conns st) with Some c => dget (n_m c) (t_m st) | None => None end.
(** set_attr of a mass flow, its removal, set_attr of local_design and of local_offdesign by the user *)
Definition specify_mass (l : string) (x : Q) (st : net) : net :=
  match dget l (t_conns st) with
  | Some c => with_conns st (put (n_m c) (fun k => {| k_set := true; k_var := k_var k; k_val := Some x; k_SI := k_SI k; k_design := k_design k |}) (t_m st)) (t_conns st)
  | None => st
  end.
Definition free_mass (l : string) (st : net) : net :=
  match dget l (t_conns st) with Some c => with_conns st (put (n_m c) (set_flag false) (t_m st)) (t_conns st) | None => st end.
Definition local_conn (l : string) (ldes loff : bool) (st : net) : net :=
  with_conns st (t_m st) (put l (fun c => {| n_props := n_props c; n_flags := n_flags c; n_m := n_m c; n_tmp := n_tmp c;
    n_des := n_des c; n_off := n_off c; n_path := n_path c; n_ldes := ldes; n_loff := loff; n_new := n_new c |}) (t_conns st)).
Definition local_comp (l : string) (ldes loff : bool) (st : net) : net :=
  with_comps st (put l (fun c => {| p_pars := p_pars c; p_des := p_des c; p_off := p_off c; p_path := p_path c;
    p_ldes := ldes; p_loff := loff; p_new := p_new c |}) (t_comps st)).
