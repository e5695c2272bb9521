(** What is claimed of the fluid property engines. *)
From Coq Require Import QArith.
From Verif Require Import Base MixModel EngModel.
Open Scope Q_scope.

(** Equal answers: equal numbers or the same name *)
Definition same_value (a b : value) : Prop :=
  match a, b with Num x, Num y => x == y | Name s, Name t => s = t | _, _ => False end.
(** Both return related values or both raise the same exception *)
Definition both {A B : Type} (R : A -> B -> Prop) (a : res A) (b : res B) : Prop :=
  match a, b with Ok x, Ok y => R x y | Err e, Err f => e = f | _, _ => False end.

(** The same state in the units of the two libraries: Pa, J and kg against MPa, kJ and kg *)
Definition same_state (s : cstate) (t : istate) : Prop :=
  g_T s == i_T t /\ g_h s == 1000 * i_h t /\ g_s s == 1000 * i_s t /\ g_p s == 1000000 * i_P t
  /\ g_rho s == i_rho t /\ both Qeq (g_vis s) (Ok (i_mu t))
  /\ match g_phase s, i_phase t with
     | CLiq, ILiquid => i_x t == 0
     | CGas, IVapour => i_x t == 1
     | CTwo, ITwo | CTwo, ISatVap | CTwo, ISatLiq => i_x t == g_Q s
     | COther, IOther => True
     | _, _ => False
     end.

(** The two libraries describe the same fluid *)
Record same_fluid (cp : coolprop) (ia : iapws) : Prop := {
  sf_hp : forall h p h' p', h == 1000 * h' -> p == 1000000 * p' ->
    both same_state (cp_update cp HmassP h p) (ia I_hP h' p');
  sf_ps : forall p s s' p', s == 1000 * s' -> p == 1000000 * p' ->
    both same_state (cp_update cp PSmass p s) (ia I_sP s' p');
  sf_pq : forall p q p' q', p == 1000000 * p' -> q == q' ->
    both same_state (cp_update cp PQ_in p q) (ia I_Px p' q');
  sf_pt : forall p T p' T', p == 1000000 * p' -> T == T' ->
    both same_state (cp_update cp PT_in p T) (ia I_PT p' T');
  sf_qt : forall q T T' q', T == T' -> q == q' ->
    both same_state (cp_update cp QT_in q T) (ia I_Tx T' q') }.

(** The phase is one of liquid, gas and two phases *)
Definition recognised (k : consts) (cp : coolprop) (m : meth) : Prop :=
  match m with
  | Q_ph p h | Phase_ph p h =>
      match cp_update cp HmassP h (subcritical (k_pcrit k) p) with
      | Ok s => g_phase s <> COther
      | Err _ => True
      end
  | _ => True
  end.

(** What pyromat cannot answer; [ig]: ideal gases *)
Definition not_offered (ig : bool) (m : meth) : Prop :=
  match m with
  | M_T_sat _ | M_p_sat _ | Phase_ph _ _ | Vis_ph _ _ | Vis_pT _ _ | H_pQ _ _ => True
  | H_QT _ _ | S_QT _ _ | D_QT _ _ | Q_ph _ _ | S_pT _ _ => ig = true
  | _ => False
  end.

(** No bracket in a name *)
Fixpoint free (c : Ascii.ascii) (s : string) : Prop :=
  match s with EmptyString => True | String a s' => a <> c /\ free c s' end.
