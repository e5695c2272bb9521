(** Proofs about the fluid property engines. *)
From Coq Require Import QArith Lqa Ascii.
From Verif Require Import Base NewtonModel MixModel PhModel EngModel EngSpec.
Open Scope Q_scope.

(* ------------------------------------------------------------ histories *)

Lemma ask_history : forall A lib i a b (f : cstate -> res A) st st',
  snd (ask lib i a b f st) = snd (ask lib i a b f st').
Proof. intros. unfold ask. destruct (cp_update lib i a b); reflexivity. Qed.

Lemma ask_fst : forall A lib i a b (f : cstate -> res A) st st' r,
  snd (ask lib i a b f st) = Ok r -> fst (ask lib i a b f st) = fst (ask lib i a b f st').
Proof. intros A lib i a b f st st' r. unfold ask. destruct (cp_update lib i a b); cbn; [reflexivity|discriminate]. Qed.

Lemma call_history : forall k lib m st st', snd (cp_call k lib st m) = snd (cp_call k lib st' m).
Proof.
  intros k lib m st st'. destruct m; cbn [cp_call]; try apply ask_history.
  - unfold ask. destruct (cp_update lib HmassP h1 p1); cbn; [|reflexivity].
    destruct (cp_update lib PSmass p2 (g_s a)); reflexivity.
  - destruct (k_Tcrit k); [apply ask_history|reflexivity].
Qed.

Lemma history : forall k lib st st' before m,
  snd (cp_call k lib (cp_calls k lib st before) m) = snd (cp_call k lib st' m).
Proof. intros. apply call_history. Qed.

(* ------------------------------------------------------------------ units *)

Lemma kilo_ok : forall x y, x == y -> x == 1000 * kilo y.
Proof. intros x y E. unfold kilo. rewrite E. field. Qed.
Lemma mega_ok : forall x y, x == y -> x == 1000000 * mega y.
Proof. intros x y E. unfold mega. rewrite E. field. Qed.

Lemma num_ok : forall lib (ia : iapws) i a b j a' b' f g st,
  both same_state (cp_update lib i a b) (ia j a' b') ->
  (forall s t, same_state s t -> f s == g t) ->
  both same_value (snd (ask lib i a b (num f) st)) (get ia j a' b' g).
Proof.
  intros lib ia i a b j a' b' f g st H E. unfold ask, get, both, num in *.
  destruct (cp_update lib i a b), (ia j a' b'); cbn in *; try contradiction; [apply E; exact H|exact H].
Qed.

Lemma vis_ok : forall lib (ia : iapws) i a b j a' b' st,
  both same_state (cp_update lib i a b) (ia j a' b') ->
  both same_value (snd (ask lib i a b vis st)) (get ia j a' b' i_mu).
Proof.
  intros lib ia i a b j a' b' st H. unfold ask, get, both, vis in *.
  destruct (cp_update lib i a b) as [s|], (ia j a' b') as [t|]; cbn in *; try contradiction; [|exact H].
  destruct H as (_ & _ & _ & _ & _ & V & _). destruct (g_vis s); cbn in *; [exact V|contradiction].
Qed.

Ltac state := let s := fresh "s" in let t := fresh "t" in let H := fresh "H" in
  intros s t H; destruct H as (? & ? & ? & ? & ? & ? & ?); lra.

Lemma engines : forall k tc cp ia st m,
  same_fluid cp ia -> recognised k cp m -> (forall T, m <> M_p_sat T) ->
  both same_value (snd (cp_call k cp st m)) (ia_call (k_pcrit k) tc ia m).
Proof.
  intros k tc cp ia st m [HP PS PQ PT QT] R NP.
  destruct m; cbn [cp_call ia_call];
    try (apply num_ok; [first [apply HP | apply PS | apply PQ | apply PT | apply QT];
         first [reflexivity | apply kilo_ok; reflexivity | apply mega_ok; reflexivity] | state]);
    try (apply vis_ok; first [apply HP | apply PT];
         first [reflexivity | apply kilo_ok; reflexivity | apply mega_ok; reflexivity]).
  - pose proof (HP h1 p1 (kilo h1) (mega p1) ltac:(apply kilo_ok; reflexivity) ltac:(apply mega_ok; reflexivity)) as S.
    unfold ask at 1. destruct (cp_update cp HmassP h1 p1) as [s|e], (ia I_hP (kilo h1) (mega p1)) as [t|f];
      cbn in S; try contradiction; [|exact S].
    cbn [rbind]. apply num_ok; [|state].
    apply PS; [|apply mega_ok; reflexivity].
    destruct S as (_ & _ & S & _). apply kilo_ok. rewrite S. ring.
  - exfalso. apply (NP T). reflexivity.
  - cbn in R. pose proof (HP h (subcritical (k_pcrit k) p) (kilo h) (mega (subcritical (k_pcrit k) p))
      ltac:(apply kilo_ok; reflexivity) ltac:(apply mega_ok; reflexivity)) as S.
    unfold ask, get, cp_Q. destruct (cp_update cp HmassP h _) as [s|e], (ia I_hP (kilo h) _) as [t|f];
      cbn in S; try contradiction; [|exact S].
    destruct S as (_ & _ & _ & _ & _ & _ & P). cbn.
    destruct (g_phase s), (i_phase t); try contradiction; try (exfalso; apply R; reflexivity); cbn; lra.
  - cbn in R. pose proof (HP h (subcritical (k_pcrit k) p) (kilo h) (mega (subcritical (k_pcrit k) p))
      ltac:(apply kilo_ok; reflexivity) ltac:(apply mega_ok; reflexivity)) as S.
    unfold ask, cp_phase. destruct (cp_update cp HmassP h _) as [s|e], (ia I_hP (kilo h) _) as [t|f];
      cbn in S; try contradiction; [|exact S].
    destruct S as (_ & _ & _ & _ & _ & _ & P). cbn.
    destruct (g_phase s), (i_phase t); try contradiction; try (exfalso; apply R; reflexivity); reflexivity.
Qed.

(** Both engines on a state of another phase *)
Lemma other_phase : forall k tc cp ia st p h s t,
  cp_update cp HmassP h (subcritical (k_pcrit k) p) = Ok s -> g_phase s = COther ->
  ia I_hP (kilo h) (mega (subcritical (k_pcrit k) p)) = Ok t -> i_phase t = IOther ->
  snd (cp_call k cp st (Phase_ph p h)) = Ok (Name "state not recognised")
  /\ ia_call (k_pcrit k) tc ia (Phase_ph p h) = Ok (Name "phase not recognised")
  /\ snd (cp_call k cp st (Q_ph p h)) = Ok (Num (- (1)))
  /\ ia_call (k_pcrit k) tc ia (Q_ph p h) = Ok (Num (i_x t)).
Proof.
  intros k tc cp ia st p h s t C CO I IO. cbn [cp_call ia_call]. unfold ask, get, cp_phase, cp_Q.
  rewrite C, I. cbn. rewrite CO, IO. repeat split.
Qed.

(* ---------------------------------------------------------------- pyromat *)

Lemma py_offered : forall ig m,
  (exists lib v, py_call ig lib m = Ok v) <-> ~ not_offered ig m.
Proof.
  intros ig m. split.
  - intros (lib & v & E) N. destruct m; cbn in *; try discriminate; try contradiction; subst ig; discriminate.
  - intros N. exists (fun _ _ _ => Ok {| y_T := 0; y_h := 0; y_s := 0; y_d := 0; y_x := 0 |}).
    destruct m; cbn in *; try (exfalso; apply N; exact I); try (eexists; reflexivity);
      destruct ig; try (exfalso; apply N; reflexivity); eexists; reflexivity.
Qed.

Lemma py_refusal : forall ig lib m, not_offered ig m -> (forall p q, m <> H_pQ p q) ->
  py_call ig lib m = Err NotImplementedError.
Proof.
  intros ig lib m N H. destruct m; cbn in *; try contradiction; try reflexivity; try (subst ig; reflexivity).
  exfalso. apply (H p q). reflexivity.
Qed.

Lemma py_reported : forall ig lib p h td0 s, lib P_ph p h = Ok s ->
  reported (py_call ig lib) p h td0 = Ok (if ig then None else Some (Num (y_x s)), None, None).
Proof. intros ig lib p h td0 s E. unfold reported. cbn. unfold pget. rewrite E. destruct ig; reflexivity. Qed.

Lemma py_x : forall ig lib p h x, x_func (py_call ig lib) p h x = Err AttributeError.
Proof. reflexivity. Qed.
Lemma py_Td : forall ig lib p h td s, lib P_ph p h = Ok s -> Td_bp_func (py_call ig lib) p h td = Ok None.
Proof. intros ig lib p h td s E. unfold Td_bp_func. cbn. unfold pget. rewrite E. reflexivity. Qed.

(** An engine that offers everything: the reported values are those of its methods. *)
Lemma full_reported : forall call p h td0 q ph T ts,
  call (Q_ph p h) = Ok (Num q) -> call (Phase_ph p h) = Ok (Name ph) -> call (T_ph p h) = Ok (Num T) ->
  call (M_T_sat p) = Ok (Num ts) ->
  reported call p h td0 = Ok (Some (Num q), Some (Name ph), Some (Num (T - ts))).
Proof. intros call p h td0 q ph T ts A B C D. unfold reported. rewrite A, B, C, D. reflexivity. Qed.

(* ----------------------------------------------------------------- names *)

Lemma split_free : forall c s, free c s -> split_on c s = [s].
Proof.
  intros c s. induction s as [|a s IH]; intros F; [reflexivity|]. destruct F as [N F]. cbn.
  destruct (Ascii.eqb_spec a c); [contradiction|]. rewrite IH by exact F. reflexivity.
Qed.
Lemma split_app : forall c a s, free c a -> split_on c (a ++ String c s)%string = a :: split_on c s.
Proof.
  intros c a s. induction a as [|x a IH]; intros F.
  - cbn. rewrite Ascii.eqb_refl. reflexivity.
  - destruct F as [N F]. cbn. destruct (Ascii.eqb_spec x c); [contradiction|]. rewrite IH by exact F. reflexivity.
Qed.
Lemma drop_free : forall c s, free c s -> drop c s = s.
Proof.
  intros c s. induction s as [|a s IH]; intros F; [reflexivity|]. destruct F as [N F]. cbn.
  destruct (Ascii.eqb_spec a c); [contradiction|]. rewrite IH by exact F. reflexivity.
Qed.
Lemma drop_app : forall c a b, drop c (a ++ b)%string = (drop c a ++ drop c b)%string.
Proof. intros c a b. induction a as [|x a IH]; [reflexivity|]. cbn. destruct (Ascii.eqb x c); rewrite IH; reflexivity. Qed.
Lemma free_app : forall c a b, free c a -> free c b -> free c (a ++ b)%string.
Proof. intros c a b. induction a as [|x a IH]; intros A B; [exact B|]. destruct A. split; [assumption|]. apply IH; assumption. Qed.

Lemma plain_name : forall s, free "["%char s -> fluid_name s = Ok (s, None).
Proof. intros s F. unfold fluid_name. rewrite split_free by exact F. reflexivity. Qed.
Lemma fraction_name : forall a b,
  free "["%char a -> free "["%char b -> free "]"%char b ->
  fluid_name (a ++ "[" ++ b ++ "]")%string = Ok (a, Some b).
Proof.
  intros a b A B C. unfold fluid_name. change ("[" ++ b ++ "]")%string with (String "["%char (b ++ "]")%string).
  rewrite split_app by exact A. rewrite split_free.
  - rewrite drop_app, drop_free by exact C. cbn. f_equal. f_equal. f_equal.
    clear. induction b as [|x b IH]; [reflexivity|]. cbn. rewrite IH. reflexivity.
  - apply free_app; [exact B|]. cbn. split; [discriminate|exact I].
Qed.
Lemma two_fractions : forall a b c, free "["%char a -> free "["%char b ->
  fluid_name (a ++ "[" ++ b ++ "[" ++ c)%string = Err ValueError.
Proof.
  intros a b c A B. unfold fluid_name.
  change ("[" ++ b ++ "[" ++ c)%string with (String "["%char (b ++ String "["%char c))%string.
  rewrite split_app by exact A. rewrite split_app by exact B.
  destruct (split_on "["%char c) eqn:E; [|reflexivity].
  exfalso. destruct c as [|x c]; cbn in E; [discriminate|]. destruct (Ascii.eqb x "["%char); [discriminate|].
  destruct (split_on "["%char c); discriminate.
Qed.

Lemma iapws_rejected : forall aliases f b,
  (~ In f aliases -> ia_new aliases f b = Err ValueError) /\
  (In f aliases -> b <> None -> b <> Some "IF97"%string -> b <> Some "IF95"%string -> ia_new aliases f b = Err NotImplementedError).
Proof.
  intros aliases f b. unfold ia_new.
  assert (M : existsb (String.eqb f) aliases = true <-> In f aliases).
  { rewrite existsb_exists. split.
    - intros (x & H & E). apply String.eqb_eq in E. subst. exact H.
    - intros H. exists f. split; [exact H|apply String.eqb_refl]. }
  destruct (existsb (String.eqb f) aliases) eqn:E; cbn [negb].
  - split; [intros N; exfalso; apply N, M; reflexivity|]. intros _ N0 N1 N2. destruct b as [b|]; [|contradiction].
    destruct (String.eqb_spec b "IF97"); [congruence|]. destruct (String.eqb_spec b "IF95"); [congruence|]. reflexivity.
  - split; [reflexivity|]. intros I. exfalso. apply M in I. congruence.
Qed.

Lemma iapws_new : forall aliases f b r,
  ia_new aliases f b = Ok r <->
  In f aliases /\ (b = None /\ r = "IF97"%string \/ b = Some "IF97"%string /\ r = "IF97"%string \/ b = Some "IF95"%string /\ r = "IF95"%string).
Proof.
  intros aliases f b r. unfold ia_new.
  assert (M : existsb (String.eqb f) aliases = true <-> In f aliases).
  { rewrite existsb_exists. split.
    - intros (x & H & E). apply String.eqb_eq in E. subst. exact H.
    - intros H. exists f. split; [exact H|apply String.eqb_refl]. }
  destruct (existsb (String.eqb f) aliases); cbn [negb].
  - split.
    + intros E. split; [apply M; reflexivity|]. destruct b as [b|]; [|left; injection E as <-; split; reflexivity].
      destruct (String.eqb_spec b "IF97"); [subst; cbn in E; injection E as <-; right; left; split; reflexivity|].
      destruct (String.eqb_spec b "IF95"); [subst; cbn in E; injection E as <-; right; right; split; reflexivity|].
      cbn in E. discriminate.
    + intros (_ & [[-> ->]|[[-> ->]|[-> ->]]]); reflexivity.
  - split; [discriminate|]. intros (H & _). apply M in H. discriminate.
Qed.

(* ------------------------------------------------------------ mixtures *)

Lemma v_row_mixture : forall u names p h fd pv hv,
  number_of_fluids fd <> 1%nat -> pv || hv = true -> v_row u names p h fd pv hv = Err KeyError.
Proof.
  intros u names p h fd pv hv N V.
  assert (E : forall p h T0, v_mix_ph u names p h fd None T0 = Err KeyError).
  { intros p' h' T0. unfold v_mix_ph, single, PhModel.T_mix_ph, dispatch.
    destruct (Nat.eqb_spec (number_of_fluids fd) 1); [contradiction|]. reflexivity. }
  unfold v_row, dv_dph, dv_pdh. rewrite !E.
  destruct pv, hv; try discriminate; reflexivity.
Qed.
Lemma v_row_single : forall u names p h fd e (rho : Q -> Q -> Q),
  number_of_fluids fd = 1%nat -> pure_fluid fd = Some e ->
  (forall p h, u_dph u e p h = Ok (rho p h) /\ ~ rho p h == 0) ->
  exists dp dh, v_row u names p h fd true true = Ok (Some dp, Some dh)
    /\ dp == (1 / rho (p + (1#10)) h - 1 / rho (p - (1#10)) h) / (2 * (1#10))
    /\ dh == (1 / rho p (h + (1#10)) - 1 / rho p (h - (1#10))) / (2 * (1#10)).
Proof.
  intros u names p h fd e rho N P D.
  assert (E : forall p h T0, v_mix_ph u names p h fd None T0 = Ok (1 / rho p h)).
  { intros p' h' T0. unfold v_mix_ph, single. rewrite N, P. cbn [Nat.eqb]. destruct (D p' h') as [-> Z]. cbn [rbind].
    unfold qdiv. destruct (Qeq_bool (rho p' h') 0) eqn:B; [apply Qeq_bool_iff in B; contradiction|]. reflexivity. }
  unfold v_row, dv_dph, dv_pdh. rewrite !E. cbn [rbind rmap]. rewrite !E. cbn [rbind rmap].
  eexists _, _. split; [reflexivity|]. split; reflexivity.
Qed.

Lemma x_means : forall k lib st p h x,
  match cp_update lib PQ_in p x with
  | Ok s => exists r, x_func (fun m => snd (cp_call k lib st m)) p h x = Ok (Some r) /\ (r == 0 <-> h == g_h s)
  | Err e => x_func (fun m => snd (cp_call k lib st m)) p h x = Err e
  end.
Proof.
  intros k lib st p h x. unfold x_func. cbn [cp_call]. unfold ask, num. destruct (cp_update lib PQ_in p x) as [s|e]; cbn; [|reflexivity].
  eexists. split; [reflexivity|]. split; intros; lra.
Qed.
Lemma Td_means : forall k lib st p h td s sat,
  cp_update lib HmassP h p = Ok s -> cp_update lib PQ_in (subcritical (k_pcrit k) p) 0 = Ok sat ->
  exists r, Td_bp_func (fun m => snd (cp_call k lib st m)) p h td = Ok (Some r) /\ (r == 0 <-> g_T s == g_T sat + td).
Proof.
  intros k lib st p h td s sat E1 E2. unfold Td_bp_func. cbn [cp_call]. unfold ask, num. rewrite E1, E2. cbn.
  eexists. split; [reflexivity|]. split; intros; lra.
Qed.
Lemma unknown_reported : forall call p h td0,
  (call (Q_ph p h) = Err ValueError -> call (Phase_ph p h) = Err ValueError -> call (T_ph p h) = Err ValueError -> reported call p h td0 = Ok (None, None, td0))
  /\ (forall e, e <> ValueError -> e <> NotImplementedError -> call (Q_ph p h) = Err e -> reported call p h td0 = Err e)
  /\ (forall e, e <> ValueError -> e <> NotImplementedError -> call (Q_ph p h) = Err ValueError -> call (Phase_ph p h) = Err e -> reported call p h td0 = Err e)
  /\ (forall e, e <> ValueError -> e <> NotImplementedError -> call (Q_ph p h) = Err ValueError -> call (Phase_ph p h) = Err ValueError -> call (T_ph p h) = Err e -> reported call p h td0 = Err e).
Proof.
  intros call p h td0. unfold reported, or_nan. repeat split.
  - intros -> -> ->. reflexivity.
  - intros e A B ->. destruct e; try congruence; reflexivity.
  - intros e A B -> ->. destruct e; try congruence; reflexivity.
  - intros e A B -> -> ->. destruct e; try congruence; reflexivity.
Qed.

Lemma p_sat_partial : forall k lib st tc T, k_Tcrit k = Some tc ->
  (T <= tc -> forall s, cp_update lib QT_in 0 T = Ok s -> snd (cp_call k lib st (M_p_sat T)) = Ok (Num (g_p s)))
  /\ (tc < T -> forall s, cp_update lib QT_in 0 (tc * (99#100)) = Ok s -> snd (cp_call k lib st (M_p_sat T)) = Ok (Num (g_p s))).
Proof.
  intros k lib st tc T E. cbn [cp_call]. rewrite E. split; intros H s U; unfold ask, num.
  - rewrite (proj2 (Qle_bool_iff _ _) H), U. reflexivity.
  - destruct (Qle_bool T tc) eqn:B; [apply Qle_bool_iff in B; lra|]. rewrite U. reflexivity.
Qed.
