(** C168-C173: input of Sankey diagrams from exergy analyses. *)
From Coq Require Import QArith Qabs.
From Verif Require Import Base ExergyModel AnalysisModel SankeyModel SankeySpec SankeyProofs SankeyProofs2.
Open Scope Q_scope.
Open Scope list_scope.

(** C168 – removal of transit groups ends, with a recursion no deeper than the number of groups. *)
Theorem C168_terminates : forall R sk,
  proper sk -> exists sk', remove_transit (S (length sk)) R sk = Ok sk'.
Proof. exact transit_total. Qed.
Print Assumptions C168_terminates.

(** C168 – what flows to a remaining node, by category and column, is what flowed to it before. *)
Theorem C168_flows : forall fuel R sk sk' c k,
  proper sk -> remove_transit fuel R sk = Ok sk' -> In (fst k) (keys sk') -> flow_in c k sk' == flow_in c k sk.
Proof. exact transit_flows. Qed.
Print Assumptions C168_flows.

(** C168 – nodes are only removed, and never the reserved ones. *)
Theorem C168_nodes : forall fuel R sk sk' g,
  proper sk -> remove_transit fuel R sk = Ok sk' -> (In g (keys sk') -> In g (keys sk)) /\ (In g R -> In g (keys sk) -> In g (keys sk')).
Proof. exact transit_kept. Qed.
Print Assumptions C168_nodes.

(** C168 – afterwards no group that is not reserved only passes on what one group sends, or is without flows. *)
Theorem C168_gone : forall fuel R sk sk' g,
  proper sk -> remove_transit fuel R sk = Ok sk' -> In g (keys sk') -> ~ In g R -> ~ transit g sk' /\ ~ isolated g sk'.
Proof. exact transit_gone. Qed.
Print Assumptions C168_gone.

(** C168 – flows still end at nodes. *)
Theorem C168_closed : forall fuel R sk sk',
  proper sk -> closed sk -> remove_transit fuel R sk = Ok sk' -> closed sk'.
Proof. exact transit_closed. Qed.
Print Assumptions C168_closed.

(** b passes on what a sends, c has no flows. *)
Example C168_ex : proper chain_tables /\ closed chain_tables /\ transit "b" chain_tables /\ isolated "c" chain_tables /\
  remove_transit 7 ["E_D"; "E_P"]%string chain_tables =
  Ok [("a", [(("E_D", "E_D"), (Some 0, Some 0, Some 1)); (("d", "work"), (Some 0, Some 0, Some 7))]);
      ("d", [(("E_D", "E_D"), (Some 0, Some 0, Some 2)); (("E_P", "E_P"), (Some 0, Some 0, Some 5))]); ("E_D", []); ("E_P", [])]%string.
Proof.
  assert (U : NoDup (keys chain_tables)) by (repeat (constructor; [cbn; intuition discriminate|]); constructor).
  assert (FT : forall s g, feeds s g chain_tables -> In (s, g) [("a", "b"); ("a", "E_D"); ("b", "d"); ("d", "E_D"); ("d", "E_P")]%string).
  { intros s g (t & c & v & I & J). cbn in I. repeat (destruct I as [I|I]; [injection I as <- <-; cbn in J; repeat (destruct J as [J|J]; [injection J as <- <- <-; cbn; tauto|]); contradiction|]). contradiction. }
  split; [split; [exact U|]|].
  - intros g t I. unfold rows_unique. cbn in I. repeat (destruct I as [I|I]; [injection I as <- <-; repeat (constructor; [cbn; intuition discriminate|]); constructor|]). contradiction.
  - split; [intros s g F; apply FT in F; cbn in F; repeat (destruct F as [F|F]; [injection F as <- <-; cbn; tauto|]); contradiction|]. split; [|split].
    + split.
      * exists "a"%string. split; [discriminate|]. split; [do 3 eexists; split; [left; reflexivity|left; reflexivity]|]. intros s' _ F. apply FT in F. cbn in F. repeat (destruct F as [F|F]; [injection F; congruence|]). contradiction.
      * exists "d"%string. split; [do 3 eexists; split; [right; left; reflexivity|left; reflexivity]|]. intros s' F. apply FT in F. cbn in F. repeat (destruct F as [F|F]; [injection F; congruence|]). contradiction.
    + split; [intros s _ F|intros s F]; apply FT in F; cbn in F; repeat (destruct F as [F|F]; [discriminate|]); contradiction.
    + reflexivity.
Qed.

(** C169 – links are exactly the positive cells of the tables displayed, from and to the first positions of the nodes in the order, in the colour of the category; values add up. *)
Theorem C169_links : forall an groups order colors thr dis sk ls o,
  sankey_input an groups order colors thr dis sk = Ok (ls, o) ->
  exists sk', remove_transit (S (length sk)) (reserved an) (above thr sk) = Ok sk' /\
  (forall x, In x ls <-> exists g t k v c, In (g, t) sk' /\ In (k, v) t /\
     cell c v = Some (l_val x) /\ 0 < l_val x /\ first_at g o (l_src x) /\ first_at (fst k) o (l_tgt x) /\ dget (snd k) (palette colors) = Some (l_col x)) /\
  fold_right (fun x s => l_val x + s) 0 ls == shown_total sk' /\
  o = match order with [] => default_order an groups | _ => order end.
Proof. exact links_exact. Qed.
Print Assumptions C169_links.

(** C169 – a colour passed for a category is used. *)
Theorem C169_colour : forall colors c x,
  NoDup (keys colors) -> In (c, x) colors -> dget c (palette colors) = Some x.
Proof. exact palette_given. Qed.
Print Assumptions C169_colour.

(** C169 – otherwise that of the package. *)
Theorem C169_default_colour : forall colors c,
  ~ In c (keys colors) -> dget c (palette colors) = dget c colordict.
Proof. exact palette_kept. Qed.
Print Assumptions C169_default_colour.

(** C169 – ValueError if a node is missing in the order passed. *)
Theorem C169_missing : forall an groups order colors thr dis sk sk' g,
  remove_transit (S (length sk)) (reserved an) (above thr sk) = Ok sk' ->
  order <> [] -> In g (keys sk') -> ~ In g order -> sankey_input an groups order colors thr dis sk = Err ValueError.
Proof. exact input_missing. Qed.
Print Assumptions C169_missing.

(** C169 – for the tables of an analysis there are links, with the order of the package or one with all groups, if every category has a colour. *)
Theorem C169_total : forall an ks ls order colors thr dis groups sk,
  final_tables an ks ls = Ok (groups, sk) ->
  (forall k, In k ks -> In (k_cat_in k) (keys (palette colors)) /\ In (k_cat_out k) (keys (palette colors))) ->
  (forall l, In l ls -> In (n_tgt l) (map k_label ks) /\ In (n_cat l) (keys (palette colors))) ->
  (forall x, order <> [] -> In x (reserved an) \/ In x groups -> In x order) ->
  exists out, diagram an ks ls order colors thr dis = Ok out.
Proof. exact diagram_total. Qed.
Print Assumptions C169_total.

(** Fuel to a source, turbine, power. *)
Example C169_ex : match diagram station [from_source 100; turbine_of 90 80] [pipe "source" "turbine" 10 100] [] [("work", "red")]%string (1#1000) false with
  | Ok (ls, o) => map (fun x => (nth (l_src x) o "", nth (l_tgt x) o "", Qred (l_val x), l_col x)%string) ls
  | Err _ => [] end =
  [("E_F", "fuel", 100, "rgba(242, 142, 43, 0.90)"); ("fuel", "turbine", 10, "rgba(89, 161, 79, 0.90)"); ("fuel", "turbine", 100, "rgba(89, 161, 79, 0.90)");
   ("power", "E_P", 80, "rgba(118, 183, 178, 0.90)"); ("turbine", "power", 80, "red"); ("turbine", "E_D", 10, "rgba(176, 122, 161, 0.90)")]%string.
Proof. vm_compute. reflexivity. Qed.
(** An order without the turbine. *)
Example C169_missing_ex : diagram station [from_source 100; turbine_of 90 80] [pipe "source" "turbine" 10 100] ["E_F"; "E_P"; "E_L"; "E_D"; "fuel"; "power"]%string [] (1#1000) false = Err ValueError.
Proof. vm_compute. reflexivity. Qed.

(** C170 – false: a link below the threshold is displayed. *)
Theorem C170_threshold_refuted : exists an ks ls thr out x, diagram an ks ls [] [] thr false = Ok out /\ In x (fst out) /\ l_val x < thr.
Proof. exact threshold_small. Qed.
Print Assumptions C170_threshold_refuted.

(** C170 – true of the sum of the sizes of the three columns of a row. *)
Theorem C170_threshold_partial : forall thr sk g k v,
  NoDup (keys sk) -> (In (k, v) (table_of g (above thr sk)) <-> In (k, v) (table_of g sk) /\ thr <= size v).
Proof. exact threshold_rows. Qed.
Print Assumptions C170_threshold_partial.

(** C171 – false: a flow above the threshold is not displayed. *)
Theorem C171_negative_refuted : exists an ks ls thr ls' o l, diagram an ks ls [] [] thr false = Ok (ls', o) /\ In l ls /\ n_src l <> n_tgt l /\ thr <= Qabs (n_phys l) /\
  forall x, In x ls' -> nth_error o (l_tgt x) <> Some (n_tgt l).
Proof. exact negative_hidden. Qed.
Print Assumptions C171_negative_refuted.

(** C172 – false: without disaggregation there are two links from a node to another in the same colour. *)
Theorem C172_aggregate_refuted : exists an ks ls thr ls' o x y, diagram an ks ls [] [] thr false = Ok (ls', o) /\ In x ls' /\ In y ls' /\ x <> y /\
  l_src x = l_src y /\ l_tgt x = l_tgt y /\ l_col x = l_col y.
Proof. exact columns_separate. Qed.
Print Assumptions C172_aggregate_refuted.

(** C172 – the option makes no difference. *)
Theorem C172_ignored : forall an ks ls order colors thr,
  diagram an ks ls order colors thr true = diagram an ks ls order colors thr false.
Proof. exact option_ignored. Qed.
Print Assumptions C172_ignored.

(** C173 – false: a link from a node to itself though no connection is one. *)
Theorem C173_self_refuted : exists an ks ls thr ls' o x, diagram an ks ls [] [] thr false = Ok (ls', o) /\ (forall l, In l ls -> n_src l <> n_tgt l) /\ In x ls' /\ l_src x = l_tgt x.
Proof. exact self_link. Qed.
Print Assumptions C173_self_refuted.
