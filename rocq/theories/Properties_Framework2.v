(** * C122-C124: the Scenario object protocol *)
From Verif Require Import Framework FrameworkProofs FrameworkProps Heap M_scen M_ga11 GmmLib Properties_Params.
Open Scope R_scope.
Open Scope string_scope.
Open Scope list_scope.

(** ** C122: printing a scenario *)
(** Both quantities must be held; the first missing one is named by the KeyError. *)
Theorem C122_printing_needs_mag_and_dist_jb : forall s,
  result (sc_repr s) = match dget (s_data s) "mag", dget (s_data s) "dist_jb" with
                       | Some m, Some r => Ok (m, r)
                       | None, _ => Raise (EKey "mag")
                       | Some _, None => Raise (EKey "dist_jb")
                       end.
Proof.
  intros s. unfold sc_repr, sc_item, ditem. destruct (dget (s_data s) "mag"), (dget (s_data s) "dist_jb"); reflexivity.
Qed.
Print Assumptions C122_printing_needs_mag_and_dist_jb.

(** The shipped models that do not declare dist_jb: their [scenario] can never be printed,
    whatever the model was built from. *)
Definition without_dist_jb : list string :=
  ["Campbell2003"; "TavakoliPezeshk05"; "PezeshkZandiehTavakoli2011"; "Idriss2014"; "AtkinsonBoore2006"; "AbrahamsonGregorAddo2016";
   "CoppersmithBommer2014"; "GulerceAbrahamson2011"; "AbrahamsonSilva1996"; "KemptonStewart2006"; "AfshariStewart2016"; "AbrahamsonBhasin2020";
   "BaylessAbrahamson2019"; "PinillaRamosEtAl2023"; "PinillaRamosEtAl2024"].

Theorem C122_scenario_of_these_models_never_prints : forall name ps src s,
  In (name, ps) all_params -> In name without_dist_jb -> result (model_init ps src) = Ok s ->
  exists k, result (sc_repr s) = Raise (EKey k) /\ (k = "mag" \/ k = "dist_jb").
Proof.
  intros name ps src s I N E.
  assert (dget (s_data s) "dist_jb" = None) as J.
  { apply dget_None_keys. destruct (C13_never_a_warning name ps src I) as [(s' & E' & K & _)|[E'|E']]; rewrite E in E'; try discriminate E'.
    injection E' as <-. rewrite K.
    assert (forallb (fun np => negb (smem (fst np) without_dist_jb) || negb (smem "dist_jb" (map p_name (snd np)))) all_params = true) as H by reflexivity.
    rewrite forallb_forall in H. specialize (H _ I). cbn [fst snd] in H. apply smem_In in N. rewrite N in H. cbn [negb orb] in H.
    intros D. apply smem_In in D. rewrite D in H. discriminate H. }
  rewrite C122_printing_needs_mag_and_dist_jb, J. destruct (dget (s_data s) "mag"); eexists; split; [reflexivity|right; reflexivity|reflexivity|left; reflexivity].
Qed.
Print Assumptions C122_scenario_of_these_models_never_prints.

(** And for every other shipped model the scenario always prints. *)
Theorem C122_the_others_always_print : forall name ps src s,
  In (name, ps) all_params -> ~ In name without_dist_jb -> result (model_init ps src) = Ok s ->
  exists m r, result (sc_repr s) = Ok (m, r).
Proof.
  intros name ps src s I N E.
  assert (In "mag" (dkeys (s_data s)) /\ In "dist_jb" (dkeys (s_data s))) as (A & B).
  { destruct (C13_never_a_warning name ps src I) as [(s' & E' & K & _)|[E'|E']]; rewrite E in E'; try discriminate E'. injection E' as <-. rewrite K.
    assert (forallb (fun np => smem (fst np) without_dist_jb || (smem "mag" (map p_name (snd np)) && smem "dist_jb" (map p_name (snd np)))) all_params = true) as H by reflexivity.
    rewrite forallb_forall in H. specialize (H _ I). cbn [fst snd] in H.
    destruct (smem name without_dist_jb) eqn:F; [exfalso; apply N, smem_In, F|]. cbn [orb] in H. apply andb_prop in H as (H1 & H2).
    split; apply smem_In; assumption. }
  rewrite C122_printing_needs_mag_and_dist_jb.
  destruct (dget (s_data s) "mag") as [m|] eqn:F; [|apply dget_None_keys in F; contradiction].
  destruct (dget (s_data s) "dist_jb") as [r|] eqn:G; [|apply dget_None_keys in G; contradiction]. eauto.
Qed.
Print Assumptions C122_the_others_always_print.

Example C122_nonvacuous : incl without_dist_jb (map fst all_params) /\ NoDup without_dist_jb /\ List.length without_dist_jb = 15%nat /\
  (exists s, result (model_init M_as96.as96_params [("mag", PNum (Fin 6)); ("dist_rup", PNum (Fin 10)); ("site_cond", PStr "rock"); ("dist_jb", PNum (Fin 9))]) = Ok s
     /\ result (sc_repr s) = Raise (EKey "dist_jb")) /\
  result (sc_repr (Scen [("dist_jb", PNum (Fin 9)); ("mag", PNum (Fin 6))] [])) = Ok (PNum (Fin 6), PNum (Fin 9)).
Proof.
  split; [intros k; intros H; cbn in H; apply smem_In; intuition (subst; reflexivity)|]. split; [apply nodupb_NoDup; reflexivity|]. split; [reflexivity|].
  split; [|reflexivity].
  assert (exists s, result (model_init M_as96.as96_params [("mag", PNum (Fin 6)); ("dist_rup", PNum (Fin 10)); ("site_cond", PStr "rock"); ("dist_jb", PNum (Fin 9))]) = Ok s) as (s & E).
  { destruct C13_nonvacuous as (_ & _ & _ & (s & E) & _). exists s. rewrite <- E. reflexivity. }
  exists s. split; [exact E|].
  destruct (C13_never_a_warning "AbrahamsonSilva1996" M_as96.as96_params [("mag", PNum (Fin 6)); ("dist_rup", PNum (Fin 10)); ("site_cond", PStr "rock"); ("dist_jb", PNum (Fin 9))])
    as [(s' & E' & K & _)|[E'|E']]; try (rewrite E in E'; discriminate E'); try (cbn; tauto).
  rewrite E in E'. injection E' as <-. rewrite C122_printing_needs_mag_and_dist_jb.
  assert (dget (s_data s) "dist_jb" = None) as -> by (apply dget_None_keys; rewrite K; cbn; intuition discriminate).
  destruct (dget (s_data s) "mag") eqn:F; [reflexivity|]. apply dget_None_keys in F. rewrite K in F. cbn in F. tauto.
Qed.

(** ** C123: asking for a name the scenario does not hold *)
(** Does operation [o] assign the name [k] as an item or attribute? *)
Definition assigns (k : string) (o : op) : bool :=
  match o with OSetItem _ k' _ | OSetAttr _ k' _ => String.eqb k' k | _ => false end.
Definition lacks (k : string) (s : scen) : Prop := ~ In k (dkeys (s_data s)) /\ ~ In k (dkeys (s_attrs s)).

Lemma hcheck_lacks k ps l h : ~ In k (map p_name ps) -> Forall (lacks k) h -> Forall (lacks k) (fst (hcheck ps l h)).
Proof.
  revert h. induction ps as [|p ps IH]; intros h N H; cbn [hcheck]; [exact H|].
  destruct (nth_error h l) as [s|] eqn:E; [|exact H]. destruct (result _) as [w|e]; [|exact H].
  cbn in N. apply IH; [tauto|]. apply hset_Forall; [exact H|]. apply nth_error_In in E. rewrite Forall_forall in H. destruct (H _ E) as (A & B).
  split; cbn [s_data s_attrs sc_setitem]; [|exact B]. rewrite dkeys_dset. intros [C|C]; [|tauto]. apply N. left. congruence.
Qed.
Lemma sc_new_known kw s : result (sc_new kw) = Ok s -> s_attrs s = [] /\ incl (dkeys (s_data s)) KNOWN_KEYS /\ incl (dkeys kw) KNOWN_KEYS.
Proof.
  unfold sc_new. intros H. pose proof (check_keys_ok (dkeys (dupdate [] kw))) as C. destruct (check_keys (dkeys (dupdate [] kw))) as [w [u|e]]; cbn in H; [|discriminate].
  injection H as <-. cbn [s_data s_attrs]. destruct u. destruct C as (C & _). specialize (C eq_refl). split; [reflexivity|]. split; [exact C|].
  intros x Hx. apply C, dkeys_dupdate. right. exact Hx.
Qed.
Lemma step_lacks k h o : ~ In k KNOWN_KEYS -> assigns k o = false -> Forall (lacks k) h -> Forall (lacks k) (fst (step h o)).
Proof.
  intros N A H. assert (HF : forall l s, nth_error h l = Some s -> lacks k s).
  { intros l s E. apply nth_error_In in E. rewrite Forall_forall in H. auto. }
  destruct o as [kw|l0 kw|l0 k' v|l0 k' v|ps l0]; cbn [step assigns] in *.
  - destruct (result (sc_new kw)) eqn:E; cbn; [|exact H]. apply Forall_app. split; [exact H|]. constructor; [|constructor].
    apply sc_new_known in E as (E1 & E2 & _). split; [intros C; apply N, E2, C|rewrite E1; cbn; tauto].
  - destruct (nth_error h l0) as [s|] eqn:Es; [|exact H]. destruct (result (sc_copy_with s kw)) eqn:E; cbn; [|exact H].
    apply Forall_app. split; [exact H|]. constructor; [|constructor]. destruct (HF _ _ Es) as (B1 & B2).
    unfold sc_copy_with in E. pose proof (check_keys_ok (dkeys kw)) as C. destruct (check_keys (dkeys kw)) as [w [u|e]]; cbn in E; [|discriminate].
    injection E as <-. destruct u. destruct C as (C & _). specialize (C eq_refl). split; cbn [s_data s_attrs]; [|exact B2].
    rewrite !dkeys_dupdate. cbn. intros [[[]|D]|D]; [exact (B1 D)|]. apply N, C, D.
  - destruct (nth_error h l0) as [s|] eqn:Es; cbn; [|exact H]. apply hset_Forall; [exact H|]. destruct (HF _ _ Es) as (B1 & B2).
    split; cbn [s_data s_attrs sc_setitem]; [|exact B2]. rewrite dkeys_dset. intros [D|D]; [|tauto]. subst. rewrite String.eqb_refl in A. discriminate A.
  - destruct (nth_error h l0) as [s|] eqn:Es; cbn; [|exact H]. apply hset_Forall; [exact H|]. destruct (HF _ _ Es) as (B1 & B2).
    split; cbn [s_data s_attrs sc_setattr]; [exact B1|]. rewrite dkeys_dset. intros [D|D]; [|tauto]. subst. rewrite String.eqb_refl in A. discriminate A.
  - destruct (nth_error h l0) as [s|] eqn:Es; [|exact H]. destruct (result (sc_new _)) as [s'|e] eqn:E; [|exact H].
    apply sc_new_known in E as (E1 & E2 & E3). rewrite dkeys_pick in E3.
    pose proof (hcheck_lacks k ps (List.length h) (h ++ [s'])) as HA. destruct (hcheck ps (List.length h) (h ++ [s'])) as [h' r]. cbn [fst] in *. apply HA.
    + intros C. apply N, E3, C.
    + apply Forall_app. split; [exact H|]. constructor; [|constructor]. split; [intros C; apply N, E2, C|rewrite E1; cbn; tauto].
Qed.
Lemma run_lacks k os h : ~ In k KNOWN_KEYS -> forallb (fun o => negb (assigns k o)) os = true -> Forall (lacks k) h -> Forall (lacks k) (run h os).
Proof.
  revert h. induction os as [|o os IH]; intros h N A H; cbn in *; [exact H|]. apply andb_prop in A as [A1 A2]. unfold run. cbn. apply IH; [exact N|exact A2|].
  apply step_lacks; [exact N|apply negb_true_iff, A1|exact H].
Qed.

(** A name that is neither held nor a class member: KeyError instead of AttributeError, so
    the default of getattr is ignored and hasattr raises. *)
Theorem C123_missing_name_is_a_key_error : forall s k default,
  ~ In k (dkeys (s_data s)) -> ~ In k (dkeys (s_attrs s)) -> ~ In k class_names ->
  sc_getattr s k = raise (EKey k) /\ sc_getattr_default s k default = raise (EKey k) /\ sc_hasattr s k = raise (EKey k).
Proof.
  intros s k d A B C. unfold sc_hasattr, sc_getattr_default, py_getattr_default.
  assert (sc_getattr s k = raise (EKey k)) as E.
  { unfold sc_getattr. rewrite (proj2 (dget_None_keys _ _) B). destruct (smem k class_names) eqn:F; [exfalso; apply C, smem_In, F|].
    unfold ditem. rewrite (proj2 (dget_None_keys _ _) A). reflexivity. }
  rewrite E. cbn. auto.
Qed.
Print Assumptions C123_missing_name_is_a_key_error.

(** hasattr never answers False. *)
Theorem C123_hasattr_never_false : forall s k, result (sc_hasattr s k) <> Ok false.
Proof.
  intros s k. unfold sc_hasattr, sc_getattr. destruct (dget (s_attrs s) k); [discriminate|]. destruct (smem k class_names); [discriminate|].
  unfold ditem. destruct (dget (s_data s) k); discriminate.
Qed.
Print Assumptions C123_hasattr_never_false.

(** After any history of construction, copy_with, item and attribute assignment and model
    construction in which the name is not assigned, an unrecognised name behaves so on every object. *)
Theorem C123_after_any_history : forall os l s k default, nth_error (run [] os) l = Some s ->
  ~ In k KNOWN_KEYS -> ~ In k class_names -> (forall o, In o os -> assigns k o = false) ->
  sc_getattr_default s k default = raise (EKey k) /\ sc_hasattr s k = raise (EKey k).
Proof.
  intros os l s k d E N C A. assert (Forall (lacks k) (run [] os)) as H.
  { apply run_lacks; [exact N| |constructor]. apply forallb_forall. intros o Ho. rewrite (A o Ho). reflexivity. }
  rewrite Forall_forall in H. destruct (H s (nth_error_In _ _ E)) as (H1 & H2). destruct (C123_missing_name_is_a_key_error s k d H1 H2 C) as (_ & X). exact X.
Qed.
Print Assumptions C123_after_any_history.

(** copy.deepcopy of any scenario so obtained always fails, with KeyError '__deepcopy__'. *)
Theorem C123_deepcopy_always_fails : forall os l s, nth_error (run [] os) l = Some s ->
  (forall o, In o os -> assigns "__deepcopy__" o = false) -> sc_deepcopy s = raise (EKey "__deepcopy__").
Proof.
  intros os l s E A. unfold sc_deepcopy.
  destruct (C123_after_any_history os l s "__deepcopy__" (AValue PNone) E) as (-> & _); [| |exact A|reflexivity];
    intros H; apply smem_In in H; discriminate H.
Qed.
Print Assumptions C123_deepcopy_always_fails.

(** Whatever the recursion limit, unpickling a pickled scenario runs out of stack. *)
Theorem C123_unpickling_always_overflows : forall depth s, sc_pickle_round_trip depth s = RecursionError.
Proof.
  assert (forall depth, inst_getattr depth blank "data" = RecursionError) as H.
  { intros depth. induction depth as [|n IH]; [reflexivity|]. cbn [inst_getattr blank i_attrs i_data dget]. cbn. fold blank. rewrite IH. reflexivity. }
  intros depth s. unfold sc_pickle_round_trip. destruct depth as [|n]; [reflexivity|].
  cbn [inst_getattr blank i_attrs i_data dget]. cbn. fold blank. rewrite H. reflexivity.
Qed.
Print Assumptions C123_unpickling_always_overflows.

Example C123_nonvacuous : exists s, nth_error (run [] [ONew [("mag", PNum (Fin 6))]; OSetAttr 0 "note" (PStr "x")]) 0 = Some s /\
  sc_hasattr s "mag" = ret true /\ sc_hasattr s "note" = ret true /\ sc_hasattr s "copy_with" = ret true /\ sc_hasattr s "dist_jb" = raise (EKey "dist_jb") /\
  sc_deepcopy s = raise (EKey "__deepcopy__") /\
  (* a fully built object looks its names up without trouble *)
  inst_getattr 3 (built s) "mag" = Found (TVal (PNum (Fin 6))) /\ inst_getattr 3 (built s) "dip" = Missing "dip" /\ inst_getattr 0 (built s) "data" = Found (TData (s_data s)).
Proof. eexists. split; [reflexivity|]. repeat split. Qed.

(** ** C124: merging scenarios *)
(** [s | mapping] and [mapping | s] always raise TypeError. *)
Theorem C124_merge_operator_never_works : forall s other, sc_or s other = raise EType /\ sc_ror s other = raise EType.
Proof. intros. split; reflexivity. Qed.
Print Assumptions C124_merge_operator_never_works.

(** [|=] and update apply the entries without the check that construction and copy_with make:
    every entry ends up held, recognised or not, and the rest is kept. *)
Theorem C124_update_unchecked : forall s other k, NoDup (dkeys other) ->
  dget (s_data (sc_ior s other)) k = match dget other k with Some v => Some v | None => dget (s_data s) k end /\ s_attrs (sc_ior s other) = s_attrs s.
Proof.
  intros s other k N. split; [|reflexivity]. cbn [sc_ior s_data]. rewrite dget_dupdate, dget_rev_nodup by exact N. reflexivity.
Qed.
Print Assumptions C124_update_unchecked.

(** Unrecognised entries installed that way stay invisible to every shipped model ... *)
Theorem C124_unchecked_entries_do_not_reach_a_model : forall name ps s other, In (name, ps) all_params ->
  (forall k, In k (dkeys other) -> ~ In k KNOWN_KEYS) -> model_init ps (s_data (sc_ior s other)) = model_init ps (s_data s).
Proof.
  intros name ps s other I U. apply model_init_ext. intros p Hp. destruct (C13_recognised_and_distinct name ps I) as (_ & K).
  assert (In (p_name p) KNOWN_KEYS) as Kp by (apply K, in_map, Hp). unfold dget_none. cbn [sc_ior s_data]. rewrite dget_dupdate.
  replace (dget (rev other) (p_name p)) with (@None pyval); [reflexivity|]. symmetry. apply dget_None_keys. unfold dkeys. rewrite map_rev. intros C. apply in_rev in C.
  exact (U _ C Kp).
Qed.
Print Assumptions C124_unchecked_entries_do_not_reach_a_model.

(** ... and survive copy_with, which checks only its own keywords. *)
Theorem C124_unchecked_entries_survive_copy_with : forall s other kw k v s', NoDup (dkeys (s_data (sc_ior s other))) -> NoDup (dkeys other) -> NoDup (dkeys kw) ->
  dget other k = Some v -> ~ In k KNOWN_KEYS -> result (sc_copy_with (sc_ior s other) kw) = Ok s' -> dget (s_data s') k = Some v.
Proof.
  intros s other kw k v s' N0 N1 N2 D U E. unfold sc_copy_with in E. pose proof (check_keys_ok (dkeys kw)) as C.
  destruct (check_keys (dkeys kw)) as [w [u|e]]; cbn in E; [|discriminate]. injection E as <-. destruct u. destruct C as (C & _). specialize (C eq_refl).
  cbn [s_data]. rewrite dget_dupdate, dget_rev_nodup by exact N2.
  replace (dget kw k) with (@None pyval) by (symmetry; apply dget_None_keys; intros X; exact (U (C _ X))).
  change (dget (dupdate [] (s_data (sc_ior s other))) k = Some v). rewrite dget_dupdate. cbn [dget]. rewrite dget_rev_nodup by exact N0.
  destruct (C124_update_unchecked s other k N1) as (-> & _). rewrite D. reflexivity.
Qed.
Print Assumptions C124_unchecked_entries_survive_copy_with.

Example C124_nonvacuous : let s := Scen [("mag", PNum (Fin 6))] [] in let other := [("colour", PStr "red"); ("mag", PNum (Fin 7))] in
  s_data (sc_ior s other) = [("mag", PNum (Fin 7)); ("colour", PStr "red")] /\ ~ In "colour" KNOWN_KEYS /\ NoDup (dkeys (s_data (sc_ior s other))) /\
  (exists s', result (sc_copy_with (sc_ior s other) [("dip", PNum (Fin 45))]) = Ok s' /\ dget (s_data s') "colour" = Some (PStr "red")) /\
  result (sc_new [("colour", PStr "red")]) = Raise (EWarning "colour").
Proof.
  intros s other. split; [reflexivity|]. split; [intros H; apply smem_In in H; discriminate H|]. split; [apply nodupb_NoDup; reflexivity|].
  split; [eexists; split; reflexivity|reflexivity].
Qed.

(** ** C126: constructing with keywords, or with a scenario and keywords *)
(** gulerce_abrahamson_2011.py:46-57, the one shipped model that passes arbitrary arguments on. *)
Definition ga11_call (args : list dict) (kw : dict) : M ga11_obj := bind (call_source args kw) ga11.

(** Recognised keywords alone are the same as a scenario of those keywords. *)
Theorem C126_keywords_alone : forall kw, NoDup (dkeys kw) -> (forall k, In k (dkeys kw) -> In k KNOWN_KEYS) ->
  (forall ps, model_call ps [] kw = model_init ps kw) /\ ga11_call [] kw = ga11 kw.
Proof.
  intros kw N K. assert (call_source [] kw = ret kw) as E by (unfold call_source; rewrite scenario_new_ok by assumption; reflexivity).
  unfold model_call, ga11_call. rewrite E. split; [intros ps|]; unfold bind, ret; cbn [fst snd app].
  - destruct (model_init ps kw); reflexivity.
  - destruct (ga11 kw); reflexivity.
Qed.
Print Assumptions C126_keywords_alone.
(** An unrecognised keyword alone raises Warning. *)
Theorem C126_unknown_keyword_rejected : forall pre k v post, NoDup (dkeys (pre ++ (k, v) :: post)) ->
  (forall k', In k' (dkeys pre) -> In k' KNOWN_KEYS) -> ~ In k KNOWN_KEYS ->
  (forall ps, model_call ps [] (pre ++ (k, v) :: post) = raise (EWarning k)) /\ ga11_call [] (pre ++ (k, v) :: post) = raise (EWarning k).
Proof.
  intros pre k v post N K U. assert (call_source [] (pre ++ (k, v) :: post) = raise (EWarning k)) as E by (unfold call_source; rewrite scenario_new_unknown by assumption; reflexivity).
  unfold model_call, ga11_call. rewrite E. split; reflexivity.
Qed.
Print Assumptions C126_unknown_keyword_rejected.
(** VIOLATED: keywords given beside a scenario should override it (or be refused); they are ignored, recognised or not. *)
Theorem C126_keywords_beside_a_scenario_are_ignored : forall src kw,
  (forall ps, model_call ps [src] kw = model_init ps src) /\ ga11_call [src] kw = ga11 src.
Proof.
  intros src kw. unfold model_call, ga11_call, call_source, bind, ret. cbn [fst snd app]. split; [intros ps; destruct (model_init ps src)|destruct (ga11 src)]; reflexivity.
Qed.
Print Assumptions C126_keywords_beside_a_scenario_are_ignored.
(** VIOLATED: with two positional arguments both are ignored. *)
Theorem C126_two_scenarios_are_both_ignored : forall a b more kw,
  (forall ps, model_call ps (a :: b :: more) kw = model_call ps [] kw) /\ ga11_call (a :: b :: more) kw = ga11_call [] kw.
Proof. intros. split; reflexivity. Qed.
Print Assumptions C126_two_scenarios_are_both_ignored.
Example C126_nonvacuous : let src := [("mag", PNum (Fin 6)); ("dist_rup", PNum (Fin 10)); ("v_s30", PNum (Fin 500)); ("pga_ref", PNum (Fin 0.1)); ("mechanism", PStr "SS")] in
  (exists g, result (ga11_call [] src) = Ok g) /\ (exists g, result (ga11_call [src] [("mag", PNum (Fin 7)); ("colour", PNone)]) = Ok g /\ dget (s_data (ga_scen g)) "mag" = Some (PNum (Fin 6))) /\
  result (ga11_call [src; src] []) = Raise EValue /\ result (ga11_call [] [("colour", PNone)]) = Raise (EWarning "colour").
Proof.
  intros src.
  assert (exists g, result (ga11 src) = Ok g /\ dget (s_data (ga_scen g)) "mag" = Some (PNum (Fin 6))) as (g & E & D).
  { unfold ga11. rewrite result_bind, model_init_result' by reflexivity. unfold ga11_params, NumP, CatP. cbn [checks p_name].
    change (dget_none src "dist_rup") with (PNum (Fin 10)). change (dget_none src "mag") with (PNum (Fin 6)). change (dget_none src "v_s30") with (PNum (Fin 500)).
    change (dget_none src "pga_ref") with (PNum (Fin 0.1)). change (dget_none src "mechanism") with (PStr "SS"). rewrite !chk_num, chk_cat. eexists. split; reflexivity. }
  split; [|split; [|split]].
  - exists g. rewrite (proj2 (C126_keywords_alone src ltac:(apply nodupb_NoDup; reflexivity) ltac:(intros k Hk; apply smem_In; cbn in Hk; intuition (subst; reflexivity)))). exact E.
  - exists g. rewrite (proj2 (C126_keywords_beside_a_scenario_are_ignored src _)). split; [exact E|exact D].
  - change (result (ga11_call [] []) = Raise EValue). reflexivity.
  - reflexivity.
Qed.
