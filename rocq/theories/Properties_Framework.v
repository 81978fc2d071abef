(** * Framework properties C01-C12: statements only, proofs in FrameworkProps.v / Heap.v *)

From Verif Require Import Framework FrameworkProofs FrameworkProps Heap.
Open Scope R_scope.
Open Scope string_scope.
Open Scope list_scope.

(** Example data used for the non-vacuity checks. *)
Definition ex_kw : dict := [("mag", PNum (Fin 6.5)); ("dist_rup", PNum (Fin 20)); ("mechanism", PStr "SS")].
Definition ex_scen : scen := Scen ex_kw [].
Definition ex_params : list param :=
  [NumP "mag" true (Some (Fin 5)) (Some (Fin 8)) PNone;
   CatP "mechanism" false ["SS"; "RS"] (PStr "SS");
   NumP "v_s30" false None None (PNum (Fin 760))].

(** ** C01 *)
Theorem C01_known_keys_accepted : forall kw, NoDup (dkeys kw) ->
  (forall k, In k (dkeys kw) -> In k KNOWN_KEYS) -> sc_new kw = ret (Scen kw []).
Proof. exact scenario_new_ok. Qed.
Print Assumptions C01_known_keys_accepted.

Theorem C01_first_unknown_key_rejected : forall pre k v post,
  NoDup (dkeys (pre ++ (k, v) :: post)) ->
  (forall k', In k' (dkeys pre) -> In k' KNOWN_KEYS) -> ~ In k KNOWN_KEYS ->
  sc_new (pre ++ (k, v) :: post) = raise (EWarning k).
Proof. exact scenario_new_unknown. Qed.
Print Assumptions C01_first_unknown_key_rejected.

Example C01_nonvacuous : NoDup (dkeys ex_kw) /\ (forall k, In k (dkeys ex_kw) -> In k KNOWN_KEYS)
  /\ ~ In "magnitude" KNOWN_KEYS.
Proof.
  split; [apply nodupb_NoDup; reflexivity|]. split.
  - intros k Hk. apply smem_In. cbn in Hk. intuition (subst; reflexivity).
  - intros H. apply smem_In in H. discriminate.
Qed.

(** ** C02 *)
Theorem C02_copy_with_overrides : forall s kw, NoDup (dkeys (s_data s)) -> NoDup (dkeys kw) ->
  (forall k, In k (dkeys kw) -> In k KNOWN_KEYS) ->
  exists s', sc_copy_with s kw = ret s' /\
    (forall k, dget (s_data s') k = match dget kw k with Some v => Some v | None => dget (s_data s) k end).
Proof. exact copy_with_ok. Qed.
Print Assumptions C02_copy_with_overrides.

Theorem C02_copy_with_rejects_unknown : forall s kw k, In k (dkeys kw) -> ~ In k KNOWN_KEYS ->
  exists k', In k' (dkeys kw) /\ ~ In k' KNOWN_KEYS /\ sc_copy_with s kw = raise (EWarning k').
Proof. exact copy_with_unknown. Qed.
Print Assumptions C02_copy_with_rejects_unknown.

Example C02_nonvacuous : exists s', sc_copy_with ex_scen [("mag", PNum (Fin 7))] = ret s' /\
  dget (s_data s') "mag" = Some (PNum (Fin 7)) /\ dget (s_data s') "dist_rup" = Some (PNum (Fin 20)).
Proof. eexists; split; [reflexivity|]. split; reflexivity. Qed.

(** ** C03: histories of operations on scenario objects *)

(** An object that is not itself assigned to is unchanged by any history. *)
Theorem C03_history_frame : forall os h l, (l < List.length h)%nat ->
  forallb (fun o => negb (updates o l)) os = true ->
  nth_error (run h os) l = nth_error h l.
Proof. exact run_frame. Qed.
Print Assumptions C03_history_frame.

(** Constructing a model allocates a fresh scenario holding exactly what the
    functional model computes... *)
Theorem C03_construct_fresh : forall h ps l s, nth_error h l = Some s ->
  match result (model_init ps (s_data s)) with
  | Ok s' => exists h', step h (OConstruct ps l) = (h', Ok (Some (List.length h)))
                        /\ nth_error h' (List.length h) = Some s'
  | Raise e => snd (step h (OConstruct ps l)) = Raise e
  end.
Proof. exact construct_refines. Qed.
Print Assumptions C03_construct_fresh.

(** ... which later operations on other objects (the caller's scenario included)
    never change. *)
Theorem C03_model_scenario_isolated : forall h ps l s s' os,
  nth_error h l = Some s -> result (model_init ps (s_data s)) = Ok s' ->
  forallb (fun o => negb (updates o (List.length h))) os = true ->
  nth_error (run (fst (step h (OConstruct ps l))) os) (List.length h) = Some s'.
Proof. exact model_scenario_isolated. Qed.
Print Assumptions C03_model_scenario_isolated.

Example C03_nonvacuous :
  let h := [ex_scen] in
  result (model_init ex_params (s_data ex_scen)) =
    Ok (Scen [("mag", PNum (Fin 6.5)); ("mechanism", PStr "SS"); ("v_s30", PNum (Fin 760))] []) /\
  forallb (fun o => negb (updates o 1)) [OSetItem 0 "mag" (PNum (Fin 3)); OSetAttr 0 "mag" PNone] = true.
Proof.
  split; [|reflexivity]. rewrite model_init_result' by reflexivity.
  cbn [checks ex_params p_name NumP CatP].
  change (dget_none (s_data ex_scen) "mag") with (PNum (Fin 6.5)).
  change (dget_none (s_data ex_scen) "mechanism") with (PStr "SS").
  change (dget_none (s_data ex_scen) "v_s30") with PNone.
  rewrite (check_num_param "mag"), (check_num_param_default "v_s30"). reflexivity.
Qed.

(** ** C04 *)
Theorem C04_only_declared_parameters_matter : forall ps d1 d2,
  (forall p, In p ps -> dget_none d1 (p_name p) = dget_none d2 (p_name p)) ->
  model_init ps d1 = model_init ps d2.
Proof. exact model_init_ext. Qed.
Print Assumptions C04_only_declared_parameters_matter.

Example C04_nonvacuous : let d2 := ("width", PNum (Fin 12)) :: ("v_s30", PNone) :: ex_kw in
  d2 <> ex_kw /\ forall p, In p ex_params -> dget_none ex_kw (p_name p) = dget_none d2 (p_name p).
Proof. split; [discriminate|]. intros p [<-|[<-|[<-|[]]]]; reflexivity. Qed.

(** ** C05 *)
Theorem C05_required_iff_value_error : forall ps src,
  NoDup (map p_name ps) -> (forall p, In p ps -> In (p_name p) KNOWN_KEYS) ->
  (forall p, In p ps -> typed p (dget_none src (p_name p))) ->
  (result (model_init ps src) = Raise EValue <->
     exists p, In p ps /\ p_required p = true /\ dget_none src (p_name p) = PNone) /\
  (result (model_init ps src) <> Raise EValue ->
     exists s, result (model_init ps src) = Ok s /\ dkeys (s_data s) = map p_name ps).
Proof. exact required_iff. Qed.
Print Assumptions C05_required_iff_value_error.

Example C05_nonvacuous : NoDup (map p_name ex_params) /\
  (forall p, In p ex_params -> In (p_name p) KNOWN_KEYS) /\
  (forall p, In p ex_params -> typed p (dget_none ex_kw (p_name p))) /\
  (forall p, In p ex_params -> typed p (dget_none [] (p_name p))) /\
  (exists p, In p ex_params /\ p_required p = true /\ dget_none [] (p_name p) = PNone).
Proof.
  split; [apply nodupb_NoDup; reflexivity|].
  split; [intros p Hp; apply smem_In; destruct Hp as [<-|[<-|[<-|[]]]]; reflexivity|].
  split; [|split]; [| |eexists; split; [left; reflexivity|split; reflexivity]];
  intros p [<-|[<-|[<-|[]]]]; cbn; try exact I; split; intros t C; discriminate.
Qed.

(** ** C06 *)
Theorem C06_numeric_check_warns_and_keeps : forall n req lo hi def x,
  let c := check (NumP n req lo hi def) (PNum x) in
  result c = Ok (PNum x) /\
  (out_of_limits lo hi x -> List.length (warns c) = 1%nat) /\
  (~ out_of_limits lo hi x -> warns c = []).
Proof. exact check_num_warns. Qed.
Print Assumptions C06_numeric_check_warns_and_keeps.

Theorem C06_nan_silent : forall n req lo hi def,
  check (NumP n req lo hi def) (PNum NaN) = ret (PNum NaN).
Proof. exact nan_silent. Qed.
Print Assumptions C06_nan_silent.

Theorem C06_absent_gets_default : forall n lo hi x,
  result (check (NumP n false lo hi (PNum x)) PNone) = Ok (PNum x).
Proof. exact check_num_param_default. Qed.
Print Assumptions C06_absent_gets_default.

Example C06_nonvacuous : out_of_limits (Some (Fin 5)) (Some (Fin 8)) (Fin 9) /\
  ~ out_of_limits (Some (Fin 5)) (Some (Fin 8)) (Fin 8).
Proof.
  split.
  - right; exists (Fin 8); split; [reflexivity|]. apply Rltb_true; lra.
  - intros [(m & H & E)|(m & H & E)]; injection H as <-; rewrite fltb_fin in E;
    rewrite Rltb_false in E by lra; discriminate.
Qed.

(** ** C07 *)
Theorem C07_categorical_option_or_default : forall n req opts def v, ~ (req = true /\ v = PNone) ->
  let c := check (Param n req def (KCat opts)) v in
  let v' := if is_none v then def else v in
  (pyin v' opts = true -> result c = Ok v' /\ warns c = []) /\
  (pyin v' opts = false -> result c = Ok def /\ List.length (warns c) = 2%nat).
Proof. exact check_cat_spec. Qed.
Print Assumptions C07_categorical_option_or_default.

Example C07_nonvacuous : ~ (true = true /\ PStr "XX" = PNone) /\
  pyin (PStr "XX") [PStr "SS"; PStr "RS"] = false /\ pyin (PStr "RS") [PStr "SS"; PStr "RS"] = true.
Proof. repeat split. intros [_ H]; discriminate. Qed.

(** ** C08 (violation): the limit does not appear in the warning text *)
Theorem C08_limit_in_warning_refuted : forall n req lo1 lo2 hi1 hi2 def x,
  fltb x lo1 = true -> fltb x lo2 = true ->
  warns (check (NumP n req (Some lo1) hi1 def) (PNum x)) =
  warns (check (NumP n req (Some lo2) hi2 def) (PNum x)).
Proof. exact warning_hides_limit. Qed.
Print Assumptions C08_limit_in_warning_refuted.

Theorem C08_limit_in_warning_max_refuted : forall n req hi1 hi2 def x,
  fltb hi1 x = true -> fltb hi2 x = true ->
  warns (check (NumP n req None (Some hi1) def) (PNum x)) =
  warns (check (NumP n req None (Some hi2) def) (PNum x)).
Proof. exact warning_hides_limit_max. Qed.
Print Assumptions C08_limit_in_warning_max_refuted.

Example C08_nonvacuous : fltb (Fin 3) (Fin 5) = true /\ fltb (Fin 3) (Fin 4) = true
  /\ fltb (Fin 8) (Fin 9) = true.
Proof. repeat split; apply Rltb_true; lra. Qed.

(** ** C09 *)
Theorem C09_peak_accessors : forall m,
  (result (g_pga m) = Raise ENotImpl <-> gc_pga (g_class m) = None) /\
  (result (g_pgv m) = Raise ENotImpl <-> gc_pgv (g_class m) = None) /\
  (result (g_pgd m) = Raise ENotImpl <-> gc_pgd (g_class m) = None) /\
  (forall i x, gc_pga (g_class m) = Some i -> py_nth (g_ln_resp m) i = Some x -> result (g_pga m) = Ok (fexp x)) /\
  (forall i x, gc_pgv (g_class m) = Some i -> py_nth (g_ln_resp m) i = Some x ->
     result (g_pgv m) = Ok (fmul (fexp x) (gc_pgv_scale (g_class m)))) /\
  (forall i x, gc_pgd (g_class m) = Some i -> py_nth (g_ln_resp m) i = Some x ->
     result (g_pgd m) = Ok (fmul (fexp x) (gc_pgd_scale (g_class m)))) /\
  (forall i x l, g_ln_std m = Some l -> gc_pga (g_class m) = Some i -> py_nth l i = Some x ->
     result (g_ln_std_pga m) = Ok x) /\
  (forall i x l, g_ln_std m = Some l -> gc_pgv (g_class m) = Some i -> py_nth l i = Some x ->
     result (g_ln_std_pgv m) = Ok x).
Proof. exact peaks. Qed.
Print Assumptions C09_peak_accessors.

(** ** C10 *)
Theorem C10_spec_accels : forall m,
  Forall (fun i => (i < List.length (g_ln_resp m))%nat) (gc_psa (g_class m)) ->
  exists sa, result (g_spec_accels m) = Ok sa /\ List.length sa = List.length (gc_psa (g_class m)) /\
   forall j i, nth_error (gc_psa (g_class m)) j = Some i ->
     exists x, nth_error (g_ln_resp m) i = Some x /\ nth_error sa j = Some (fexp x).
Proof. exact spectral. Qed.
Print Assumptions C10_spec_accels.

Theorem C10_ln_stds : forall m,
  (result (g_ln_stds m) = Raise ENotImpl <-> g_ln_std m = None) /\
  (forall l, g_ln_std m = Some l -> Forall (fun i => (i < List.length l)%nat) (gc_psa (g_class m)) ->
    exists sd, result (g_ln_stds m) = Ok sd /\ List.length sd = List.length (gc_psa (g_class m)) /\
    forall j i, nth_error (gc_psa (g_class m)) j = Some i -> nth_error sd j = nth_error l i).
Proof. exact ln_stds_spec. Qed.
Print Assumptions C10_ln_stds.

(** An instance with PGA in the last row, as in CB14: used for C09-C11. *)
Definition ex_gmm : gmm :=
  GMM (GClass "EX" ex_params [Fin 0.1; Fin 1; Fin (-1)] [0%nat; 1%nat] (Some (-1)%Z) None None (Fin 1) (Fin 1))
      ex_scen [Fin (-1); Fin (-2); Fin (-0.5)] None.
Example C09_C10_nonvacuous :
  result (g_pga ex_gmm) = Ok (Fin (exp (-0.5))) /\ result (g_pgv ex_gmm) = Raise ENotImpl /\
  result (g_ln_stds ex_gmm) = Raise ENotImpl /\
  Forall (fun i => (i < List.length (g_ln_resp ex_gmm))%nat) (gc_psa (g_class ex_gmm)).
Proof. repeat split; repeat constructor. Qed.

(** ** C11 *)
Theorem C11_interpolation : forall m ps ys,
  take_idx (gc_periods (g_class m)) (gc_psa (g_class m)) = Some (map Fin ps) ->
  take_idx (g_ln_resp m) (gc_psa (g_class m)) = Some (map Fin ys) ->
  Forall (fun p => 0 < p) ps -> incr ps -> (1 < List.length ps)%nat ->
  exists f : flt -> flt,
    (forall ts, result (g_interp_ln m ts) = Ok (map f ts) /\
                result (g_interp_accels m ts) = Ok (map (fun t => fexp (f t)) ts)) /\
    (forall i, (i < List.length ps)%nat -> f (Fin (nth i ps 0)) = Fin (nth i ys 0)) /\
    (forall i t, (S i < List.length ps)%nat -> nth i ps 0 <= t <= nth (S i) ps 0 ->
       exists y, f (Fin t) = Fin y /\
         y = nth i ys 0 + (nth (S i) ys 0 - nth i ys 0) *
             ((ln t - ln (nth i ps 0)) / (ln (nth (S i) ps 0) - ln (nth i ps 0))) /\
         Rmin (nth i ys 0) (nth (S i) ys 0) <= y <= Rmax (nth i ys 0) (nth (S i) ys 0)) /\
    (forall t, fltb t (Fin (nth 0 ps 0)) = true \/ fltb (Fin (last ps 0)) t = true \/ t = NaN -> f t = NaN).
Proof. exact interp_accessor. Qed.
Print Assumptions C11_interpolation.

Theorem C11_interpolation_stds : forall m ps std ys,
  g_ln_std m = Some std ->
  take_idx (gc_periods (g_class m)) (gc_psa (g_class m)) = Some (map Fin ps) ->
  take_idx std (gc_psa (g_class m)) = Some (map Fin ys) ->
  Forall (fun p => 0 < p) ps -> incr ps -> (1 < List.length ps)%nat ->
  exists f : flt -> flt,
    (forall ts, result (g_interp_ln_stds m ts) = Ok (map f ts)) /\
    (forall i, (i < List.length ps)%nat -> f (Fin (nth i ps 0)) = Fin (nth i ys 0)) /\
    (forall i t, (S i < List.length ps)%nat -> nth i ps 0 <= t <= nth (S i) ps 0 ->
       exists y, f (Fin t) = Fin y /\ Rmin (nth i ys 0) (nth (S i) ys 0) <= y <= Rmax (nth i ys 0) (nth (S i) ys 0)) /\
    (forall t, fltb t (Fin (nth 0 ps 0)) = true \/ fltb (Fin (last ps 0)) t = true \/ t = NaN -> f t = NaN).
Proof. exact interp_stds_accessor. Qed.
Print Assumptions C11_interpolation_stds.

Example C11_nonvacuous : let ps := [0.1; 1] in let ys := [-1; -2] in
  take_idx (gc_periods (g_class ex_gmm)) (gc_psa (g_class ex_gmm)) = Some (map Fin ps) /\
  take_idx (g_ln_resp ex_gmm) (gc_psa (g_class ex_gmm)) = Some (map Fin ys) /\
  Forall (fun p => 0 < p) ps /\ incr ps /\ (1 < List.length ps)%nat.
Proof. cbn. repeat split; try (repeat constructor; lra); try lra; try lia. Qed.

(** ** C12 *)
Theorem C12_attribute_item_agree : forall os l s k, forallb no_setattr os = true ->
  nth_error (run [] os) l = Some s -> sc_attr s k = sc_item s k.
Proof. exact attr_item_agree. Qed.
Print Assumptions C12_attribute_item_agree.

Theorem C12_attribute_assignment_shadows : forall s k v w, NoDup (dkeys (s_data s)) -> In k KNOWN_KEYS ->
  let s1 := sc_setattr s k v in
  sc_attr s1 k = ret v /\ sc_item s1 k = sc_item s k /\
  exists s2, sc_copy_with s1 [(k, w)] = ret s2 /\ sc_attr s2 k = ret v /\ sc_item s2 k = ret w.
Proof. exact attr_shadow. Qed.
Print Assumptions C12_attribute_assignment_shadows.

Example C12_nonvacuous : exists l s,
  nth_error (run [] [ONew ex_kw; OCopyWith 0 [("mag", PNum (Fin 7))]; OConstruct ex_params 1]) l = Some s
  /\ l = 1%nat /\ sc_attr s "mag" = ret (PNum (Fin 7)).
Proof.
  exists 1%nat. pose proof (run_frame [OConstruct ex_params 1] (run [] [ONew ex_kw; OCopyWith 0 [("mag", PNum (Fin 7))]]) 1) as H.
  exists (Scen [("mag", PNum (Fin 7)); ("dist_rup", PNum (Fin 20)); ("mechanism", PStr "SS")] []).
  split; [|split; reflexivity].
  change (run [] [ONew ex_kw; OCopyWith 0 [("mag", PNum (Fin 7))]; OConstruct ex_params 1]) with
    (run (run [] [ONew ex_kw; OCopyWith 0 [("mag", PNum (Fin 7))]]) [OConstruct ex_params 1]).
  rewrite H; [reflexivity | cbn; lia | reflexivity].
Qed.
