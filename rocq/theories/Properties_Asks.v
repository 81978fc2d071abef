(** * C144: what each model asks of a scenario

    Tables and the meaning of [asks]: Spec_asks.v. One theorem per constructor; the two subduction models for all values of
    their options, HKR14 for every content of the data file and of the module variable. *)
From Coq Require Import List.
From Verif Require Import M_warn M_c03 M_tp05 M_pzt11 M_ab06 M_i14 M_asb14 M_dbc14 M_aga16 M_bssa14 M_cy14 M_cb14 M_ask14 M_hkr14
  M_as96 M_as16 M_ks06 M_pr23 M_pr24 M_ba19 M_ga11 FrameworkProofs FrameworkProps Spec_warn P_warn Spec_asks P_asks Properties_East.
Open Scope R_scope.
Open Scope string_scope.
Open Scope list_scope.

Lemma asks_of {A} (ctor : dict -> M A) ps (t : list ask) : map to_param t = ps ->
  nodupb (map ask_name t) = true -> known_params ps = true ->
  forallb (fun a => negb (String.eqb (ask_name a) "Magnitude (") && negb (String.eqb (ask_name a) "Magnitude of "))%bool t = true ->
  staged ctor ps -> asks ctor t.
Proof.
  intros <- N K M S. apply staged_asks; [split; [|exact K]| |exact S].
  - rewrite map_map. erewrite map_ext; [apply nodupb_NoDup; exact N|]. intros a. apply to_param_name.
  - intros a Ha. rewrite forallb_forall in M. specialize (M a Ha). apply andb_prop in M as [M1 M2].
    apply Bool.negb_true_iff, String.eqb_neq in M1. apply Bool.negb_true_iff, String.eqb_neq in M2. auto.
Qed.
Lemma quiet_item s k : quiet (sc_item s k).
Proof. unfold sc_item, ditem. destruct (dget (s_data s) k); [apply quiet_ret|apply quiet_raise]. Qed.
Lemma quiet_select tabs s : quiet (asb14_select tabs s).
Proof.
  induction tabs as [|[k c] tabs IH]; cbn [asb14_select]; [apply quiet_raise|]. apply quiet_bind; [apply quiet_item|]. intros v. destruct (is_none v); [exact IH|].
  apply quiet_bind; [apply quiet_as_num|]. intros d. apply quiet_ret.
Qed.
Lemma quiet_mapM {A B} (f : A -> M B) l : (forall x, quiet (f x)) -> quiet (mapM f l).
Proof.
  intros H. induction l as [|x l IH]; cbn [mapM]; [apply quiet_ret|]. apply quiet_bind; [apply H|]. intros y. apply quiet_bind; [exact IH|]. intros ys. apply quiet_ret.
Qed.
(** Walks through the code after the checks; it emits no text but the two that start with "Magnitude". *)
Lemma quiet_nums l : quiet (nums l).
Proof.
  induction l as [|v l IH]; cbn [nums]; [apply quiet_ret|]. apply quiet_bind; [apply quiet_as_num|]. intros x. apply quiet_bind; [exact IH|]. intros xs. apply quiet_ret.
Qed.
Ltac head_of t := lazymatch t with ?f _ => head_of f | _ => t end.
Ltac quiet1 :=
  lazymatch goal with
  | |- quiet (bind _ _) => apply quiet_bind; [|intros ?]
  | |- quiet (ret _) => apply quiet_ret
  | |- quiet (raise _) => apply quiet_raise
  | |- quiet (num _ _) => apply quiet_num
  | |- quiet (sc_attr _ _) => apply quiet_attr
  | |- quiet (as_num _) => apply quiet_as_num
  | |- quiet (emit (FText "Magnitude (" :: _)) => apply quiet_emit1
  | |- quiet (emit (FText "Magnitude of " :: _)) => apply quiet_emit2
  | |- quiet (mapM _ _) => apply quiet_mapM; intros ?
  | |- quiet (sc_item _ _) => apply quiet_item
  | |- quiet (nums _) => apply quiet_nums
  | |- quiet (asb14_select _ _) => apply quiet_select
  | |- quiet (if ?b then _ else _) => destruct b
  | |- quiet (match ?x with _ => _ end) => destruct x
  | |- quiet (let _ := _ in _) => cbv zeta
  | |- quiet ((fun _ => _) _) => cbv beta
  | |- quiet ?m => let h := head_of m in unfold h; cbv beta
  end.
Ltac staged_by c := unfold c; eexists; split; [intros src; reflexivity|]; intros s; repeat quiet1.
Ltac same_lists := solve [repeat (reflexivity || lra || f_equal)].
Lemma c03_staged : staged c03 (gc_params c03_class).
Proof. staged_by c03. Qed.
Theorem C144_c03 : asks c03 c03_asks.
Proof. apply (asks_of _ (gc_params c03_class)); [cbv [map to_param c03_asks gc_params c03_class NumP CatP CatBoolP ofin]; same_lists|reflexivity|reflexivity|reflexivity|apply c03_staged]. Qed.
Print Assumptions C144_c03.
Lemma tp05_staged : staged tp05 (gc_params tp05_class).
Proof. staged_by tp05. Qed.
Theorem C144_tp05 : asks tp05 tp05_asks.
Proof. apply (asks_of _ (gc_params tp05_class)); [cbv [map to_param tp05_asks gc_params tp05_class NumP CatP CatBoolP ofin]; same_lists|reflexivity|reflexivity|reflexivity|apply tp05_staged]. Qed.
Print Assumptions C144_tp05.
Lemma pzt11_staged : staged pzt11 (gc_params pzt11_class).
Proof. staged_by pzt11. Qed.
Theorem C144_pzt11 : asks pzt11 pzt11_asks.
Proof. apply (asks_of _ (gc_params pzt11_class)); [cbv [map to_param pzt11_asks gc_params pzt11_class NumP CatP CatBoolP ofin]; same_lists|reflexivity|reflexivity|reflexivity|apply pzt11_staged]. Qed.
Print Assumptions C144_pzt11.
Lemma ab06_staged : staged ab06 (gc_params ab06_class).
Proof. staged_by ab06. Qed.
Theorem C144_ab06 : asks ab06 ab06_asks.
Proof. apply (asks_of _ (gc_params ab06_class)); [cbv [map to_param ab06_asks gc_params ab06_class NumP CatP CatBoolP ofin]; same_lists|reflexivity|reflexivity|reflexivity|apply ab06_staged]. Qed.
Print Assumptions C144_ab06.
Lemma i14_staged : staged i14 (gc_params i14_class).
Proof. staged_by i14. Qed.
Theorem C144_i14 : asks i14 i14_asks.
Proof. apply (asks_of _ (gc_params i14_class)); [cbv [map to_param i14_asks gc_params i14_class NumP CatP CatBoolP ofin]; same_lists|reflexivity|reflexivity|reflexivity|apply i14_staged]. Qed.
Print Assumptions C144_i14.
Lemma asb14_staged : staged asb14 (gc_params asb14_class).
Proof. staged_by asb14. Qed.
Theorem C144_asb14 : asks asb14 asb14_asks.
Proof. apply (asks_of _ (gc_params asb14_class)); [cbv [map to_param asb14_asks gc_params asb14_class NumP CatP CatBoolP ofin]; same_lists|reflexivity|reflexivity|reflexivity|apply asb14_staged]. Qed.
Print Assumptions C144_asb14.
Lemma dbc14_staged : staged dbc14 (gc_params dbc14_class).
Proof. staged_by dbc14. Qed.
Theorem C144_dbc14 : asks dbc14 dbc14_asks.
Proof. apply (asks_of _ (gc_params dbc14_class)); [cbv [map to_param dbc14_asks gc_params dbc14_class NumP CatP CatBoolP ofin]; same_lists|reflexivity|reflexivity|reflexivity|apply dbc14_staged]. Qed.
Print Assumptions C144_dbc14.
Lemma aga16_staged : forall adj scale, staged (fun src => aga16 src adj scale) (gc_params aga16_class).
Proof. intros adj scale. staged_by aga16. Qed.
Theorem C144_aga16 : forall adj scale, asks (fun src => aga16 src adj scale) aga16_asks.
Proof. intros adj scale. apply (asks_of _ (gc_params aga16_class)); [cbv [map to_param aga16_asks gc_params aga16_class NumP CatP CatBoolP ofin]; same_lists|reflexivity|reflexivity|reflexivity|apply aga16_staged]. Qed.
Print Assumptions C144_aga16.
Lemma cop14_staged : forall scale, staged (fun src => cop14 src scale) (gc_params cop14_class).
Proof. intros scale. staged_by cop14. Qed.
Theorem C144_cop14 : forall scale, asks (fun src => cop14 src scale) cop14_asks.
Proof. intros scale. apply (asks_of _ (gc_params cop14_class)); [cbv [map to_param cop14_asks gc_params cop14_class NumP CatP CatBoolP ofin]; same_lists|reflexivity|reflexivity|reflexivity|apply cop14_staged]. Qed.
Print Assumptions C144_cop14.
Lemma bssa14_staged : staged bssa14 (gc_params bssa14_class).
Proof. staged_by bssa14. Qed.
Theorem C144_bssa14 : asks bssa14 bssa14_asks.
Proof. apply (asks_of _ (gc_params bssa14_class)); [cbv [map to_param bssa14_asks gc_params bssa14_class NumP CatP CatBoolP ofin]; same_lists|reflexivity|reflexivity|reflexivity|apply bssa14_staged]. Qed.
Print Assumptions C144_bssa14.
Lemma cy14_staged : staged cy14 (gc_params cy14_class).
Proof. staged_by cy14. Qed.
Theorem C144_cy14 : asks cy14 cy14_asks.
Proof. apply (asks_of _ (gc_params cy14_class)); [cbv [map to_param cy14_asks gc_params cy14_class NumP CatP CatBoolP ofin]; same_lists|reflexivity|reflexivity|reflexivity|apply cy14_staged]. Qed.
Print Assumptions C144_cy14.
Lemma cb14_staged : staged cb14 (gc_params cb14_class).
Proof. staged_by cb14. Qed.
Theorem C144_cb14 : asks cb14 cb14_asks.
Proof. apply (asks_of _ (gc_params cb14_class)); [cbv [map to_param cb14_asks gc_params cb14_class NumP CatP CatBoolP ofin]; same_lists|reflexivity|reflexivity|reflexivity|apply cb14_staged]. Qed.
Print Assumptions C144_cb14.
Lemma ask14_staged : staged ask14 (gc_params ask14_class).
Proof. staged_by ask14. Qed.
Theorem C144_ask14 : asks ask14 ask14_asks.
Proof. apply (asks_of _ (gc_params ask14_class)); [cbv [map to_param ask14_asks gc_params ask14_class NumP CatP CatBoolP ofin]; same_lists|reflexivity|reflexivity|reflexivity|apply ask14_staged]. Qed.
Print Assumptions C144_ask14.
Lemma hkr14_staged : forall nearest file cache, staged (fun src => snd (hkr14 nearest file cache src)) (gc_params hkr14_class).
Proof.
  intros nearest file cache.
  exists (fun s => bind (hkr14_event s) (fun e => match (match cache with Some d => Some d | None => file end) with None => raise EValue | Some d => hkr14_use nearest d s e end)).
  split.
  - intros src. unfold hkr14. generalize (gc_params hkr14_class). intros ps. destruct (model_init ps src) as [ws [s|e]]; [|reflexivity].
    unfold result, warns, bind, ret, raise. cbn [fst snd]. destruct (hkr14_event s) as [ws' [e|e]]; cbn [fst snd]; [|reflexivity].
    destruct (match cache with Some d => Some d | None => file end) as [d|]; cbn [fst snd]; rewrite ?app_nil_r; [|reflexivity]. rewrite ?app_assoc. reflexivity.
  - intros s. repeat quiet1.
Qed.
(** [nearest] is scipy's interpolator, an arbitrary function of the data and the query. *)
Theorem C144_hkr14 : forall nearest file cache, asks (fun src => snd (hkr14 nearest file cache src)) hkr14_asks.
Proof. intros nearest file cache. apply (asks_of _ (gc_params hkr14_class)); [cbv [map to_param hkr14_asks gc_params hkr14_class NumP CatP CatBoolP ofin]; same_lists|reflexivity|reflexivity|reflexivity|apply hkr14_staged]. Qed.
Print Assumptions C144_hkr14.
Lemma as96_staged : staged as96 as96_params.
Proof. staged_by as96. Qed.
Theorem C144_as96 : asks as96 as96_asks.
Proof. apply (asks_of _ as96_params); [cbv [map to_param as96_asks as96_params NumP CatP CatBoolP ofin]; same_lists|reflexivity|reflexivity|reflexivity|apply as96_staged]. Qed.
Print Assumptions C144_as96.
Lemma as16_staged : staged as16 as16_params.
Proof. staged_by as16. Qed.
Theorem C144_as16 : asks as16 as16_asks.
Proof. apply (asks_of _ as16_params); [cbv [map to_param as16_asks as16_params NumP CatP CatBoolP ofin]; same_lists|reflexivity|reflexivity|reflexivity|apply as16_staged]. Qed.
Print Assumptions C144_as16.
Lemma ks06_staged : staged ks06 ks06_params.
Proof. staged_by ks06. Qed.
Theorem C144_ks06 : asks ks06 ks06_asks.
Proof. apply (asks_of _ ks06_params); [cbv [map to_param ks06_asks ks06_params NumP CatP CatBoolP ofin]; same_lists|reflexivity|reflexivity|reflexivity|apply ks06_staged]. Qed.
Print Assumptions C144_ks06.
Lemma pr23_staged : staged pr23 pr23_params.
Proof. staged_by pr23. Qed.
Theorem C144_pr23 : asks pr23 pr23_asks.
Proof. apply (asks_of _ pr23_params); [cbv [map to_param pr23_asks pr23_params NumP CatP CatBoolP ofin]; same_lists|reflexivity|reflexivity|reflexivity|apply pr23_staged]. Qed.
Print Assumptions C144_pr23.
Lemma pr24_staged : staged pr24 pr24_params.
Proof. staged_by pr24. Qed.
Theorem C144_pr24 : asks pr24 pr24_asks.
Proof. apply (asks_of _ pr24_params); [cbv [map to_param pr24_asks pr24_params pr24_regions NumP CatP CatBoolP ofin]; same_lists|reflexivity|reflexivity|reflexivity|apply pr24_staged]. Qed.
Print Assumptions C144_pr24.
Lemma ba19_staged : staged ba19 ba19_params.
Proof. staged_by ba19. Qed.
Theorem C144_ba19 : asks ba19 ba19_asks.
Proof. apply (asks_of _ ba19_params); [cbv [map to_param ba19_asks ba19_params NumP CatP CatBoolP ofin]; same_lists|reflexivity|reflexivity|reflexivity|apply ba19_staged]. Qed.
Print Assumptions C144_ba19.
Lemma ga11_staged : staged ga11 ga11_params.
Proof. staged_by ga11. Qed.
Theorem C144_ga11 : asks ga11 ga11_asks.
Proof. apply (asks_of _ ga11_params); [cbv [map to_param ga11_asks ga11_params NumP CatP CatBoolP ofin]; same_lists|reflexivity|reflexivity|reflexivity|apply ga11_staged]. Qed.
Print Assumptions C144_ga11.
(** A magnitude above the limit is reported, one below the lower limit of another model too; nothing is built without the distance; an
    unknown mechanism counts as the default and is reported. *)
Example C144_c03_nonvacuous : (exists g, result (c03 (ex_mr 8.5 20)) = Ok g /\ In (too_large_text "mag" 8.5) (warns (c03 (ex_mr 8.5 20))) /\ ~ In (too_small_text "mag" 8.5) (warns (c03 (ex_mr 8.5 20)))) /\
  exists e, result (c03 [("mag", PNum (Fin 6))]) = Raise e.
Proof.
  split.
  - destruct (C14_finite_positive (ex_mr 8.5 20) 8.5 20) as (g & _ & _ & H1 & _); try reflexivity; [lra|]. exists g. split; [exact H1|].
    destruct C144_c03 as [F _]. destruct (F (Number "mag" true (Some 5) (Some 8.2) None) (or_introl eq_refl)) as (_ & _ & H). destruct (H (ex_mr 8.5 20) 8.5 g eq_refl H1) as [S L]. split.
    + apply L. split; [exists 8.2; split; [reflexivity|lra]|]. intros l [= <-]. lra.
    + intros X. apply S in X as (l & [= <-] & X). lra.
  - destruct C144_c03 as [F _]. destruct (F (Number "dist_rup" true None (Some 1000) None) (or_intror (or_introl eq_refl))) as (H & _). apply (H eq_refl). left. reflexivity.
Qed.
Example C144_i14_nonvacuous : exists g, result (i14 (dset (ex_mrv 6 20 600) "mechanism" (PStr "NS"))) = Ok g /\ result (i14 (ex_mrv 6 20 600)) = Ok g /\
  In (default_used_text "mechanism") (warns (i14 (dset (ex_mrv 6 20 600) "mechanism" (PStr "NS")))).
Proof.
  destruct C144_i14 as [F _]. destruct (F (Choice "mechanism" true ["SS"; "RS"] (Some "SS")) ltac:(do 3 right; left; reflexivity)) as (_ & _ & H).
  destruct (H (dset (ex_mrv 6 20 600) "mechanism" (PStr "NS")) "NS" eq_refl) as [W E]. assert (N : ~ In "NS" ["SS"; "RS"]) by (intros [X|[X|[]]]; discriminate X).
  specialize (E "SS" N eq_refl (or_introl eq_refl)). change (dset (dset (ex_mrv 6 20 600) "mechanism" (PStr "NS")) "mechanism" (PStr "SS")) with (ex_mrv 6 20 600) in E.
  destruct (C18_finite_positive (ex_mrv 6 20 600) 6 20 600 "SS" (ex_i14_ok _ _ _) ltac:(lra) ltac:(lra)) as (g & _ & _ & _ & H1 & _).
  exists g. rewrite E. split; [exact H1|]. split; [exact H1|]. apply (W g); [rewrite E; exact H1|exact N].
Qed.
