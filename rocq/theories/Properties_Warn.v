(** * C139: the warnings a session shows *)
From Coq Require Import List.
From Verif Require Import M_warn M_ks06 M_as16 FrameworkProofs FrameworkProps Spec_warn P_warn.
Open Scope R_scope.
Open Scope string_scope.
Open Scope list_scope.

(** With the interpreter's default filter every text that some construction emits is shown, and no text is shown twice. *)
Theorem C139_each_text_once : forall es, only_builds es -> NoDup (all_shown es) /\ forall w, In w (all_shown es) <-> exists e, In e es /\ emits e w.
Proof. exact shown_once. Qed.
Print Assumptions C139_each_text_once.
(** So constructing again shows nothing. *)
Theorem C139_same_construction_silent : forall es ps src, only_builds es -> In (Build ps src) es -> exists o, last_event (es ++ [Build ps src]) = Some ([], o).
Proof. exact again_silent. Qed.
Print Assumptions C139_same_construction_silent.
(** Nor does another model with other limits, when its parameter of that name gets the same too large (small) number. *)
Theorem C139_too_large_shown_once : forall es ps1 src1 s1 e n x, only_builds es -> In (Build ps1 src1) es -> well_declared ps1 -> result (model_init ps1 src1) = Ok s1 -> too_large ps1 src1 n x ->
  forall s o, last_event (es ++ [e]) = Some (s, o) -> ~ In (msg_greater n (PNum (Fin x))) s.
Proof. intros es ps1 src1 s1 e n x OB H W R L. apply (not_again es e _ OB). exists (Build ps1 src1). split; [exact H|]. exact (large_emits ps1 src1 s1 n x W R L). Qed.
Print Assumptions C139_too_large_shown_once.
Theorem C139_too_small_shown_once : forall es ps1 src1 s1 e n x, only_builds es -> In (Build ps1 src1) es -> well_declared ps1 -> result (model_init ps1 src1) = Ok s1 -> too_small ps1 src1 n x ->
  forall s o, last_event (es ++ [e]) = Some (s, o) -> ~ In (msg_less n (PNum (Fin x))) s.
Proof. intros es ps1 src1 s1 e n x OB H W R L. apply (not_again es e _ OB). exists (Build ps1 src1). split; [exact H|]. exact (small_emits ps1 src1 s1 n x W R L). Qed.
Print Assumptions C139_too_small_shown_once.
Theorem C139_other_model_silent : forall es ps1 src1 s1 ps2 src2 s2 n x, only_builds es -> In (Build ps1 src1) es -> well_declared ps1 -> result (model_init ps1 src1) = Ok s1 -> too_large ps1 src1 n x ->
  well_declared ps2 -> result (model_init ps2 src2) = Ok s2 -> (forall p, In p ps2 -> unremarkable p src2 \/ too_large [p] src2 n x) ->
  last_event (es ++ [Build ps2 src2]) = Some ([], Some (Ended (Ok s2))).
Proof. exact second_model_silent. Qed.
Print Assumptions C139_other_model_silent.
(** The text that the default is used is shown once for each parameter name. *)
Theorem C139_default_used_shown_once : forall es ps1 src1 s1 e n, only_builds es -> In (Build ps1 src1) es -> well_declared ps1 -> result (model_init ps1 src1) = Ok s1 -> not_an_option ps1 src1 n ->
  forall s o, last_event (es ++ [e]) = Some (s, o) -> ~ In (msg_default n) s.
Proof. intros es ps1 src1 s1 e n OB H W R L. apply (not_again es e _ OB). exists (Build ps1 src1). split; [exact H|]. exact (option_emits ps1 src1 s1 n W R L). Qed.
Print Assumptions C139_default_used_shown_once.
(** The filter never changes what is constructed, unless it is "error". *)
Theorem C139_outcome : forall es ps src, in_force ADefaultly es <> AError -> exists s, last_event (es ++ [Build ps src]) = Some (s, Some (Ended (result (model_init ps src)))).
Proof. exact outcome_same. Qed.
Print Assumptions C139_outcome.
Theorem C139_always : forall es ps src, in_force ADefaultly es = AAlways -> last_event (es ++ [Build ps src]) = Some (warns (model_init ps src), Some (Ended (result (model_init ps src)))).
Proof. exact always_shown. Qed.
Print Assumptions C139_always.
Theorem C139_ignore : forall es ps src, in_force ADefaultly es = AIgnore -> last_event (es ++ [Build ps src]) = Some ([], Some (Ended (result (model_init ps src)))).
Proof. exact ignore_shown. Qed.
Print Assumptions C139_ignore.
(** With "error" a model is constructed exactly when every value lies within its limits and options (and the construction works at all). *)
Theorem C139_error : forall es ps src s, well_declared ps -> in_force ADefaultly es = AError ->
  (last_event (es ++ [Build ps src]) = Some ([], Some (Ended (Ok s))) <-> result (model_init ps src) = Ok s /\ forall p, In p ps -> unremarkable p src).
Proof. exact error_accepts. Qed.
Print Assumptions C139_error.
Theorem C139_error_first : forall es ps src, in_force ADefaultly es = AError ->
  last_event (es ++ [Build ps src]) = Some ([], Some (match warns (model_init ps src) with [] => Ended (result (model_init ps src)) | w :: _ => UserWarning w end)).
Proof. exact error_outcome. Qed.
Print Assumptions C139_error_first.

(** ** Concrete cases: magnitude 7.95 in Kempton & Stewart (limit 7.6), then in Afshari & Stewart (limit 7.9) *)
Definition long_src : dict := [("mag", PNum (Fin 7.95)); ("dist_rup", PNum (Fin 20)); ("v_s30", PNum (Fin 500)); ("mechanism", PStr "SS")].
Lemma ks_declared : well_declared ks06_params. Proof. split; [apply nodupb_NoDup|]; reflexivity. Qed.
Lemma as_declared : well_declared as16_params. Proof. split; [apply nodupb_NoDup|]; reflexivity. Qed.
Lemma ks_large : too_large ks06_params long_src "mag" 7.95.
Proof. do 4 eexists. split; [left; reflexivity|]. split; [reflexivity|]. split; [lra|]. intros l [= <-]. rewrite fltb_fin. apply Rltb_false. lra. Qed.
Lemma ks_built : exists s, result (model_init ks06_params long_src) = Ok s.
Proof.
  assert (I1 : dget_none long_src "mag" = PNum (Fin 7.95)) by reflexivity. assert (I2 : dget_none long_src "dist_rup" = PNum (Fin 20)) by reflexivity.
  assert (I3 : dget_none long_src "v_s30" = PNum (Fin 500)) by reflexivity. assert (I4 : dget_none long_src "mechanism" = PStr "SS") by reflexivity. assert (I5 : dget_none long_src "depth_1_0" = PNone) by reflexivity.
  eexists. rewrite model_init_result' by reflexivity. let x := eval cbv [ks06_params NumP CatP map] in ks06_params in change ks06_params with x. run_checks. reflexivity.
Qed.
Lemma as_built : exists s, result (model_init as16_params long_src) = Ok s.
Proof.
  assert (I1 : dget_none long_src "mag" = PNum (Fin 7.95)) by reflexivity. assert (I2 : dget_none long_src "dist_rup" = PNum (Fin 20)) by reflexivity.
  assert (I3 : dget_none long_src "v_s30" = PNum (Fin 500)) by reflexivity. assert (I4 : dget_none long_src "mechanism" = PStr "SS") by reflexivity. assert (I5 : dget_none long_src "depth_1_0" = PNone) by reflexivity.
  eexists. rewrite model_init_result' by reflexivity. let x := eval cbv [as16_params NumP CatP map] in as16_params in change as16_params with x. run_checks. reflexivity.
Qed.
Lemma as_else p : In p as16_params -> unremarkable p long_src \/ too_large [p] long_src "mag" 7.95.
Proof.
  intros [<-|[<-|[<-|[<-|[<-|[]]]]]].
  - right. do 4 eexists. split; [left; reflexivity|]. split; [reflexivity|]. split; [lra|]. intros l [= <-]. rewrite fltb_fin. apply Rltb_false. lra.
  - left. intros x [= <-] [(m & [= <-] & E)|(m & [= <-] & E)]; rewrite fltb_fin, Rltb_false in E by lra; discriminate E.
  - left. intros x [= <-] [(m & [= <-] & E)|(m & [= <-] & E)]; rewrite fltb_fin, Rltb_false in E by lra; discriminate E.
  - left. reflexivity.
  - left. intros x [=].
Qed.
Example C139_nonvacuous : exists s s', result (model_init as16_params long_src) = Ok s /\
  last_event ([Build ks06_params long_src] ++ [Build as16_params long_src]) = Some ([], Some (Ended (Ok s))) /\
  In (msg_greater "mag" (PNum (Fin 7.95))) (all_shown [Build ks06_params long_src]) /\
  last_event ([Filter AAlways; Build ks06_params long_src] ++ [Build as16_params long_src]) = Some (s', Some (Ended (Ok s))) /\ s' <> [].
Proof.
  destruct as_built as [s Hs], ks_built as [k Hk]. assert (OB : only_builds [Build ks06_params long_src]) by (intros e [<-|[]]; exact I).
  assert (L2 : too_large as16_params long_src "mag" 7.95).
  { do 4 eexists. split; [left; reflexivity|]. split; [reflexivity|]. split; [lra|]. intros l [= <-]. rewrite fltb_fin. apply Rltb_false. lra. }
  pose proof (large_emits _ _ _ _ _ as_declared Hs L2) as EM.
  exists s, (warns (model_init as16_params long_src)). split; [exact Hs|]. split.
  - apply (C139_other_model_silent [Build ks06_params long_src] ks06_params long_src k as16_params long_src s "mag" 7.95); [exact OB|left; reflexivity|exact ks_declared|exact Hk|exact ks_large|exact as_declared|exact Hs|exact as_else].
  - split; [|split].
    + apply (C139_each_text_once _ OB). exists (Build ks06_params long_src). split; [left; reflexivity|]. exact (large_emits _ _ _ _ _ ks_declared Hk ks_large).
    + rewrite <- Hs. apply C139_always. reflexivity.
    + intros E. rewrite E in EM. destruct EM.
Qed.
Example C139_error_nonvacuous : exists w, last_event ([Filter AError] ++ [Build ks06_params long_src]) = Some ([], Some (UserWarning w)).
Proof.
  destruct ks_built as [k Hk]. pose proof (large_emits _ _ _ _ _ ks_declared Hk ks_large) as EM.
  rewrite C139_error_first by reflexivity. destruct (warns (model_init ks06_params long_src)) as [|w ws]; [destruct EM|]. exists w. reflexivity.
Qed.
