(** * C145: magnitude limits that depend on the style of faulting

    Specification: Spec_maglim.v. The parameter checks emit no such text ([check_texts]); then one step of the constructor
    decides, and the calculation is silent. *)
From Coq Require Import List Lia.
From Verif Require Import M_warn Nga M_bssa14 M_cy14 M_cb14 P_bssa14 P_cy14 P_cb14 FrameworkProofs FrameworkProps Spec_warn P_warn Spec_asks P_asks Spec_maglim.
Open Scope R_scope.
Open Scope string_scope.
Open Scope list_scope.

Definition silent {A} (m : M A) : Prop := warns m = [].
Lemma silent_ret {A} (a : A) : silent (ret a). Proof. reflexivity. Qed.
Lemma silent_raise {A} e : silent (@raise A e). Proof. reflexivity. Qed.
Lemma silent_bind {A B} (m : M A) (f : A -> M B) : silent m -> (forall a, silent (f a)) -> silent (bind m f).
Proof. unfold silent. intros H1 H2. rewrite warns_bind, H1. destruct (result m); [|reflexivity]. rewrite H2. reflexivity. Qed.
Lemma silent_as_num v : silent (as_num v). Proof. destruct v; reflexivity. Qed.
Lemma silent_attr s k : silent (sc_attr s k).
Proof. unfold sc_attr, ditem. destruct (dget (s_attrs s) k); [reflexivity|]. destruct (dget (s_data s) k); reflexivity. Qed.
Lemma silent_num s k : silent (num s k). Proof. apply silent_bind; [apply silent_attr|apply silent_as_num]. Qed.
Lemma silent_item s k : silent (sc_item s k). Proof. unfold sc_item, ditem. destruct (dget (s_data s) k); reflexivity. Qed.
Ltac head_of t := lazymatch t with ?f _ => head_of f | _ => t end.
Ltac silent1 :=
  lazymatch goal with
  | |- silent (bind _ _) => apply silent_bind; [|intros ?]
  | |- silent (ret _) => apply silent_ret
  | |- silent (raise _) => apply silent_raise
  | |- silent (num _ _) => apply silent_num
  | |- silent (sc_attr _ _) => apply silent_attr
  | |- silent (as_num _) => apply silent_as_num
  | |- silent (sc_item _ _) => apply silent_item
  | |- silent (if ?b then _ else _) => destruct b
  | |- silent (match ?x with _ => _ end) => destruct x
  | |- silent (let _ := _ in _) => cbv zeta
  | |- silent ((fun _ => _) _) => cbv beta
  | |- silent ?m => let h := head_of m in unfold h; cbv beta
  end.

Lemma checks_get ps src d p : NoDup (map p_name ps) -> checks ps src = Ok d -> In p ps ->
  exists v, result (check p (dget_none src (p_name p))) = Ok v /\ dget d (p_name p) = Some v.
Proof.
  revert d. induction ps as [|q ps IH]; intros d ND E H; [destruct H|]. cbn [checks] in E. cbn [map] in ND. inversion ND as [|? ? N ND']; subst.
  destruct (result (check q (dget_none src (p_name q)))) as [v|] eqn:R; [|discriminate].
  destruct (checks ps src) as [d'|] eqn:E'; [|discriminate]. injection E as <-. cbn [dget]. destruct H as [<-|H].
  - exists v. split; [exact R|]. rewrite String.eqb_refl. reflexivity.
  - destruct (IH d' ND' eq_refl H) as (u & H1 & H2). exists u. split; [exact H1|].
    destruct (String.eqb (p_name q) (p_name p)) eqn:X; [|exact H2]. apply String.eqb_eq in X. exfalso. apply N. rewrite X. apply in_map. exact H.
Qed.
(** The two values the limits are about, as the calculation reads them. *)
Lemma built ps src s b1 l h df1 b2 os df2 x t : well_declared ps ->
  In (NumP "mag" b1 l h df1) ps -> In (CatP "mechanism" b2 os df2) ps -> In t os -> event src x t -> result (model_init ps src) = Ok s ->
  sc_attr s "mag" = ret (PNum (Fin x)) /\ sc_attr s "mechanism" = ret (PStr t) /\ s_attrs s = [].
Proof.
  intros [ND K] H1 H2 Ht [E1 E2] R. rewrite model_init_result in R by assumption. destruct (checks ps src) as [d|] eqn:E; [|discriminate]. injection R as <-.
  destruct (checks_get _ _ _ _ ND E H1) as (v & V1 & V2). destruct (checks_get _ _ _ _ ND E H2) as (w & W1 & W2).
  cbn [p_name NumP CatP] in *. rewrite (dget_none_some _ _ _ E1) in V1. rewrite (dget_none_some _ _ _ E2) in W1.
  rewrite check_num_param in V1. injection V1 as <-. unfold CatP in W1. rewrite check_cat_param in W1 by discriminate. rewrite (proj2 (str_in t os) Ht) in W1. injection W1 as <-.
  unfold sc_attr, ditem. cbn [s_attrs s_data dget]. rewrite V2, W2. auto.
Qed.
(** No such text in the checks. *)
Lemma checks_no_magnitude ps src s w : well_declared ps -> forallb (fun p => negb (String.eqb (p_name p) "Magnitude (") && negb (String.eqb (p_name p) "Magnitude of "))%bool ps = true ->
  result (model_init ps src) = Ok s -> about_magnitude w -> ~ In w (warns (model_init ps src)).
Proof.
  intros [ND K] F R A H. rewrite (warns_ok ps src s ND K R) in H. apply in_concat in H as (l & Hl & Hw). apply in_map_iff in Hl as (q & <- & Hq).
  rewrite forallb_forall in F. specialize (F q Hq). apply andb_prop in F as [F1 F2]. apply Bool.negb_true_iff, String.eqb_neq in F1. apply Bool.negb_true_iff, String.eqb_neq in F2.
  apply check_texts in Hw as (u & H). destruct A as (r & A). unfold msg_less, msg_greater, msg_default, msg_notoption in H.
  destruct A as [->| ->]; destruct H as [H|[H|[H|(os & H)]]]; cbn [app] in H; congruence.
Qed.
Lemma warns_if {A} (b : bool) (m1 m2 : M A) : warns (if b then m1 else m2) = if b then warns m1 else warns m2. Proof. destruct b; reflexivity. Qed.
Definition no_text : message -> Prop := fun _ => False.
Lemma warns_prep {S A B} (p : M S) (c : S -> M A) (k : S -> A -> B) : (forall s, silent (c s)) ->
  warns (bind p (fun s => bind (c s) (fun r => ret (k s r)))) = warns p.
Proof.
  intros H. rewrite warns_bind. destruct (result p) as [s|e]; [|reflexivity]. rewrite warns_bind, H. destruct (result (c s)); cbn; rewrite ?app_nil_r; reflexivity.
Qed.
Lemma prep_warns cls src prep calc m ps w : gc_params cls = ps -> well_declared ps ->
  forallb (fun p => negb (String.eqb (p_name p) "Magnitude (") && negb (String.eqb (p_name p) "Magnitude of "))%bool ps = true ->
  (forall s, silent (calc s)) -> result (gmm_make_prep cls src prep calc) = Ok m -> about_magnitude w ->
  exists s, result (model_init ps src) = Ok s /\ (In w (warns (gmm_make_prep cls src prep calc)) <-> In w (warns (prep s))).
Proof.
  intros <- W F Q R A. unfold gmm_make_prep in *. rewrite result_bind in R. destruct (result (model_init (gc_params cls) src)) as [s|e] eqn:E; [|discriminate].
  exists s. split; [reflexivity|]. rewrite warns_bind, E, (warns_prep (prep s) calc (fun s' r => GMM cls s' (fst r) (snd r)) Q), in_app_iff.
  split; [|auto]. intros [H|H]; [|exact H]. exfalso. exact (checks_no_magnitude _ _ _ _ W F E A H).
Qed.
Ltac options H := cbn [In] in H; repeat (destruct H as [<-|H]); [..|destruct H].

Lemma in_emit w' w : In w' (warns (emit w)) <-> w' = w. Proof. cbn. split; [intros [<-|[]]; reflexivity|auto]. Qed.
Lemma in_warn_within w' x lo hi txt : In w' (warns (if (fleb (Fin lo) (Fin x) && fleb (Fin x) (Fin hi))%bool then ret tt else emit txt)) <-> outside x (lo, hi) /\ w' = txt.
Proof.
  unfold outside. cbn [fst snd]. rewrite !fleb_fin. destruct (Rleb_spec lo x); cbn [andb]; [destruct (Rleb_spec x hi)|]; rewrite ?in_emit; cbn [warns ret fst In]; intuition lra.
Qed.
Lemma in_warn_above w' x hi txt : In w' (warns (if fltb (Fin hi) (Fin x) then emit txt else ret tt)) <-> hi < x /\ w' = txt.
Proof. rewrite fltb_fin. destruct (Rltb_spec hi x); rewrite ?in_emit; cbn [warns ret fst In]; intuition lra. Qed.
Lemma warns_then {A} (m : M unit) (a : A) : warns (bind m (fun _ => ret a)) = warns m.
Proof. rewrite warns_bind. destruct (result m); cbn; rewrite ?app_nil_r; reflexivity. Qed.
Lemma warns_then_silent {A} (m : M unit) (k : M A) : result m = Ok tt -> silent k -> warns (bind m (fun _ => k)) = warns m.
Proof. intros R S. rewrite warns_bind, R, S, app_nil_r. reflexivity. Qed.

Lemma bind_ok {A B} (m : M A) (f : A -> M B) b : result (bind m f) = Ok b -> exists a, result m = Ok a /\ result (f a) = Ok b /\ warns (bind m f) = warns m ++ warns (f a).
Proof. rewrite result_bind, warns_bind. destruct (result m) as [a|]; [|discriminate]. intros H. exists a. auto. Qed.

(** Boore et al. *)
Theorem C145_bssa14 : forall src x t m w, event src x t -> In t ["U"; "SS"; "NS"; "RS"] -> result (bssa14 src) = Ok m -> about_magnitude w ->
  (In w (warns (bssa14 src)) <-> exists l, bs_limits t = Some l /\ outside x (fst l) /\ w = bs_text x l).
Proof.
  intros src x t m w Ev Ht R A. assert (W : well_declared (gc_params bssa14_class)) by (split; [apply nodupb_NoDup|]; reflexivity).
  unfold bssa14 in *. edestruct (prep_warns bssa14_class src bssa14_prep) as (s & E & H); [reflexivity|exact W|reflexivity| |exact R|exact A|]; [intros s; repeat silent1|].
  rewrite H. clear H R. assert (B : sc_attr s "mag" = ret (PNum (Fin x)) /\ sc_attr s "mechanism" = ret (PStr t) /\ s_attrs s = [])
    by (eapply built; [exact W|left; reflexivity|do 4 right; left; reflexivity|exact Ht|exact Ev|exact E]). destruct B as (Hm & Hk & _).
  unfold bssa14_prep, num. rewrite Hk, bind_ret_l, Hm, !bind_ret_l. cbn [as_num]. rewrite bind_ret_l, warns_then. unfold bs_limits.
  options Ht; unfold is_str; cbn [pyeq String.eqb Ascii.eqb Bool.eqb].
  - split; [intros []|intros (l & [=] & _)].
  - rewrite in_warn_within. replace 3.0 with 3 by lra. split; [intros (O & ->)|intros (l & [= <-] & O & ->)]; [eexists; split; [reflexivity|split; [exact O|reflexivity]]|split; [exact O|reflexivity]].
  - rewrite in_warn_within. replace 3.0 with 3 by lra. replace 7.0 with 7 by lra. split; [intros (O & ->)|intros (l & [= <-] & O & ->)]; [eexists; split; [reflexivity|split; [exact O|reflexivity]]|split; [exact O|reflexivity]].
  - split; [intros []|intros (l & [=] & _)].
Qed.
Print Assumptions C145_bssa14.
(** Chiou & Youngs. *)
Theorem C145_cy14 : forall src x t m w, event src x t -> In t ["U"; "SS"; "NS"; "RS"] -> result (cy14 src) = Ok m -> about_magnitude w ->
  (In w (warns (cy14 src)) <-> outside x (cy_limits t) /\ w = cy_text x t).
Proof.
  intros src x t m w Ev Ht R A. assert (W : well_declared (gc_params cy14_class)) by (split; [apply nodupb_NoDup|]; reflexivity).
  unfold cy14 in *. edestruct (prep_warns cy14_class src cy14_prep) as (s & E & H); [reflexivity|exact W|reflexivity| |exact R|exact A|]; [intros s; repeat silent1|].
  rewrite H. clear H R. assert (B : sc_attr s "mag" = ret (PNum (Fin x)) /\ sc_attr s "mechanism" = ret (PStr t) /\ s_attrs s = [])
    by (eapply built; [exact W|do 3 right; left; reflexivity|do 9 right; left; reflexivity|exact Ht|exact Ev|exact E]). destruct B as (Hm & Hk & _).
  unfold cy14_prep, num. rewrite Hk, bind_ret_l, Hm, !bind_ret_l. cbn [as_num]. rewrite bind_ret_l.
  rewrite warns_then_silent; [| |repeat silent1].
  - options Ht; cbn [pyin existsb pyeq String.eqb Ascii.eqb Bool.eqb orb]; rewrite in_warn_within; unfold cy_text, cy_limits; cbn [String.eqb Ascii.eqb Bool.eqb fst snd]; replace 8.0 with 8 by lra; reflexivity.
  - destruct (_ && _)%bool; reflexivity.
Qed.
Print Assumptions C145_cy14.
(** Campbell & Bozorgnia. *)
Theorem C145_cb14 : forall src x t m w, event src x t -> In t ["SS"; "NS"; "RS"] -> result (cb14 src) = Ok m -> about_magnitude w ->
  (In w (warns (cb14 src)) <-> cb_limit t < x /\ w = cb_text x t).
Proof.
  intros src x t m w Ev Ht R A. assert (W : well_declared (gc_params cb14_class)) by (split; [apply nodupb_NoDup|]; reflexivity).
  unfold cb14 in *. edestruct (prep_warns cb14_class src cb14_prep) as (s & E & H); [reflexivity|exact W|reflexivity| |exact R|exact A|]; [intros s; repeat silent1|].
  rewrite H. clear H. assert (B : sc_attr s "mag" = ret (PNum (Fin x)) /\ sc_attr s "mechanism" = ret (PStr t) /\ s_attrs s = [])
    by (eapply built; [exact W|do 10 right; left; reflexivity|do 14 right; left; reflexivity|exact Ht|exact Ev|exact E]). destruct B as (Hm & Hk & _).
  unfold gmm_make_prep in R. rewrite result_bind, E, result_bind in R. destruct (result (cb14_prep s)) as [s'|] eqn:P; [|discriminate R]. clear R.
  unfold cb14_prep, num in *. rewrite Hk, bind_ret_l, Hm, !bind_ret_l in *. cbn [as_num] in *. rewrite bind_ret_l in *.
  apply bind_ok in P as (v & _ & P & ->). rewrite silent_bind by (apply silent_attr || apply silent_as_num). cbn [app].
  apply bind_ok in P as (dip & _ & P & ->). rewrite silent_bind by (apply silent_attr || apply silent_as_num). cbn [app]. cbv zeta in *.
  apply bind_ok in P as (u1 & _ & P & ->). apply bind_ok in P as (u2 & _ & P & ->). apply bind_ok in P as (u3 & _ & P & ->). clear P.
  match goal with |- context [warns ?m1 ++ warns ?m2 ++ warns ?m3 ++ warns ?k] => assert (S : silent k) by (repeat silent1); unfold silent in S; rewrite S, app_nil_r; clear S end.
  rewrite !in_app_iff. options Ht; cbn [pyeq String.eqb Ascii.eqb Bool.eqb andb]; rewrite in_warn_above; unfold cb_text, cb_limit; cbn [String.eqb Ascii.eqb Bool.eqb warns ret fst In];
    replace 8.0 with 8 by lra; tauto.
Qed.
Print Assumptions C145_cb14.
(** Normal faulting, magnitude 7.6: Boore et al. and Campbell & Bozorgnia warn, Chiou & Youngs do not. *)
Definition lim_ex : nga := Nga 7.6 20 20 (Some (-5)) None None 60 500 (Some 1) None (Some 15) None None None None None (Some "NS") None None None None.
Example C145_nonvacuous :
  (exists g, result (bssa14 (nga_src lim_ex)) = Ok g /\ In (bs_text 7.6 (3, 7, ") for a normal-slip earthquake!")) (warns (bssa14 (nga_src lim_ex)))) /\
  (exists g, result (cy14 (nga_src lim_ex)) = Ok g /\ forall w, about_magnitude w -> ~ In w (warns (cy14 (nga_src lim_ex)))) /\
  (exists g, result (cb14 (nga_src lim_ex)) = Ok g /\ In (cb_text 7.6 "NS") (warns (cb14 (nga_src lim_ex)))).
Proof.
  assert (E : event (nga_src lim_ex) 7.6 "NS") by (split; reflexivity). split; [|split].
  - destruct (bssa14_construct _ _ (nga_src_gives lim_ex)) as [s R]. eexists. split; [exact R|].
    eapply (C145_bssa14 _ _ _ _ _ E); [right; right; left; reflexivity|exact R|eexists; left; reflexivity|].
    eexists. split; [reflexivity|]. split; [right; cbn; lra|reflexivity].
  - destruct (cy14_construct _ _ (-5) (nga_src_gives lim_ex) eq_refl) as [s R]. eexists. split; [exact R|]. intros w A H.
    eapply (C145_cy14 _ _ _ _ _ E) in H; [|right; right; left; reflexivity|exact R|exact A]. destruct H as ([H|H] & _); cbn in H; lra.
  - destruct (cb14_construct _ _ (-5) "NS" (nga_src_gives lim_ex) eq_refl eq_refl ltac:(cbn; lra)) as [s R]. eexists. split; [exact R|].
    eapply (C145_cb14 _ _ _ _ _ E); [right; left; reflexivity|exact R|eexists; right; reflexivity|]. split; [cbn; lra|reflexivity].
Qed.
