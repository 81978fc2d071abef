(** * GmmLib: common lemmas for the ground motion models *)

From Verif Require Export Framework.
From Verif Require Import FrameworkProofs.
Open Scope R_scope.
Open Scope string_scope.
Open Scope list_scope.

(** The scenario gives key [k] the finite number [x]. *)
Definition has_num (src : dict) (k : string) (x : R) : Prop := dget_none src k = PNum (Fin x).
Definition has_str (src : dict) (k : string) (t : string) : Prop := dget_none src k = PStr t.
(** The scenario does not give key [k] (absent, or explicitly None). *)
Definition absent (src : dict) (k : string) : Prop := dget_none src k = PNone.

(** Construction common to all ground motion models: check the parameters, then
    compute the responses. *)
Definition gmm_make (cls : gclass) (src : dict)
  (calc : scen -> M (list flt * option (list flt))) : M gmm :=
  bind (model_init (gc_params cls) src) (fun s =>
  bind (calc s) (fun r => ret (GMM cls s (fst r) (snd r)))).

Lemma gmm_make_result cls src calc : nodupb (map p_name (gc_params cls)) = true ->
  known_params (gc_params cls) = true ->
  result (gmm_make cls src calc) =
  match checks (gc_params cls) src with
  | Raise e => Raise e
  | Ok d => match result (calc (Scen d [])) with
            | Raise e => Raise e
            | Ok r => Ok (GMM cls (Scen d []) (fst r) (snd r))
            end
  end.
Proof.
  intros H1 H2. unfold gmm_make. rewrite result_bind, model_init_result' by assumption.
  destruct (checks (gc_params cls) src) as [d|e]; [|reflexivity].
  rewrite result_bind. destruct (result (calc _)); reflexivity.
Qed.

Lemma gmm_make_ext cls d1 d2 calc :
  (forall p, In p (gc_params cls) -> dget_none d1 (p_name p) = dget_none d2 (p_name p)) ->
  gmm_make cls d1 calc = gmm_make cls d2 calc.
Proof.
  intros H. unfold gmm_make, model_init.
  replace (pick (gc_params cls) d1) with (pick (gc_params cls) d2); [reflexivity|].
  unfold pick; apply map_ext_in. intros p Hp; rewrite (H p Hp); reflexivity.
Qed.

(** Parameter checks in normal form. *)
Lemma chk_num n req lo hi def x :
  result (check (Param n req def (KNum lo hi)) (PNum x)) = Ok (PNum x).
Proof. exact (check_num_param n req lo hi def x). Qed.
Lemma chk_num_none n lo hi : result (check (Param n false PNone (KNum lo hi)) PNone) = Ok PNone.
Proof. reflexivity. Qed.
Lemma chk_num_default n lo hi x :
  result (check (Param n false (PNum x) (KNum lo hi)) PNone) = Ok (PNum x).
Proof. exact (check_num_param_default n lo hi x). Qed.
Lemma chk_required n def k : result (check (Param n true def k) PNone) = Raise EValue.
Proof. reflexivity. Qed.
Lemma chk_cat n req opts def t :
  result (check (Param n req def (KCat opts)) (PStr t)) = Ok (if pyin (PStr t) opts then PStr t else def).
Proof. apply check_cat_param; discriminate. Qed.
Lemma chk_cat_bool n req opts def b :
  result (check (Param n req def (KCat opts)) (PBool b)) = Ok (if pyin (PBool b) opts then PBool b else def).
Proof. apply check_cat_param; discriminate. Qed.
Lemma chk_cat_none n opts def :
  result (check (Param n false def (KCat opts)) PNone) = Ok def.
Proof. apply check_cat_param_none. Qed.

(** Evaluate [checks] on a literal parameter list, given hypotheses
    [dget_none src k = v] (or [has_num], [has_str], [absent]). *)
Ltac use_inputs :=
  repeat match goal with
  | H : has_num ?s ?k ?x |- _ => unfold has_num in H
  | H : has_str ?s ?k ?x |- _ => unfold has_str in H
  | H : absent ?s ?k |- _ => unfold absent in H
  end;
  repeat match goal with
  | H : dget_none ?s ?k = _ |- context [dget_none ?s ?k] => rewrite H
  end.
Ltac run_checks :=
  cbn [checks p_name NumP CatP CatBoolP gc_params map];
  use_inputs;
  repeat (rewrite ?chk_num, ?chk_num_none, ?chk_num_default, ?chk_required,
          ?chk_cat, ?chk_cat_bool, ?chk_cat_none; cbn [checks p_name map]).

Ltac construct cls :=
  rewrite gmm_make_result by reflexivity;
  let x := eval cbv [gc_params cls NumP CatP CatBoolP map] in (gc_params cls) in
  change (gc_params cls) with x;
  run_checks.

(** Read the numbers back from the literal scenario. *)
Lemma num_hit d k x : dget d k = Some (PNum x) -> num (Scen d []) k = ret x.
Proof. intros H. unfold num, sc_attr; cbn [s_attrs s_data dget]. unfold ditem; rewrite H. reflexivity. Qed.
Lemma attr_hit d k v : dget d k = Some v -> sc_attr (Scen d []) k = ret v.
Proof. intros H. unfold sc_attr; cbn [s_attrs s_data dget]. unfold ditem; rewrite H. reflexivity. Qed.
Ltac read_nums :=
  repeat (first [ rewrite num_hit by reflexivity
                | erewrite num_hit by reflexivity
                | erewrite attr_hit by reflexivity ]; rewrite ?bind_ret_l).

(** Accessors of an instance whose response is computed row by row. *)
Lemma spec_accels_map {A} (cls : gclass) s (f : A -> flt) rows rows' std :
  take_idx rows (gc_psa cls) = Some rows' ->
  result (g_spec_accels (GMM cls s (map f rows) std)) = Ok (map (fun c => fexp (f c)) rows').
Proof.
  intros H. unfold g_spec_accels, arr_take; cbn [g_ln_resp g_class].
  rewrite take_idx_map, H. cbn. rewrite map_map. reflexivity.
Qed.
Lemma pga_map {A} (cls : gclass) s (f : A -> flt) rows std i c :
  gc_pga cls = Some i -> py_nth rows i = Some c ->
  result (g_pga (GMM cls s (map f rows) std)) = Ok (fexp (f c)).
Proof.
  intros Hi Hc. unfold g_pga, g_resp, arr_get; cbn [g_ln_resp g_class]. rewrite Hi, py_nth_map, Hc. reflexivity.
Qed.
Lemma pgv_map {A} (cls : gclass) s (f : A -> flt) rows std i c :
  gc_pgv cls = Some i -> py_nth rows i = Some c ->
  result (g_pgv (GMM cls s (map f rows) std)) = Ok (fmul (fexp (f c)) (gc_pgv_scale cls)).
Proof.
  intros Hi Hc. unfold g_pgv, g_resp, arr_get; cbn [g_ln_resp g_class]. rewrite Hi, py_nth_map, Hc. reflexivity.
Qed.
Lemma ln_stds_map {A} (cls : gclass) s resp (f : A -> flt) rows rows' :
  take_idx rows (gc_psa cls) = Some rows' ->
  result (g_ln_stds (GMM cls s resp (Some (map f rows)))) = Ok (map f rows').
Proof.
  intros H. unfold g_ln_stds, arr_take; cbn [g_ln_std g_class].
  rewrite take_idx_map, H. reflexivity.
Qed.

Lemma Forall_map_intro {A B} (P : B -> Prop) (f : A -> B) l :
  (forall x, In x l -> P (f x)) -> Forall P (map f l).
Proof. intros H. apply Forall_map, Forall_forall. exact H. Qed.
Lemma Forall2_map_intro {A B C} (R : B -> C -> Prop) (f : A -> B) (g : A -> C) l :
  (forall x, In x l -> R (f x) (g x)) -> Forall2 R (map f l) (map g l).
Proof.
  induction l as [|x l IH]; intros H; cbn; constructor; [apply H; left; reflexivity|].
  apply IH; intros y Hy; apply H; right; exact Hy.
Qed.

(** ** Table-wide checks over exact rationals *)
Definition Qltb (x y : Q) : bool := negb (Qle_bool y x).
Lemma Qltb_R x y : Qltb x y = true -> Q2R x < Q2R y.
Proof.
  unfold Qltb; intros H. apply Qlt_Rlt. apply negb_true_iff in H.
  apply Qnot_le_lt. intros C. apply Qle_bool_iff in C. congruence.
Qed.
Lemma Qleb_R x y : Qle_bool x y = true -> Q2R x <= Q2R y.
Proof. intros H. apply Qle_Rle. apply Qle_bool_iff; exact H. Qed.
Lemma Qeqb_R x y : Qeq_bool x y = true -> Q2R x = Q2R y.
Proof. intros H. apply Qeq_eqR. apply Qeq_bool_iff; exact H. Qed.

(** Turn [Q2R] of literals and operations into real arithmetic. *)
Ltac q2r := repeat first [ rewrite Q2R_plus in * | rewrite Q2R_minus in * | rewrite Q2R_mult in * | rewrite Q2R_opp in * ];
  unfold Q2R in *; cbn [Qnum Qden] in *.

(** Table-wide facts: decided over the rationals, used over the reals. *)
Lemma rows_lt {A} (l : list A) (f g : A -> Q) :
  forallb (fun c => Qltb (f c) (g c)) l = true -> forall c, In c l -> Q2R (f c) < Q2R (g c).
Proof. intros H c Hc. rewrite forallb_forall in H. apply Qltb_R, H, Hc. Qed.
Lemma rows_le {A} (l : list A) (f g : A -> Q) :
  forallb (fun c => Qle_bool (f c) (g c)) l = true -> forall c, In c l -> Q2R (f c) <= Q2R (g c).
Proof. intros H c Hc. rewrite forallb_forall in H. apply Qleb_R, H, Hc. Qed.
Lemma rows_eq {A} (l : list A) (f g : A -> Q) :
  forallb (fun c => Qeq_bool (f c) (g c)) l = true -> forall c, In c l -> Q2R (f c) = Q2R (g c).
Proof. intros H c Hc. rewrite forallb_forall in H. apply Qeqb_R, H, Hc. Qed.
(** Literal rationals as real numbers. *)
Ltac qlit_in H := repeat match type of H with
  | context [Q2R (?a # ?b)] => change (Q2R (a # b)) with (IZR a * / IZR (Zpos b)) in H end.
Ltac qlit := repeat match goal with
  | |- context [Q2R (?a # ?b)] => change (Q2R (a # b)) with (IZR a * / IZR (Zpos b)) end.
Ltac qnorm_in H := repeat first [rewrite Q2R_plus in H | rewrite Q2R_minus in H | rewrite Q2R_mult in H | rewrite Q2R_opp in H];
  change (inject_Z 0) with (0 # 1) in H; qlit_in H.
(** [row_lt Hin f g as H] adds [Q2R (f c) < Q2R (g c)] for the row [c] with [Hin : In c table]. *)
Tactic Notation "row_lt" constr(Hin) constr(f) constr(g) "as" ident(H) :=
  match type of Hin with In ?c ?l =>
    pose proof (rows_lt l f g ltac:(vm_compute; reflexivity) c Hin) as H; cbv beta in H; qnorm_in H end.
Tactic Notation "row_le" constr(Hin) constr(f) constr(g) "as" ident(H) :=
  match type of Hin with In ?c ?l =>
    pose proof (rows_le l f g ltac:(vm_compute; reflexivity) c Hin) as H; cbv beta in H; qnorm_in H end.
Tactic Notation "row_eq" constr(Hin) constr(f) constr(g) "as" ident(H) :=
  match type of Hin with In ?c ?l =>
    pose proof (rows_eq l f g ltac:(vm_compute; reflexivity) c Hin) as H; cbv beta in H; qnorm_in H end.

(** Specification vocabulary: two positive values whose natural logarithms differ
    by at most [e]. *)
Definition ln_close (e : R) (a b : flt) : Prop :=
  exists x y, a = Fin x /\ b = Fin y /\ 0 < x /\ 0 < y /\ Rabs (ln y - ln x) <= e.
Lemma ln_close_exp e a b : Rabs (b - a) <= e -> ln_close e (fexp (Fin a)) (fexp (Fin b)).
Proof.
  intros H. exists (exp a), (exp b). split; [reflexivity|]. split; [reflexivity|].
  split; [apply exp_pos|]. split; [apply exp_pos|]. rewrite !ln_exp. exact H.
Qed.

(** Construction with a model-specific [_check_inputs] that, after the parameter
    checks of [Model._check_inputs], edits the model's own scenario. *)
Definition gmm_make_prep (cls : gclass) (src : dict) (prep : scen -> M scen)
  (calc : scen -> M (list flt * option (list flt))) : M gmm :=
  bind (model_init (gc_params cls) src) (fun s =>
  bind (prep s) (fun s' =>
  bind (calc s') (fun r => ret (GMM cls s' (fst r) (snd r))))).

Lemma gmm_make_prep_result cls src prep calc : nodupb (map p_name (gc_params cls)) = true ->
  known_params (gc_params cls) = true ->
  result (gmm_make_prep cls src prep calc) =
  match checks (gc_params cls) src with
  | Raise e => Raise e
  | Ok d => match result (prep (Scen d [])) with
            | Raise e => Raise e
            | Ok s' => match result (calc s') with
                       | Raise e => Raise e
                       | Ok r => Ok (GMM cls s' (fst r) (snd r))
                       end
            end
  end.
Proof.
  intros H1 H2. unfold gmm_make_prep. rewrite result_bind, model_init_result' by assumption.
  destruct (checks (gc_params cls) src) as [d|e]; [|reflexivity].
  rewrite result_bind. destruct (result (prep _)); [|reflexivity].
  rewrite result_bind. destruct (result (calc _)); reflexivity.
Qed.
Ltac construct_prep cls :=
  rewrite gmm_make_prep_result by reflexivity;
  let x := eval cbv [gc_params cls NumP CatP CatBoolP map] in (gc_params cls) in
  change (gc_params cls) with x;
  run_checks.
(** Bounds of one column by constants. *)
Tactic Notation "row_pos" constr(Hin) constr(f) "as" ident(H) :=
  match type of Hin with In ?c ?l =>
    pose proof (rows_lt l (fun _ => (0 # 1)%Q) f ltac:(vm_compute; reflexivity) c Hin) as H; cbv beta in H; qnorm_in H end.
Tactic Notation "row_ge" constr(Hin) constr(q) constr(f) "as" ident(H) :=
  match type of Hin with In ?c ?l =>
    pose proof (rows_le l (fun _ => q) f ltac:(vm_compute; reflexivity) c Hin) as H; cbv beta in H; qnorm_in H end.
Tactic Notation "row_upto" constr(Hin) constr(f) constr(q) "as" ident(H) :=
  match type of Hin with In ?c ?l =>
    pose proof (rows_le l f (fun _ => q) ltac:(vm_compute; reflexivity) c Hin) as H; cbv beta in H; qnorm_in H end.
Tactic Notation "row_is" constr(Hin) constr(f) constr(q) "as" ident(H) :=
  match type of Hin with In ?c ?l =>
    pose proof (rows_eq l f (fun _ => q) ltac:(vm_compute; reflexivity) c Hin) as H; cbv beta in H; qnorm_in H end.
