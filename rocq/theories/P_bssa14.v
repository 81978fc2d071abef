(** * Proofs for Boore, Stewart, Seyhan & Atkinson (2014) *)
From Coquelicot Require Import Coquelicot.
From Interval Require Import Tactic.
From Coq Require Import List.
From Verif Require Import M_bssa14 FrameworkProofs Anal Nga Outs P_cy14.
Open Scope R_scope.
Open Scope string_scope.
Open Scope list_scope.

Definition bssa14_mech (a : nga) : pyval := choice ["U"; "SS"; "NS"; "RS"] (PStr "U") (n_mech a).
Definition bssa14_region (a : nga) : pyval :=
  choice ["global"; "california"; "china"; "italy"; "japan"; "new_zealand"; "taiwan"; "turkey"] (PStr "global") (n_region a).
Definition bssa14_input (a : nga) : bssa14_in :=
  BSSA14In (Fin (n_mag a)) (Fin (n_jb a)) (Fin (n_v a)) (onum (n_z1 a)) (bssa14_mech a) (bssa14_region a).
Definition bssa14_depth (a : nga) : option flt := option_map Fin (n_z1 a).
Definition bssa14_pga_ref (a : nga) : flt := fexp (bssa14_ln_resp bssa14_pga_row (bssa14_input a) (bssa14_depth a) NaN).

Lemma bssa14_construct src a : nga_gives src a -> exists s,
  result (bssa14 src) = Ok (GMM bssa14_class s (map (fun c => bssa14_ln_resp c (bssa14_input a) (bssa14_depth a) (bssa14_pga_ref a)) bssa14_coeff)
    (Some (map (fun c => bssa14_ln_std c (bssa14_input a)) bssa14_coeff))).
Proof.
  intros H. unfold nga_gives, has_num, gives_num, gives_str, gives_bool in H.
  repeat (destruct H as [? H]).
  unfold bssa14. rewrite gmm_make_prep_result by reflexivity.
  let x := eval cbv [gc_params bssa14_class NumP CatP CatBoolP map] in (gc_params bssa14_class) in change (gc_params bssa14_class) with x.
  run_checks_nga.
  fold (bssa14_mech a) (bssa14_region a).
  assert (P : exists s, result (bssa14_prep (Scen [("mag", PNum (Fin (n_mag a))); ("depth_1_0", onum (n_z1 a));
     ("dist_jb", PNum (Fin (n_jb a))); ("v_s30", PNum (Fin (n_v a))); ("mechanism", bssa14_mech a); ("region", bssa14_region a)] []))
     = Ok s /\ result (bssa14_read s) = Ok (bssa14_input a)).
  { unfold bssa14_prep, bssa14_input. generalize (bssa14_mech a) (bssa14_region a); intros me re.
    read_nums. destruct (is_str me "SS"); [|destruct (is_str me "NS")].
    all: try destruct (andb _ _).
    all: rewrite ?bind_ret_l; eexists; split; reflexivity. }
  destruct P as (s & P1 & P2). exists s. rewrite P1. rewrite result_bind, P2. unfold bssa14_pga_ref, bssa14_depth.
  cbn [bs_depth_1_0 bssa14_input]. destruct (n_z1 a); reflexivity.
Qed.

Definition bssa14_psa : list bssa14_row := firstn 105 (skipn 2 bssa14_coeff).
Definition bssa14_pgv_row : bssa14_row := ltac:(let x := eval cbv in (nth_error bssa14_coeff 0) in match x with Some ?c => exact c end).
Lemma bssa14_pga_in : In bssa14_pga_row bssa14_coeff.
Proof. apply (nth_error_In bssa14_coeff 1). reflexivity. Qed.
Lemma bssa14_pgv_in : In bssa14_pgv_row bssa14_coeff.
Proof. apply (nth_error_In bssa14_coeff 0). reflexivity. Qed.
Lemma bssa14_psa_in : incl bssa14_psa bssa14_coeff.
Proof.
  intros c Hc. rewrite <- (firstn_skipn 2 bssa14_coeff). apply in_or_app; right.
  rewrite <- (firstn_skipn 105 (skipn 2 bssa14_coeff)). apply in_or_app; left; exact Hc.
Qed.
Definition bssa14_resp (a : nga) (c : bssa14_row) : flt := bssa14_ln_resp c (bssa14_input a) (bssa14_depth a) (bssa14_pga_ref a).
Definition bssa14_outs (a : nga) : outs :=
  row_outs bssa14_psa bssa14_pga_row bssa14_pgv_row (Fin 1) (bssa14_resp a) (fun c => bssa14_ln_std c (bssa14_input a)).
Lemma bssa14_out src a : nga_gives src a -> gmm_out (bssa14 src) (bssa14_outs a).
Proof.
  intros H. destruct (bssa14_construct src a H) as [s E].
  eapply gmm_out_rows in E; [exact E | reflexivity..].
Qed.
Ltac bssa14_same := apply row_outs_ext with (rows := bssa14_coeff); [apply bssa14_psa_in | apply bssa14_pga_in | apply bssa14_pgv_in | |].
Ltac bssa14_lt := apply row_resp_lt with (rows := bssa14_coeff); [apply bssa14_psa_in | apply bssa14_pga_in | apply bssa14_pgv_in |].

(** ** Regions *)
Theorem bssa14_region_same src1 src2 a re1 re2 :
  nga_gives src1 (with_region a (Some re1)) -> nga_gives src2 (with_region a (Some re2)) ->
  (In re1 ["italy"; "japan"] /\ In re2 ["italy"; "japan"]) \/ (In re1 ["china"; "turkey"] /\ In re2 ["china"; "turkey"]) \/
  (In re1 ["global"; "california"; "new_zealand"; "taiwan"] /\ In re2 ["global"; "california"; "new_zealand"; "taiwan"]) ->
  exists o, gmm_out (bssa14 src1) o /\ gmm_out (bssa14 src2) o.
Proof.
  intros G1 G2 H. exists (bssa14_outs (with_region a (Some re1))). split; [apply bssa14_out; exact G1|].
  replace (bssa14_outs (with_region a (Some re1))) with (bssa14_outs (with_region a (Some re2))); [apply bssa14_out; exact G2|].
  assert (E : forall c, bssa14_ln_ref c (bssa14_input (with_region a (Some re2))) = bssa14_ln_ref c (bssa14_input (with_region a (Some re1)))).
  { intros c. cbn [In] in H. 
    repeat match goal with
    | H : _ \/ _ |- _ => destruct H
    | H : _ /\ _ |- _ => destruct H
    | H : False |- _ => destruct H end; subst; destruct a; reflexivity. }
  bssa14_same.
  - intros c Hc. unfold bssa14_resp, bssa14_pga_ref, bssa14_ln_resp. rewrite !E. destruct a; reflexivity.
  - intros c Hc. destruct a; reflexivity.
Qed.

(** ** Finiteness *)
Ltac bssa14_fields := cbn [bs_mag bs_dist_jb bs_v_s30 bs_depth_1_0 bs_mechanism bs_region].
Lemma bssa14_ref_finite c a : In c bssa14_coeff -> finite (bssa14_ln_ref c (bssa14_input a)).
Proof.
  intros Hc. row_pos Hc bssa14_h as Hh. row_pos Hc bssa14_R_ref as HR. unfold bssa14_ln_ref, bssa14_input. bssa14_fields.
  assert (D : fpos (fsqrt (fsq $(n_jb a) + fsq (qf (bssa14_h c)))%flt)).
  { apply fpos_sqrt. apply fpos_add_nn; [fsplit|apply fpos_sq; fsplit]. }
  set (dist := fsqrt _) in *. clearbody dist.
  fsplit; auto with fltdb.
Qed.
Lemma bssa14_site_finite c p v d re : In c bssa14_coeff -> 0 < v -> fpos p -> match d with Some x => finite x | None => True end ->
  finite (bssa14_site_term c p (Fin v) d re).
Proof.
  intros Hc Hv Hp Hd. row_pos Hc bssa14_V_c as HV. row_pos Hc bssa14_V_ref as HR. row_pos Hc bssa14_f_3 as H3.
  unfold bssa14_site_term.
  assert (M : fpos (fmin (Fin v) (qf (bssa14_V_c c)))) by (unfold qf; fcbn; apply fpos_fin; apply Rmin_glb_lt; lra).
  set (mn := fmin _ (qf (bssa14_V_c c))) in *. clearbody mn.
  set (de := match d with Some _ => _ | None => _ end).
  assert (Fd : finite de).
  { unfold de. destruct d; [|apply finite_fin]. fsplit; auto with fltdb. apply fpos_z1. }
  clearbody de. fsplit; auto with fltdb.
Qed.
Lemma bssa14_pga_ref_form a : bssa14_pga_ref a = fexp (bssa14_ln_ref bssa14_pga_row (bssa14_input a) + Fin 0)%flt.
Proof. reflexivity. Qed.
Lemma bssa14_pga_ref_pos a : fpos (bssa14_pga_ref a).
Proof. rewrite bssa14_pga_ref_form. apply fpos_fexp. apply finite_fadd; [apply bssa14_ref_finite, bssa14_pga_in|apply finite_fin]. Qed.
Lemma bssa14_resp_eq a c : bssa14_resp a c =
  (bssa14_ln_ref c (bssa14_input a) + bssa14_site_term c (bssa14_pga_ref a) (Fin (n_v a)) (bssa14_depth a) (onum (n_z1 a)))%flt.
Proof. unfold bssa14_resp, bssa14_ln_resp. destruct (bssa14_pga_ref_pos a) as (p & -> & _). reflexivity. Qed.
Lemma bssa14_resp_finite c a : In c bssa14_coeff -> 0 < n_v a -> finite (bssa14_resp a c).
Proof.
  intros Hc Hv. rewrite bssa14_resp_eq. apply finite_fadd; [apply bssa14_ref_finite; exact Hc|].
  apply bssa14_site_finite; auto; [apply bssa14_pga_ref_pos|]. unfold bssa14_depth. destruct (n_z1 a); cbn; [apply finite_fin|exact I].
Qed.

(** ** Standard deviation *)
Definition clip01 (x : R) : R := Rmin (Rmax x 0) 1.
Definition clipm (x : R) : R := Rmin (Rmax x 4.5) 5.5 - 4.5.
Lemma clip01_range x : 0 <= clip01 x <= 1.
Proof. unfold clip01. split; [apply Rmin_glb; [apply Rmax_r|lra]|apply Rmin_r]. Qed.
Lemma clipm_range x : 0 <= clipm x <= 1.
Proof.
  unfold clipm. assert (4.5 <= Rmin (Rmax x 4.5) 5.5) by (apply Rmin_glb; [apply Rmax_r|lra]).
  assert (Rmin (Rmax x 4.5) 5.5 <= 5.5) by apply Rmin_r. lra.
Qed.
Definition bssa14_phi (c : bssa14_row) (m r v : R) : R :=
  Q2R (bssa14_phi_1 c) + (Q2R (bssa14_phi_2 c) - Q2R (bssa14_phi_1 c)) * clipm m
  - Q2R (bssa14_dphi_V c) * clip01 (ln (Q2R (bssa14_V_2 c) / v) / ln (Q2R (bssa14_V_2 c) / Q2R (bssa14_V_1 c)))
  + Q2R (bssa14_dphi_R c) * clip01 (ln (Rmax r 0.1 / Q2R (bssa14_R_1 c)) / ln (Q2R (bssa14_R_2 c) / Q2R (bssa14_R_1 c))).
Definition bssa14_tau (c : bssa14_row) (m : R) : R :=
  Q2R (bssa14_tau_1 c) + (Q2R (bssa14_tau_2 c) - Q2R (bssa14_tau_1 c)) * clipm m.
Definition bssa14_sigma (c : bssa14_row) (m r v : R) : R := sqrt (bssa14_phi c m r v * bssa14_phi c m r v + bssa14_tau c m * bssa14_tau c m).
Lemma bssa14_std_form c a : In c bssa14_coeff -> 0 < n_v a ->
  bssa14_ln_std c (bssa14_input a) = Fin (bssa14_sigma c (n_mag a) (n_jb a) (n_v a)).
Proof.
  intros Hc Hv. row_pos Hc bssa14_V_1 as H1. row_pos Hc bssa14_R_1 as H3.
  row_lt Hc bssa14_V_1 bssa14_V_2 as H4. row_lt Hc bssa14_R_1 bssa14_R_2 as H5.
  unfold bssa14_ln_std, bssa14_input; bssa14_fields. unfold qf.
  assert (L1 : 0 < ln (Q2R (bssa14_V_2 c) / Q2R (bssa14_V_1 c))).
  { apply ln_pos_lt. apply Rmult_lt_reg_r with (Q2R (bssa14_V_1 c)); [lra|]. unfold Rdiv. rewrite Rmult_assoc, Rinv_l; lra. }
  assert (L2 : 0 < ln (Q2R (bssa14_R_2 c) / Q2R (bssa14_R_1 c))).
  { apply ln_pos_lt. apply Rmult_lt_reg_r with (Q2R (bssa14_R_1 c)); [lra|]. unfold Rdiv. rewrite Rmult_assoc, Rinv_l; lra. }
  assert (0.1 <= Rmax (n_jb a) 0.1) by apply Rmax_r.
  fcbn. rewrite !fdiv_fin by lra. rewrite !flog_fin by (apply Rdiv_lt_0_compat; lra). rewrite !fdiv_fin by lra. fcbn.
  rewrite !fclip_fin. fcbn. rewrite fsqrt_fin by apply sq2_nonneg. unfold bssa14_sigma, bssa14_phi, bssa14_tau, clipm, clip01. reflexivity.
Qed.
Lemma convex2 a b t lo hi : lo <= a <= hi -> lo <= b <= hi -> 0 <= t <= 1 -> lo <= a + (b - a) * t <= hi.
Proof. intros. replace (a + (b - a) * t) with (a * (1 - t) + b * t) by lra. split; nra. Qed.
Lemma bssa14_phi_range c m r v : In c bssa14_coeff -> 0.415 <= bssa14_phi c m r v <= 0.894.
Proof.
  intros Hc. unfold bssa14_phi.
  row_ge Hc (495#1000)%Q bssa14_phi_1 as A1. row_ge Hc (495#1000)%Q bssa14_phi_2 as A2.
  row_upto Hc bssa14_phi_1 (753#1000)%Q as A3. row_upto Hc bssa14_phi_2 (753#1000)%Q as A4.
  row_ge Hc (0#1)%Q bssa14_dphi_V as B1. row_upto Hc bssa14_dphi_V (80#1000)%Q as B2.
  row_ge Hc (0#1)%Q bssa14_dphi_R as B3. row_upto Hc bssa14_dphi_R (141#1000)%Q as B4.
  pose proof (clipm_range m) as Hm. set (t := clipm m) in *.
  set (u := clip01 (ln (Q2R (bssa14_V_2 c) / v) / _)). set (w := clip01 (ln (Rmax r 0.1 / _) / _)).
  assert (Hu : 0 <= u <= 1) by apply clip01_range. assert (Hw : 0 <= w <= 1) by apply clip01_range.
  pose proof (convex2 (Q2R (bssa14_phi_1 c)) (Q2R (bssa14_phi_2 c)) t (495*/1000) (753*/1000) ltac:(lra) ltac:(lra) Hm) as K.
  clearbody t u w. assert (0 <= Q2R (bssa14_dphi_V c) * u <= 80*/1000) by nra.
  assert (0 <= Q2R (bssa14_dphi_R c) * w <= 141*/1000) by nra. lra.
Qed.
Lemma bssa14_tau_range c m : In c bssa14_coeff -> 0.21 <= bssa14_tau c m <= 0.543.
Proof.
  intros Hc. unfold bssa14_tau.
  row_ge Hc (210#1000)%Q bssa14_tau_1 as A1. row_ge Hc (210#1000)%Q bssa14_tau_2 as A2.
  row_upto Hc bssa14_tau_1 (543#1000)%Q as A3. row_upto Hc bssa14_tau_2 (543#1000)%Q as A4.
  pose proof (convex2 (Q2R (bssa14_tau_1 c)) (Q2R (bssa14_tau_2 c)) (clipm m) (210*/1000) (543*/1000) ltac:(lra) ltac:(lra) (clipm_range m)) as K. lra.
Qed.
Lemma bssa14_sigma_range c m r v : In c bssa14_coeff -> 0.46 <= bssa14_sigma c m r v <= 1.05.
Proof.
  intros Hc. pose proof (bssa14_phi_range c m r v Hc) as P. pose proof (bssa14_tau_range c m Hc) as T. unfold bssa14_sigma.
  set (p := bssa14_phi c m r v) in *. set (t := bssa14_tau c m) in *. clearbody p t.
  split.
  - rewrite <- (sqrt_square 0.46) by lra. apply sqrt_le_1_alt. nra.
  - rewrite <- (sqrt_square 1.05) by lra. apply sqrt_le_1_alt. nra.
Qed.

(** ** Sigma is Lipschitz, hence continuous across every hinge *)
Lemma Rabs_le2 x y : - y <= x <= y -> Rabs x <= y.
Proof. intros. apply Rabs_le. exact H. Qed.
Lemma Rmax_lip x y k : Rabs (Rmax x k - Rmax y k) <= Rabs (x - y).
Proof. unfold Rmax, Rabs. repeat destruct (Rle_dec _ _); repeat destruct (Rcase_abs _); lra. Qed.
Lemma Rmin_lip x y k : Rabs (Rmin x k - Rmin y k) <= Rabs (x - y).
Proof. unfold Rmin, Rabs. repeat destruct (Rle_dec _ _); repeat destruct (Rcase_abs _); lra. Qed.
Lemma clip01_lip x y : Rabs (clip01 x - clip01 y) <= Rabs (x - y).
Proof. unfold clip01. eapply Rle_trans; [apply Rmin_lip|apply Rmax_lip]. Qed.
Lemma clipm_lip x y : Rabs (clipm x - clipm y) <= Rabs (x - y).
Proof.
  unfold clipm. replace (Rmin (Rmax x 4.5) 5.5 - 4.5 - (Rmin (Rmax y 4.5) 5.5 - 4.5)) with (Rmin (Rmax x 4.5) 5.5 - Rmin (Rmax y 4.5) 5.5) by lra.
  eapply Rle_trans; [apply Rmin_lip|apply Rmax_lip].
Qed.
Lemma ln_le_sub1 x : 0 < x -> ln x <= x - 1.
Proof. intros H. pose proof (exp_ineq1_le (ln x)). rewrite exp_ln in H0 by exact H. lra. Qed.
Lemma ln_ge_sub1 x : 0 < x -> 1 - / x <= ln x.
Proof. intros H. pose proof (Rinv_0_lt_compat x H). pose proof (ln_le_sub1 (/ x) H0). rewrite ln_Rinv in H1 by exact H. lra. Qed.
Lemma ln_lip k x y : 0 < k -> k <= x -> k <= y -> Rabs (ln x - ln y) <= Rabs (x - y) / k.
Proof.
  intros Hk. assert (W : forall x y, k <= x -> x <= y -> 0 <= ln y - ln x <= (y - x) / k).
  { intros a b Ha Hb. split; [assert (ln a <= ln b) by (apply ln_le_mono; lra); lra|].
    rewrite <- ln_div by lra. eapply Rle_trans; [apply ln_le_sub1; apply Rdiv_lt_0_compat; lra|].
    replace (b / a - 1) with ((b - a) / a) by (field; lra). apply Rmult_le_compat_l; [lra|]. apply Rinv_le_contravar; lra. }
  intros Hx Hy. destruct (Rle_dec x y) as [L|L].
  - destruct (W x y Hx L). rewrite (Rabs_left1 (ln x - ln y)), (Rabs_left1 (x - y)) by lra. replace (- (x - y)) with (y - x) by lra. lra.
  - destruct (W y x Hy ltac:(lra)). rewrite !Rabs_pos_eq by lra. lra.
Qed.
Lemma clip01_neg x : x <= 0 -> clip01 x = 0.
Proof. intros. unfold clip01. rewrite Rmax_right, Rmin_left by lra. reflexivity. Qed.
Lemma clip01_one x : 1 <= x -> clip01 x = 1.
Proof. intros. unfold clip01. rewrite Rmax_left, Rmin_right by lra. reflexivity. Qed.
(** The distance ramp: constant below [R1], Lipschitz everywhere. *)
Lemma ramp_up_lip A B x y : 0.1 <= A -> A < B ->
  Rabs (clip01 (ln (Rmax x 0.1 / A) / ln (B / A)) - clip01 (ln (Rmax y 0.1 / A) / ln (B / A))) <= Rabs (x - y) * (B / (A * (B - A))).
Proof.
  intros HA HB.
  assert (HL : (B - A) / B <= ln (B / A)).
  { eapply Rle_trans; [|apply ln_ge_sub1; apply Rdiv_lt_0_compat; lra]. right; field; lra. }
  assert (0 < (B - A) / B) by (apply Rdiv_lt_0_compat; lra).
  assert (E : forall z, clip01 (ln (Rmax z 0.1 / A) / ln (B / A)) = clip01 (ln (Rmax z A / A) / ln (B / A))).
  { intros z. destruct (Rle_dec A z); [rewrite !Rmax_left by lra; reflexivity|].
    rewrite (Rmax_right z A) by lra. replace (A / A) with 1 by (field; lra). rewrite ln_1.
    assert (Z : 0 / ln (B / A) = 0) by (unfold Rdiv; lra). rewrite Z.
    assert (N : ln (Rmax z 0.1 / A) <= 0).
    { apply ln_nonpos. pose proof (Rmax_r z 0.1). split; [apply Rdiv_lt_0_compat; lra|].
      apply Rmult_le_reg_r with A; [lra|]. unfold Rdiv. rewrite Rmult_assoc, Rinv_l, Rmult_1_r, Rmult_1_l by lra. apply Rmax_lub; lra. }
    rewrite !clip01_neg; try lra. apply Rmult_le_reg_r with (ln (B / A)); [lra|].
    replace (ln (Rmax z 0.1 / A) / ln (B / A) * ln (B / A)) with (ln (Rmax z 0.1 / A)) by (field; lra). lra. }
  rewrite (E x), (E y). eapply Rle_trans; [apply clip01_lip|].
  assert (Px : A <= Rmax x A) by apply Rmax_r. assert (Py : A <= Rmax y A) by apply Rmax_r.
  rewrite !ln_div by lra.
  replace ((ln (Rmax x A) - ln A) / (ln B - ln A) - (ln (Rmax y A) - ln A) / (ln B - ln A))
    with ((ln (Rmax x A) - ln (Rmax y A)) / (ln B - ln A)).
  2:{ field. rewrite ln_div in HL by lra. lra. }
  rewrite <- (ln_div B A) by lra. rewrite Rabs_div by lra. rewrite (Rabs_pos_eq (ln (B / A))) by lra.
  pose proof (ln_lip A (Rmax x A) (Rmax y A) ltac:(lra) Px Py) as K.
  pose proof (Rmax_lip x y A) as K2.
  replace (Rabs (x - y) * (B / (A * (B - A)))) with ((Rabs (x - y) / A) * (/ ((B - A) / B))) by (field; lra).
  apply Rmult_le_compat; [apply Rabs_pos | left; apply Rinv_0_lt_compat; lra | | apply Rinv_le_contravar; lra].
  eapply Rle_trans; [exact K|]. apply Rmult_le_compat_r; [left; apply Rinv_0_lt_compat; lra|exact K2].
Qed.
(** The velocity ramp: constant below [A], zero above [B]. *)
Lemma ramp_down_lip A B x y : 0 < A -> A < B -> 0 < x -> 0 < y ->
  Rabs (clip01 (ln (B / x) / ln (B / A)) - clip01 (ln (B / y) / ln (B / A))) <= Rabs (x - y) * (B / (A * (B - A))).
Proof.
  intros HA HB Hx Hy.
  assert (HL : (B - A) / B <= ln (B / A)).
  { eapply Rle_trans; [|apply ln_ge_sub1; apply Rdiv_lt_0_compat; lra]. right; field; lra. }
  assert (0 < (B - A) / B) by (apply Rdiv_lt_0_compat; lra).
  assert (E : forall z, 0 < z -> clip01 (ln (B / z) / ln (B / A)) = clip01 (ln (B / Rmax z A) / ln (B / A))).
  { intros z Hz. destruct (Rle_dec A z); [rewrite !Rmax_left by lra; reflexivity|].
    rewrite (Rmax_right z A) by lra. replace (ln (B / A) / ln (B / A)) with 1 by (field; lra).
    rewrite !clip01_one; try lra. apply Rmult_le_reg_r with (ln (B / A)); [lra|].
    replace (ln (B / z) / ln (B / A) * ln (B / A)) with (ln (B / z)) by (field; lra). rewrite Rmult_1_l.
    apply ln_le_mono; [apply Rdiv_lt_0_compat; lra|]. apply Rmult_le_compat_l; [lra|]. apply Rinv_le_contravar; lra. }
  rewrite (E x Hx), (E y Hy). eapply Rle_trans; [apply clip01_lip|].
  assert (Px : A <= Rmax x A) by apply Rmax_r. assert (Py : A <= Rmax y A) by apply Rmax_r.
  rewrite !(ln_div B) by lra.
  replace ((ln B - ln (Rmax x A)) / (ln B - ln A) - (ln B - ln (Rmax y A)) / (ln B - ln A))
    with ((ln (Rmax y A) - ln (Rmax x A)) / (ln B - ln A)).
  2:{ field. rewrite ln_div in HL by lra. lra. }
  rewrite <- (ln_div B A) by lra. rewrite Rabs_div by lra. rewrite (Rabs_pos_eq (ln (B / A))) by lra.
  pose proof (ln_lip A (Rmax y A) (Rmax x A) ltac:(lra) Py Px) as K.
  pose proof (Rmax_lip y x A) as K2. rewrite (Rabs_minus_sym x y).
  replace (Rabs (y - x) * (B / (A * (B - A)))) with ((Rabs (y - x) / A) * (/ ((B - A) / B))) by (field; lra).
  apply Rmult_le_compat; [apply Rabs_pos | left; apply Rinv_0_lt_compat; lra | | apply Rinv_le_contravar; lra].
  eapply Rle_trans; [exact K|]. apply Rmult_le_compat_r; [left; apply Rinv_0_lt_compat; lra|exact K2].
Qed.
(** The Euclidean norm is 1-Lipschitz in each coordinate. *)
Lemma hyp_lip p q p' q' : Rabs (sqrt (p * p + q * q) - sqrt (p' * p' + q' * q')) <= Rabs (p - p') + Rabs (q - q').
Proof.
  assert (W : forall p q p' q', sqrt (p * p + q * q) <= sqrt (p' * p' + q' * q') + (Rabs (p - p') + Rabs (q - q'))).
  { clear. intros p q p' q'. pose proof (Rabs_pos (p - p')). pose proof (Rabs_pos (q - q')).
    pose proof (sqrt_pos (p' * p' + q' * q')) as S.
    assert (SS : sqrt (p' * p' + q' * q') * sqrt (p' * p' + q' * q') = p' * p' + q' * q') by (apply sqrt_sqrt; nra).
    set (s := sqrt (p' * p' + q' * q')) in *. clearbody s.
    apply Rsqr_incr_0_var; [|lra]. unfold Rsqr. rewrite sqrt_sqrt by nra.
    assert (A1 : Rabs p' <= s). { apply Rsqr_incr_0_var; [|lra]. rewrite <- Rsqr_abs. unfold Rsqr. nra. }
    assert (A2 : Rabs q' <= s). { apply Rsqr_incr_0_var; [|lra]. rewrite <- Rsqr_abs. unfold Rsqr. nra. }
    assert (B1 : p * p <= p' * p' + 2 * s * Rabs (p - p') + Rabs (p - p') * Rabs (p - p')).
    { replace (Rabs (p - p') * Rabs (p - p')) with ((p - p') * (p - p')) by (rewrite <- Rabs_mult; symmetry; apply Rabs_pos_eq; apply Rle_0_sqr).
      assert (p' * (p - p') <= s * Rabs (p - p')); [|nra].
      eapply Rle_trans; [apply Rle_abs|]. rewrite Rabs_mult. apply Rmult_le_compat_r; assumption. }
    assert (B2 : q * q <= q' * q' + 2 * s * Rabs (q - q') + Rabs (q - q') * Rabs (q - q')).
    { replace (Rabs (q - q') * Rabs (q - q')) with ((q - q') * (q - q')) by (rewrite <- Rabs_mult; symmetry; apply Rabs_pos_eq; apply Rle_0_sqr).
      assert (q' * (q - q') <= s * Rabs (q - q')); [|nra].
      eapply Rle_trans; [apply Rle_abs|]. rewrite Rabs_mult. apply Rmult_le_compat_r; assumption. }
    nra. }
  pose proof (W p q p' q'). pose proof (W p' q' p q). rewrite (Rabs_minus_sym p' p), (Rabs_minus_sym q' q) in H0.
  apply Rabs_le. lra.
Qed.
Lemma lin_lip k K x y e : Rabs k <= K -> Rabs (x - y) <= e -> Rabs (k * x - k * y) <= K * e.
Proof.
  intros H1 H2. rewrite <- Rmult_minus_distr_l, Rabs_mult. apply Rmult_le_compat; auto using Rabs_pos.
Qed.
Lemma bssa14_sigma_lip c m r v m' r' v' : In c bssa14_coeff -> 0 < v -> 0 < v' ->
  Rabs (bssa14_sigma c m r v - bssa14_sigma c m' r' v') <= 0.476 * Rabs (m - m') + 0.003 * Rabs (r - r') + 0.002 * Rabs (v - v').
Proof.
  intros Hc Hv Hv'. unfold bssa14_sigma. eapply Rle_trans; [apply hyp_lip|].
  row_ge Hc (78#1)%Q bssa14_R_1 as R1. row_lt Hc bssa14_R_1 bssa14_R_2 as R2. row_is Hc bssa14_V_1 (225#1)%Q as V1. row_is Hc bssa14_V_2 (300#1)%Q as V2.
  row_ge Hc (0#1)%Q bssa14_dphi_V as B1. row_upto Hc bssa14_dphi_V (80#1000)%Q as B2.
  row_ge Hc (0#1)%Q bssa14_dphi_R as B3. 
  row_le Hc (fun c => bssa14_dphi_R c * bssa14_R_2 c)%Q (fun c => (3#1000) * (bssa14_R_1 c * (bssa14_R_2 c - bssa14_R_1 c)))%Q as B4.
  row_upto Hc (fun c => bssa14_phi_2 c - bssa14_phi_1 c)%Q (222#1000)%Q as P1. row_ge Hc (-222#1000)%Q (fun c => bssa14_phi_2 c - bssa14_phi_1 c)%Q as P2.
  row_upto Hc (fun c => bssa14_tau_2 c - bssa14_tau_1 c)%Q (254#1000)%Q as T1. row_ge Hc (-254#1000)%Q (fun c => bssa14_tau_2 c - bssa14_tau_1 c)%Q as T2.
  assert (T : Rabs (bssa14_tau c m - bssa14_tau c m') <= 0.254 * Rabs (m - m')).
  { unfold bssa14_tau. 
    match goal with |- Rabs (?a + ?x - (?a + ?y)) <= _ => replace (a + x - (a + y)) with (x - y) by lra end.
    apply lin_lip; [apply Rabs_le; lra|apply clipm_lip]. }
  assert (P : Rabs (bssa14_phi c m r v - bssa14_phi c m' r' v') <= 0.222 * Rabs (m - m') + 0.003 * Rabs (r - r') + 0.002 * Rabs (v - v')).
  { unfold bssa14_phi. rewrite V1, V2.
    pose proof (ramp_down_lip 225 300 v v' ltac:(lra) ltac:(lra) Hv Hv') as LV.
    replace (300 * / 1) with 300 by lra. replace (225 * / 1) with 225 by lra.
    pose proof (ramp_up_lip (Q2R (bssa14_R_1 c)) (Q2R (bssa14_R_2 c)) r r' ltac:(lra) R2) as LR.
    set (g := clip01 (ln (300 / v) / _)) in *. set (g' := clip01 (ln (300 / v') / _)) in *.
    set (h := clip01 (ln (Rmax r 0.1 / _) / _)) in *. set (h' := clip01 (ln (Rmax r' 0.1 / _) / _)) in *.
    pose proof (lin_lip (Q2R (bssa14_phi_2 c) - Q2R (bssa14_phi_1 c)) 0.222 (clipm m) (clipm m') _ ltac:(apply Rabs_le; lra) (clipm_lip m m')) as LM.
    pose proof (lin_lip (Q2R (bssa14_dphi_V c)) 0.08 g g' _ ltac:(apply Rabs_le; lra) LV) as LV'.
    assert (LR' : Rabs (Q2R (bssa14_dphi_R c) * h - Q2R (bssa14_dphi_R c) * h') <= 0.003 * Rabs (r - r')).
    { eapply Rle_trans; [apply lin_lip; [rewrite Rabs_pos_eq by lra; apply Rle_refl|exact LR]|].
      set (A := Q2R (bssa14_R_1 c)) in *. set (B := Q2R (bssa14_R_2 c)) in *. set (d := Q2R (bssa14_dphi_R c)) in *.
      assert (0 < A * (B - A)) by (apply Rmult_lt_0_compat; lra).
      assert (d * (B / (A * (B - A))) <= 0.003).
      { apply Rmult_le_reg_r with (A * (B - A)); [lra|]. replace (d * (B / (A * (B - A))) * (A * (B - A))) with (d * B) by (field; lra). lra. }
      pose proof (Rabs_pos (r - r')). replace (d * (Rabs (r - r') * (B / (A * (B - A))))) with ((d * (B / (A * (B - A)))) * Rabs (r - r')) by lra. nra. }
    pose proof (Rabs_pos (v - v')).
    clearbody g g' h h'.
    apply Rabs_le. apply Rabs_le_between in LM, LV', LR'. lra. }
  lra.
Qed.

(** ** Reference site condition *)
Lemma bssa14_site_760 c p re : In c bssa14_coeff -> 0 < p -> bssa14_site_term c (Fin p) (Fin 760) None re = Fin 0.
Proof.
  intros Hc Hp. row_lt Hc (fun _ : bssa14_row => (760#1)%Q) bssa14_V_c as HV. row_is Hc bssa14_V_ref (760#1)%Q as HR. row_pos Hc bssa14_f_3 as H3.
  row_is Hc bssa14_f_1 (0#1)%Q as H1. 
  assert (F7 : forall c', In c' bssa14_coeff -> (0.65 <= Q2R (bssa14_period c') -> 0 <= Q2R (bssa14_f_7 c'))).
  { intros c' Hc' Hper. clear c Hc HV HR H3 H1.
    assert (K : forallb (fun c => Qltb (bssa14_period c) (65#100) || Qle_bool 0 (bssa14_f_7 c))%bool bssa14_coeff = true) by (vm_compute; reflexivity).
    rewrite forallb_forall in K. specialize (K c' Hc'). apply orb_prop in K. destruct K as [K|K].
    - apply Qltb_R in K. qlit_in K. lra.
    - apply Qleb_R in K. change (Q2R 0) with (0 * / 1) in K. lra. }
  specialize (F7 c Hc).
  unfold bssa14_site_term. rewrite pymin_fin. unfold qf.
  fcbn. rewrite !fdiv_fin by lra. rewrite Rmin_left by lra. rewrite HR.
  rewrite !flog_fin by (apply Rdiv_lt_0_compat; lra). fcbn. rewrite Rmin_left by lra.
  replace (760 / (760 * / 1)) with 1 by lra. rewrite ln_1.
  replace (760 - 360.0) with (760.0 - 360.0) by lra.
  destruct (Rleb_spec 0.65 (Q2R (bssa14_period c))) as [E|E]; fcbn; f_equal.
  - specialize (F7 E).
    rewrite Rmin_left by lra. rewrite H1. lra.
  - rewrite H1. lra.
Qed.

(** On rock the non-linear term vanishes: the site term does not depend on the reference PGA. *)
Lemma bssa14_site_rock c p1 p2 v d re : In c bssa14_coeff -> 0 < p1 -> 0 < p2 -> 760 <= v ->
  bssa14_site_term c (Fin p1) (Fin v) d re = bssa14_site_term c (Fin p2) (Fin v) d re.
Proof.
  intros Hc H1 H2 Hv. row_pos Hc bssa14_f_3 as H3. unfold bssa14_site_term. rewrite pymin_fin. rewrite (Rmin_right v) by lra.
  unfold qf. fcbn. rewrite !(fdiv_fin (_ + Q2R (bssa14_f_3 c))) by lra. rewrite !(flog_fin ((_ + Q2R (bssa14_f_3 c)) / _)) by (apply Rdiv_lt_0_compat; lra).
  replace (760 - 360.0) with (760.0 - 360.0) by lra. fcbn.
  match goal with |- context [Q2R (bssa14_f_4 c) * (?x - ?x)] => replace (Q2R (bssa14_f_4 c) * (x - x)) with 0 by lra end.
  rewrite !Rmult_0_l. reflexivity.
Qed.

(** ** Decay with distance *)
Definition bssa14_dc3 (c : bssa14_row) (re : pyval) : R :=
  if pyin re [PStr "china"; PStr "turkey"] then Q2R (bssa14_dc_3ct c)
  else if pyin re [PStr "italy"; PStr "japan"] then Q2R (bssa14_dc_3ij c) else Q2R (bssa14_dc_3global c).
Lemma bssa14_ref_form c a : In c bssa14_coeff -> exists E, forall r,
  bssa14_ln_ref c (bssa14_input (with_jb a r)) =
  Fin (E + (Q2R (bssa14_c_1 c) + Q2R (bssa14_c_2 c) * (n_mag a - 4.5)) * ln (sqrt (r * r + Q2R (bssa14_h c) * Q2R (bssa14_h c)))
       + (Q2R (bssa14_c_3 c) + bssa14_dc3 c (bssa14_region a)) * sqrt (r * r + Q2R (bssa14_h c) * Q2R (bssa14_h c))).
Proof.
  intros Hc. row_pos Hc bssa14_h as Hh. row_is Hc bssa14_R_ref (1#1)%Q as HR. row_is Hc bssa14_M_ref (45#10)%Q as HM.
  assert (Ev : exists e, forall r, (let s := bssa14_input (with_jb a r) in let mag := bs_mag s in
     let event := if is_str (bs_mechanism s) "SS" then qf (bssa14_e_1 c)
                else if is_str (bs_mechanism s) "NS" then qf (bssa14_e_2 c)
                else if is_str (bs_mechanism s) "RS" then qf (bssa14_e_3 c)
                else qf (bssa14_e_0 c) in
     if mag <=? qf (bssa14_M_h c)
                then event + (qf (bssa14_e_4 c) * (mag - qf (bssa14_M_h c)) + qf (bssa14_e_5 c) * fsq (mag - qf (bssa14_M_h c)))
                else event + qf (bssa14_e_6 c) * (mag - qf (bssa14_M_h c)))%flt = Fin e).
  { destruct a as [m ru jb xx y0 cr di vv to bo bt hy wi z1 z25 dp me re so hw af]. unfold bssa14_input, bssa14_mech. bssa14_fields. cbn [with_jb n_mag n_jb n_mech n_v n_region].
    cbv zeta. generalize (choice ["U"; "SS"; "NS"; "RS"] (PStr "U") me); intros mech.
    set (ev := if is_str mech "SS" then _ else _). assert (F : exists e0, ev = Fin e0) by (unfold ev; repeat destruct (is_str _ _); eexists; reflexivity).
    destruct F as [e0 ->]. unfold qf. fcbn. destruct (Rleb _ _); eexists; intros; reflexivity. }
  destruct Ev as [e Ev].
  exists (e - (Q2R (bssa14_c_3 c) + bssa14_dc3 c (bssa14_region a)) * 1). intros r. specialize (Ev r). cbv zeta in Ev.
  unfold bssa14_ln_ref. cbv zeta. rewrite Ev.
  replace (bs_dist_jb (bssa14_input (with_jb a r))) with (Fin r) by (destruct a; reflexivity).
  replace (bs_mag (bssa14_input (with_jb a r))) with (Fin (n_mag a)) by (destruct a; reflexivity).
  replace (bs_region (bssa14_input (with_jb a r))) with (bssa14_region a) by (destruct a; reflexivity).
  match goal with |- context [(qf (bssa14_c_3 c) + ?d)%flt] => replace d with (Fin (bssa14_dc3 c (bssa14_region a))) by (unfold bssa14_dc3; repeat destruct (pyin _ _); reflexivity) end.
  unfold qf. fcbn. rewrite fsqrt_fin by apply sq2_nonneg. rewrite fdiv_fin by lra. rewrite HR, HM.
  assert (0 < sqrt (r * r + Q2R (bssa14_h c) * Q2R (bssa14_h c))) by (apply sqrt_lt_R0, sq2_pos; lra).
  rewrite flog_fin by (apply Rdiv_lt_0_compat; lra). fcbn. f_equal.
  replace (sqrt (r * r + Q2R (bssa14_h c) * Q2R (bssa14_h c)) / (1 * / 1)) with (sqrt (r * r + Q2R (bssa14_h c) * Q2R (bssa14_h c))) by lra.
  replace (45 * / 10) with 4.5 by lra. lra.
Qed.
Lemma log_lin_decr g k R1 R2 : g < 0 -> 0 < R1 -> R1 < R2 -> g + k * R2 <= 0 -> g * ln R2 + k * R2 < g * ln R1 + k * R1.
Proof.
  intros Hg H1 H2 Hk.
  assert (L : 1 - R1 / R2 < ln R2 - ln R1).
  { rewrite <- ln_div by lra. pose proof (exp_ineq1 (- ln (R2 / R1))) as E.
    assert (0 < ln (R2 / R1)). { apply ln_pos_lt. apply Rmult_lt_reg_r with R1; [lra|]. replace (R2 / R1 * R1) with R2 by (field; lra). lra. }
    specialize (E ltac:(lra)). rewrite exp_Ropp, exp_ln in E by (apply Rdiv_lt_0_compat; lra).
    replace (/ (R2 / R1)) with (R1 / R2) in E by (field; lra). lra. }
  assert (g * (ln R2 - ln R1) < g * (1 - R1 / R2)) by (apply Rmult_lt_gt_compat_neg_l; lra).
  assert (E2 : g * (1 - R1 / R2) + k * (R2 - R1) <= 0); [|lra].
  replace (g * (1 - R1 / R2) + k * (R2 - R1)) with ((R2 - R1) * ((g + k * R2) / R2)) by (field; lra).
  assert ((g + k * R2) / R2 <= 0); [|nra].
  apply Rmult_le_reg_r with R2; [lra|]. replace ((g + k * R2) / R2 * R2) with (g + k * R2) by (field; lra). lra.
Qed.

Definition decay_ok (a : nga) (r2 : R) : Prop :=
  r2 <= 230 \/ In (bssa14_region a) (map PStr ["global"; "california"; "new_zealand"; "taiwan"]).
Lemma bssa14_dc3_bound c a R : In c bssa14_coeff -> 3 <= n_mag a <= 8.5 -> 0 < R -> 
  (R <= 231 \/ In (bssa14_region a) (map PStr ["global"; "california"; "new_zealand"; "taiwan"])) ->
  Q2R (bssa14_c_1 c) + Q2R (bssa14_c_2 c) * (n_mag a - 4.5) < 0 /\
  Q2R (bssa14_c_1 c) + Q2R (bssa14_c_2 c) * (n_mag a - 4.5) + (Q2R (bssa14_c_3 c) + bssa14_dc3 c (bssa14_region a)) * R <= 0.
Proof.
  intros Hc Hm HR Hd.
  row_upto Hc (fun c => bssa14_c_1 c + bssa14_c_2 c * (3 - (45#10)))%Q (-1#10)%Q as G1.
  row_upto Hc (fun c => bssa14_c_1 c + bssa14_c_2 c * ((85#10) - (45#10)))%Q (-1#10)%Q as G2.
  change (Q2R 3) with (3 * / 1) in G1.
  assert (G : Q2R (bssa14_c_1 c) + Q2R (bssa14_c_2 c) * (n_mag a - 4.5) < 0).
  { assert (Q2R (bssa14_c_1 c) - 4.5 * Q2R (bssa14_c_2 c) + Q2R (bssa14_c_2 c) * n_mag a < 0); [|lra].
    apply (lin_neg _ _ 3 8.5); lra. }
  split; [exact G|].
  row_upto Hc (fun c => bssa14_c_3 c + bssa14_dc_3global c)%Q (0#1)%Q as K0.
  destruct Hd as [Hd|Hd].
  - assert (W : forall k, (Q2R (bssa14_c_1 c) + Q2R (bssa14_c_2 c) * (3 - 4.5) + (Q2R (bssa14_c_3 c) + k) * 231 <= 0) ->
       (Q2R (bssa14_c_1 c) + Q2R (bssa14_c_2 c) * (8.5 - 4.5) + (Q2R (bssa14_c_3 c) + k) * 231 <= 0) ->
       Q2R (bssa14_c_1 c) + Q2R (bssa14_c_2 c) * (n_mag a - 4.5) + (Q2R (bssa14_c_3 c) + k) * R <= 0).
    { intros k W1 W2. destruct (Rle_dec (Q2R (bssa14_c_3 c) + k) 0); [nra|].
      assert (Q2R (bssa14_c_1 c) + Q2R (bssa14_c_2 c) * (n_mag a - 4.5) + (Q2R (bssa14_c_3 c) + k) * 231 <= 0); [|nra].
      destruct (Rle_dec 0 (Q2R (bssa14_c_2 c))); nra. }
    unfold bssa14_dc3. destruct (pyin _ _); [|destruct (pyin _ _)]; apply W.
    + row_upto Hc (fun c => bssa14_c_1 c + bssa14_c_2 c * ((3#1) - (45#10)) + (bssa14_c_3 c + bssa14_dc_3ct c) * (231#1))%Q (0#1)%Q as Z. lra.
    + row_upto Hc (fun c => bssa14_c_1 c + bssa14_c_2 c * ((85#10) - (45#10)) + (bssa14_c_3 c + bssa14_dc_3ct c) * (231#1))%Q (0#1)%Q as Z. lra.
    + row_upto Hc (fun c => bssa14_c_1 c + bssa14_c_2 c * ((3#1) - (45#10)) + (bssa14_c_3 c + bssa14_dc_3ij c) * (231#1))%Q (0#1)%Q as Z. lra.
    + row_upto Hc (fun c => bssa14_c_1 c + bssa14_c_2 c * ((85#10) - (45#10)) + (bssa14_c_3 c + bssa14_dc_3ij c) * (231#1))%Q (0#1)%Q as Z. lra.
    + row_upto Hc (fun c => bssa14_c_1 c + bssa14_c_2 c * ((3#1) - (45#10)) + (bssa14_c_3 c + bssa14_dc_3global c) * (231#1))%Q (0#1)%Q as Z. lra.
    + row_upto Hc (fun c => bssa14_c_1 c + bssa14_c_2 c * ((85#10) - (45#10)) + (bssa14_c_3 c + bssa14_dc_3global c) * (231#1))%Q (0#1)%Q as Z. lra.
  - replace (bssa14_dc3 c (bssa14_region a)) with (Q2R (bssa14_dc_3global c)); [nra|].
    unfold bssa14_dc3. cbn [map In] in Hd. repeat destruct Hd as [<-|Hd]; try reflexivity. destruct Hd.
Qed.
Lemma bssa14_ref_decr c a r1 r2 : In c bssa14_coeff -> 3 <= n_mag a <= 8.5 -> 0 <= r1 -> r1 < r2 -> decay_ok a r2 ->
  flt_lt (bssa14_ln_ref c (bssa14_input (with_jb a r2))) (bssa14_ln_ref c (bssa14_input (with_jb a r1))).
Proof.
  intros Hc Hm H1 H2 Hd. destruct (bssa14_ref_form c a Hc) as [E HE]. rewrite !HE.
  do 2 eexists. split; [reflexivity|]. split; [reflexivity|].
  row_pos Hc bssa14_h as Hh. row_upto Hc bssa14_h (966#100)%Q as Hh'. set (h := Q2R (bssa14_h c)) in *.
  assert (P1 : 0 < sqrt (r1 * r1 + h * h)) by (apply sqrt_lt_R0, sq2_pos; lra).
  assert (P2 : sqrt (r1 * r1 + h * h) < sqrt (r2 * r2 + h * h)) by (apply sqrt_lt_1_alt; nra).
  assert (B : sqrt (r2 * r2 + h * h) <= 231 \/ In (bssa14_region a) (map PStr ["global"; "california"; "new_zealand"; "taiwan"])).
  { destruct Hd as [Hd|Hd]; [left|right; exact Hd]. rewrite <- (sqrt_square 231) by lra. apply sqrt_le_1_alt. nra. }
  destruct (bssa14_dc3_bound c a (sqrt (r2 * r2 + h * h)) Hc Hm ltac:(lra) B) as [G1 G2].
  pose proof (log_lin_decr _ _ _ _ G1 P1 P2 G2). lra.
Qed.
Lemma bssa14_jb_other a r : n_v (with_jb a r) = n_v a /\ n_z1 (with_jb a r) = n_z1 a /\ bssa14_depth (with_jb a r) = bssa14_depth a.
Proof. destruct a; repeat split. Qed.
Lemma flt_lt_add x y z : finite z -> flt_lt x y -> flt_lt (x + z)%flt (y + z)%flt.
Proof. intros [c ->] (a & b & -> & -> & H). exists (a + c), (b + c). repeat split. lra. Qed.
Theorem bssa14_decay_rock src1 src2 a r1 r2 : nga_gives src1 (with_jb a r1) -> nga_gives src2 (with_jb a r2) ->
  3 <= n_mag a <= 8.5 -> 760 <= n_v a -> 0 <= r1 -> r1 < r2 -> decay_ok a r2 ->
  exists o1 o2, gmm_out (bssa14 src1) o1 /\ gmm_out (bssa14 src2) o2 /\ resp2 flt_lt o2 o1.
Proof.
  intros G1 G2 Hm Hv H1 H2 Hd. exists (bssa14_outs (with_jb a r1)), (bssa14_outs (with_jb a r2)).
  split; [apply bssa14_out; exact G1|]. split; [apply bssa14_out; exact G2|].
  bssa14_lt. intros c Hc. rewrite !bssa14_resp_eq.
  destruct (bssa14_pga_ref_pos (with_jb a r1)) as (p1 & -> & P1). destruct (bssa14_pga_ref_pos (with_jb a r2)) as (p2 & -> & P2).
  destruct (bssa14_jb_other a r1) as (-> & -> & ->). destruct (bssa14_jb_other a r2) as (-> & -> & ->).
  rewrite (bssa14_site_rock c p2 p1) by assumption.
  apply flt_lt_add; [|apply bssa14_ref_decr; assumption].
  apply bssa14_site_finite; [assumption|lra|apply fpos_fin; lra|]. unfold bssa14_depth. destruct (n_z1 a); cbn; [apply finite_fin|exact I].
Qed.

(** PGA on any site. *)
Lemma bssa14_pga_site v d re : 150 <= v -> match d with Some x => finite x | None => True end ->
  exists A f, -1 < f <= 0 /\ forall y, bssa14_site_term bssa14_pga_row (fexp (Fin y + Fin 0)%flt) (Fin v) d re = Fin (A + f * ln ((exp y + 0.1) / 0.1)).
Proof.
  intros Hv Hd. pose proof bssa14_pga_in as Hc.
  row_pos Hc bssa14_V_c as HV. row_pos Hc bssa14_V_ref as HR.
  assert (H3 : Q2R (bssa14_f_3 bssa14_pga_row) = 0.1) by (cbn; unfold Q2R; cbn; lra).
  set (f := Q2R (bssa14_f_4 bssa14_pga_row) * (exp (Q2R (bssa14_f_5 bssa14_pga_row) * (Rmin v 760 - 360.0)) - exp (Q2R (bssa14_f_5 bssa14_pga_row) * (760.0 - 360.0)))).
  assert (Hf : -1 < f <= 0).
  { assert (150 <= Rmin v 760 <= 760) by (split; [apply Rmin_glb; lra|apply Rmin_r]). unfold f. 
    set (w := Rmin v 760) in *. clearbody w.
    assert (E4 : Q2R (bssa14_f_4 bssa14_pga_row) = -0.15) by (cbn; unfold Q2R; cbn; lra).
    assert (E5 : Q2R (bssa14_f_5 bssa14_pga_row) = -0.00701) by (cbn; unfold Q2R; cbn; lra).
    rewrite E4, E5.
    assert (exp (-0.00701 * (760.0 - 360.0)) <= exp (-0.00701 * (w - 360.0))) by (apply exp_le_mono; lra).
    assert (exp (-0.00701 * (w - 360.0)) <= exp (-0.00701 * (150 - 360.0))) by (apply exp_le_mono; lra).
    assert (exp (-0.00701 * (150 - 360.0)) <= 5) by interval with (i_prec 40).
    pose proof (exp_pos (-0.00701 * (760.0 - 360.0))). lra. }
  unfold bssa14_site_term.
  assert (M : fpos (fmin (Fin v) (qf (bssa14_V_c bssa14_pga_row)))) by (unfold qf; fcbn; apply fpos_fin; apply Rmin_glb_lt; lra).
  set (mn := fmin _ (qf (bssa14_V_c _))) in *. clearbody mn.
  set (de := match d with Some _ => _ | None => _ end).
  assert (Fd : finite de).
  { unfold de. destruct d; [|apply finite_fin]. fsplit; auto with fltdb. apply fpos_z1. }
  clearbody de.
  set (fl := (qf (bssa14_c _) * flog _)%flt). assert (F1 : finite fl) by (unfold fl; fsplit; auto with fltdb).
  set (fz := (if ($0.65 <=? _)%flt then fmin _ _ else _)). assert (F2 : finite fz) by (unfold fz; fsplit; auto with fltdb).
  clearbody fl fz. destruct F1 as [A1 ->]. destruct F2 as [A2 ->].
  exists (A1 + Q2R (bssa14_f_1 bssa14_pga_row) + A2), f. split; [exact Hf|]. intros y. rewrite pymin_fin. unfold qf. fcbn.
  pose proof (exp_pos (y + 0)). rewrite H3. rewrite fdiv_fin by lra. rewrite flog_fin by (apply Rdiv_lt_0_compat; lra). fcbn. fold f.
  rewrite Rplus_0_r. f_equal. lra.
Qed.
Theorem bssa14_decay_pga src1 src2 a r1 r2 : nga_gives src1 (with_jb a r1) -> nga_gives src2 (with_jb a r2) ->
  3 <= n_mag a <= 8.5 -> 150 <= n_v a -> 0 <= r1 -> r1 < r2 -> decay_ok a r2 ->
  exists o1 o2, gmm_out (bssa14 src1) o1 /\ gmm_out (bssa14 src2) o2 /\ flt_lt (o_pga o2) (o_pga o1).
Proof.
  intros G1 G2 Hm Hv H1 H2 Hd. exists (bssa14_outs (with_jb a r1)), (bssa14_outs (with_jb a r2)).
  split; [apply bssa14_out; exact G1|]. split; [apply bssa14_out; exact G2|].
  cbn [o_pga bssa14_outs row_outs]. apply flt_lt_exp. rewrite !bssa14_resp_eq, !bssa14_pga_ref_form.
  destruct (bssa14_ref_decr bssa14_pga_row a r1 r2 bssa14_pga_in Hm H1 H2 Hd) as (y2 & y1 & -> & -> & L).
  destruct (bssa14_jb_other a r1) as (-> & -> & ->). destruct (bssa14_jb_other a r2) as (-> & -> & ->).
  destruct (bssa14_pga_site (n_v a) (bssa14_depth a) (onum (n_z1 a)) Hv) as (A & f & Hf & E).
  { unfold bssa14_depth. destruct (n_z1 a); cbn; [apply finite_fin|exact I]. }
  rewrite !E. do 2 eexists. split; [reflexivity|]. split; [reflexivity|].
  pose proof (site_incr y2 y1 0.1 f ltac:(lra) Hf L). lra.
Qed.

Definition bssa14_10s_row : bssa14_row := ltac:(let x := eval cbv in (nth_error bssa14_coeff 106) in match x with Some ?c => exact c end).
Theorem bssa14_turkey_grows src1 src2 a : nga_gives src1 (with_jb (with_region a (Some "turkey")) 240) ->
  nga_gives src2 (with_jb (with_region a (Some "turkey")) 300) -> n_mag a = 8.5 -> 760 <= n_v a ->
  exists o1 o2 x1 x2, gmm_out (bssa14 src1) o1 /\ gmm_out (bssa14 src2) o2 /\
    nth_error (o_sa o1) 104 = Some x1 /\ nth_error (o_sa o2) 104 = Some x2 /\ flt_lt x1 x2.
Proof.
  intros G1 G2 Hm Hv. set (b := with_region a (Some "turkey")) in *.
  set (c := bssa14_10s_row).
  assert (Hc : In c bssa14_coeff) by (apply (nth_error_In bssa14_coeff 106); reflexivity).
  exists (bssa14_outs (with_jb b 240)), (bssa14_outs (with_jb b 300)), (fexp (bssa14_resp (with_jb b 240) c)), (fexp (bssa14_resp (with_jb b 300) c)).
  split; [apply bssa14_out; exact G1|]. split; [apply bssa14_out; exact G2|].
  split; [cbn [o_sa bssa14_outs row_outs]; rewrite nth_error_map; reflexivity|].
  split; [cbn [o_sa bssa14_outs row_outs]; rewrite nth_error_map; reflexivity|].
  apply flt_lt_exp. rewrite !bssa14_resp_eq.
  destruct (bssa14_pga_ref_pos (with_jb b 240)) as (p1 & -> & P1). destruct (bssa14_pga_ref_pos (with_jb b 300)) as (p2 & -> & P2).
  destruct (bssa14_jb_other b 240) as (-> & -> & ->). destruct (bssa14_jb_other b 300) as (-> & -> & ->).
  assert (V : n_v b = n_v a) by (destruct a; reflexivity). rewrite V.
  rewrite (bssa14_site_rock c p2 p1) by assumption.
  apply flt_lt_add.
  { apply bssa14_site_finite; [assumption|lra|apply fpos_fin; lra|]. unfold bssa14_depth. destruct (n_z1 b); cbn; [apply finite_fin|exact I]. }
  destruct (bssa14_ref_form c b Hc) as [E HE]. rewrite !HE.
  do 2 eexists. split; [reflexivity|]. split; [reflexivity|].
  assert (M : n_mag b = 8.5) by (destruct a; exact Hm). rewrite M.
  replace (bssa14_dc3 c (bssa14_region b)) with (Q2R (bssa14_dc_3ct c)) by (unfold b; destruct a; reflexivity).
  unfold c, bssa14_10s_row; cbn [bssa14_c_1 bssa14_c_2 bssa14_c_3 bssa14_dc_3ct bssa14_h]. qlit.
  match goal with |- ?x < ?y => cut (0 < y - x); [lra|] end.
  match goal with |- 0 < (?e + ?A + ?B) - (?e + ?C + ?D) => replace ((e + A + B) - (e + C + D)) with ((A + B) - (C + D)) by lra end.
  interval with (i_prec 40).
Qed.
Lemma bssa14_positive src a : nga_gives src a -> 0 < n_v a ->
  exists o, gmm_out (bssa14 src) o /\ List.length (o_sa o) = 105%nat /\ List.length (o_sd o) = 105%nat /\
    all_resp fpos o /\ all_std (fun s => exists x, s = Fin x /\ 0.46 <= x <= 1.05) o.
Proof.
  intros H Hv. exists (bssa14_outs a). split; [apply bssa14_out; assumption|].
  split; [reflexivity|]. split; [reflexivity|].
  destruct (row_outs_fpos bssa14_coeff bssa14_psa bssa14_pga_row bssa14_pgv_row (bssa14_resp a) (fun c => bssa14_ln_std c (bssa14_input a))
     bssa14_psa_in bssa14_pga_in bssa14_pgv_in) as [K1 K2].
  { intros c Hc. apply bssa14_resp_finite; assumption. }
  { intros c Hc. rewrite bssa14_std_form by assumption. apply fpos_fin. pose proof (bssa14_sigma_range c (n_mag a) (n_jb a) (n_v a) Hc). lra. }
  split; [exact K1|].
  assert (S : forall c, In c bssa14_coeff -> exists x, bssa14_ln_std c (bssa14_input a) = Fin x /\ 0.46 <= x <= 1.05).
  { intros c Hc. rewrite bssa14_std_form by assumption. eexists; split; [reflexivity|]. apply bssa14_sigma_range; exact Hc. }
  unfold all_std, bssa14_outs, row_outs; cbn [o_sd o_sd_pga o_sd_pgv].
  split; [apply Forall_map_intro; intros c Hc; apply S, bssa14_psa_in, Hc|].
  split; [apply S, bssa14_pga_in|apply S, bssa14_pgv_in].
Qed.
