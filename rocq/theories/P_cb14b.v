(** * Campbell & Bozorgnia (2014): decay with distance, and the step of the Japanese site term *)
From Coquelicot Require Import Coquelicot.
From Interval Require Import Tactic.
From Coq Require Import List.
From Verif Require Import M_cb14 Nga Outs FrameworkProofs Anal P_cy14 P_bssa14 P_cb14.
Open Scope R_scope.
Open Scope string_scope.
Open Scope list_scope.

Definition cb14_dc20 (c : cb14_row) (re : pyval) : R :=
  if pyin re [PStr "japan"; PStr "italy"] then Q2R (cb14_dc_20jp c) else Q2R (cb14_dc_20ca c).

Lemma cb14_hng_off c x a : x < 0 -> cb14_f_hng c (cb14_input x a) = Fin 0.
Proof.
  intros Hx. unfold cb14_f_hng, cb14_input; cb14_fields.
  destruct (fin_cb14_tor a) as [t ->].
  set (hrr := if ($(n_rup a) =? $0)%flt then _ else _).
  assert (F2 : finite hrr).
  { unfold hrr. fcbn. destruct (Reqb_spec (n_rup a) 0); [apply finite_fin|]. rewrite fdiv_fin by assumption. apply finite_fin. }
  clearbody hrr. destruct F2 as [u ->].
  fcbn. rewrite (Rltb_true x 0) by exact Hx.
  set (m1 := if Rleb _ 5.5 then _ else _). assert (F1 : finite m1) by (unfold m1; fsplit). clearbody m1. destruct F1 as [m1v ->].
  set (m2 := if Rltb 16.66 _ then _ else _). assert (F2 : finite m2) by (unfold m2; fsplit). clearbody m2. destruct F2 as [m2v ->].
  unfold qf. rewrite fdiv_fin by lra. fcbn. f_equal. ring.
Qed.
(** Off the hanging wall the log response is a source constant, the distance terms and the site term. *)
Lemma cb14_resp_form c x a : In c cb14_coeff -> x < 0 -> 0 < n_dip a <= 90 ->
  exists E, forall r p v rd s,
    cb14_site_term c p (Fin v) (odef (n_z25 a) (cb14_z25 (n_v a) (cb14_region a))) (cb14_region a) rd = Fin s ->
    cb14_ln_resp c (cb14_input x (with_rup a r)) p (Fin v) rd =
    Fin (E + ((Q2R (cb14_c_5 c) + Q2R (cb14_c_6 c) * n_mag a) * ln (sqrt (r * r + Q2R (cb14_c_7 c) * Q2R (cb14_c_7 c)))
         + (Q2R (cb14_c_20 c) + cb14_dc20 c (cb14_region a)) * Rmax (r - 80) 0) + s).
Proof.
  intros Hc Hx Hd. row_pos Hc cb14_c_7 as H7.
  assert (Fm : finite (cb14_f_mag c (Fin (n_mag a)))) by (unfold cb14_f_mag; fsplit).
  assert (Fh : finite (cb14_hyp a)) by (apply fin_cb14_hyp; assumption).
  destruct Fm as [fm Em]. destruct Fh as [hy Eh].
  assert (FF : exists f, (if is_str (cb14_mech a) "RS" then qf (cb14_c_8 c) * fclip (Fin (n_mag a) - $4.5) $0 $1
                else if is_str (cb14_mech a) "NS" then qf (cb14_c_9 c) * fclip (Fin (n_mag a) - $4.5) $0 $1 else $0)%flt = Fin f).
  { change (finite (if is_str (cb14_mech a) "RS" then qf (cb14_c_8 c) * fclip (Fin (n_mag a) - $4.5) $0 $1
                else if is_str (cb14_mech a) "NS" then qf (cb14_c_9 c) * fclip (Fin (n_mag a) - $4.5) $0 $1 else $0)%flt). fsplit. }
  destruct FF as [ff Ef].
  assert (FY : exists f, (fclip (Fin hy - $7) $0 $13 * (qf (cb14_c_17 c) + (qf (cb14_c_18 c) - qf (cb14_c_17 c)) * fclip (Fin (n_mag a) - $5.5) $0 $1))%flt = Fin f).
  { change (finite (fclip (Fin hy - $7) $0 $13 * (qf (cb14_c_17 c) + (qf (cb14_c_18 c) - qf (cb14_c_17 c)) * fclip (Fin (n_mag a) - $5.5) $0 $1))%flt). fsplit. }
  destruct FY as [fy Ey].
  assert (FD : exists f, (qf (cb14_c_19 c) * Fin (n_dip a) * fclip ($5.5 - Fin (n_mag a)) $0 $1)%flt = Fin f).
  { change (finite (qf (cb14_c_19 c) * Fin (n_dip a) * fclip ($5.5 - Fin (n_mag a)) $0 $1)%flt). fsplit. }
  destruct FD as [fd Ed].
  exists (fm + ff + fy + fd). intros r p v rd s Es.
  assert (H : cb14_f_hng c (cb14_input x (with_rup a r)) = Fin 0) by (apply cb14_hng_off; exact Hx).
  unfold cb14_ln_resp. rewrite H. 
  replace (cb_mag (cb14_input x (with_rup a r))) with (Fin (n_mag a)) by (destruct a; reflexivity).
  replace (cb_dist_rup (cb14_input x (with_rup a r))) with (Fin r) by (destruct a; reflexivity).
  replace (cb_mechanism (cb14_input x (with_rup a r))) with (cb14_mech a) by (destruct a; reflexivity).
  replace (cb_region (cb14_input x (with_rup a r))) with (cb14_region a) by (destruct a; reflexivity).
  replace (cb_depth_hyp (cb14_input x (with_rup a r))) with (cb14_hyp a) by (destruct a; reflexivity).
  replace (cb_dip (cb14_input x (with_rup a r))) with (Fin (n_dip a)) by (destruct a; reflexivity).
  replace (cb_depth_2_5 (cb14_input x (with_rup a r))) with (odef (n_z25 a) (cb14_z25 (n_v a) (cb14_region a))) by (destruct a; reflexivity).
  cbv zeta. rewrite Es, Em, Eh, Ef, Ey, Ed. unfold pyeq_list.
  replace (if pyin (cb14_region a) [PStr "japan"; PStr "italy"] then qf (cb14_dc_20jp c) else qf (cb14_dc_20ca c)) with (Fin (cb14_dc20 c (cb14_region a)))
    by (unfold cb14_dc20; destruct (pyin _ _); reflexivity).
  unfold qf. fcbn. rewrite pymax_fin. fcbn. rewrite fsqrt_fin by apply sq2_nonneg.
  rewrite flog_fin by (apply sqrt_lt_R0, sq2_pos; lra). fcbn. f_equal. lra.
Qed.


Lemma cb14_dist_decr c m re r1 r2 : In c cb14_coeff -> 3.3 <= m <= 8.5 -> 0 <= r1 -> r1 < r2 ->
  (Q2R (cb14_c_5 c) + Q2R (cb14_c_6 c) * m) * ln (sqrt (r2 * r2 + Q2R (cb14_c_7 c) * Q2R (cb14_c_7 c)))
         + (Q2R (cb14_c_20 c) + cb14_dc20 c re) * Rmax (r2 - 80) 0 <
  (Q2R (cb14_c_5 c) + Q2R (cb14_c_6 c) * m) * ln (sqrt (r1 * r1 + Q2R (cb14_c_7 c) * Q2R (cb14_c_7 c)))
         + (Q2R (cb14_c_20 c) + cb14_dc20 c re) * Rmax (r1 - 80) 0.
Proof.
  intros Hc Hm H1 H2. row_pos Hc cb14_c_7 as H7.
  row_upto Hc (fun c => cb14_c_5 c + cb14_c_6 c * (33#10))%Q (-1#10)%Q as G1.
  row_upto Hc (fun c => cb14_c_5 c + cb14_c_6 c * (85#10))%Q (-1#10)%Q as G2.
  row_upto Hc (fun c => cb14_c_20 c + cb14_dc_20jp c)%Q (0#1)%Q as K1.
  row_upto Hc (fun c => cb14_c_20 c + cb14_dc_20ca c)%Q (0#1)%Q as K2.
  assert (G : Q2R (cb14_c_5 c) + Q2R (cb14_c_6 c) * m < 0) by (apply (lin_neg _ _ 3.3 8.5); lra).
  assert (K : Q2R (cb14_c_20 c) + cb14_dc20 c re <= 0) by (unfold cb14_dc20; destruct (pyin _ _); lra).
  assert (L : ln (sqrt (r1 * r1 + Q2R (cb14_c_7 c) * Q2R (cb14_c_7 c))) < ln (sqrt (r2 * r2 + Q2R (cb14_c_7 c) * Q2R (cb14_c_7 c)))).
  { apply ln_increasing; [apply sqrt_lt_R0, sq2_pos; lra|]. apply sqrt_lt_1; [apply sq2_nonneg..|nra]. }
  assert (X : Rmax (r1 - 80) 0 <= Rmax (r2 - 80) 0) by (apply Rle_max_compat_r; lra).
  nra.
Qed.

Lemma cb14_site_rock c p1 p2 v d re rd1 rd2 : In c cb14_coeff -> 0 < p1 -> 0 < p2 -> 1086 < v ->
  cb14_site_term c (Fin p1) (Fin v) d re rd1 = cb14_site_term c (Fin p2) (Fin v) d re rd2.
Proof.
  intros Hc H1 H2 Hv. row_upto Hc cb14_k_1 (1086#1)%Q as K. unfold cb14_site_term. cbn [fisnan].
  unfold qf. fcbn. rewrite !(Rleb_false v (Q2R (cb14_k_1 c))) by lra. reflexivity.
Qed.

Lemma with_rup_same a r : n_mag (with_rup a r) = n_mag a /\ n_v (with_rup a r) = n_v a /\ n_dip (with_rup a r) = n_dip a /\
  cb14_region (with_rup a r) = cb14_region a /\ n_z25 (with_rup a r) = n_z25 a /\ n_width (with_rup a r) = n_width a /\ n_mech (with_rup a r) = n_mech a.
Proof. destruct a; repeat split. Qed.
Lemma with_rup_x a r : n_x (with_rup a r) = n_x a. Proof. destruct a; reflexivity. Qed.

Lemma geom_off x a r : x < 0 -> 0 < n_dip a <= 90 -> geom_ok x (with_rup a r).
Proof. intros Hx Hd. split; [destruct a; exact Hd|intros ->; lra]. Qed.

Theorem cb14_decay_rock src1 src2 a x t r1 r2 : nga_gives src1 (with_rup a r1) -> nga_gives src2 (with_rup a r2) ->
  n_x a = Some x -> x < 0 -> n_mech a = Some t -> 0 < n_dip a <= 90 -> 3.3 <= n_mag a <= 8.5 -> 1086 < n_v a ->
  0 <= r1 -> r1 < r2 ->
  exists o1 o2, gmm_out (cb14 src1) o1 /\ gmm_out (cb14 src2) o2 /\ resp2 flt_lt o2 o1.
Proof.
  intros G1 G2 Ex Hx Et Hd Hm Hv H1 H2. exists (cb14_outs x (with_rup a r1)), (cb14_outs x (with_rup a r2)).
  assert (P : forall src r, nga_gives src (with_rup a r) -> gmm_out (cb14 src) (cb14_outs x (with_rup a r))).
  { intros src r G. apply (cb14_out _ _ _ t); [exact G|rewrite with_rup_x; exact Ex|destruct a; exact Et|destruct a; cbn in *; lra]. }
  split; [apply P; exact G1|]. split; [apply P; exact G2|].
  apply (row_resp_lt cb14_coeff); [exact cb14_psa_in|exact cb14_pga_in|exact cb14_pgv_in|].
  intros c Hc. unfold cb14_resp, cb14_ref2.
  destruct (cb14_pga_ref_pos x (with_rup a r1) (geom_off x a r1 Hx Hd)) as (p1 & -> & P1); [destruct a; cbn in *; lra|].
  destruct (cb14_pga_ref_pos x (with_rup a r2) (geom_off x a r2 Hx Hd)) as (p2 & -> & P2); [destruct a; cbn in *; lra|].
  cbn [fisnan].
  destruct (with_rup_same a r1) as (_ & -> & _). destruct (with_rup_same a r2) as (_ & -> & _).
  destruct (cb14_resp_form c x a Hc Hx Hd) as [E HE].
  assert (S : finite (cb14_site_term c (Fin p1) (Fin (n_v a)) (odef (n_z25 a) (cb14_z25 (n_v a) (cb14_region a))) (cb14_region a) NaN)).
  { apply cb14_site_finite; try assumption; [lra|discriminate|right; apply fpos_fin; lra|apply finite_odef, fin_z25; lra|right; reflexivity]. }
  destruct S as [s Es]. rewrite (HE r1 _ _ _ s Es).
  rewrite (HE r2 (Fin p2) _ _ s) by (rewrite (cb14_site_rock c p2 p1 (n_v a) _ _ _ NaN); try assumption; lra).
  do 2 eexists. split; [reflexivity|]. split; [reflexivity|].
  pose proof (cb14_dist_decr c (n_mag a) (cb14_region a) r1 r2 Hc Hm H1 H2). lra.
Qed.

(** PGA grows with the reference PGA whatever the site. *)
Lemma cb14_pga_site_incr x y1 y2 : 0.01 <= x <= 1 -> y1 < y2 ->
  y1 + -1.186 * (ln (exp y1 + 1.88 * x) - ln (exp y1 + 1.88)) < y2 + -1.186 * (ln (exp y2 + 1.88 * x) - ln (exp y2 + 1.88)).
Proof.
  intros Hx Hy.
  apply (incr_by_derive (fun y => y + -1.186 * (ln (exp y + 1.88 * x) - ln (exp y + 1.88)))
           (fun y => 1 + -1.186 * (exp y * / (exp y + 1.88 * x) - exp y * / (exp y + 1.88)))); [exact Hy| |].
  - intros y _. pose proof (exp_pos y). auto_derive; [repeat split; lra|]. ring.
  - intros y _. pose proof (exp_pos y) as P. set (p := exp y) in *. clearbody p.
    assert (GF : forall k q z, p + q * z <> 0 -> p + q <> 0 -> 1 + - k * (p * / (p + q * z) - p * / (p + q)) =
      ((p + q * z) * (p + q) - k * p * (q * (1 - z))) / ((p + q * z) * (p + q))) by (intros; field; split; assumption).
    replace (-1.186) with (- (1.186)) by lra. rewrite GF by (apply Rgt_not_eq; lra).
    apply Rdiv_lt_0_compat; [|apply Rmult_lt_0_compat; lra].
    replace ((p + 1.88 * x) * (p + 1.88) - 1.186 * p * (1.88 * (1 - x))) with (p * p + 1.88 * (2.186 * x - 0.186) * p + 1.88 * 1.88 * x) by lra.
    assert (0 < (p - 0.15510) * (p - 0.15510) + (1.88 * 1.88 * 0.01 - 0.1551 * 0.1551)) by (pose proof (Rle_0_sqr (p - 0.1551)) as Q; unfold Rsqr in Q; lra).
    assert (0 <= p * (x - 0.01)) by (apply Rmult_le_pos; lra). lra.
Qed.

Lemma cb14_pga_k : Q2R (cb14_k_1 cb14_pga_row) = 865 /\ Q2R (cb14_k_2 cb14_pga_row) = -1.186.
Proof. split; cbn; unfold Q2R; cbn; lra. Qed.
Lemma ratio_pow v : 150 <= v -> v <= 865 -> 0.01 <= Rpower (v / 865) 1.18 <= 1.
Proof.
  intros H1 H2. split.
  - apply Rle_trans with (Rpower (150 / 865) 1.18); [interval with (i_prec 40)|].
    unfold Rpower. apply exp_le_mono. apply Rmult_le_compat_l; [lra|]. apply ln_le_mono; [lra|]. apply Rmult_le_compat_r; lra.
  - unfold Rpower. rewrite <- exp_0. apply exp_le_mono. assert (ln (v / 865) <= 0); [|lra]. apply ln_nonpos. split; [apply Rdiv_lt_0_compat; lra|].
    apply (Rmult_le_reg_r 865); [lra|]. replace (v / 865 * 865) with v by (field; lra). lra.
Qed.
Lemma cb14_pga_site v d re : 150 <= v -> finite d -> exists A B x, 0.01 <= x <= 1 /\ (B = 0 \/ B = 1) /\ forall y rd,
  cb14_site_term cb14_pga_row (fexp (Fin y)) (Fin v) d re rd = Fin (A + B * (-1.186 * (ln (exp y + 1.88 * x) - ln (exp y + 1.88)))).
Proof.
  intros Hv [z ->]. destruct cb14_pga_k as [K1 K2].
  unfold cb14_site_term. cbv zeta. cbn [fexp fisnan].
  set (fs := (if Fin z <=? $1 then _ else _ : flt)%flt). assert (F : finite fs) by (unfold fs; fsplit). clearbody fs. destruct F as [f ->].
  unfold qf. rewrite K1, K2. fcbn.
  assert (V : 0 < v / 865) by (apply Rdiv_lt_0_compat; lra).
  destruct (Rleb_spec v 865) as [L|L].
  - set (x := Rpower (v / 865) 1.18). assert (Hx : 0.01 <= x <= 1) by (apply ratio_pow; assumption).
    destruct (is_str re "japan") eqn:J; [destruct (Rleb v 200)|]; eexists; exists 1, x; (split; [exact Hx|]); (split; [right; reflexivity|]);
    intros y rd; fcbn; pose proof (exp_pos y); rewrite ?fdiv_fin by lra;
    (rewrite fpow_fin by exact V); fold x; fcbn; rewrite (flog_fin (v / 865)) by exact V; rewrite ?(flog_fin (200 / 865)) by lra;
    rewrite (flog_fin (exp y + _ * x)) by lra; rewrite (flog_fin (exp y + 1.88)) by lra; fcbn; f_equal.
    + match goal with |- ?u + -1.186 * ?w + ?s + ?f = _ => instantiate (1 := u + s + f); lra end.
    + match goal with |- ?u + -1.186 * ?w + ?s + ?f = _ => instantiate (1 := u + s + f); lra end.
    + match goal with |- ?u + -1.186 * ?w + ?f = _ => instantiate (1 := u + f); lra end.
  - destruct (is_str re "japan") eqn:J; [destruct (Rleb v 200)|]; eexists; exists 0, 1; (split; [lra|]); (split; [left; reflexivity|]);
    intros y rd; fcbn; rewrite ?fdiv_fin by lra; rewrite (flog_fin (v / 865)) by exact V; rewrite ?(flog_fin (200 / 865)) by lra; fcbn; f_equal;
    rewrite Rmult_0_l, Rplus_0_r; reflexivity.
Qed.

Theorem cb14_decay_pga src1 src2 a x t r1 r2 : nga_gives src1 (with_rup a r1) -> nga_gives src2 (with_rup a r2) ->
  n_x a = Some x -> x < 0 -> n_mech a = Some t -> 0 < n_dip a <= 90 -> 3.3 <= n_mag a <= 8.5 -> 150 <= n_v a ->
  0 <= r1 -> r1 < r2 ->
  exists o1 o2, gmm_out (cb14 src1) o1 /\ gmm_out (cb14 src2) o2 /\ flt_lt (o_pga o2) (o_pga o1).
Proof.
  intros G1 G2 Ex Hx Et Hd Hm Hv H1 H2. exists (cb14_outs x (with_rup a r1)), (cb14_outs x (with_rup a r2)).
  assert (P : forall src r, nga_gives src (with_rup a r) -> gmm_out (cb14 src) (cb14_outs x (with_rup a r))).
  { intros src r G. apply (cb14_out _ _ _ t); [exact G|rewrite with_rup_x; exact Ex|destruct a; exact Et|destruct a; cbn in *; lra]. }
  split; [apply P; exact G1|]. split; [apply P; exact G2|].
  cbn [o_pga cb14_outs row_outs]. apply flt_lt_exp.
  pose proof cb14_pga_in as Hc.
  destruct (cb14_resp_form cb14_pga_row x a Hc Hx Hd) as [E HE].
  assert (D : finite (odef (n_z25 a) (cb14_z25 (n_v a) (cb14_region a)))) by (apply finite_odef, fin_z25; lra).
  assert (S : finite (cb14_site_term cb14_pga_row NaN (Fin 1100) (odef (n_z25 a) (cb14_z25 (n_v a) (cb14_region a))) (cb14_region a) (cb14_z25 1100 (cb14_region a)))).
  { apply cb14_site_finite; try assumption; [lra|lra|left; reflexivity|left; apply fin_z25; lra]. }
  destruct S as [s Es].
  set (L := fun r => E + ((Q2R (cb14_c_5 cb14_pga_row) + Q2R (cb14_c_6 cb14_pga_row) * n_mag a) * ln (sqrt (r * r + Q2R (cb14_c_7 cb14_pga_row) * Q2R (cb14_c_7 cb14_pga_row)))
         + (Q2R (cb14_c_20 cb14_pga_row) + cb14_dc20 cb14_pga_row (cb14_region a)) * Rmax (r - 80) 0)).
  assert (LL : L r2 < L r1) by (unfold L; pose proof (cb14_dist_decr cb14_pga_row (n_mag a) (cb14_region a) r1 r2 Hc Hm H1 H2); lra).
  assert (Rf : forall r, cb14_pga_ref_of x (with_rup a r) = fexp (Fin (L r + s))).
  { intros r. unfold cb14_pga_ref_of, cb14_pga_ref. destruct (with_rup_same a r) as (_ & _ & _ & -> & _). rewrite (HE r _ _ _ s Es). reflexivity. }
  destruct (cb14_pga_site (n_v a) _ (cb14_region a) Hv D) as (A & B & z & Hz & HB & HS).
  unfold cb14_resp, cb14_ref2. rewrite !Rf. 
  destruct (with_rup_same a r1) as (_ & -> & _). destruct (with_rup_same a r2) as (_ & -> & _).
  rewrite (HE r1 _ _ _ _ (HS (L r1 + s) _)). rewrite (HE r2 _ _ _ _ (HS (L r2 + s) _)).
  do 2 eexists. split; [reflexivity|]. split; [reflexivity|]. fold (L r1) (L r2).
  pose proof (cb14_pga_site_incr z (L r2 + s) (L r1 + s) Hz ltac:(lra)). destruct HB as [-> | ->]; lra.
Qed.

(** ** The Japanese site term steps at 200 m/s *)
Lemma cb14_resp_site c x a : In c cb14_coeff -> geom_ok x a -> exists K, forall p v rd s,
  cb14_site_term c p (Fin v) (odef (n_z25 a) (cb14_z25 (n_v a) (cb14_region a))) (cb14_region a) rd = Fin s ->
  cb14_ln_resp c (cb14_input x a) p (Fin v) rd = Fin (K + s).
Proof.
  intros Hc HG. pose proof (cb14_hng_finite c x a Hc HG) as F. destruct F as [h Eh].
  pose proof (fin_cb14_hyp a (proj1 HG)) as Y. row_pos Hc cb14_c_7 as H7.
  unfold cb14_ln_resp. rewrite Eh. unfold cb14_input; cb14_fields.
  assert (M : finite (cb14_f_mag c (Fin (n_mag a)))) by (unfold cb14_f_mag; fsplit). destruct M as [m Em]. rewrite Em.
  set (f1 := ((_ + _ * Fin (n_mag a)) * flog _)%flt). assert (F1 : finite f1) by (unfold f1; fsplit; apply fpos_add_nn; fsplit; apply fpos_sq; fsplit).
  clearbody f1. destruct F1 as [a1 ->].
  set (f2 := if is_str _ "RS" then _ else _). assert (F2 : finite f2) by (unfold f2; fsplit). clearbody f2. destruct F2 as [a2 ->].
  set (f3 := (fclip (cb14_hyp a - _) _ _ * _)%flt). assert (F3 : finite f3) by (unfold f3; fsplit; auto). clearbody f3. destruct F3 as [a3 ->].
  set (f4 := (qf (cb14_c_19 c) * _ * _)%flt). assert (F4 : finite f4) by (unfold f4; fsplit). clearbody f4. destruct F4 as [a4 ->].
  set (f5 := ((qf (cb14_c_20 c) + _) * _)%flt). assert (F5 : finite f5) by (unfold f5; fsplit; auto). clearbody f5. destruct F5 as [a5 ->].
  exists (m + a1 + a2 + h + a3 + a4 + a5). intros p v rd s ->. fcbn. f_equal. lra.
Qed.

Definition cb14_015 : cb14_row := ltac:(let x := eval cbv in (nth_error cb14_coeff 6) in match x with Some ?c => exact c end).
Definition cb14_3s : cb14_row := ltac:(let x := eval cbv in (nth_error cb14_coeff 16) in match x with Some ?c => exact c end).
Lemma cb14_015_in : In cb14_015 cb14_coeff. Proof. apply (nth_error_In _ 6); reflexivity. Qed.
Lemma cb14_3s_in : In cb14_3s cb14_coeff. Proof. apply (nth_error_In _ 16); reflexivity. Qed.

(** The part of the site term that involves v_s30, Japan. *)
Lemma cb14_japan_site c p v z : In c cb14_coeff -> 0 < p -> 200 <= v <= 200.1 -> 300 <= Q2R (cb14_k_1 c) -> exists F, forall w, w = v \/ w = 200 ->
  cb14_site_term c (Fin p) (Fin w) (Fin z) (PStr "japan") NaN =
  Fin (Q2R (cb14_c_11 c) * ln (w / Q2R (cb14_k_1 c)) +
       Q2R (cb14_k_2 c) * (ln (p + 1.88 * Rpower (w / Q2R (cb14_k_1 c)) 1.18) - ln (p + 1.88)) +
       (if Rleb w 200 then (Q2R (cb14_c_12 c) + Q2R (cb14_k_2 c) * 1.18) * (ln (w / Q2R (cb14_k_1 c)) - ln (200 / Q2R (cb14_k_1 c)))
        else (Q2R (cb14_c_13 c) + Q2R (cb14_k_2 c) * 1.18) * ln (w / Q2R (cb14_k_1 c))) + F).
Proof.
  intros Hc Hp Hv HK. unfold cb14_site_term. cbv zeta. cbn [fisnan].
  set (fs := (if Fin z <=? $1 then _ else _ : flt)%flt). assert (FF : finite fs) by (unfold fs; fsplit). clearbody fs. destruct FF as [f ->].
  exists f. intros w Hw. assert (200 <= w <= 200.1) by (destruct Hw; subst; lra).
  change (is_str (PStr "japan") "japan") with true. cbn iota.
  unfold qf. fcbn. rewrite (Rleb_true w (Q2R (cb14_k_1 c))) by lra. rewrite !fdiv_fin by lra.
  assert (V : 0 < w / Q2R (cb14_k_1 c)) by (apply Rdiv_lt_0_compat; lra).
  rewrite (fpow_fin _ _ V). fcbn. rewrite (flog_fin _ V). rewrite (flog_fin (200 / _)) by (apply Rdiv_lt_0_compat; lra).
  pose proof (Rpower_pos (w / Q2R (cb14_k_1 c)) 1.18).
  rewrite (flog_fin (p + _ * _)) by lra. rewrite (flog_fin (p + 1.88)) by lra. fcbn.
  destruct (Rleb w 200); fcbn; reflexivity.
Qed.

(** The logarithm of the non-linear term moves less than the site velocity. *)
Lemma nl_lip p q x1 x2 : 0 < p -> 0 < q -> 0 < x1 -> x1 <= x2 -> 0 <= ln (p + q * x2) - ln (p + q * x1) <= ln x2 - ln x1.
Proof.
  intros Hp Hq H1 H2. assert (0 < q * x1) by nra. assert (q * x1 <= q * x2) by nra. split.
  - assert (ln (p + q * x1) <= ln (p + q * x2)); [apply ln_le_mono; lra|lra].
  - assert (ln (p + q * x2) + ln x1 <= ln x2 + ln (p + q * x1)); [|lra].
    rewrite <- !ln_mult by lra. apply ln_le_mono; [apply Rmult_lt_0_compat; lra|]. nra.
Qed.
Lemma cb14_japan_change p v k : 0 < p -> 200 <= v <= 200.1 -> 0 < k ->
  (0 <= ln (v / k) - ln (200 / k) <= 0.0005) /\
  (0 <= ln (p + 1.88 * Rpower (v / k) 1.18) - ln (p + 1.88 * Rpower (200 / k) 1.18) <= 0.0006).
Proof.
  intros Hp Hv Hk. assert (A : 0 <= ln (v / k) - ln (200 / k) <= 0.0005).
  { rewrite !ln_div by lra. replace (ln v - ln k - (ln 200 - ln k)) with (ln v - ln 200) by ring.
    split; [assert (ln 200 <= ln v); [apply ln_le_mono; lra|lra]|].
    assert (ln v <= ln 200.1) by (apply ln_le_mono; lra). assert (ln 200.1 - ln 200 <= 0.0005) by interval with (i_prec 40). lra. }
  split; [exact A|].
  assert (L : forall w, 0 < w -> ln (Rpower w 1.18) = 1.18 * ln w) by (intros; unfold Rpower; apply ln_exp).
  assert (0 < v / k /\ 0 < 200 / k) as [V1 V2] by (split; apply Rdiv_lt_0_compat; lra).
  destruct (nl_lip p 1.88 (Rpower (200 / k) 1.18) (Rpower (v / k) 1.18)) as [B1 B2]; [lra|lra|apply Rpower_pos| |].
  - unfold Rpower. apply exp_le_mono. lra.
  - rewrite !L in B2 by assumption. lra.
Qed.

Theorem cb14_japan_step src1 src2 a x t d v :
  nga_gives src1 (with_v a 200) -> nga_gives src2 (with_v a v) -> 200 < v <= 200.1 ->
  n_region a = Some "japan" -> n_z25 a = Some d -> n_x a = Some x -> n_mech a = Some t -> geom_ok x a ->
  exists o1 o2 y1 y2 z1 z2, gmm_out (cb14 src1) o1 /\ gmm_out (cb14 src2) o2 /\
    nth_error (o_sa o1) 6 = Some (Fin y1) /\ nth_error (o_sa o2) 6 = Some (Fin y2) /\ 0 < y1 /\ 1.18 * y1 < y2 /\
    nth_error (o_sa o1) 16 = Some (Fin z1) /\ nth_error (o_sa o2) 16 = Some (Fin z2) /\ 0 < z2 /\ 1.28 * z2 < z1.
Proof.
  intros G1 G2 Hv Er Ez Ex Et HG.
  exists (cb14_outs x (with_v a 200)), (cb14_outs x (with_v a v)).
  assert (HGv : forall w, geom_ok x (with_v a w)) by (intros w; destruct a; exact HG).
  assert (Re : forall w, cb14_region (with_v a w) = PStr "japan") by (intros w; unfold cb14_region; destruct a; cbn in *; rewrite Er; reflexivity).
  assert (Q : exists p, 0 < p /\ forall w, cb14_pga_ref_of x (with_v a w) = Fin p).
  { destruct (cb14_pga_ref_pos x (with_v a 200) (HGv 200)) as (p & E & P); [destruct a; cbn; lra|].
    exists p. split; [exact P|]. intros w. rewrite <- E. unfold cb14_pga_ref_of, cb14_pga_ref. rewrite !Re.
    destruct a as [m ru jb xx y0 cr di vv to bo bt hy wi z1 z25 dp me re so hw af]; cbn in Ez, Er; subst z25 re. reflexivity. }
  destruct Q as (p & Hp & Ep).
  assert (J : forall c, In c cb14_coeff -> 300 <= Q2R (cb14_k_1 c) -> exists y1 y2 e1 e2, 0 <= e1 <= 0.0005 /\ 0 <= e2 <= 0.0006 /\
     cb14_resp x (with_v a 200) c = Fin y1 /\ cb14_resp x (with_v a v) c = Fin y2 /\
     y2 = y1 + Q2R (cb14_c_11 c) * e1 + Q2R (cb14_k_2 c) * e2 + (Q2R (cb14_c_13 c) + Q2R (cb14_k_2 c) * 1.18) * (ln (200 / Q2R (cb14_k_1 c)) + e1)).
  { intros c Hc HK. destruct (cb14_resp_site c x (with_v a 200) Hc (HGv 200)) as [K HKK].
    destruct (cb14_japan_site c p v d Hc Hp ltac:(lra) HK) as [F HF].
    destruct (cb14_japan_change p v (Q2R (cb14_k_1 c)) Hp ltac:(lra) ltac:(lra)) as [A1 A2].
    rewrite Re in HKK. replace (odef (n_z25 (with_v a 200)) (cb14_z25 (n_v (with_v a 200)) (PStr "japan"))) with (Fin d) in HKK
      by (destruct a; cbn in *; rewrite Ez; reflexivity).
    pose proof (HF 200 (or_intror eq_refl)) as S1. pose proof (HF v (or_introl eq_refl)) as S2.
    rewrite (Rleb_true 200 200) in S1 by lra. rewrite (Rleb_false v 200) in S2 by lra.
    pose proof (HKK _ _ _ _ S1) as R1. pose proof (HKK _ _ _ _ S2) as R2.
    do 2 eexists. exists (ln (v / Q2R (cb14_k_1 c)) - ln (200 / Q2R (cb14_k_1 c))).
    exists (ln (p + 1.88 * Rpower (v / Q2R (cb14_k_1 c)) 1.18) - ln (p + 1.88 * Rpower (200 / Q2R (cb14_k_1 c)) 1.18)).
    split; [exact A1|]. split; [exact A2|].
    split. { unfold cb14_resp, cb14_ref2. rewrite Ep. cbn [fisnan]. replace (n_v (with_v a 200)) with 200 by (destruct a; reflexivity). exact R1. }
    split. { unfold cb14_resp, cb14_ref2. rewrite Ep. cbn [fisnan]. replace (n_v (with_v a v)) with v by (destruct a; reflexivity). rewrite <- R2.
      destruct a as [m ru jb xx y0 cr di vv to bo bt hy wi z1 z25 dp me re so hw af]; cbn in Ez, Er; subst z25 re. reflexivity. }
    lra. }
  destruct (J _ cb14_015_in) as (y1 & y2 & e1 & e2 & B1 & B2 & Y1 & Y2 & Y).
  { cbn; unfold Q2R; cbn; lra. }
  destruct (J _ cb14_3s_in) as (z1 & z2 & f1 & f2 & C1 & C2 & Z1 & Z2 & Z).
  { cbn; unfold Q2R; cbn; lra. }
  exists (exp y1), (exp y2), (exp z1), (exp z2).
  assert (P : forall src w, 0 < w -> nga_gives src (with_v a w) -> gmm_out (cb14 src) (cb14_outs x (with_v a w))).
  { intros src w Hw G. apply (cb14_out _ _ _ t); [exact G|destruct a; exact Ex|destruct a; exact Et|destruct a; cbn in *; lra]. }
  split; [apply P; [lra|exact G1]|]. split; [apply P; [lra|exact G2]|].
  split; [unfold cb14_outs, row_outs; cbn [o_sa]; rewrite nth_error_map; change (nth_error cb14_psa 6) with (Some cb14_015); cbn [option_map]; rewrite Y1; reflexivity|].
  split; [unfold cb14_outs, row_outs; cbn [o_sa]; rewrite nth_error_map; change (nth_error cb14_psa 6) with (Some cb14_015); cbn [option_map]; rewrite Y2; reflexivity|].
  split; [apply exp_pos|]. split.
  { assert (D : 0.1725 <= y2 - y1).
    { rewrite Y. assert (Q1 : Q2R (cb14_c_11 cb14_015) = 1.877) by (cbn; unfold Q2R; cbn; lra).
      assert (Q2 : Q2R (cb14_k_2 cb14_015) = -1.931) by (cbn; unfold Q2R; cbn; lra).
      assert (Q3 : Q2R (cb14_c_13 cb14_015) = 2.161) by (cbn; unfold Q2R; cbn; lra).
      assert (Q4 : Q2R (cb14_k_1 cb14_015) = 878) by (cbn; unfold Q2R; cbn; lra).
      rewrite Q1, Q2, Q3, Q4. assert (0.1738 <= (2.161 + -1.931 * 1.18) * ln (200 / 878)) by interval with (i_prec 40). lra. }
    replace y2 with (y1 + (y2 - y1)) by ring. rewrite exp_plus. pose proof (exp_pos y1).
    assert (1.18 < exp 0.1725) by (clear; interval with (i_prec 40)). assert (exp 0.1725 <= exp (y2 - y1)) by (apply exp_le_mono; lra). nra. }
  split; [unfold cb14_outs, row_outs; cbn [o_sa]; rewrite nth_error_map; change (nth_error cb14_psa 16) with (Some cb14_3s); cbn [option_map]; rewrite Z1; reflexivity|].
  split; [unfold cb14_outs, row_outs; cbn [o_sa]; rewrite nth_error_map; change (nth_error cb14_psa 16) with (Some cb14_3s); cbn [option_map]; rewrite Z2; reflexivity|].
  split; [apply exp_pos|].
  assert (D : 0.253 <= z1 - z2).
  { rewrite Z. assert (Q1 : Q2R (cb14_c_11 cb14_3s) = -0.848) by (cbn; unfold Q2R; cbn; lra).
    assert (Q2 : Q2R (cb14_k_2 cb14_3s) = 0) by (cbn; unfold Q2R; cbn; lra).
    assert (Q3 : Q2R (cb14_c_13 cb14_3s) = 0.367) by (cbn; unfold Q2R; cbn; lra).
    assert (Q4 : Q2R (cb14_k_1 cb14_3s) = 400) by (cbn; unfold Q2R; cbn; lra).
    rewrite Q1, Q2, Q3, Q4. assert (ln (200 / 400) <= -0.693) by interval with (i_prec 40). lra. }
  replace z1 with (z2 + (z1 - z2)) by ring. rewrite exp_plus. pose proof (exp_pos z2).
  assert (1.28 < exp 0.253) by (clear; interval with (i_prec 40)). assert (exp 0.253 <= exp (z1 - z2)) by (apply exp_le_mono; lra). nra.
Qed.
