(** * Proofs for the duration model AS16 *)
From Coquelicot Require Import Coquelicot.
From Interval Require Import Tactic.
From Coq Require Import List.
From Verif Require Import M_as16 FrameworkProofs Anal Nga Spec_dur P_dur.
Open Scope R_scope.
Open Scope string_scope.
Open Scope list_scope.

Lemma dur16_src_gives a : dur16_gives (dur16_src a) a.
Proof. destruct a as [m r v mech [z|]]; repeat split. Qed.
Definition as16_mech (t : string) : pyval := choice ["SS"; "NS"; "RS"] PNone (Some t).
Lemma pick_fin t u ns rs ss : as16_pick (as16_mech t) (Fin u, Fin ns, Fin rs, Fin ss) = Fin (by_mech u ns rs ss t).
Proof.
  unfold as16_mech, choice, existsb, by_mech.
  destruct (String.eqb_spec t "SS") as [->|N1]; [reflexivity|]. destruct (String.eqb_spec t "NS") as [->|N2]; [reflexivity|].
  destruct (String.eqb_spec t "RS") as [->|N3]; reflexivity.
Qed.
(** The model's coefficients are the published ones. *)
Definition matches (c : as16_coef) (k : coef16) : Prop :=
  c_mag_1 c = Fin (k_m1 k) /\ c_mag_2 c = Fin (k_m2 k) /\
  (forall t, as16_pick (as16_mech t) (c_b_0 c) = Fin (k_b0 k t)) /\ (forall t, as16_pick (as16_mech t) (c_b_1 c) = Fin (k_b1 k t)) /\
  c_b_2 c = Fin (k_b2 k) /\ c_b_3 c = Fin (k_b3 k) /\ c_c_1 c = Fin (k_c1 k) /\ c_c_2 c = Fin (k_c2 k) /\ c_c_3 c = Fin (k_c3 k) /\
  c_c_4 c = Fin (k_c4 k) /\ c_c_5 c = Fin (k_c5 k) /\ c_v_ref c = Fin (k_vr k) /\
  c_tau_1 c = Fin (k_t1 k) /\ c_tau_2 c = Fin (k_t2 k) /\ c_phi_1 c = Fin (k_p1 k) /\ c_phi_2 c = Fin (k_p2 k).
Lemma matches1 : matches as16_D5t75 k5t75. Proof. repeat split; intros; apply pick_fin. Qed.
Lemma matches2 : matches as16_D5t95 k5t95. Proof. repeat split; intros; apply pick_fin. Qed.
Lemma matches3 : matches as16_D20t80 k20t80. Proof. repeat split; intros; apply pick_fin. Qed.
Definition ks16 : list coef16 := [k5t75; k5t95; k20t80].
Ltac each_k H := destruct H as [<-|[<-|[<-|[]]]].

Lemma source16_pos k t m : In k ks16 -> 0 < source16 k t m.
Proof.
  intros Hk. unfold source16. destruct (Rle_dec _ _); [|apply source_pos].
  each_k Hk; cbn [k_b0 k5t75 k5t95 k20t80]; unfold by_mech; repeat destruct (String.eqb _ _); lra.
Qed.
Lemma path16_nonneg k r : In k ks16 -> 0 <= r -> 0 <= path16 k r.
Proof.
  intros Hk Hr. unfold path16.
  pose proof (Rmax_r (Rmin r 50 - 10) 0). pose proof (Rmax_r (r - 50) 0). assert (0 <= Rmin r 10) by (apply Rmin_glb; lra).
  each_k Hk; cbn [k_c1 k_c2 k_c3 k5t75 k5t95 k20t80]; nra.
Qed.
Lemma corner_fin s m : as16_corner (Fin m) (fexp (Fin s)) = Fin (corner_freq s m).
Proof.
  unfold as16_corner. fcbn. rewrite fpowf_fin by lra. rewrite fdiv_fin by (apply Rgt_not_eq, Rpower_pos).
  rewrite fpow_fin by (apply Rdiv_lt_0_compat; [apply exp_pos|apply Rpower_pos]). reflexivity.
Qed.
Lemma corner_pos s m : 0 < corner_freq s m.
Proof. unfold corner_freq. apply Rmult_lt_0_compat; [lra|apply Rpower_pos]. Qed.
Lemma source16_fin c k t m : matches c k -> as16_source c (as16_mech t) (Fin m) = Fin (source16 k t m).
Proof.
  intros (A1 & A2 & A3 & A4 & A5 & A6 & _). unfold as16_source. rewrite A1, A2, A3, A4, A5, A6.
  cbn [fmin fmax fsub fadd fmul fleb fltb].
  rewrite corner_fin. rewrite fdiv_fin by (apply Rgt_not_eq, corner_pos). unfold source16.
  destruct (Rle_dec m (k_m1 k)) as [H|H]; [rewrite Rleb_true by lra; rewrite Rltb_false by lra|rewrite Rleb_false by lra; rewrite Rltb_true by lra];
    cbn [bnum fmul fadd]; apply (f_equal Fin); [ring|]. unfold source_dur. ring.
Qed.
Lemma path16_fin c k r : matches c k -> as16_path c (Fin r) = Fin (path16 k r).
Proof. intros (A1 & A2 & A3 & A4 & A5 & A6 & A7 & A8 & A9 & _). unfold as16_path. rewrite A7, A8, A9. reflexivity. Qed.
Lemma mech_not_japan t : is_str (as16_mech t) "japan" = false.
Proof.
  unfold as16_mech, choice, existsb. destruct (String.eqb_spec t "SS") as [->|N1]; [reflexivity|]. destruct (String.eqb_spec t "NS") as [->|N2]; [reflexivity|].
  destruct (String.eqb_spec t "RS") as [->|N3]; reflexivity.
Qed.
Lemma zref_fin t v : as16_depth_1_0 (Fin v) (as16_mech t) = Fin (z_ref v).
Proof.
  unfold as16_depth_1_0. rewrite mech_not_japan. fcbn. cbn [fsq fmul].
  assert (P : 0 < (v ^ 4 + 570.94 ^ 4) / (1360 ^ 4 + 570.94 ^ 4)).
  { apply Rdiv_lt_0_compat; [|lra]. assert (0 <= v ^ 4) by (replace (v ^ 4) with ((v * v) * (v * v)) by ring; apply Rle_0_sqr). lra. }
  rewrite (fdiv_fin _ (1360 * 1360 * (1360 * 1360) + _)) by lra. rewrite (fdiv_fin (-7.15) 4) by lra.
  replace ((v * v * (v * v) + 570.94 * 570.94 * (570.94 * 570.94)) / (1360 * 1360 * (1360 * 1360) + 570.94 * 570.94 * (570.94 * 570.94))) with ((v ^ 4 + 570.94 ^ 4) / (1360 ^ 4 + 570.94 ^ 4)) by (f_equal; ring).
  rewrite flog_fin by exact P. cbn [fmul fexp]. rewrite fdiv_fin by lra. reflexivity.
Qed.
Lemma k_vr_pos k : In k ks16 -> 0 < k_vr k. Proof. intros Hk. each_k Hk; cbn; lra. Qed.
Lemma site16_fin c k v t z : matches c k -> In k ks16 -> 0 < v ->
  as16_site c (Fin v) (as16_mech t) (onum z) = ret (Fin (k_c4 k * ln (Rmin v 600 / k_vr k) + basin16 k v z)).
Proof.
  intros (A1 & A2 & A3 & A4 & A5 & A6 & A7 & A8 & A9 & A10 & A11 & A12 & _) Hk Hv. pose proof (k_vr_pos k Hk) as Hr. unfold as16_site. rewrite A10, A11, A12.
  assert (M : 0 < Rmin v 600) by (apply Rmin_glb_lt; lra).
  cbn [fmin]. rewrite (fdiv_fin _ (k_vr k)) by lra. rewrite flog_fin by (apply Rdiv_lt_0_compat; assumption).
  destruct z as [z|]; cbn [onum is_none as_num].
  - rewrite bind_ret_l. rewrite zref_fin. cbn [fsub]. rewrite fleb_fin.
    replace (if Rleb (z - z_ref v) 200 then Fin (z - z_ref v) else Fin 200) with (Fin (Rmin (z - z_ref v) 200)).
    + rewrite bind_ret_l. reflexivity.
    + destruct (Rleb_spec (z - z_ref v) 200); [rewrite Rmin_left by lra|rewrite Rmin_right by lra]; reflexivity.
  - rewrite bind_ret_l. cbn [fmul fadd]. reflexivity.
Qed.
Definition lnmed16 (k : coef16) (a : dur16) : R :=
  ln (source16 k (d16_mech a) (d16_m a) + path16 k (d16_r a)) + (k_c4 k * ln (Rmin (d16_v a) 600 / k_vr k) + basin16 k (d16_v a) (d16_z a)).
Lemma lndur_fin c k a : matches c k -> In k ks16 -> 0 <= d16_r a -> 0 < d16_v a ->
  as16_ln_dur c (Fin (d16_m a)) (Fin (d16_r a)) (Fin (d16_v a)) (as16_mech (d16_mech a)) (onum (d16_z a)) = ret (Fin (lnmed16 k a)).
Proof.
  intros M Hk Hr Hv. unfold as16_ln_dur. rewrite (site16_fin c k) by assumption. rewrite bind_ret_l.
  rewrite (source16_fin c k), (path16_fin c k) by assumption. cbn [fadd].
  rewrite flog_fin by (pose proof (source16_pos k (d16_mech a) (d16_m a) Hk); pose proof (path16_nonneg k (d16_r a) Hk Hr); lra). reflexivity.
Qed.
Lemma exp_lnmed k a : In k ks16 -> 0 <= d16_r a -> exp (lnmed16 k a) = med16 k a.
Proof.
  intros Hk Hr. unfold lnmed16, med16. rewrite !exp_plus. rewrite exp_ln; [unfold Rpower; ring|].
  pose proof (source16_pos k (d16_mech a) (d16_m a) Hk); pose proof (path16_nonneg k (d16_r a) Hk Hr); lra.
Qed.
Lemma med16_pos k a : In k ks16 -> 0 <= d16_r a -> 0 < med16 k a.
Proof. intros Hk Hr. rewrite <- exp_lnmed by assumption. apply exp_pos. Qed.

Lemma ramp_fin a b lo hi m : lo < hi -> (Fin a + (Fin b - Fin a) * (fmin (fmax (Fin m) (Fin lo)) (Fin hi) - Fin lo) / (Fin hi - Fin lo))%flt = Fin (ramp a b lo hi m).
Proof. intros H. fcbn. rewrite fdiv_fin by lra. reflexivity. Qed.
Lemma std16_fin c k m : matches c k -> as16_std c (Fin m) = Fin (sd16 k m).
Proof.
  intros (A1 & A2 & A3 & A4 & A5 & A6 & A7 & A8 & A9 & A10 & A11 & A12 & A13 & A14 & A15 & A16). unfold as16_std. rewrite A13, A14, A15, A16.
  rewrite (ramp_fin (k_t1 k) (k_t2 k) 6.5 7.0 m) by lra. replace 5.50 with 5.5 by lra. rewrite (ramp_fin (k_p1 k) (k_p2 k) 5.5 5.75 m) by lra.
  cbn [fsq fmul fadd]. rewrite fsqrt_fin by apply sq2_nonneg. unfold sd16. replace 7.0 with 7 by lra. reflexivity.
Qed.
Lemma as16_published src a : dur16_gives src a -> 0 <= d16_r a -> 0 < d16_v a ->
  exists m, result (as16 src) = Ok m /\
    as16_duration m = As16Rec (Fin (med16 k5t75 a)) (Fin (med16 k5t95 a)) (Fin (med16 k20t80 a)) /\
    as16_std_err m = As16Rec (Fin (sd16 k5t75 (d16_m a))) (Fin (sd16 k5t95 (d16_m a))) (Fin (sd16 k20t80 (d16_m a))).
Proof.
  intros (G1 & G2 & G3 & G4 & G5) Hr Hv. unfold as16. rewrite result_bind, model_init_result' by reflexivity.
  let x := eval cbv [as16_params NumP CatP CatBoolP map] in as16_params in change as16_params with x.
  unfold has_num, has_str, gives_num in *. cbn [checks p_name]. rewrite G1, G2, G3, G4, G5.
  repeat (rewrite ?chk_num; cbn [checks p_name]).
  change [PStr "SS"; PStr "NS"; PStr "RS"] with (map PStr ["SS"; "NS"; "RS"]). rewrite chk_str_req. cbn [checks p_name]. rewrite chk_onum_none. cbn [checks p_name].
  fold (as16_mech (d16_mech a)).
  rewrite !num_hit with (x := Fin (d16_m a)) by reflexivity. rewrite bind_ret_l.
  rewrite !num_hit with (x := Fin (d16_r a)) by reflexivity. rewrite bind_ret_l.
  rewrite !num_hit with (x := Fin (d16_v a)) by reflexivity. rewrite bind_ret_l.
  rewrite attr_hit with (v := as16_mech (d16_mech a)) by reflexivity. rewrite bind_ret_l.
  rewrite attr_hit with (v := onum (d16_z a)) by reflexivity. rewrite bind_ret_l.
  rewrite (lndur_fin as16_D5t75 k5t75 a matches1) by (try assumption; cbn; auto). rewrite bind_ret_l.
  rewrite (lndur_fin as16_D5t95 k5t95 a matches2) by (try assumption; cbn; auto). rewrite bind_ret_l.
  rewrite (lndur_fin as16_D20t80 k20t80 a matches3) by (try assumption; cbn; auto). rewrite bind_ret_l.
  rewrite result_ret. eexists. split; [reflexivity|].
  rewrite (std16_fin _ _ _ matches1), (std16_fin _ _ _ matches2), (std16_fin _ _ _ matches3). split; [|reflexivity].
  unfold as16_duration; cbn [a16_ln_dur D_5t75 D_5t95 D_20t80 fexp].
  rewrite !exp_lnmed by (try assumption; cbn; auto). reflexivity.
Qed.

(** ** Standard deviations *)
Lemma ramp_bounds a b lo hi m : lo < hi -> b <= a -> b <= ramp a b lo hi m <= a.
Proof.
  intros H Hab. unfold ramp. set (w := (Rmin (Rmax m lo) hi - lo)).
  assert (W : 0 <= w / (hi - lo) <= 1).
  { assert (0 <= w <= hi - lo) by (unfold w; pose proof (Rmax_r m lo); pose proof (Rmin_r (Rmax m lo) hi); assert (lo <= Rmin (Rmax m lo) hi) by (apply Rmin_glb; lra); lra).
    split; [apply Rmult_le_pos; [lra|left; apply Rinv_0_lt_compat; lra]|]. apply Rmult_le_reg_r with (hi - lo); [lra|]. unfold Rdiv. rewrite Rmult_assoc, Rinv_l by lra. lra. }
  replace ((b - a) * w / (hi - lo)) with ((b - a) * (w / (hi - lo))) by (unfold Rdiv; ring). nra.
Qed.
Lemma ramp_mono a b lo hi m1 m2 : lo < hi -> b <= a -> m1 <= m2 -> ramp a b lo hi m2 <= ramp a b lo hi m1.
Proof.
  intros H Hab Hm. unfold ramp. apply Rplus_le_compat_l. unfold Rdiv. apply Rmult_le_compat_r; [left; apply Rinv_0_lt_compat; lra|].
  assert (Rmin (Rmax m1 lo) hi <= Rmin (Rmax m2 lo) hi) by (apply Rle_min_compat_r, Rle_max_compat_r, Hm). nra.
Qed.
Lemma sd_box t1 t2 p1 p2 m : t2 <= t1 -> p2 <= p1 -> 0.19 <= t2 -> t1 <= 0.30 -> 0.35 <= p2 -> p1 <= 0.56 ->
  0.39 <= sqrt (ramp t1 t2 6.5 7 m * ramp t1 t2 6.5 7 m + ramp p1 p2 5.5 5.75 m * ramp p1 p2 5.5 5.75 m) <= 0.64.
Proof.
  intros A B C D E F. pose proof (ramp_bounds t1 t2 6.5 7 m ltac:(lra) A) as T. pose proof (ramp_bounds p1 p2 5.5 5.75 m ltac:(lra) B) as P.
  set (x := ramp t1 t2 6.5 7 m) in *. set (y := ramp p1 p2 5.5 5.75 m) in *. clearbody x y.
  assert (0.19 <= x <= 0.30) as X by lra. assert (0.35 <= y <= 0.56) as Y by lra. clear -X Y. split; interval with (i_prec 40).
Qed.
Lemma sd16_bounds k m : In k ks16 -> 0.39 <= sd16 k m <= 0.64.
Proof. intros Hk. unfold sd16. each_k Hk; cbn [k_t1 k_t2 k_p1 k_p2 k5t75 k5t95 k20t80]; apply sd_box; lra. Qed.
Lemma sd_mono t1 t2 p1 p2 m1 m2 : 0 < t2 -> t2 <= t1 -> 0 < p2 -> p2 <= p1 -> m1 <= m2 ->
  sqrt (ramp t1 t2 6.5 7 m2 * ramp t1 t2 6.5 7 m2 + ramp p1 p2 5.5 5.75 m2 * ramp p1 p2 5.5 5.75 m2)
  <= sqrt (ramp t1 t2 6.5 7 m1 * ramp t1 t2 6.5 7 m1 + ramp p1 p2 5.5 5.75 m1 * ramp p1 p2 5.5 5.75 m1).
Proof.
  intros A B C D H. apply sqrt_le_1_alt.
  pose proof (ramp_bounds t1 t2 6.5 7 m2 ltac:(lra) B) as T. pose proof (ramp_bounds p1 p2 5.5 5.75 m2 ltac:(lra) D) as P.
  pose proof (ramp_mono t1 t2 6.5 7 m1 m2 ltac:(lra) B H). pose proof (ramp_mono p1 p2 5.5 5.75 m1 m2 ltac:(lra) D H). nra.
Qed.
Lemma sd16_mono k m1 m2 : In k ks16 -> m1 <= m2 -> sd16 k m2 <= sd16 k m1.
Proof. intros Hk Hm. unfold sd16. each_k Hk; cbn [k_t1 k_t2 k_p1 k_p2 k5t75 k5t95 k20t80]; apply sd_mono; lra. Qed.
(** The three measures as accessors of the result. *)
Definition fields16 : list (as16_rec -> flt) := [D_5t75; D_5t95; D_20t80].
Lemma as16_field src a : dur16_gives src a -> 0 <= d16_r a -> 0 < d16_v a ->
  exists m, result (as16 src) = Ok m /\ forall f, In f fields16 -> exists k, In k ks16 /\ f (as16_duration m) = Fin (med16 k a) /\ f (as16_std_err m) = Fin (sd16 k (d16_m a)).
Proof.
  intros G Hr Hv. destruct (as16_published src a G Hr Hv) as (m & E & D & S). exists m. split; [exact E|].
  intros f Hf. rewrite D, S. destruct Hf as [<-|[<-|[<-|[]]]]; [exists k5t75|exists k5t95|exists k20t80]; cbn; auto.
Qed.
Lemma as16_finite src a : dur16_gives src a -> 0 <= d16_r a -> 0 < d16_v a ->
  exists m, result (as16 src) = Ok m /\ forall f, In f fields16 -> fpos (f (as16_duration m)) /\ exists s, f (as16_std_err m) = Fin s /\ 0.39 <= s <= 0.64.
Proof.
  intros G Hr Hv. destruct (as16_field src a G Hr Hv) as (m & E & F). exists m. split; [exact E|]. intros f Hf. destruct (F f Hf) as (k & Hk & -> & ->).
  split; [eexists; split; [reflexivity|apply med16_pos; assumption]|]. eexists; split; [reflexivity|apply sd16_bounds; exact Hk].
Qed.
(** Two constructions compared field by field. *)
Lemma as16_two (R : flt -> flt -> Prop) (Q : coef16 -> Prop) src1 src2 a b : dur16_gives src1 a -> dur16_gives src2 b -> 0 <= d16_r a -> 0 < d16_v a -> 0 <= d16_r b -> 0 < d16_v b ->
  (forall k, In k ks16 -> R (Fin (med16 k a)) (Fin (med16 k b))) ->
  exists m1 m2, result (as16 src1) = Ok m1 /\ result (as16 src2) = Ok m2 /\ forall f, In f fields16 -> R (f (as16_duration m1)) (f (as16_duration m2)).
Proof.
  intros G1 G2 H1 H2 H3 H4 H.
  destruct (as16_published src1 a G1 H1 H2) as (m1 & E1 & D1 & _). destruct (as16_published src2 b G2 H3 H4) as (m2 & E2 & D2 & _).
  exists m1, m2. split; [exact E1|]. split; [exact E2|]. intros f Hf. rewrite D1, D2.
  destruct Hf as [<-|[<-|[<-|[]]]]; cbn [D_5t75 D_5t95 D_20t80]; apply H; cbn; auto.
Qed.
(** ** Effects of distance, velocity and magnitude *)
Lemma path16_incr k r1 r2 : In k ks16 -> r1 < r2 -> path16 k r1 < path16 k r2.
Proof.
  intros Hk H. unfold path16, Rmin, Rmax. each_k Hk; cbn [k_c1 k_c2 k_c3 k5t75 k5t95 k20t80];
  repeat match goal with |- context [Rle_dec ?x ?y] => lazymatch x with context [Rle_dec] => fail | _ => destruct (Rle_dec x y) end end; lra.
Qed.
Lemma as16_distance src1 src2 a r1 r2 : dur16_gives src1 (with16_r a r1) -> dur16_gives src2 (with16_r a r2) -> 0 < d16_v a -> 0 <= r1 -> r1 < r2 ->
  exists m1 m2, result (as16 src1) = Ok m1 /\ result (as16 src2) = Ok m2 /\ forall f, In f fields16 -> flt_lt (f (as16_duration m1)) (f (as16_duration m2)).
Proof.
  intros G1 G2 Hv H1 H2. apply (as16_two flt_lt (fun _ => True) src1 src2 (with16_r a r1) (with16_r a r2)); try assumption; cbn [d16_r with16_r]; try lra.
  intros k Hk. apply flt_lt_fin. unfold med16; cbn [d16_m d16_r d16_v d16_mech d16_z with16_r].
  pose proof (path16_incr k r1 r2 Hk H2). apply Rmult_lt_compat_r; [apply exp_pos|]. apply Rmult_lt_compat_r; [apply Rpower_pos|]. lra.
Qed.
Lemma as16_velocity src1 src2 a v1 v2 : dur16_gives src1 (with16_v a v1) -> dur16_gives src2 (with16_v a v2) -> d16_z a = None -> 0 <= d16_r a -> 0 < v1 -> v1 < v2 ->
  exists m1 m2, result (as16 src1) = Ok m1 /\ result (as16 src2) = Ok m2 /\
    forall f, In f fields16 -> (v1 < 600 -> flt_lt (f (as16_duration m2)) (f (as16_duration m1))) /\ (600 <= v1 -> f (as16_duration m1) = f (as16_duration m2)).
Proof.
  intros G1 G2 Hz Hr H1 H2.
  apply (as16_two (fun x y => (v1 < 600 -> flt_lt y x) /\ (600 <= v1 -> x = y)) (fun _ => True) src1 src2 (with16_v a v1) (with16_v a v2)); try assumption; cbn [d16_r d16_v with16_v]; try lra.
  intros k Hk. unfold med16; cbn [d16_m d16_r d16_v d16_mech d16_z with16_v]. rewrite Hz. cbn [basin16].
  assert (S : 0 < source16 k (d16_mech a) (d16_m a) + path16 k (d16_r a)) by (pose proof (source16_pos k (d16_mech a) (d16_m a) Hk); pose proof (path16_nonneg k (d16_r a) Hk Hr); lra).
  split; intros H.
  - apply flt_lt_fin. apply Rmult_lt_compat_r; [apply exp_pos|]. apply Rmult_lt_compat_l; [exact S|]. rewrite (Rmin_left v1) by lra.
    unfold Rpower. apply exp_increasing. assert (C : k_c4 k < 0) by (each_k Hk; cbn; lra). pose proof (k_vr_pos k Hk).
    assert (v1 < Rmin v2 600) by (apply Rmin_glb_lt; lra).
    assert (ln (v1 / k_vr k) < ln (Rmin v2 600 / k_vr k)).
    { apply ln_increasing; [apply Rdiv_lt_0_compat; lra|]. apply Rmult_lt_compat_r; [apply Rinv_0_lt_compat; lra|lra]. }
    nra.
  - rewrite !Rmin_right by lra. reflexivity.
Qed.
(** Above the hinge. *)
Lemma source16_incr k t m1 m2 : In k ks16 -> k_m1 k < m1 -> m1 < m2 -> source16 k t m1 < source16 k t m2.
Proof.
  intros Hk H1 H2. unfold source16. destruct (Rle_dec m1 (k_m1 k)); [lra|]. destruct (Rle_dec m2 (k_m1 k)); [lra|].
  rewrite !source_closed. apply Rmult_lt_compat_r; [lra|]. apply exp_increasing. assert (2.3 < ln 10) by interval.
  assert (k_b2 k * (Rmin m2 (k_m2 k) - 6) + k_b3 k * Rmax (m2 - k_m2 k) 0 - (k_b2 k * (Rmin m1 (k_m2 k) - 6) + k_b3 k * Rmax (m1 - k_m2 k) 0) <= 3 * (m2 - m1)).
  { each_k Hk; cbn [k_b2 k_b3 k_m2 k5t75 k5t95 k20t80]; unfold Rmin, Rmax; repeat match goal with |- context [Rle_dec ?x ?y] => lazymatch x with context [Rle_dec] => fail | _ => destruct (Rle_dec x y) end end; lra. }
  set (u := k_b1 k t) in *. unfold Rdiv. apply Rmult_lt_compat_r; [lra|].
  assert (ln 10 * (1.5 * m2 + 16.05) - ln 10 * (1.5 * m1 + 16.05) = ln 10 * (1.5 * (m2 - m1))) by ring.
  assert (2.3 * (1.5 * (m2 - m1)) <= ln 10 * (1.5 * (m2 - m1))) by (apply Rmult_le_compat_r; lra). lra.
Qed.
Lemma as16_magnitude src1 src2 a m1 m2 : dur16_gives src1 (with16_m a m1) -> dur16_gives src2 (with16_m a m2) -> 0 <= d16_r a -> 0 < d16_v a -> m1 < m2 ->
  exists o1 o2, result (as16 src1) = Ok o1 /\ result (as16 src2) = Ok o2 /\
    forall f, In f fields16 -> (5.35 < m1 -> flt_lt (f (as16_duration o1)) (f (as16_duration o2))) /\ (m2 <= 5.2 -> f (as16_duration o1) = f (as16_duration o2)).
Proof.
  intros G1 G2 Hr Hv H.
  apply (as16_two (fun x y => (5.35 < m1 -> flt_lt x y) /\ (m2 <= 5.2 -> x = y)) (fun _ => True) src1 src2 (with16_m a m1) (with16_m a m2)); try assumption.
  intros k Hk. unfold med16; cbn [d16_m d16_r d16_v d16_mech d16_z with16_m]. split; intros C.
  - apply flt_lt_fin. apply Rmult_lt_compat_r; [apply exp_pos|]. apply Rmult_lt_compat_r; [apply Rpower_pos|].
    assert (K : k_m1 k < m1) by (each_k Hk; cbn; lra). pose proof (source16_incr k (d16_mech a) m1 m2 Hk K H). lra.
  - assert (K : m2 <= k_m1 k) by (each_k Hk; cbn; lra). unfold source16. destruct (Rle_dec m1 (k_m1 k)); [|lra]. destruct (Rle_dec m2 (k_m1 k)); [|lra]. reflexivity.
Qed.
(** ** The hinge *)
Lemma source16_above k t m1 m : In k ks16 -> k_m1 k = m1 -> m1 < m -> m <= m1 + 0.004 ->
  source16 k t m = source_dur (k_b1 k t + k_b2 k * (m - 6)) m /\
  exp ((ln 10 * (1.5 * m1 + 16.05) - (k_b1 k t + k_b2 k * (m1 - 6))) / 3) / 15680000 < source16 k t m /\
  source16 k t m <= 1.0038 * (exp ((ln 10 * (1.5 * m1 + 16.05) - (k_b1 k t + k_b2 k * (m1 - 6))) / 3) / 15680000).
Proof.
  intros Hk E H1 H2. assert (S : source16 k t m = source_dur (k_b1 k t + k_b2 k * (m - 6)) m).
  { unfold source16. destruct (Rle_dec m (k_m1 k)); [lra|]. assert (m < k_m2 k) by (each_k Hk; cbn in *; lra).
    rewrite Rmin_left, Rmax_right by lra. f_equal. ring. }
  split; [exact S|]. rewrite S, source_closed.
  assert (B : 0.7 <= k_b2 k <= 0.95) by (each_k Hk; cbn; lra). assert (2.3 < ln 10 < 2.303) by (split; interval).
  set (u := k_b1 k t).
  replace ((ln 10 * (1.5 * m + 16.05) - (u + k_b2 k * (m - 6))) / 3) with
    ((ln 10 * (1.5 * m1 + 16.05) - (u + k_b2 k * (m1 - 6))) / 3 + (ln 10 * 1.5 - k_b2 k) * (m - m1) / 3) by field.
  rewrite exp_plus. set (X := exp ((ln 10 * (1.5 * m1 + 16.05) - (u + k_b2 k * (m1 - 6))) / 3)). assert (0 < X) by apply exp_pos.
  assert (W : 0 < (ln 10 * 1.5 - k_b2 k) * (m - m1) / 3 <= 0.00369).
  { assert (0 < ln 10 * 1.5 - k_b2 k <= 2.76) by lra. split; [apply Rmult_lt_0_compat; [apply Rmult_lt_0_compat; lra|lra]|]. 
    assert ((ln 10 * 1.5 - k_b2 k) * (m - m1) <= 2.76 * 0.004) by (apply Rmult_le_compat; lra). lra. }
  set (w := _ / 3) in W |- *. 
  assert (1 < exp w) by (rewrite <- exp_0; apply exp_increasing; lra).
  assert (exp w <= 1.0038) by (clearbody w; clear -W; interval with (i_prec 40)).
  split; nra.
Qed.
Lemma hinge16 k t m : In k ks16 -> ~ (k_m1 k = k_m1 k20t80 /\ k_c4 k = k_c4 k20t80 /\ t = "RS") -> k_m1 k < m -> m <= k_m1 k + 0.004 ->
  0.999 * source16 k t (k_m1 k) <= source16 k t m <= 1.005 * source16 k t (k_m1 k).
Proof.
  intros Hk N H1 H2. destruct (source16_above k t (k_m1 k) m Hk eq_refl H1 H2) as (_ & A & B).
  assert (S0 : source16 k t (k_m1 k) = k_b0 k t) by (unfold source16; destruct (Rle_dec (k_m1 k) (k_m1 k)); [reflexivity|lra]).
  rewrite S0. clear S0 H1 H2. set (y := source16 k t m) in *. clearbody y.
  each_k Hk; cbn [k_m1 k_b0 k_b1 k_b2 k_c4 k5t75 k5t95 k20t80] in *.
  all: unfold by_mech in *;
    destruct (String.eqb_spec t "NS"); [|destruct (String.eqb_spec t "RS"); [|destruct (String.eqb_spec t "SS")]].
  all: try (exfalso; apply N; repeat split; assumption).
  all: lazymatch type of A with exp ?e / _ < _ => match type of B with _ => 
     match goal with |- 0.999 * ?b <= _ <= _ =>
       assert (0.9995 * b <= exp e / 15680000 <= 1.0005 * b) by (clear; split; interval with (i_prec 40)); lra end end end.
Qed.
Lemma as16_hinge src1 src2 a f m1 m : dur16_gives src1 (with16_m a m1) -> dur16_gives src2 (with16_m a m) -> 0 <= d16_r a -> 0 < d16_v a ->
  In (f, m1) [(D_5t75, 5.35); (D_5t95, 5.2); (D_20t80, 5.2)] -> ~ (f = D_20t80 /\ d16_mech a = "RS") -> m1 < m -> m <= m1 + 0.004 ->
  exists o1 o2 x1 x2, result (as16 src1) = Ok o1 /\ result (as16 src2) = Ok o2 /\
    f (as16_duration o1) = Fin x1 /\ f (as16_duration o2) = Fin x2 /\ 0.999 * x1 <= x2 <= 1.005 * x1.
Proof.
  intros G1 G2 Hr Hv Hf N H1 H2.
  destruct (as16_published src1 _ G1 Hr Hv) as (o1 & E1 & D1 & _). destruct (as16_published src2 _ G2 Hr Hv) as (o2 & E2 & D2 & _).
  assert (K : forall k, In k ks16 -> k_m1 k = m1 -> ~ (k_m1 k = k_m1 k20t80 /\ k_c4 k = k_c4 k20t80 /\ d16_mech a = "RS") ->
     0.999 * med16 k (with16_m a m1) <= med16 k (with16_m a m) <= 1.005 * med16 k (with16_m a m1)).
  { intros k' Hk E Nk. subst m1. pose proof (hinge16 k' (d16_mech a) m Hk Nk H1 H2) as B.
    unfold med16; cbn [d16_m d16_r d16_v d16_mech d16_z with16_m]. pose proof (path16_nonneg k' (d16_r a) Hk Hr) as P.
    set (p := path16 _ _) in *. set (s1 := source16 k' _ (k_m1 k')) in *. set (s2 := source16 k' _ m) in *.
    pose proof (Rpower_pos (Rmin (d16_v a) 600 / k_vr k') (k_c4 k')) as R1. pose proof (exp_pos (basin16 k' (d16_v a) (d16_z a))) as R2.
    set (q := Rpower _ _) in *. set (e := exp _) in *. assert (0 < q * e) by nra.
    replace ((s1 + p) * q * e) with ((s1 + p) * (q * e)) by ring. replace ((s2 + p) * q * e) with ((s2 + p) * (q * e)) by ring.
    split; nra. }
  exists o1, o2. rewrite D1, D2.
  destruct Hf as [Hf|[Hf|[Hf|[]]]]; injection Hf as <- <-; cbn [D_5t75 D_5t95 D_20t80]; eexists _, _; (split; [exact E1|]; split; [exact E2|]; split; [reflexivity|]; split; [reflexivity|]).
  - apply K; [cbn; auto|reflexivity|]. cbn. intros (C & _). lra.
  - apply K; [cbn; auto|reflexivity|]. cbn. intros (_ & C & _). lra.
  - apply K; [cbn; auto|reflexivity|]. intros (_ & _ & C). apply N. split; [reflexivity|exact C].
Qed.
(** Reverse faulting, 20-80 %: the source duration jumps from 0.7729 s to 0.8804 s. *)
Lemma as16_jump src1 src2 a m : dur16_gives src1 (with16_m a 5.2) -> dur16_gives src2 (with16_m a m) -> d16_mech a = "RS" -> 0 <= d16_r a <= 10 -> 0 < d16_v a ->
  5.2 < m -> m <= 7.4 ->
  exists o1 o2 x1 x2, result (as16 src1) = Ok o1 /\ result (as16 src2) = Ok o2 /\
    D_20t80 (as16_duration o1) = Fin x1 /\ D_20t80 (as16_duration o2) = Fin x2 /\ 1.07 * x1 < x2.
Proof.
  intros G1 G2 Hm [Hr Hr'] Hv H1 H2.
  destruct (as16_published src1 _ G1 Hr Hv) as (o1 & E1 & D1 & _). destruct (as16_published src2 _ G2 Hr Hv) as (o2 & E2 & D2 & _).
  exists o1, o2. rewrite D1, D2. cbn [D_20t80]. eexists _, _. split; [exact E1|]. split; [exact E2|]. split; [reflexivity|]. split; [reflexivity|].
  unfold med16; cbn [d16_m d16_r d16_v d16_mech d16_z with16_m]. rewrite Hm.
  assert (P : 0 <= path16 k20t80 (d16_r a) <= 0.65).
  { split; [apply path16_nonneg; [cbn; auto|exact Hr]|]. unfold path16. cbn [k_c1 k_c2 k_c3 k20t80]. rewrite !Rmin_left by lra. rewrite !Rmax_right by lra. lra. }
  assert (S1 : source16 k20t80 "RS" 5.2 = 0.7729) by (unfold source16; cbn [k_m1 k20t80]; destruct (Rle_dec 5.2 5.2); [reflexivity|lra]).
  assert (S2 : 0.88 < source16 k20t80 "RS" m).
  { assert (forall m', 5.2 < m' -> m' <= 7.4 -> source16 k20t80 "RS" m' = source_dur (6.188 + 0.7414 * (m' - 6)) m').
    { intros m' A B. unfold source16. cbn [k_m1 k_b1 k_b2 k_b3 k_m2 k20t80 by_mech]. destruct (Rle_dec m' 5.2); [lra|]. rewrite Rmin_left, Rmax_right by lra. unfold by_mech; cbn [String.eqb Ascii.eqb Bool.eqb]. f_equal. ring. }
    rewrite H by assumption. apply Rlt_trans with (source_dur (6.188 + 0.7414 * (5.2 - 6)) 5.2).
    - rewrite source_closed. clear. interval with (i_prec 40).
    - apply source_incr; lra. }
  rewrite S1. clear S1. pose proof (Rpower_pos (Rmin (d16_v a) 600 / k_vr k20t80) (k_c4 k20t80)) as R1. pose proof (exp_pos (basin16 k20t80 (d16_v a) (d16_z a))) as R2.
  set (q := Rpower _ _) in *. set (e := exp _) in *. assert (0 < q * e) by nra. set (s2 := source16 _ _ _) in *. set (p := path16 _ _) in *.
  replace ((s2 + p) * q * e) with ((s2 + p) * (q * e)) by ring. replace (1.07 * ((0.7729 + p) * q * e)) with (1.07 * (0.7729 + p) * (q * e)) by ring.
  apply Rmult_lt_compat_r; [assumption|]. lra.
Qed.
Lemma as16_rs_is_ss src1 src2 a m : dur16_gives src1 (Dur16 m (d16_r a) (d16_v a) "RS" (d16_z a)) -> dur16_gives src2 (Dur16 m (d16_r a) (d16_v a) "SS" (d16_z a)) ->
  0 <= d16_r a -> 0 < d16_v a -> 5.2 < m ->
  exists o1 o2, result (as16 src1) = Ok o1 /\ result (as16 src2) = Ok o2 /\ D_20t80 (as16_duration o1) = D_20t80 (as16_duration o2).
Proof.
  intros G1 G2 Hr Hv Hm. destruct (as16_published src1 _ G1 Hr Hv) as (o1 & E1 & D1 & _). destruct (as16_published src2 _ G2 Hr Hv) as (o2 & E2 & D2 & _).
  exists o1, o2. rewrite D1, D2. split; [exact E1|]. split; [exact E2|]. cbn [D_20t80]. unfold med16; cbn [d16_m d16_r d16_v d16_mech d16_z].
  replace (source16 k20t80 "RS" m) with (source16 k20t80 "SS" m); [reflexivity|]. unfold source16; cbn [k_m1 k20t80]. destruct (Rle_dec m 5.2); [lra|]. reflexivity.
Qed.
(** ** Basin depth *)
Lemma as16_basin src1 src2 a z1 z2 : dur16_gives src1 (with16_z a z1) -> dur16_gives src2 (with16_z a z2) -> 0 <= d16_r a -> 0 < d16_v a -> 0 <= z1 <= 1 -> 0 <= z2 <= 1 ->
  exists o1 o2, result (as16 src1) = Ok o1 /\ result (as16 src2) = Ok o2 /\
    forall f, In f fields16 -> exists x1 x2, f (as16_duration o1) = Fin x1 /\ f (as16_duration o2) = Fin x2 /\ x1 <= 1.001 * x2.
Proof.
  intros G1 G2 Hr Hv H1 H2.
  apply (as16_two (fun x y => exists x1 x2, x = Fin x1 /\ y = Fin x2 /\ x1 <= 1.001 * x2) (fun _ => True) src1 src2 (with16_z a z1) (with16_z a z2)); try assumption.
  intros k Hk. eexists _, _. split; [reflexivity|]. split; [reflexivity|]. unfold med16; cbn [d16_m d16_r d16_v d16_mech d16_z with16_z basin16].
  assert (S : 0 < source16 k (d16_mech a) (d16_m a) + path16 k (d16_r a)) by (pose proof (source16_pos k (d16_mech a) (d16_m a) Hk); pose proof (path16_nonneg k (d16_r a) Hk Hr); lra).
  set (s := _ + path16 _ _) in *. pose proof (Rpower_pos (Rmin (d16_v a) 600 / k_vr k) (k_c4 k)) as R1. set (q := Rpower _ _) in *.
  assert (C : 0 < k_c5 k <= 0.0006) by (each_k Hk; cbn; lra).
  assert (Z0 : 0 < z_ref (d16_v a)) by (unfold z_ref; apply Rdiv_lt_0_compat; [apply exp_pos|lra]).
  rewrite !Rmin_left by lra.
  assert (E : exp (k_c5 k * (z1 - z_ref (d16_v a))) <= 1.001 * exp (k_c5 k * (z2 - z_ref (d16_v a)))).
  { replace (k_c5 k * (z1 - z_ref (d16_v a))) with (k_c5 k * (z2 - z_ref (d16_v a)) + k_c5 k * (z1 - z2)) by ring. rewrite exp_plus, Rmult_comm.
    apply Rmult_le_compat_r; [left; apply exp_pos|]. assert (k_c5 k * (z1 - z2) <= 0.0006) by nra. apply Rle_trans with (exp 0.0006); [apply exp_le_mono; assumption|].
    clear; interval with (i_prec 40). }
  assert (0 < s * q) by nra. nra.
Qed.
