(** * Style of faulting in the NGA-West2 models *)
From Coquelicot Require Import Coquelicot.
From Interval Require Import Tactic.
From Coq Require Import List.
From Verif Require Import M_cy14 M_bssa14 M_cb14 M_ask14 FrameworkProofs Anal Nga Outs Cont Cont1 SpecNga P_cy14 P_bssa14 P_cb14 P_cb14b P_ask14 P_ask14b P_ngaspec
  Spec_cy14 Spec_bssa14 Spec_cb14 Spec_ask14 Properties_NGA Properties_NGAPub Properties_NGAPub2 Properties_NGAPub3 P_ngamag P_ngacont P_hw.
Open Scope R_scope.
Open Scope string_scope.
Open Scope list_scope.

(** The same scenario with another mechanism. *)
Definition with_mech (a : nga) (s : string) : nga :=
  let '(Nga m r jb x y0 cr dip v tor bor bot hyp w z1 z25 dpp _ re so hw af) := a in
  Nga m r jb x y0 cr dip v tor bor bot hyp w z1 z25 dpp (Some s) re so hw af.

(** Equal rows give equal results. *)
Lemma rep_eq {A} r1 r2 (rows : list A) ca cv per med1 sd1 med2 sd2 : reports r1 rows ca cv per med1 sd1 -> reports r2 rows ca cv per med2 sd2 ->
  (forall c, In c (ca :: cv :: rows) -> med1 c = med2 c /\ sd1 c = sd2 c) -> exists o, gmm_out r1 o /\ gmm_out r2 o.
Proof.
  intros R1 R2 H. exists (rep_outs rows ca cv med1 sd1). split; [eapply reports_out; exact R1|].
  replace (rep_outs rows ca cv med1 sd1) with (rep_outs rows ca cv med2 sd2); [eapply reports_out; exact R2|].
  unfold rep_outs. destruct (H ca) as [E1 E2]; [cbn; auto|]. destruct (H cv) as [E3 E4]; [cbn; auto|]. rewrite E1, E2, E3, E4.
  f_equal; apply map_ext_in; intros c Hc; destruct (H c) as [F1 F2]; cbn; auto; congruence.
Qed.

(** ** ASK14 *)
Lemma as_mech_path c a s : In s ["SS"; "NS"; "RS"] ->
  as_source_path c (with_mech a s) = as_source_path c (with_mech a "SS")
    + (if String.eqb s "RS" then Q2R (ask14_a11 c) else if String.eqb s "NS" then Q2R (ask14_a12 c) else 0) * as_clip (n_mag a - 4).
Proof.
  intros Hs. nga_split a. unfold as_source_path, as_tor, as_mech. cbn [with_mech n_mag n_rup n_hw n_x n_after n_crjb n_mech n_tor].
  assert (E : forall x, as_f4 c x (Nga a_m a_r a_j a_x a_y0 a_cr a_dip a_v a_tor a_bor a_bot a_hyp a_w a_z1 a_z25 a_dpp (Some s) a_re a_so a_hw a_af)
     = as_f4 c x (Nga a_m a_r a_j a_x a_y0 a_cr a_dip a_v a_tor a_bor a_bot a_hyp a_w a_z1 a_z25 a_dpp (Some "SS") a_re a_so a_hw a_af)) by reflexivity.
  destruct a_x; [rewrite E|]; destruct Hs as [<-|[<-|[<-|[]]]]; cbn; ring.
Qed.
Lemma as_mech_rep src a s : nga_gives src (with_mech a s) -> 0 < n_v a -> as_geom a -> match n_z1 a with Some z => 0 <= z | None => True end ->
  reports (ask14 src) ask14_psa ask14_pga_row ask14_pgv_row ask14_period (fun c => as_med c (with_mech a s)) (fun c => as_sd c (with_mech a s)).
Proof. intros G Hv HG Hz. apply (as_reports _ _ s G); destruct a; cbn; try assumption; reflexivity. Qed.
Lemma as_normal src1 src2 a s : nga_gives src1 (with_mech a "NS") -> nga_gives src2 (with_mech a s) -> In s ["SS"; "RS"] ->
  180 <= n_v a -> as_geom a -> match n_z1 a with Some z => 0 <= z | None => True end ->
  exists o1 o2, gmm_out (ask14 src1) o1 /\ gmm_out (ask14 src2) o2 /\ resp2 (if Rle_dec (n_mag a) 4 then flt_le else flt_lt) o1 o2.
Proof.
  intros G1 G2 Hs Hv HG Hz. do 2 eexists. split; [eapply reports_out, as_mech_rep; eassumption || lra|]. split; [eapply reports_out, as_mech_rep; eassumption || lra|].
  assert (D : forall c, In c ask14_coeff -> as_source_path c (with_mech a s) - as_source_path c (with_mech a "NS") = - Q2R (ask14_a12 c) * as_clip (n_mag a - 4)).
  { intros c Hc. row_is Hc ask14_a11 (0#1)%Q as A. rewrite (as_mech_path c a s), (as_mech_path c a "NS") by (cbn; tauto || (destruct Hs as [<-|[<-|[]]]; cbn; tauto)).
    destruct Hs as [<-|[<-|[]]]; cbn [String.eqb Ascii.eqb Bool.eqb]; try rewrite A; lra. }
  unfold resp2, rep_outs; cbn [o_sa o_pga o_pgv].
  assert (K : forall c, In c ask14_coeff -> (if Rle_dec (n_mag a) 4 then flt_le else flt_lt) (Fin (exp (as_med c (with_mech a "NS")))) (Fin (exp (as_med c (with_mech a s))))).
  { intros c Hc. specialize (D c Hc). row_upto Hc ask14_a12 (-1#10)%Q as B. assert (B' : Q2R (ask14_a12 c) <= - 0.1) by lra.
    destruct (Rle_dec (n_mag a) 4) as [L|L].
    - apply flt_le_fin, exp_le_mono, as_med_le; [exact Hc|destruct a; exact Hv|destruct a; repeat split|]. pose proof (as_clip_ge0 (n_mag a - 4)). nra.
    - do 2 eexists. split; [reflexivity|]. split; [reflexivity|]. apply exp_increasing, as_med_lt; [exact Hc|destruct a; exact Hv|destruct a; repeat split|].
      assert (0 < as_clip (n_mag a - 4)). { unfold as_clip. apply Rmin_glb_lt; [|lra]. apply Rlt_le_trans with (n_mag a - 4); [lra|apply Rmax_l]. }
      nra. }
  split; [apply Forall2_map_intro; intros c Hc|split]; apply K, as_rows; [right; right; exact Hc|left; reflexivity|right; left; reflexivity].
Qed.
Lemma as_reverse_same src1 src2 a : nga_gives src1 (with_mech a "SS") -> nga_gives src2 (with_mech a "RS") ->
  0 < n_v a -> as_geom a -> match n_z1 a with Some z => 0 <= z | None => True end ->
  exists o, gmm_out (ask14 src1) o /\ gmm_out (ask14 src2) o.
Proof.
  intros G1 G2 Hv HG Hz. eapply rep_eq; [eapply as_mech_rep; eassumption|eapply as_mech_rep; eassumption|].
  intros c Hc. apply as_rows in Hc. assert (E : as_source_path c (with_mech a "RS") = as_source_path c (with_mech a "SS")).
  { rewrite (as_mech_path c a "RS") by (cbn; tauto). row_is Hc ask14_a11 (0#1)%Q as A. cbn [String.eqb Ascii.eqb Bool.eqb]. rewrite A. lra. }
  assert (R0 : as_rock c (with_mech a "RS") = as_rock c (with_mech a "SS")) by (unfold as_rock; rewrite E; destruct a; reflexivity).
  split; [unfold as_med|unfold as_sd]; rewrite ?E, R0; destruct a; reflexivity.
Qed.

(** ** CB14 (top of the rupture given, so that the mechanism sets no depth) *)
Lemma cb_mech_path c x a s z : In s ["SS"; "NS"; "RS"] -> n_tor a = Some z ->
  cb_source_path c x (with_mech a s) = cb_source_path c x (with_mech a "SS")
    + (if String.eqb s "RS" then Q2R (cb14_c_8 c) else if String.eqb s "NS" then Q2R (cb14_c_9 c) else 0) * cb_clip 0 1 (n_mag a - 4.5).
Proof.
  intros Hs Hz. nga_split a. cbn in Hz. subst a_tor. unfold cb_source_path, cb_fhng, cb_fhng_x, cb_hyp, cb_bor, cb_wid, cb_tor, cb_mech, cb_reg, cb_rad, cb_tor, cb_mech, cb_fflt.
  cbn [with_mech n_mag n_rup n_jb n_dip n_tor n_mech n_region n_hyp n_bor n_width n_bot or_else].
  destruct Hs as [<-|[<-|[<-|[]]]]; cbn [option_of existsb String.eqb Ascii.eqb Bool.eqb orb]; ring.
Qed.
Lemma cb_mech_rep src a s x z : nga_gives src (with_mech a s) -> n_tor a = Some z -> n_x a = Some x -> 0 < n_v a -> 0 < n_dip a <= 90 ->
  (x = 0 -> n_dip a < 90 /\ match n_width a with Some w => w <> 0 | None => False end) ->
  (n_hyp a = None -> cb_tor a < cb_bor a) ->
  reports (cb14 src) cb14_psa cb14_pga_row cb14_pgv_row cb14_period (fun c => cb_med cb14_pga_row c x (with_mech a s)) (fun c => cb_sd cb14_pga_row c x (with_mech a s)).
Proof.
  intros G Hz Hx Hv Hd Hg Hh. nga_split a. cbn in Hz. subst. apply (cb_reports _ _ _ s G); cbn [with_mech n_mech n_x n_v n_dip n_width n_tor n_bot n_hyp] in *; try (assumption || reflexivity).
  - intros E. specialize (Hg E). destruct a_w; [exact Hg|]. destruct Hg as [_ []].
Qed.
Lemma cb_normal_path c x a z : In c cb14_coeff -> n_tor a = Some z -> cb_source_path c x (with_mech a "NS") <= cb_source_path c x (with_mech a "SS").
Proof.
  intros Hc Hz. rewrite (cb_mech_path c x a "NS" z) by (assumption || (cbn; tauto)). cbn [String.eqb Ascii.eqb Bool.eqb].
  row_upto Hc cb14_c_9 (0#1)%Q as C. assert (0 <= cb_clip 0 1 (n_mag a - 4.5)); [|nra].
  unfold cb_clip. first [apply Rmin_glb; [apply Rmax_l|lra] | apply Rmin_glb; [apply Rmax_r|lra] | apply Rmax_l | idtac].
Qed.
Lemma cb_normal_rock src1 src2 a x z : nga_gives src1 (with_mech a "NS") -> nga_gives src2 (with_mech a "SS") -> n_tor a = Some z -> n_x a = Some x ->
  1086 < n_v a -> 0 < n_dip a <= 90 -> (x = 0 -> n_dip a < 90 /\ match n_width a with Some w => w <> 0 | None => False end) -> (n_hyp a = None -> cb_tor a < cb_bor a) ->
  exists o1 o2, gmm_out (cb14 src1) o1 /\ gmm_out (cb14 src2) o2 /\ resp2 flt_le o1 o2.
Proof.
  intros G1 G2 Hz Hx Hv Hd Hg Hh. eapply rep_le; [eapply (cb_mech_rep _ a "NS" x z); eassumption || lra|eapply (cb_mech_rep _ a "SS" x z); eassumption || lra|].
  intros c Hc. apply cb_rows in Hc. apply cb_rock_le; [exact Hc|destruct a; exact Hv|destruct a; repeat split|]. apply (cb_normal_path c x a z); assumption.
Qed.
Lemma cb_normal_pga src1 src2 a x z : nga_gives src1 (with_mech a "NS") -> nga_gives src2 (with_mech a "SS") -> n_tor a = Some z -> n_x a = Some x ->
  150 <= n_v a -> 0 < n_dip a <= 90 -> (x = 0 -> n_dip a < 90 /\ match n_width a with Some w => w <> 0 | None => False end) -> (n_hyp a = None -> cb_tor a < cb_bor a) ->
  exists o1 o2, gmm_out (cb14 src1) o1 /\ gmm_out (cb14 src2) o2 /\ flt_le (o_pga o1) (o_pga o2).
Proof.
  intros G1 G2 Hz Hx Hv Hd Hg Hh. do 2 eexists.
  split; [eapply reports_out, (cb_mech_rep _ a "NS" x z); eassumption || lra|]. split; [eapply reports_out, (cb_mech_rep _ a "SS" x z); eassumption || lra|].
  cbn [o_pga rep_outs]. apply flt_le_fin, exp_le_mono, cb_pga_le; [destruct a; exact Hv|destruct a; repeat split|]. apply (cb_normal_path _ x a z); [exact cb14_pga_in|exact Hz].
Qed.
Lemma cb_reverse_same src1 src2 a x z : nga_gives src1 (with_mech a "SS") -> nga_gives src2 (with_mech a "RS") -> n_tor a = Some z -> n_x a = Some x ->
  0 < n_v a -> 0 < n_dip a <= 90 -> (x = 0 -> n_dip a < 90 /\ match n_width a with Some w => w <> 0 | None => False end) -> (n_hyp a = None -> cb_tor a < cb_bor a) ->
  exists o, gmm_out (cb14 src1) o /\ gmm_out (cb14 src2) o.
Proof.
  intros G1 G2 Hz Hx Hv Hd Hg Hh. eapply rep_eq; [eapply (cb_mech_rep _ a "SS" x z); eassumption|eapply (cb_mech_rep _ a "RS" x z); eassumption|].
  assert (E : forall c, In c cb14_coeff -> cb_source_path c x (with_mech a "RS") = cb_source_path c x (with_mech a "SS")).
  { intros c Hc. rewrite (cb_mech_path c x a "RS" z) by (assumption || (cbn; tauto)). row_is Hc cb14_c_8 (0#1)%Q as A. cbn [String.eqb Ascii.eqb Bool.eqb]. rewrite A. lra. }
  intros c Hc. apply cb_rows in Hc.
  assert (R0 : cb_rock_pga cb14_pga_row x (with_mech a "RS") = cb_rock_pga cb14_pga_row x (with_mech a "SS")) by (unfold cb_rock_pga; rewrite (E _ cb14_pga_in); destruct a; reflexivity).
  split; [unfold cb_med|unfold cb_sd]; rewrite ?(E c Hc), R0; destruct a; reflexivity.
Qed.

(** ** CY14: off the hanging wall, top of the rupture not given *)
Lemma cy_mech_ref c x a s : In s ["SS"; "NS"; "RS"] -> n_tor a = None -> n_hw a <> Some true ->
  cy_ref c x (with_mech a s) = cy_ref c x (with_mech a "SS")
    + (if String.eqb s "RS" then Q2R (cy14_c_1a c) + Q2R (cy14_c_1c c) / cosh (2 * Rmax (n_mag a - 4.5) 0)
       else if String.eqb s "NS" then Q2R (cy14_c_1b c) + Q2R (cy14_c_1d c) / cosh (2 * Rmax (n_mag a - 4.5) 0) else 0).
Proof.
  intros Hs Hz Hh. nga_split a. cbn in Hz, Hh. subst a_tor. unfold cy_ref, cy_on_hw, cy_reg, cy_tor, cy_mech.
  cbn [with_mech n_mag n_rup n_jb n_dip n_tor n_dpp n_mech n_region n_hw or_else]. cbv zeta.
  assert (W : (match a_hw with Some true => true | _ => false end) = false) by (destruct a_hw as [[]|]; congruence).
  destruct a_hw as [[]|]; [congruence| |]; destruct Hs as [<-|[<-|[<-|[]]]]; cbn [option_of existsb String.eqb Ascii.eqb Bool.eqb orb]; ring.
Qed.
Lemma cosh_ge1 x : 1 <= cosh x.
Proof.
  unfold cosh. pose proof (exp_pos x). pose proof (exp_pos (- x)). assert (exp x * exp (- x) = 1) by (rewrite <- exp_plus, Rplus_opp_r; apply exp_0).
  set (u := exp x) in *. set (w := exp (- x)) in *. clearbody u w. assert (0 <= (u - w) * (u - w)) by apply Rle_0_sqr. nra.
Qed.
Lemma cy_style src1 src2 a x s1 s2 : nga_gives src1 (with_mech a s1) -> nga_gives src2 (with_mech a s2) ->
  (s1 = "NS" /\ s2 = "SS") \/ (s1 = "SS" /\ s2 = "RS") ->
  n_tor a = None -> n_hw a <> Some true -> n_x a = Some x -> 0 <= n_rup a -> 180 <= n_v a ->
  exists o1 o2, gmm_out (cy14 src1) o1 /\ gmm_out (cy14 src2) o2 /\ resp2 flt_le o1 o2.
Proof.
  intros G1 G2 Hs Hz Hh Hx Hr Hv.
  eapply rep_le; [apply (cy_reports _ _ x G1)|apply (cy_reports _ _ x G2)|]; try (destruct a; cbn in *; first [assumption|lra]).
  intros c Hc. apply cy_rows in Hc. apply cy_med_le; [exact Hc|destruct a; exact Hv|destruct a; repeat split|].
  set (k := / cosh (2 * Rmax (n_mag a - 4.5) 0)).
  assert (K : 0 < k <= 1). { unfold k. pose proof (cosh_ge1 (2 * Rmax (n_mag a - 4.5) 0)). split; [apply Rinv_0_lt_compat; lra|]. rewrite <- Rinv_1. apply Rinv_le_contravar; lra. }
  rewrite (cy_mech_ref c x a s1), (cy_mech_ref c x a s2) by (assumption || (destruct Hs as [[-> ->]|[-> ->]]; cbn; tauto)).
  row_eq Hc cy14_c_1c (fun c => - cy14_c_1a c)%Q as E1. row_eq Hc cy14_c_1d (fun c => - cy14_c_1b c)%Q as E2.
  row_ge Hc (0#1)%Q cy14_c_1a as P1. row_upto Hc cy14_c_1b (0#1)%Q as P2.
  unfold Rdiv. fold k. destruct Hs as [[-> ->]|[-> ->]]; cbn [String.eqb Ascii.eqb Bool.eqb]; rewrite ?E1, ?E2; nra.
Qed.

(** ** BSSA14: normal against strike slip *)
Definition q16 (q : Q) : Q := let a := (q * q)%Q in let b := (a * a)%Q in let d := (b * b)%Q in (d * d)%Q.
Lemma q16_R q : Q2R (q16 q) = Q2R q ^ 16. Proof. unfold q16. cbv zeta. rewrite !Q2R_mult. ring. Qed.
Lemma exp_16 x : exp x = exp (x / 16) ^ 16.
Proof. cbn [pow]. rewrite Rmult_1_r, <- !exp_plus. f_equal. field. Qed.
Lemma bs_mech_rock c a s : In s ["SS"; "NS"] -> bs_rock c (with_mech a s) = bs_rock c (with_mech a "SS") + (if String.eqb s "NS" then Q2R (bssa14_e_2 c) - Q2R (bssa14_e_1 c) else 0).
Proof.
  intros Hs. nga_split a. unfold bs_rock, bssa14_event_spec, bs_mech_of, bs_region_of. cbn [with_mech n_mag n_jb n_mech n_region].
  destruct Hs as [<-|[<-|[]]]; cbn [option_of existsb String.eqb Ascii.eqb Bool.eqb orb]; cbv zeta; destruct (Rle_dec _ _); ring.
Qed.
Lemma pow16_exp y : -16 < y -> 0 < (1 + y / 16) ^ 16 /\ exp (- y) * (1 + y / 16) ^ 16 <= 1.
Proof.
  intros H. split; [apply pow_lt; lra|].
  replace 1 with (exp (- y) * exp y) at 2 by (rewrite <- exp_plus; replace (- y + y) with 0 by ring; apply exp_0).
  apply Rmult_le_compat_l; [left; apply exp_pos|]. rewrite (exp_16 y). apply pow_incr. pose proof (exp_ineq1_le (y / 16)). lra.
Qed.
Lemma bs_f2_aux f4 f5 d v w : 180 <= v -> f5 <= 0 -> 0 < d -> 0 < w -> exp (- (180 * f5)) * w <= 1 -> 0.2397 * - f4 < d * w ->
  0 < d + 0.2397 * (f4 * (exp (f5 * (Rmin v 760 - 360)) - exp (f5 * (760 - 360)))).
Proof.
  intros Hv F5 D W E3 B.
  assert (M : 180 <= Rmin v 760 <= 760) by (split; [apply Rmin_glb; lra|apply Rmin_r]).
  assert (E6 : exp (f5 * (760 - 360)) <= exp (f5 * (Rmin v 760 - 360))) by (apply exp_le_mono; nra).
  assert (E1 : exp (f5 * (Rmin v 760 - 360)) <= exp (- (180 * f5))) by (apply exp_le_mono; nra).
  pose proof (exp_pos (f5 * (760 - 360))) as E2.
  set (a := exp (f5 * (760 - 360))) in *. set (b := exp (f5 * (Rmin v 760 - 360))) in *. set (e := exp (- (180 * f5))) in *. clearbody a b e.
  destruct (Rle_dec 0 f4) as [P4|P4]; [assert (0 <= f4 * (b - a)) by (apply Rmult_le_pos; lra); lra|].
  assert (E4 : 0 <= - f4 * (e - b + a)) by (apply Rmult_le_pos; lra).
  assert (E5 : 0 < d + 0.2397 * (f4 * e)).
  { apply Rmult_lt_reg_r with w; [exact W|]. rewrite Rmult_0_l. assert (0 <= - f4 * (1 - e * w)) by (apply Rmult_le_pos; lra).
    replace ((d + 0.2397 * (f4 * e)) * w) with (d * w - 0.2397 * - f4 + 0.2397 * (- f4 * (1 - e * w))) by ring. lra. }
  lra.
Qed.
Lemma bs_f2 c v : In c bssa14_coeff -> 180 <= v ->
  0 < Q2R (bssa14_e_1 c) - Q2R (bssa14_e_2 c) + 0.2397 * (Q2R (bssa14_f_4 c) * (exp (Q2R (bssa14_f_5 c) * (Rmin v 760 - 360)) - exp (Q2R (bssa14_f_5 c) * (760 - 360)))).
Proof.
  intros Hc Hv. row_lt Hc bssa14_e_2 bssa14_e_1 as E0. row_upto Hc bssa14_f_5 (0#1)%Q as F5. row_ge Hc (-1#100)%Q bssa14_f_5 as F5'.
  destruct (pow16_exp (180 * Q2R (bssa14_f_5 c)) ltac:(lra)) as [W E3].
  refine (bs_f2_aux _ _ _ _ _ Hv _ _ W E3 _); clear W E3; [lra|lra|].
  pose proof (rows_lt bssa14_coeff (fun c => (2397#10000) * - bssa14_f_4 c)%Q (fun c => (bssa14_e_1 c - bssa14_e_2 c) * q16 (1 + bssa14_f_5 c * (180#16)))%Q
    ltac:(vm_compute; reflexivity) c Hc) as B. cbv beta in B.
  rewrite !Q2R_mult, q16_R, Q2R_opp, Q2R_minus, Q2R_plus, Q2R_mult in B. qlit_in B. replace (Q2R 1) with 1 in B by (unfold Q2R; cbn; lra).
  match type of B with context [?p ^ 16] => replace (1 + 180 * Q2R (bssa14_f_5 c) / 16) with p by (unfold Rdiv; lra); generalize dependent (p ^ 16) end.
  intros w B. lra.
Qed.
Lemma bs_normal src1 src2 a : nga_gives src1 (with_mech a "NS") -> nga_gives src2 (with_mech a "SS") -> 180 <= n_v a ->
  exists o1 o2, gmm_out (bssa14 src1) o1 /\ gmm_out (bssa14 src2) o2 /\ resp2 flt_lt o1 o2.
Proof.
  intros G1 G2 Hv. do 2 eexists. split; [eapply reports_out, (bs_reports _ _ G1); destruct a; cbn in *; lra|]. split; [eapply reports_out, (bs_reports _ _ G2); destruct a; cbn in *; lra|].
  assert (K : forall c, In c bssa14_coeff -> flt_lt (Fin (exp (bs_med bssa14_pga_row c (with_mech a "NS")))) (Fin (exp (bs_med bssa14_pga_row c (with_mech a "SS"))))).
  { intros c Hc. do 2 eexists. split; [reflexivity|]. split; [reflexivity|]. apply exp_increasing. unfold bs_med, bs_nonlin.
    rewrite (bs_mech_rock c a "NS"), (bs_mech_rock bssa14_pga_row a "NS") by (cbn; tauto). cbn [String.eqb Ascii.eqb Bool.eqb].
    replace (n_v (with_mech a "NS")) with (n_v a) by (destruct a; reflexivity). replace (n_v (with_mech a "SS")) with (n_v a) by (destruct a; reflexivity).
    replace (n_z1 (with_mech a "NS")) with (n_z1 a) by (destruct a; reflexivity). replace (n_z1 (with_mech a "SS")) with (n_z1 a) by (destruct a; reflexivity).
    pose proof (bs_f2 c (n_v a) Hc Hv) as B. set (F := Q2R (bssa14_f_4 c) * _) in *. 
    row_lt Hc bssa14_e_2 bssa14_e_1 as E9.
    set (p := bs_rock bssa14_pga_row (with_mech a "SS")).
    assert (E0 : Q2R (bssa14_e_2 bssa14_pga_row) - Q2R (bssa14_e_1 bssa14_pga_row) = - 0.2397) by (unfold Q2R; cbn; lra). rewrite E0.
    assert (D : 0 <= ln ((exp p + 0.1) / 0.1) - ln ((exp (p + - 0.2397) + 0.1) / 0.1) <= 0.2397).
    { pose proof (exp_pos p). pose proof (exp_pos (p + - 0.2397)). assert (Q : exp (p + - 0.2397) <= exp p) by (apply exp_le_mono; lra).
      rewrite !ln_div by lra. split.
      - assert (ln (exp (p + -0.2397) + 0.1) <= ln (exp p + 0.1)) by (apply ln_le; lra). lra.
      - assert (ln (exp p + 0.1) <= ln ((exp (p + - 0.2397) + 0.1) * exp 0.2397)).
        { apply ln_le; [lra|]. rewrite Rmult_plus_distr_r, <- exp_plus. replace (p + -0.2397 + 0.2397) with p by lra. pose proof (exp_ineq1_le 0.2397). lra. }
        rewrite ln_mult, ln_exp in H1 by (lra || apply exp_pos). lra. }
    set (L2 := ln ((exp p + 0.1) / 0.1)) in *. set (L1 := ln ((exp (p + -0.2397) + 0.1) / 0.1)) in *. clearbody L1 L2 F.
    assert (0 <= F * (L2 - L1) \/ 0.2397 * F <= F * (L2 - L1)). { destruct (Rle_dec 0 F); [left; apply Rmult_le_pos; lra|right]. assert (0 <= - F * (0.2397 - (L2 - L1))) by (apply Rmult_le_pos; lra). lra. }
    destruct H; lra. }
  unfold resp2, rep_outs; cbn [o_sa o_pga o_pgv]. split; [apply Forall2_map_intro; intros c Hc|split]; apply K, bs_rows; [right; right; exact Hc|left; reflexivity|right; left; reflexivity].
Qed.
