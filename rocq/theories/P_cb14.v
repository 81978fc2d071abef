(** * Proofs for Campbell & Bozorgnia (2014) *)
From Coquelicot Require Import Coquelicot.
From Interval Require Import Tactic.
From Coq Require Import List.
From Verif Require Import M_cb14 FrameworkProofs Anal Nga Outs P_cy14.
Open Scope R_scope.
Open Scope string_scope.
Open Scope list_scope.

Definition cb14_mech (a : nga) : pyval := choice ["SS"; "NS"; "RS"] PNone (n_mech a).
Definition cb14_region (a : nga) : pyval := choice ["global"; "california"; "japan"; "italy"; "china"] (PStr "global") (n_region a).
Definition cb14_z25 (v : R) (re : pyval) : flt :=
  (if is_str re "japan" then fexp ($5.359 - $1.102 * flog (Fin v)) else fexp ($7.089 - $1.144 * flog (Fin v)))%flt.
Definition cb14_tor (a : nga) : flt := odef (n_tor a) (cy14_calc_depth_tor (Fin (n_mag a)) (cb14_mech a)).
Definition cb14_width (a : nga) : flt :=
  odef (n_width a) (cb14_calc_width (Fin (n_mag a)) (Fin (n_dip a)) (cb14_tor a) (odef (n_bot a) (Fin 15.0))).
Definition cb14_bor (a : nga) : flt := odef (n_bor a) (cb14_calc_depth_bor (cb14_tor a) (Fin (n_dip a)) (cb14_width a)).
Definition cb14_hyp (a : nga) : flt := odef (n_hyp a) (cb14_calc_depth_hyp (Fin (n_mag a)) (Fin (n_dip a)) (cb14_tor a) (cb14_bor a)).
Definition cb14_input (x : R) (a : nga) : cb14_in :=
  CB14In (Fin (n_mag a)) (Fin (n_rup a)) (Fin (n_jb a)) (Fin x) (Fin (n_dip a)) (cb14_width a) (cb14_tor a) (cb14_hyp a)
    (odef (n_z25 a) (cb14_z25 (n_v a) (cb14_region a))) (Fin (n_v a)) (cb14_mech a) (cb14_region a).
Definition cb14_pga_ref_of (x : R) (a : nga) : flt := cb14_pga_ref (cb14_input x a) (cb14_z25 1100 (cb14_region a)).

Lemma cb14_z25_ok v re d : v <> 0 -> cb14_calc_depth_2_5 (Fin v) re d = ret (cb14_z25 v re).
Proof.
  intros H. unfold cb14_calc_depth_2_5. cbn [truthy]. rewrite feqb_fin. 
  destruct (Reqb_spec v 0); [contradiction|]. cbn [negb]. unfold cb14_z25. destruct (is_str re "japan"); reflexivity.
Qed.

Lemma result_skip {A} (m : M unit) (k : M A) : result m = Ok tt -> result (bind m (fun _ => k)) = result k.
Proof. intros H. rewrite result_bind, H. reflexivity. Qed.
Definition cb14_scen (x : R) (a : nga) : scen := Scen
    [("depth_1_0", onum (n_z1 a)); ("depth_2_5", onum (n_z25 a)); ("depth_bor", onum (n_bor a));
     ("depth_bot", PNum (odef (n_bot a) $15.0%flt)); ("depth_hyp", onum (n_hyp a)); ("depth_tor", onum (n_tor a));
     ("dip", PNum (Fin (n_dip a))); ("dist_jb", PNum (Fin (n_jb a))); ("dist_rup", PNum (Fin (n_rup a)));
     ("dist_x", PNum (Fin x)); ("mag", PNum (Fin (n_mag a))); ("v_s30", PNum (Fin (n_v a)));
     ("width", onum (n_width a)); ("region", cb14_region a); ("mechanism", cb14_mech a)] [].
Lemma cb14_prep_ok x a : n_v a <> 0 -> exists s, result (cb14_prep (cb14_scen x a)) = Ok s /\ result (cb14_read s) = Ok (cb14_input x a).
Proof.
  intros Hv. unfold cb14_prep, cb14_input, cb14_scen, cb14_hyp, cb14_bor, cb14_width, cb14_tor. generalize (cb14_mech a) (cb14_region a); intros me re.
  read_nums.
  match goal with |- exists s, result (bind ?w1 (fun _ => bind ?w2 (fun _ => bind ?w3 (fun _ => ?k)))) = _ /\ _ =>
    replace (result (bind w1 (fun _ => bind w2 (fun _ => bind w3 (fun _ => k))))) with (result k) end.
  2:{ symmetry. rewrite !result_skip; [reflexivity| | |]; destruct (_ && _); reflexivity. }
  read_nums. rewrite (cb14_z25_ok (n_v a) re) by exact Hv.
  generalize (cb14_z25 (n_v a) re); intros zz.
  destruct (n_z25 a), (n_tor a), (n_width a), (n_bor a), (n_hyp a); eexists; split; reflexivity.
Qed.
Definition cb14_ref2 (x : R) (a : nga) : flt := if fisnan (cb14_pga_ref_of x a) then cb14_z25 (n_v a) (cb14_region a) else NaN.
Definition cb14_resp (x : R) (a : nga) (c : cb14_row) : flt := cb14_ln_resp c (cb14_input x a) (cb14_pga_ref_of x a) (Fin (n_v a)) (cb14_ref2 x a).
Definition cb14_std (x : R) (a : nga) (c : cb14_row) : flt := fst (fst (cb14_ln_std c (Fin (n_mag a)) (Fin (n_v a)) (cb14_pga_ref_of x a))).
Lemma cb14_construct src a x t : nga_gives src a -> n_x a = Some x -> n_mech a = Some t -> n_v a <> 0 ->
  exists s, result (cb14 src) = Ok (GMM cb14_class s (map (cb14_resp x a) cb14_coeff) (Some (map (cb14_std x a) cb14_coeff))).
Proof.
  intros H Hx Ht Hv. unfold nga_gives, has_num, gives_num, gives_str, gives_bool in H.
  rewrite Hx, Ht in H. cbn [onum ostr] in H. repeat (destruct H as [? H]).
  unfold cb14. rewrite gmm_make_prep_result by reflexivity.
  let x := eval cbv [gc_params cb14_class NumP CatP CatBoolP map] in (gc_params cb14_class) in change (gc_params cb14_class) with x.
  run_checks_nga. rewrite chk_str_req. cbn [checks].
  rewrite <- Ht. fold (cb14_mech a) (cb14_region a) (cb14_scen x a).
  destruct (cb14_prep_ok x a Hv) as (s & P1 & P2). exists s. rewrite P1. rewrite result_bind, P2.
  cbn [cb_region cb14_input]. rewrite (cb14_z25_ok 1100) by lra. rewrite bind_ret_l.
  change (cb14_pga_ref _ _) with (cb14_pga_ref_of x a). cbn [cb_v_s30 cb_mag cb14_input]. rewrite (cb14_z25_ok (n_v a)) by exact Hv.
  unfold cb14_resp, cb14_std, cb14_ref2. destruct (fisnan (cb14_pga_ref_of x a)); reflexivity.
Qed.

Definition cb14_psa : list cb14_row := firstn 21 cb14_coeff.
Definition cb14_pgv_row : cb14_row := ltac:(let x := eval cbv in (nth_error cb14_coeff 22) in match x with Some ?c => exact c end).
Lemma cb14_pga_in : In cb14_pga_row cb14_coeff.
Proof. apply (nth_error_In cb14_coeff 21). reflexivity. Qed.
Lemma cb14_pgv_in : In cb14_pgv_row cb14_coeff.
Proof. apply (nth_error_In cb14_coeff 22). reflexivity. Qed.
Lemma cb14_psa_in : incl cb14_psa cb14_coeff.
Proof. intros c Hc. rewrite <- (firstn_skipn 21 cb14_coeff). apply in_or_app; left; exact Hc. Qed.
Definition cb14_outs (x : R) (a : nga) : outs := row_outs cb14_psa cb14_pga_row cb14_pgv_row (Fin 1) (cb14_resp x a) (cb14_std x a).
Lemma cb14_out src a x t : nga_gives src a -> n_x a = Some x -> n_mech a = Some t -> n_v a <> 0 -> gmm_out (cb14 src) (cb14_outs x a).
Proof.
  intros H Hx Ht Hv. destruct (cb14_construct src a x t H Hx Ht Hv) as [s E].
  eapply gmm_out_rows in E; [exact E | reflexivity..].
Qed.
Ltac cb14_same := apply row_outs_ext with (rows := cb14_coeff); [apply cb14_psa_in | apply cb14_pga_in | apply cb14_pgv_in | |].
Ltac cb14_lt := apply row_resp_lt with (rows := cb14_coeff); [apply cb14_psa_in | apply cb14_pga_in | apply cb14_pgv_in |].
Ltac cb14_fields := cbn [cb_mag cb_dist_rup cb_dist_jb cb_dist_x cb_dip cb_width cb_depth_tor cb_depth_hyp cb_depth_2_5 cb_v_s30 cb_mechanism cb_region].

(** ** China has no effect *)
Lemma cb14_china_row c x a r2 pga v rd : In r2 ["global"; "california"] ->
  cb14_ln_resp c (cb14_input x (with_region a (Some "china"))) pga v rd = cb14_ln_resp c (cb14_input x (with_region a (Some r2))) pga v rd.
Proof. intros [<-|[<-|[]]]; destruct a; reflexivity. Qed.
Lemma cb14_china_ref x a r2 : In r2 ["global"; "california"] ->
  cb14_pga_ref_of x (with_region a (Some "china")) = cb14_pga_ref_of x (with_region a (Some r2)).
Proof.
  intros H. unfold cb14_pga_ref_of, cb14_pga_ref. rewrite (cb14_china_row _ _ _ r2) by exact H.
  destruct H as [<-|[<-|[]]]; destruct a; reflexivity.
Qed.
Theorem cb14_china_same src1 src2 a x t r2 : In r2 ["global"; "california"] ->
  nga_gives src1 (with_region a (Some "china")) -> nga_gives src2 (with_region a (Some r2)) ->
  n_x a = Some x -> n_mech a = Some t -> n_v a <> 0 ->
  exists o, gmm_out (cb14 src1) o /\ gmm_out (cb14 src2) o.
Proof.
  intros Hr G1 G2 Hx Ht Hv. exists (cb14_outs x (with_region a (Some "china"))).
  split; [apply (cb14_out _ _ _ t); [exact G1|destruct a; exact Hx|destruct a; exact Ht|destruct a; exact Hv]|].
  replace (cb14_outs x (with_region a (Some "china"))) with (cb14_outs x (with_region a (Some r2)));
    [apply (cb14_out _ _ _ t); [exact G2|destruct a; exact Hx|destruct a; exact Ht|destruct a; exact Hv]|].
  cb14_same.
  - intros c Hc. unfold cb14_resp, cb14_ref2. rewrite (cb14_china_row c x a r2), (cb14_china_ref x a r2) by exact Hr.
    destruct Hr as [<-|[<-|[]]]; destruct a; reflexivity.
  - intros c Hc. unfold cb14_std. rewrite (cb14_china_ref x a r2) by exact Hr. destruct a; reflexivity.
Qed.

(** ** Inputs without effect *)
Theorem cb14_depth_1_0_unused src1 src2 a z x t : nga_gives src1 a -> nga_gives src2 (with_z1 a z) ->
  n_x a = Some x -> n_mech a = Some t -> n_v a <> 0 ->
  exists o, gmm_out (cb14 src1) o /\ gmm_out (cb14 src2) o.
Proof.
  intros G1 G2 Hx Ht Hv. exists (cb14_outs x a). split; [apply (cb14_out _ _ _ t); assumption|].
  replace (cb14_outs x a) with (cb14_outs x (with_z1 a z)); [apply (cb14_out _ _ _ t); [exact G2|destruct a; exact Hx|destruct a; exact Ht|destruct a; exact Hv]|].
  destruct a; reflexivity.
Qed.
Lemma cb14_unk_input x a t : existsb (String.eqb t) ["SS"; "NS"; "RS"] = false ->
  cb14_mech (with_mech a (Some t)) = PNone /\
  forall c pga v rd, cb14_ln_resp c (cb14_input x (with_mech a (Some t))) pga v rd = cb14_ln_resp c (cb14_input x (with_mech a (Some "SS"))) pga v rd.
Proof.
  intros H. assert (M : cb14_mech (with_mech a (Some t)) = PNone) by (unfold cb14_mech; replace (n_mech (with_mech a (Some t))) with (Some t) by (destruct a; reflexivity); unfold choice; rewrite H; reflexivity).
  split; [exact M|]. intros c pga v rd.
  assert (T : cb14_tor (with_mech a (Some t)) = cb14_tor (with_mech a (Some "SS"))) by (unfold cb14_tor; rewrite M; destruct a; reflexivity).
  assert (W : cb14_width (with_mech a (Some t)) = cb14_width (with_mech a (Some "SS"))) by (unfold cb14_width; rewrite T; destruct a; reflexivity).
  assert (B : cb14_bor (with_mech a (Some t)) = cb14_bor (with_mech a (Some "SS"))) by (unfold cb14_bor; rewrite T, W; destruct a; reflexivity).
  assert (Y : cb14_hyp (with_mech a (Some t)) = cb14_hyp (with_mech a (Some "SS"))) by (unfold cb14_hyp; rewrite T, B; destruct a; reflexivity).
  unfold cb14_input. rewrite M, T, W, Y. destruct a; reflexivity.
Qed.
Theorem cb14_unknown_mechanism src1 src2 a x t : existsb (String.eqb t) ["SS"; "NS"; "RS"] = false ->
  nga_gives src1 (with_mech a (Some t)) -> nga_gives src2 (with_mech a (Some "SS")) -> n_x a = Some x -> n_v a <> 0 ->
  exists o, gmm_out (cb14 src1) o /\ gmm_out (cb14 src2) o.
Proof.
  intros H G1 G2 Hx Hv. destruct (cb14_unk_input x a t H) as [_ E]. exists (cb14_outs x (with_mech a (Some t))).
  split; [apply (cb14_out _ _ _ t); [exact G1|destruct a; exact Hx|destruct a; reflexivity|destruct a; exact Hv]|].
  replace (cb14_outs x (with_mech a (Some t))) with (cb14_outs x (with_mech a (Some "SS")));
    [apply (cb14_out _ _ _ "SS"); [exact G2|destruct a; exact Hx|destruct a; reflexivity|destruct a; exact Hv]|].
  assert (P : cb14_pga_ref_of x (with_mech a (Some t)) = cb14_pga_ref_of x (with_mech a (Some "SS"))).
  { unfold cb14_pga_ref_of, cb14_pga_ref. rewrite E. destruct a; reflexivity. }
  cb14_same.
  - intros c Hc. unfold cb14_resp, cb14_ref2. rewrite E, P. destruct a; reflexivity.
  - intros c Hc. unfold cb14_std. rewrite P. destruct a; reflexivity.
Qed.

(** ** Finiteness *)
(** Rupture geometries without the indeterminate 0/0 of the hanging-wall term: a site
    exactly above the top edge needs a fault of non-zero horizontal extent. *)
Definition geom_ok (x : R) (a : nga) : Prop := 0 < n_dip a <= 90 /\
  (x = 0 -> n_dip a < 90 /\ match n_width a with Some w => w <> 0 | None => n_tor a = None /\ n_bot a = None end).
Lemma sin_dip_pos d : 0 < d <= 90 -> 0 < sin (d * (PI / 180)).
Proof. intros H. pose proof PI_RGT_0. apply sin_gt_0; [apply Rmult_lt_0_compat; lra|]. nra. Qed.
Lemma fin_cb14_tor a : finite (cb14_tor a).
Proof. unfold cb14_tor. apply finite_odef, fin_tor. Qed.
Lemma fin_cb14_width a : 0 < n_dip a <= 90 -> finite (cb14_width a).
Proof.
  intros H. unfold cb14_width. apply finite_odef. unfold cb14_calc_width. destruct (fin_cb14_tor a) as [t ->].
  assert (F : finite (odef (n_bot a) $15.0%flt)) by (apply finite_odef, finite_fin). destruct F as [b ->].
  unfold fradians. fcbn. pose proof (sin_dip_pos _ H) as S. rewrite !fdiv_fin by lra. fcbn.
  match goal with |- context [exp ?y] => pose proof (exp_pos y) end. rewrite fsqrt_fin by lra. rewrite pymin_fin. apply finite_fin.
Qed.
Lemma finite_pymin_l x y : finite x -> y = NaN \/ y = NInf \/ finite y -> finite (pymin x y) \/ pymin x y = NInf.
Proof.
  intros [a ->] [->|[->|[b ->]]]; [left; exists a; reflexivity | right; reflexivity | left; rewrite pymin_fin; eexists; reflexivity].
Qed.
Lemma fin_cb14_hyp a : 0 < n_dip a <= 90 -> finite (cb14_hyp a).
Proof.
  intros H. unfold cb14_hyp. apply finite_odef. unfold cb14_calc_depth_hyp.
  pose proof (fin_cb14_tor a) as T. pose proof (fin_cb14_width a H) as W.
  assert (B : finite (cb14_bor a)).
  { unfold cb14_bor. apply finite_odef. unfold cb14_calc_depth_bor, fradians. fsplit; assumption. }
  apply finite_fadd; [exact T|].
  match goal with |- finite (fexp (pymin ?x ?y)) => assert (X : finite x) by fsplit; assert (Y : y = NaN \/ y = NInf \/ finite y) end.
  { destruct T as [t ->]. destruct B as [b ->]. fcbn. unfold flog. destruct (Rltb _ _); [right; right; apply finite_fin|]. destruct (Reqb _ _); auto. }
  destruct (finite_pymin_l _ _ X Y) as [F| ->]; [apply finite_fexp; exact F|]. exists 0. reflexivity.
Qed.
Lemma fin_z25 v re : 0 < v -> finite (cb14_z25 v re).
Proof. intros H. unfold cb14_z25. destruct (is_str _ _); fsplit. Qed.
Lemma cy14_tor_range m me : exists t, cy14_calc_depth_tor (Fin m) me = Fin t /\ 0 <= t <= 7.32.
Proof.
  unfold cy14_calc_depth_tor.
  set (d := if is_str me "RS" then _ else _).
  assert (D : exists x, d = Fin x /\ x <= 2.704).
  { unfold d. destruct (is_str me "RS"); fcbn; rewrite pymax_fin; fcbn; eexists; (split; [reflexivity|]);
    match goal with |- context [Rmax ?u 0] => pose proof (Rmax_r u 0) end; lra. }
  destruct D as (x & -> & Hx). rewrite pymax_fin. fcbn. eexists; split; [reflexivity|].
  assert (0 <= Rmax x 0 <= 2.704) by (split; [apply Rmax_r|apply Rmax_lub; lra]). nra.
Qed.
Lemma cb14_R1_nonzero x a w : geom_ok x a -> x = 0 -> cb14_width a = Fin w -> w * cos (n_dip a * (PI / 180)) <> 0.
Proof.
  intros [Hd Hx] Z E. destruct (Hx Z) as [L G].
  assert (C : 0 < cos (n_dip a * (PI / 180))) by (pose proof PI_RGT_0; apply cos_gt_0; nra).
  apply Rmult_integral_contrapositive. split; [|lra].
  revert E. unfold cb14_width. destruct (n_width a) as [w'|]; cbn [odef]; [intros E; injection E as <-; exact G|].
  destruct G as [G1 G2]. unfold cb14_tor. rewrite G1, G2. cbn [odef].
  destruct (cy14_tor_range (n_mag a) (cb14_mech a)) as (t & -> & Ht).
  pose proof (sin_dip_pos _ Hd) as S. unfold cb14_calc_width, fradians. fcbn. rewrite !fdiv_fin by lra. fcbn.
  match goal with |- context [exp ?y] => pose proof (exp_pos y) as Ep end. rewrite fsqrt_fin by lra. rewrite pymin_fin. intros E; injection E as <-.
  apply Rgt_not_eq. apply Rmin_glb_lt; [apply sqrt_lt_R0; exact Ep|apply Rdiv_lt_0_compat; lra].
Qed.
Lemma cb14_hng_finite c x a : In c cb14_coeff -> geom_ok x a -> finite (cb14_f_hng c (cb14_input x a)).
Proof.
  intros Hc HG. unfold cb14_f_hng, cb14_input; cb14_fields.
  destruct (fin_cb14_tor a) as [t ->]. destruct (fin_cb14_width a (proj1 HG)) as [w Ew]. pose proof (cb14_R1_nonzero x a w HG) as HR. rewrite Ew.
  row_lt Hc cb14_h_5 (fun _ : cb14_row => (0#1)%Q) as H5. row_lt Hc cb14_h_6 (fun _ : cb14_row => (0#1)%Q) as H6.
  set (hrx := if ($x <? $0)%flt then _ else _).
  assert (F1 : finite hrx).
  { unfold hrx, fradians. fcbn. set (R1 := w * cos (n_dip a * (PI / 180))) in *. 
    destruct (Rltb_spec x 0); [apply finite_fin|].
    destruct (Rleb_spec x R1).
    - assert (R1 <> 0) by (destruct (Req_dec x 0); [apply HR; assumption|lra]).
      rewrite fdiv_fin by assumption. unfold qf. fcbn. apply finite_fin.
    - set (R2 := 62 * n_mag a - 350). destruct (Req_dec (R2 - R1) 0) as [Z|Z].
      + unfold qf. unfold fdiv. rewrite Reqb_true by exact Z. unfold inf_signed. rewrite Rltb_true by lra.
        unfold fsq, fmul, inf_signed. rewrite !(Rltb_false 0) by lra. rewrite !Rltb_true by lra. exists 0. reflexivity.
      + rewrite fdiv_fin by exact Z. unfold qf. fcbn. apply finite_fin. }
  clearbody hrx. destruct F1 as [h ->].
  set (hrr := if ($(n_rup a) =? $0)%flt then _ else _).
  assert (F2 : finite hrr).
  { unfold hrr. fcbn. destruct (Reqb_spec (n_rup a) 0); [apply finite_fin|]. rewrite fdiv_fin by assumption. apply finite_fin. }
  clearbody hrr. fsplit; auto.
Qed.
Lemma cb14_site_finite c p v d re rd : In c cb14_coeff -> 0 < v -> (fisnan p = true -> 1086 < v) -> fisnan p = true \/ fpos p -> finite d -> finite rd \/ fisnan p = false ->
  finite (cb14_site_term c p (Fin v) d re rd).
Proof.
  intros Hc Hv Hn Hp Hd Hrd. row_pos Hc cb14_k_1 as K1. row_upto Hc cb14_k_1 (1086#1)%Q as K2.
  unfold cb14_site_term.
  assert (V : fpos (Fin v / qf (cb14_k_1 c))%flt) by fsplit.
  set (vr := (Fin v / qf (cb14_k_1 c))%flt) in *.
  set (dd := if fisnan p then rd else d).
  assert (D : finite dd) by (unfold dd; destruct (fisnan p); [destruct Hrd; [assumption|discriminate]|assumption]).
  apply finite_fadd.
  - assert (S : finite (if (Fin v <=? qf (cb14_k_1 c))%flt
       then (qf (cb14_c_11 c) * flog vr + qf (cb14_k_2 c) * (flog (p + $1.88 * fpow vr 1.18) - flog (p + $1.88)))%flt
       else ((qf (cb14_c_11 c) + qf (cb14_k_2 c) * $1.18) * flog vr)%flt)).
    { unfold qf at 1. fcbn. destruct (Rleb_spec v (Q2R (cb14_k_1 c))).
      - destruct Hp as [Hp|Hp]; [specialize (Hn Hp); lra|]. fsplit; auto with fltdb.
      - fsplit; auto. }
    set (s0 := if (Fin v <=? qf (cb14_k_1 c))%flt then _ else _) in *. clearbody s0. clearbody vr. fsplit; auto with fltdb.
  - clearbody dd. fsplit; auto.
Qed.
Lemma cb14_resp_finite_gen c x a p v rd : In c cb14_coeff -> geom_ok x a -> 0 < n_v a -> 0 < v -> (fisnan p = true -> 1086 < v) -> fisnan p = true \/ fpos p ->
  finite rd \/ fisnan p = false -> finite (cb14_ln_resp c (cb14_input x a) p (Fin v) rd).
Proof.
  intros Hc HG Hva Hv Hn Hp Hrd. unfold cb14_ln_resp. pose proof (cb14_hng_finite c x a Hc HG) as F.
  set (hg := cb14_f_hng _ _) in *. clearbody hg. unfold cb14_input; cb14_fields.
  pose proof (fin_cb14_hyp a (proj1 HG)) as Y. row_pos Hc cb14_c_7 as H7.
  assert (S : finite (cb14_site_term c p (Fin v) (odef (n_z25 a) (cb14_z25 (n_v a) (cb14_region a))) (cb14_region a) rd)).
  { apply cb14_site_finite; auto. apply finite_odef, fin_z25; assumption. }
  set (st := cb14_site_term _ _ _ _ _ _) in *. clearbody st.
  assert (M : finite (cb14_f_mag c (Fin (n_mag a)))) by (unfold cb14_f_mag; fsplit).
  set (fm := cb14_f_mag _ _) in *. clearbody fm.
  fsplit; auto.
  apply fpos_add_nn; fsplit. apply fpos_sq; fsplit.
Qed.
Lemma cb14_pga_ref_pos x a : geom_ok x a -> 0 < n_v a -> fpos (cb14_pga_ref_of x a).
Proof.
  intros HG Hv. unfold cb14_pga_ref_of, cb14_pga_ref. apply fpos_fexp. apply cb14_resp_finite_gen; auto.
  - apply cb14_pga_in.
  - lra.
  - intros _; lra.
  - left. apply fin_z25. lra.
Qed.
Lemma fpos_nan p : fpos p -> fisnan p = false.
Proof. intros (x & -> & _). reflexivity. Qed.
Lemma cb14_resp_finite c x a : In c cb14_coeff -> geom_ok x a -> 0 < n_v a -> finite (cb14_resp x a c).
Proof.
  intros Hc HG Hv. pose proof (cb14_pga_ref_pos x a HG Hv) as P. pose proof (fpos_nan _ P) as N. unfold cb14_resp.
  apply cb14_resp_finite_gen; auto. rewrite N. discriminate.
Qed.

(** ** Standard deviation *)
Definition clipd (m : R) : R := Rmin (Rmax (5.5 - m) 0) 1.
Lemma clipd_range m : 0 <= clipd m <= 1.
Proof. unfold clipd. split; [apply Rmin_glb; [apply Rmax_r|lra]|apply Rmin_r]. Qed.
Definition cb14_tauR (c : cb14_row) (m : R) : R := Q2R (cb14_tau_2 c) + (Q2R (cb14_tau_1 c) - Q2R (cb14_tau_2 c)) * clipd m.
Definition cb14_phiR (c : cb14_row) (m : R) : R := Q2R (cb14_phi_2 c) + (Q2R (cb14_phi_1 c) - Q2R (cb14_phi_2 c)) * clipd m.
Lemma cb14_tau_eq c m : cb14_tau_lnY c (Fin m) = Fin (cb14_tauR c m).
Proof. unfold cb14_tau_lnY, qf. fcbn. rewrite fclip_fin. reflexivity. Qed.
Lemma cb14_phi_eq c m : cb14_phi_lnY c (Fin m) = Fin (cb14_phiR c m).
Proof. unfold cb14_phi_lnY, qf. fcbn. rewrite fclip_fin. reflexivity. Qed.
Lemma cb14_phi_low c m : In c cb14_coeff -> 0.44 <= cb14_phiR c m <= 0.79.
Proof.
  intros Hc. unfold cb14_phiR. row_ge Hc (44#100)%Q cb14_phi_1 as A. row_ge Hc (44#100)%Q cb14_phi_2 as B.
  row_upto Hc cb14_phi_1 (79#100)%Q as C. row_upto Hc cb14_phi_2 (79#100)%Q as D.
  pose proof (clipd_range m) as K. set (t := clipd m) in *. clearbody t.
  replace (Q2R (cb14_phi_2 c) + (Q2R (cb14_phi_1 c) - Q2R (cb14_phi_2 c)) * t) with (Q2R (cb14_phi_2 c) * (1 - t) + Q2R (cb14_phi_1 c) * t) by lra.
  split; nra.
Qed.
Lemma cb14_tau_low c m : In c cb14_coeff -> 0.26 <= cb14_tauR c m <= 0.55.
Proof.
  intros Hc. unfold cb14_tauR. row_ge Hc (26#100)%Q cb14_tau_1 as A. row_ge Hc (26#100)%Q cb14_tau_2 as B.
  row_upto Hc cb14_tau_1 (55#100)%Q as C. row_upto Hc cb14_tau_2 (55#100)%Q as D.
  pose proof (clipd_range m) as K. set (t := clipd m) in *. clearbody t.
  replace (Q2R (cb14_tau_2 c) + (Q2R (cb14_tau_1 c) - Q2R (cb14_tau_2 c)) * t) with (Q2R (cb14_tau_2 c) * (1 - t) + Q2R (cb14_tau_1 c) * t) by lra.
  split; nra.
Qed.
Lemma cb14_alpha_finite c p v : In c cb14_coeff -> 0 < v -> fpos p -> finite (cb14_alpha c p (Fin v)).
Proof.
  intros Hc Hv Hp. row_pos Hc cb14_k_1 as K. unfold cb14_alpha.
  assert (V : fpos (Fin v / qf (cb14_k_1 c))%flt) by fsplit. set (vr := (Fin v / qf (cb14_k_1 c))%flt) in *. clearbody vr.
  apply finite_if; [|apply finite_fin]. fsplit; auto with fltdb.
Qed.
(** The quadratic form under the roots is non-negative for a correlation in [-1,1]. *)
Lemma quad_nonneg y z al rho : -1 <= rho <= 1 -> 0 <= y * y + al * al * (z * z) + 2 * al * rho * y * z.
Proof.
  intros H. replace (y * y + al * al * (z * z) + 2 * al * rho * y * z)
    with ((y + rho * (al * z)) * (y + rho * (al * z)) + (1 - rho * rho) * ((al * z) * (al * z))) by ring.
  pose proof (Rle_0_sqr (y + rho * (al * z))) as A. pose proof (Rle_0_sqr (al * z)) as B. unfold Rsqr in A, B.
  assert (0 <= 1 - rho * rho) by nra. assert (0 <= (1 - rho * rho) * (al * z * (al * z))) by (apply Rmult_le_pos; lra). lra.
Qed.
Lemma cb14_std_form c m v p : In c cb14_coeff -> 0 < v -> fpos p ->
  exists al sg tau phi, cb14_alpha c p (Fin v) = Fin al /\ cb14_ln_std c (Fin m) (Fin v) p = (Fin sg, Fin tau, Fin phi) /\
    0 <= tau /\ 0.3 <= phi /\ sg * sg = tau * tau + phi * phi /\ 0.3 <= sg /\
    tau * tau = cb14_tauR c m * cb14_tauR c m + al * al * (cb14_tauR cb14_pga_row m * cb14_tauR cb14_pga_row m)
              + 2 * al * Q2R (cb14_rho_lnPGAlnY c) * cb14_tauR c m * cb14_tauR cb14_pga_row m /\
    (al = 0 -> tau = cb14_tauR c m /\ phi = cb14_phiR c m).
Proof.
  intros Hc Hv Hp. destruct (cb14_alpha_finite c p v Hc Hv Hp) as [al Ea]. exists al.
  pose proof (cb14_phi_low c m Hc) as P1. pose proof (cb14_phi_low _ m cb14_pga_in) as P2. pose proof (cb14_tau_low c m Hc) as T1.
  row_is Hc cb14_phi_lnAF (3#10)%Q as A1. pose proof cb14_pga_in as Hg. row_is Hg cb14_phi_lnAF (3#10)%Q as A2.
  row_ge Hc (0#1)%Q cb14_rho_lnPGAlnY as R1. row_upto Hc cb14_rho_lnPGAlnY (1#1)%Q as R2.
  unfold cb14_ln_std. rewrite !cb14_tau_eq, !cb14_phi_eq, Ea. unfold qf. rewrite A1, A2.
  set (ty := cb14_tauR c m) in *. set (tp := cb14_tauR cb14_pga_row m) in *. set (py := cb14_phiR c m) in *. set (pp := cb14_phiR cb14_pga_row m) in *.
  set (rho := Q2R (cb14_rho_lnPGAlnY c)) in *. clearbody ty tp py pp rho.
  fcbn. set (q := 3 * / 10). assert (Q : q = 0.3) by (unfold q; lra). clearbody q. subst q.
  rewrite (fsqrt_fin (pp * pp - _)) by nra. rewrite (fsqrt_fin (py * py - _)) by nra.
  set (yb := sqrt (py * py - _)). set (pb := sqrt (pp * pp - _)).
  assert (YB : yb * yb = py * py - 0.3 * 0.3) by (apply sqrt_sqrt; nra). assert (PB : pb * pb = pp * pp - 0.3 * 0.3) by (apply sqrt_sqrt; nra).
  assert (Y0 : 0 <= yb) by apply sqrt_pos. clearbody yb pb.
  fcbn. pose proof (quad_nonneg ty tp al rho ltac:(lra)) as Q1. rewrite (fsqrt_fin (ty * ty + _ + _)) by lra.
  pose proof (quad_nonneg yb pb al rho ltac:(lra)) as Q2. rewrite PB in Q2.
  rewrite (fsqrt_fin (yb * yb + _ + _ + _)) by lra.
  set (phi := sqrt (yb * yb + _ + _ + _)). set (tau := sqrt (ty * ty + _ + _)).
  assert (PHI : phi * phi = yb * yb + 0.3 * 0.3 + al * al * (pp * pp - 0.3 * 0.3) + 2 * al * rho * yb * pb) by (apply sqrt_sqrt; lra).
  assert (TAU : tau * tau = ty * ty + al * al * (tp * tp) + 2 * al * rho * ty * tp) by (apply sqrt_sqrt; lra).
  assert (PH0 : 0 <= phi) by apply sqrt_pos. assert (TA0 : 0 <= tau) by apply sqrt_pos.
  assert (PH : 0.3 <= phi) by (apply Rsqr_incr_0_var; [unfold Rsqr; lra|exact PH0]).
  clearbody phi tau. fcbn.
  rewrite fsqrt_fin by nra. set (sg := sqrt _). assert (SG : sg * sg = phi * phi + tau * tau) by (apply sqrt_sqrt; nra).
  assert (0 <= sg) by apply sqrt_pos. clearbody sg.
  exists sg, tau, phi. split; [reflexivity|]. split; [reflexivity|]. split; [exact TA0|]. split; [exact PH|]. split; [lra|].
  split; [apply Rsqr_incr_0_var; [unfold Rsqr; nra|assumption]|]. split; [exact TAU|].
  intros ->. split; (apply Rsqr_inj; [assumption|lra|unfold Rsqr; nra]).
Qed.
Lemma cb14_positive src a x t : nga_gives src a -> n_x a = Some x -> n_mech a = Some t -> geom_ok x a -> 0 < n_v a ->
  exists o, gmm_out (cb14 src) o /\ List.length (o_sa o) = 21%nat /\ List.length (o_sd o) = 21%nat /\
    all_resp fpos o /\ all_std (fun s => exists r, s = Fin r /\ 0.3 <= r) o.
Proof.
  intros H Hx Ht HG Hv. exists (cb14_outs x a). split; [apply (cb14_out _ _ _ t); try assumption; lra|].
  split; [reflexivity|]. split; [reflexivity|].
  assert (S : forall c, In c cb14_coeff -> exists r, cb14_std x a c = Fin r /\ 0.3 <= r).
  { intros c Hc. destruct (cb14_std_form c (n_mag a) (n_v a) _ Hc Hv (cb14_pga_ref_pos x a HG Hv)) as (al & sg & tau & phi & _ & E & _ & _ & _ & L & _).
    exists sg. unfold cb14_std. rewrite E. split; [reflexivity|exact L]. }
  split.
  - refine (proj1 (row_outs_fpos cb14_coeff cb14_psa cb14_pga_row cb14_pgv_row _ _ cb14_psa_in cb14_pga_in cb14_pgv_in _ _)).
    + intros c Hc. apply cb14_resp_finite; assumption.
    + intros c Hc. destruct (S c Hc) as (r & -> & L). apply fpos_fin. lra.
  - unfold all_std, cb14_outs, row_outs; cbn [o_sd o_sd_pga o_sd_pgv].
    split; [apply Forall_map_intro; intros c Hc; apply S, cb14_psa_in, Hc|].
    split; [apply S, cb14_pga_in|apply S, cb14_pgv_in].
Qed.
(** On rock sigma depends on the magnitude only, and not at all above 5.5. *)
Theorem cb14_sigma_rock src1 src2 a1 a2 x1 x2 t1 t2 : nga_gives src1 a1 -> nga_gives src2 a2 ->
  n_x a1 = Some x1 -> n_x a2 = Some x2 -> n_mech a1 = Some t1 -> n_mech a2 = Some t2 -> geom_ok x1 a1 -> geom_ok x2 a2 ->
  1086 <= n_v a1 -> 1086 <= n_v a2 -> n_mag a1 = n_mag a2 \/ (5.5 <= n_mag a1 /\ 5.5 <= n_mag a2) ->
  exists o1 o2, gmm_out (cb14 src1) o1 /\ gmm_out (cb14 src2) o2 /\ std2 eq o1 o2.
Proof.
  intros G1 G2 X1 X2 T1 T2 Q1 Q2 V1 V2 Hm. exists (cb14_outs x1 a1), (cb14_outs x2 a2).
  split; [apply (cb14_out _ _ _ t1); try assumption; lra|]. split; [apply (cb14_out _ _ _ t2); try assumption; lra|].
  assert (CL : clipd (n_mag a1) = clipd (n_mag a2)).
  { destruct Hm as [-> | [M1 M2]]; [reflexivity|]. unfold clipd. rewrite !(Rmax_right _ 0) by lra. reflexivity. }
  assert (S : forall c, In c cb14_coeff -> cb14_std x1 a1 c = cb14_std x2 a2 c).
  { intros c Hc. unfold cb14_std. row_upto Hc cb14_k_1 (1086#1)%Q as K.
    assert (Z : forall p v al, 1086 <= v -> cb14_alpha c p (Fin v) = Fin al -> al = 0).
    { intros p v al Hv. unfold cb14_alpha, qf at 1. fcbn. rewrite Rltb_false by lra. intros E; injection E as <-; reflexivity. }
    destruct (cb14_std_form c (n_mag a1) (n_v a1) _ Hc ltac:(lra) (cb14_pga_ref_pos x1 a1 Q1 ltac:(lra))) as (al & sg & tau & phi & A & E & t0 & p0 & R & L & _ & U).
    destruct (cb14_std_form c (n_mag a2) (n_v a2) _ Hc ltac:(lra) (cb14_pga_ref_pos x2 a2 Q2 ltac:(lra))) as (al' & sg' & tau' & phi' & A' & E' & t0' & p0' & R' & L' & _ & U').
    apply Z in A; [|assumption]. apply Z in A'; [|assumption]. destruct (U A) as [-> ->]. destruct (U' A') as [-> ->].
    rewrite E, E'. cbn [fst]. f_equal. apply Rsqr_inj; [lra|lra|]. unfold Rsqr. rewrite R, R'. unfold cb14_tauR, cb14_phiR. rewrite CL. reflexivity. }
  unfold std2, cb14_outs, row_outs; cbn [o_sd o_sd_pga o_sd_pgv].
  split; [apply Forall2_map_intro; intros c Hc; apply S, cb14_psa_in, Hc|]. split; apply S; [apply cb14_pga_in|apply cb14_pgv_in].
Qed.
