(** * Proofs for Tavakoli & Pezeshk (2005) *)
From Coquelicot Require Import Coquelicot.
From Interval Require Import Tactic.
From Coq Require Import List.
From Verif Require Import M_tp05 FrameworkProofs Anal.
Open Scope R_scope.
Open Scope string_scope.
Open Scope list_scope.

Definition tp05_inst (m r : R) : gmm :=
  GMM tp05_class (Scen [("dist_rup", PNum (Fin r)); ("mag", PNum (Fin m))] [])
    (map (fun c => tp05_ln_resp c (Fin m) (Fin r)) tp05_coeff)
    (Some (map (fun c => tp05_ln_std c (Fin m)) tp05_coeff)).
Lemma tp05_construct src m r : has_num src "mag" m -> has_num src "dist_rup" r ->
  result (tp05 src) = Ok (tp05_inst m r).
Proof. intros Hm Hr. unfold tp05. construct tp05_class. read_nums. reflexivity. Qed.

Lemma fpow_finite a p : 0 <= a -> 0 < p -> finite (fpow (Fin a) p).
Proof.
  intros Ha Hp. destruct (Req_dec a 0) as [->|Hne]; [rewrite fpow_zero by lra|rewrite fpow_fin by lra]; apply finite_fin.
Qed.

Lemma tp05_row_finite c m r : In c tp05_coeff -> m <= 8.5 -> 0 <= r ->
  finite (tp05_ln_resp c (Fin m) (Fin r)).
Proof.
  intros Hin Hm Hr.
  row_lt Hin (fun c => tp05_c_5 c) (fun _ : tp05_row => 0 # 1) as H5.
  destruct (fpow_finite (8.5 - m) 2.5 ltac:(lra) ltac:(lra)) as [p Hp].
  unfold tp05_ln_resp. fcbn. rewrite Hp. fcbn.
  set (h := Q2R (tp05_c_5 c) * exp _).
  assert (Hh : h < 0).
  { unfold h. match goal with |- context [exp ?x] => pose proof (exp_pos x) end. nra. }
  rewrite fsqrt_fin by nra. rewrite (flog_fin (sqrt _)) by (apply sqrt_lt_R0; nra).
  rewrite (flog_fin (r + 4.5)) by lra.
  destruct (Rltb_spec 70 r), (Rltb_spec 130 r); try lra.
  all: rewrite ?fdiv_fin by lra.
  all: rewrite ?(flog_fin (r/70)) by (apply Rdiv_lt_0_compat; lra);
       rewrite ?(flog_fin (r/130)) by (apply Rdiv_lt_0_compat; lra).
  all: fcbn; apply finite_fin.
Qed.

Lemma tp05_row_nan c m r : 8.5 < m -> tp05_ln_resp c (Fin m) (Fin r) = NaN.
Proof.
  intros Hm. unfold tp05_ln_resp. fcbn. rewrite fpow_neg by lra. fcbn.
  rewrite ?nan_fmul_r, ?nan_fadd_r, ?nan_fadd_l. reflexivity.
Qed.

Lemma tp05_std_pos c m : In c tp05_coeff -> fpos (tp05_ln_std c (Fin m)).
Proof.
  intros Hin.
  row_lt Hin (fun _ : tp05_row => 0 # 1) (fun c => tp05_c_16 c) as H16.
  row_lt Hin (fun _ : tp05_row => 0 # 1) (fun c => tp05_c_14 c + tp05_c_15 c * (72#10))%Q as H14.
  row_lt Hin (fun c => tp05_c_15 c) (fun _ : tp05_row => 0 # 1) as H15.
  unfold tp05_ln_std; fcbn. destruct (Rltb_spec m 7.2); eexists; (split; [reflexivity|]); nra.
Qed.

Lemma tp05_accessors src m r : has_num src "mag" m -> has_num src "dist_rup" r ->
  exists g, result (tp05 src) = Ok g /\
    result (g_spec_accels g) = Ok (map (fun c => fexp (tp05_ln_resp c (Fin m) (Fin r))) (tl tp05_coeff)) /\
    result (g_pga g) = Ok (fexp (tp05_ln_resp (hd (Mk_tp05_row 0 0 0 0 0 0 0 0 0 0 0 0 0 0 0 0 0) tp05_coeff) (Fin m) (Fin r))) /\
    result (g_ln_stds g) = Ok (map (fun c => tp05_ln_std c (Fin m)) (tl tp05_coeff)) /\
    result (g_pgv g) = Raise ENotImpl /\ result (g_pgd g) = Raise ENotImpl.
Proof.
  intros Hm Hr. exists (tp05_inst m r). split; [apply tp05_construct; assumption|].
  split; [apply (spec_accels_map tp05_class _ (fun c => tp05_ln_resp c (Fin m) (Fin r))); reflexivity|].
  split; [apply (pga_map tp05_class _ (fun c => tp05_ln_resp c (Fin m) (Fin r))) with (i := 0%Z); reflexivity|].
  split; [apply ln_stds_map; reflexivity|]. split; reflexivity.
Qed.

Lemma tp05_tl c : In c (tl tp05_coeff) -> In c tp05_coeff.
Proof. intros H; right; exact H. Qed.

Lemma tp05_finite src m r : has_num src "mag" m -> has_num src "dist_rup" r -> m <= 8.5 -> 0 <= r ->
  exists g sa pga sd, result (tp05 src) = Ok g /\
    result (g_spec_accels g) = Ok sa /\ List.length sa = 13%nat /\ Forall fpos sa /\
    result (g_pga g) = Ok pga /\ fpos pga /\
    result (g_ln_stds g) = Ok sd /\ List.length sd = 13%nat /\ Forall fpos sd.
Proof.
  intros Hm Hr Hm8 Hr0. destruct (tp05_accessors src m r Hm Hr) as (g & Hg & Hsa & Hp & Hsd & _).
  exists g. do 3 eexists. split; [exact Hg|]. split; [exact Hsa|]. split; [reflexivity|].
  split; [apply Forall_map_intro; intros c Hc; apply fpos_exp, tp05_row_finite; try assumption; apply tp05_tl, Hc|].
  split; [exact Hp|]. split; [apply fpos_exp, tp05_row_finite; try assumption; left; reflexivity|].
  split; [exact Hsd|]. split; [reflexivity|].
  apply Forall_map_intro; intros c Hc; apply tp05_std_pos, tp05_tl, Hc.
Qed.

Lemma tp05_nan src m r : has_num src "mag" m -> has_num src "dist_rup" r -> 8.5 < m ->
  exists g sa sd, result (tp05 src) = Ok g /\
    result (g_spec_accels g) = Ok sa /\ List.length sa = 13%nat /\ Forall (eq NaN) sa /\
    result (g_pga g) = Ok NaN /\
    result (g_ln_stds g) = Ok sd /\ List.length sd = 13%nat /\ Forall fpos sd.
Proof.
  intros Hm Hr Hm8. destruct (tp05_accessors src m r Hm Hr) as (g & Hg & Hsa & Hp & Hsd & _).
  exists g. do 2 eexists. split; [exact Hg|]. split; [exact Hsa|]. split; [reflexivity|].
  split; [apply Forall_map_intro; intros c Hc; rewrite tp05_row_nan by lra; reflexivity|].
  split; [rewrite Hp, tp05_row_nan by lra; reflexivity|].
  split; [exact Hsd|]. split; [reflexivity|].
  apply Forall_map_intro; intros c Hc; apply tp05_std_pos, tp05_tl, Hc.
Qed.

(** Sigma at the 7.2 hinge: near-continuous at every period but 0.5 s. *)
Lemma tp05_sigma_hinge c m : In c tp05_coeff -> tp05_period c <> (5#10)%Q -> 7.19 <= m < 7.2 ->
  exists a b, tp05_ln_std c (Fin m) = Fin a /\ tp05_ln_std c (Fin 7.2) = Fin b /\ Rabs (a - b) <= 0.01.
Proof.
  intros Hin Hp Hm. unfold tp05_ln_std. fcbn. rewrite Rltb_true by lra. rewrite Rltb_false by lra.
  do 2 eexists. split; [reflexivity|]. split; [reflexivity|].
  repeat (destruct Hin as [<-|Hin];
    [try (exfalso; apply Hp; reflexivity);
     cbn [tp05_c_14 tp05_c_15 tp05_c_16]; qlit; apply Rabs_le; lra|]).
  destruct Hin.
Qed.
Lemma tp05_sigma_half_second c m : In c tp05_coeff -> tp05_period c = (5#10)%Q -> 7.19 <= m < 7.2 ->
  exists a b, tp05_ln_std c (Fin m) = Fin a /\ tp05_ln_std c (Fin 7.2) = Fin b /\ a < 0.04 /\ b - a > 0.46.
Proof.
  intros Hin Hp Hm. unfold tp05_ln_std. fcbn. rewrite Rltb_true by lra. rewrite Rltb_false by lra.
  do 2 eexists. split; [reflexivity|]. split; [reflexivity|].
  repeat (destruct Hin as [<-|Hin];
    [try discriminate Hp; cbn [tp05_c_14 tp05_c_15 tp05_c_16]; qlit; lra|]).
  destruct Hin.
Qed.
