(** * C146: the eastern North American models move continuously with magnitude and distance

    [vec_continuous], [val_continuous], [num_close] are in Cont1.v. The inputs move along arbitrary continuous curves. *)
From Coquelicot Require Import Coquelicot.
From Coq Require Import List Lia.
From Interval Require Import Tactic.
From Verif Require Import M_c03 M_tp05 M_pzt11 M_i14 Anal Cont Cont1 Spec_east P_c03 P_tp05 P_pzt11 P_i14 Properties_East Properties_EastPub P_ngacont.
Open Scope R_scope.
Open Scope string_scope.
Open Scope list_scope.

(** The model [ctor], given magnitude [m] and distance [r], reports these spectral accelerations, standard deviations. *)
Definition sa_of (ctor : dict -> M gmm) (m r : R) (sa : list flt) : Prop :=
  exists src g, has_num src "mag" m /\ has_num src "dist_rup" r /\ result (ctor src) = Ok g /\ result (g_spec_accels g) = Ok sa.
Definition sd_of (ctor : dict -> M gmm) (m r : R) (sd : list flt) : Prop :=
  exists src g, has_num src "mag" m /\ has_num src "dist_rup" r /\ result (ctor src) = Ok g /\ result (g_ln_stds g) = Ok sd.
Definition pga_of (ctor : dict -> M gmm) (m r : R) (p : flt) : Prop :=
  exists src g, has_num src "mag" m /\ has_num src "dist_rup" r /\ result (ctor src) = Ok g /\ result (g_pga g) = Ok p.
(** Within [b] of the value at [x0], up to any tolerance, near [x0]. *)
Definition jumps_at_most (b : R) (run : R -> list flt -> Prop) (x0 : R) : Prop :=
  forall eps, 0 < eps -> exists delta, 0 < delta /\
    forall x l0 l, Rabs (x - x0) < delta -> run x0 l0 -> run x l -> Forall2 (num_close (b + eps)) l0 l.

Lemma ok_inj {A} (a b : A) : Ok a = Ok b -> a = b. Proof. intros H. injection H. auto. Qed.
Lemma ok_rows {A} (f : A -> R) l sa : Ok sa = Ok (map Fin (map f l)) -> sa = map (fun c => Fin (f c)) l.
Proof. intros H. apply ok_inj in H. rewrite H. apply map_map. Qed.

(** One row: within [b] of its value at [x0], up to any tolerance. *)
Definition row_jump (b : R) (s : R -> R) (x0 : R) : Prop := forall eps, 0 < eps -> exists d, 0 < d /\ forall x, Rabs (x - x0) < d -> Rabs (s x - s x0) <= b + eps.
Lemma row_jump_cont b s x0 : 0 <= b -> continuous s x0 -> row_jump b s x0.
Proof.
  intros Hb C eps He. destruct (uniform_delta [tt] (fun x _ => s x) x0 (fun _ _ => C) eps He) as (d & Hd & U). exists d. split; [exact Hd|].
  intros x Hx. specialize (U x tt (or_introl eq_refl) Hx). lra.
Qed.
Lemma row_jump_if b (u f g : R -> R) k x0 : 0 <= b -> continuous u x0 -> continuous f (u x0) -> continuous g (u x0) -> Rabs (f k - g k) <= b ->
  row_jump b (fun x => if Rlt_dec (u x) k then f (u x) else g (u x)) x0.
Proof.
  intros Hb Cu Cf Cg J. pose proof (continuous_comp u f x0 Cu Cf) as Cfu. pose proof (continuous_comp u g x0 Cu Cg) as Cgu.
  destruct (Req_dec (u x0) k) as [E|N].
  - intros eps He. destruct (uniform_delta [f; g] (fun x h => h (u x)) x0) with (eps := eps) as (d & Hd & U); [intros h [<-|[<-|[]]]; assumption|exact He|].
    exists d. split; [exact Hd|]. intros x Hx. pose proof (U x f (or_introl eq_refl) Hx) as U1. pose proof (U x g (or_intror (or_introl eq_refl)) Hx) as U2. cbv beta in U1, U2.
    rewrite E in *. destruct (Rlt_dec k k); [lra|]. destruct (Rlt_dec (u x) k); [|lra].
    replace (f (u x) - g k) with ((f (u x) - f k) + (f k - g k)) by ring. apply Rle_trans with (1 := Rabs_triang _ _). lra.
  - apply row_jump_cont; [exact Hb|]. apply (cif_lt u (fun _ => k) (fun x => f (u x)) (fun x => g (u x))); [exact Cu|apply cconst|intros _; exact Cfu|intros _; exact Cgu|intros; contradiction].
Qed.
Lemma rows_jump {A} (rows : list A) b (s : R -> A -> R) (run : R -> list flt -> Prop) x0 :
  (forall x l, run x l -> l = map (fun c => Fin (s x c)) rows) -> (forall c, In c rows -> row_jump b (fun x => s x c) x0) -> jumps_at_most b run x0.
Proof.
  intros H J eps He. assert (U : exists d, 0 < d /\ forall x c, In c rows -> Rabs (x - x0) < d -> Rabs (s x c - s x0 c) <= b + eps).
  { clear H. induction rows as [|a l IH]; [exists 1; split; [lra|intros x c []]|]. destruct IH as (d & Hd & U); [intros c Hc; apply J; right; exact Hc|].
    destruct (J a (or_introl eq_refl) eps He) as (d' & Hd' & U'). exists (Rmin d d'). split; [apply Rmin_pos; assumption|]. intros x c [<-|Hc] Hx.
    - apply U'. apply Rlt_le_trans with (1 := Hx), Rmin_r.
    - apply U; [exact Hc|]. apply Rlt_le_trans with (1 := Hx), Rmin_l. }
  destruct U as (d & Hd & U). exists d. split; [exact Hd|]. intros x l0 l Hx H0 H1. rewrite (H _ _ H0), (H _ _ H1). apply Forall2_map_intro. intros c Hc.
  exists (s x0 c), (s x c). repeat split. apply U; assumption.
Qed.

(** ** Campbell (2003) *)
Lemma c03_sa_is m r sa : 0 <= r -> sa_of c03 m r sa -> sa = map (fun c => Fin (exp (c03_pub c m r))) c03_coeff.
Proof.
  intros H (src & g & Hm & Hr & G & S). destruct (C107_published src m r Hm Hr H) as (g' & G' & _ & S' & _). rewrite G in G'. apply ok_inj in G'. subst g'.
  rewrite S in S'. apply ok_rows in S'. exact S'.
Qed.
Lemma c03_sd_is m r sd : 0 <= r -> sd_of c03 m r sd -> sd = map (fun c => Fin (c03_sigma c m)) c03_coeff.
Proof.
  intros H (src & g & Hm & Hr & G & S). destruct (C107_published src m r Hm Hr H) as (g' & G' & _ & _ & S'). rewrite G in G'. apply ok_inj in G'. subst g'.
  rewrite S in S'. apply ok_rows in S'. exact S'.
Qed.
Lemma c_ln_over (f : R -> R) k x : 0 < k -> continuous f x -> continuous (fun t => ln (Rmax (f t) k / k)) x.
Proof.
  intros K C. apply cln; [apply cdiv; [apply cmax; [exact C|apply cconst]|apply cconst|lra]|]. apply Rdiv_lt_0_compat; [|exact K]. apply Rlt_le_trans with (1 := K), Rmax_r.
Qed.
Lemma c03_pub_c c (m r : R -> R) x : In c c03_coeff -> continuous m x -> continuous r x -> continuous (fun t => c03_pub c (m t) (r t)) x.
Proof.
  intros Hin Cm Cr. row_lt Hin (fun _ : c03_row => 0 # 1) (fun c => c03_c_7 c) as H7. unfold c03_pub. cbv zeta.
  repeat match goal with |- continuous (fun t => ln (Rmax (r t) ?k / ?k)) _ => apply c_ln_over; [lra|exact Cr] | _ => cont2; cbv beta end; try assumption.
  apply sqrt_lt_R0. assert (0 < Q2R (c03_c_7 c)) by lra. pose proof (exp_pos (Q2R (c03_c_8 c) * m x)).
  assert (0 < (Q2R (c03_c_7 c) * exp (Q2R (c03_c_8 c) * m x)) ^ 2) by (apply pow_lt, Rmult_lt_0_compat; assumption). pose proof (pow2_ge_0 (r x)). lra.
Qed.
Theorem C146_campbell_medians : forall m r t0, continuous m t0 -> continuous r t0 -> (forall t, 0 <= r t) ->
  vec_continuous ln_close (fun t => sa_of c03 (m t) (r t)) t0.
Proof.
  intros m r t0 Cm Cr H. apply (vec_cont_ln c03_coeff (fun t c => c03_pub c (m t) (r t)) _ t0 1); [lra|intros t l _; apply c03_sa_is, H|].
  intros c Hc. apply c03_pub_c; assumption.
Qed.
Theorem C146_campbell_sigma : forall m r t0, continuous m t0 -> m t0 <> 7.16 -> (forall t, 0 <= r t) ->
  vec_continuous num_close (fun t => sd_of c03 (m t) (r t)) t0.
Proof.
  intros m r t0 Cm N H. apply (vec_cont_num c03_coeff (fun t c => c03_sigma c (m t)) _ t0 1); [lra|intros t l _; apply c03_sd_is, H|].
  intros c Hc. unfold c03_sigma. contc; try assumption; lra.
Qed.

(** The jump of the standard deviation at magnitude 7.16 is at most 0.0011, and there is one. *)
Lemma c03_jump c : In c c03_coeff -> Rabs (Q2R (c03_c_11 c) + Q2R (c03_c_12 c) * 7.16 - Q2R (c03_c_13 c)) <= 0.0011.
Proof.
  intros Hin. row_le Hin (fun c => Qminus (Qplus (c03_c_11 c) (Qmult (c03_c_12 c) (716#100))) (c03_c_13 c)) (fun _ : c03_row => 11#10000) as H1.
  row_le Hin (fun _ : c03_row => (-11)#10000) (fun c => Qminus (Qplus (c03_c_11 c) (Qmult (c03_c_12 c) (716#100))) (c03_c_13 c)) as H2.
  apply Rabs_le. rewrite ?Q2R_minus, ?Q2R_plus, ?Q2R_mult in *. lra.
Qed.
Theorem C146_campbell_sigma_jump : forall m r t0, continuous m t0 -> (forall t, 0 <= r t) ->
  jumps_at_most 0.0011 (fun t => sd_of c03 (m t) (r t)) t0.
Proof.
  intros m r t0 Cm H. apply (rows_jump c03_coeff _ (fun t c => c03_sigma c (m t))); [intros t l; apply c03_sd_is, H|].
  intros c Hc. unfold c03_sigma. apply (row_jump_if _ m (fun x => Q2R (c03_c_11 c) + Q2R (c03_c_12 c) * x) (fun _ => Q2R (c03_c_13 c))); [lra|exact Cm|contc|contc|apply c03_jump, Hc].
Qed.
Lemma Forall2_map_elim {A B} (R : B -> B -> Prop) (f g : A -> B) l : Forall2 R (map f l) (map g l) -> forall c, In c l -> R (f c) (g c).
Proof. induction l as [|a l IH]; cbn; intros H c Hc; [contradiction|]. inversion H; subst. destruct Hc as [<-|Hc]; auto. Qed.
Lemma c03_jump_row : exists c, In c c03_coeff /\ Q2R (c03_c_11 c) + Q2R (c03_c_12 c) * 7.16 - Q2R (c03_c_13 c) < - 0.0009.
Proof.
  assert (E : existsb (fun c => negb (Qle_bool ((-9)#10000) (Qminus (Qplus (c03_c_11 c) (Qmult (c03_c_12 c) (716#100))) (c03_c_13 c)))) c03_coeff = true) by (vm_compute; reflexivity).
  apply existsb_exists in E as (c & Hc & E). exists c. split; [exact Hc|]. apply Bool.negb_true_iff in E.
  assert (L : Qlt (Qminus (Qplus (c03_c_11 c) (Qmult (c03_c_12 c) (716#100))) (c03_c_13 c)) ((-9)#10000)).
  { apply QArith_base.Qnot_le_lt. intros L. apply QArith_base.Qle_bool_iff in L. congruence. }
  apply Qreals.Qlt_Rlt in L. rewrite ?Q2R_minus, ?Q2R_plus, ?Q2R_mult in L. unfold Q2R at 3 5 in L. cbn [QArith_base.Qnum QArith_base.Qden] in L. lra.
Qed.
Theorem C146_campbell_sigma_refuted : forall r, 0 <= r -> ~ vec_continuous num_close (fun m => sd_of c03 m r) 7.16.
Proof.
  intros r H C. destruct (C 0.0001 ltac:(lra)) as (d & Hd & U).
  assert (X : forall m, exists sd, sd_of c03 m r sd).
  { intros m. destruct (C107_published (ex_mr m r) m r eq_refl eq_refl H) as (g & G & _ & _ & S). eexists. exists (ex_mr m r), g. repeat split; [exact G|exact S]. }
  set (m := 7.16 - Rmin (d / 2) 0.0001). destruct (X 7.16) as (l0 & H0), (X m) as (l & H1).
  assert (P : 0 < Rmin (d / 2) 0.0001 <= 0.0001) by (split; [apply Rmin_pos; lra|apply Rmin_r]). pose proof (Rmin_l (d / 2) 0.0001) as P2.
  assert (Hm : Rabs (m - 7.16) < d) by (apply Rabs_def1; unfold m; lra).
  specialize (U m l0 l Hm H0 H1). apply c03_sd_is in H0; [|exact H]. apply c03_sd_is in H1; [|exact H]. subst l0 l.
  destruct c03_jump_row as (c & Hc & J). destruct (Forall2_map_elim _ _ _ _ U c Hc) as (a & b & Ea & Eb & Hab). injection Ea as <-. injection Eb as <-.
  row_le Hc (fun c => c03_c_12 c) (fun _ : c03_row => 0#1) as N1. row_le Hc (fun _ : c03_row => (-1)#1) (fun c => c03_c_12 c) as N2.
  unfold c03_sigma in Hab. destruct (Rlt_dec 7.16 7.16); [lra|]. destruct (Rlt_dec m 7.16) as [L|L]; [|unfold m in L; lra].
  apply Rabs_le_between in Hab. unfold m in Hab. assert (Rmin (d / 2) 0.0001 * Q2R (c03_c_12 c) <= 0) by nra. 
  assert (- 0.0001 <= Rmin (d / 2) 0.0001 * Q2R (c03_c_12 c)) by nra. lra.
Qed.

(** ** Tavakoli & Pezeshk (2005), up to magnitude 8.5 *)
Lemma tp05_tl_eq pr rows : tp05_coeff = pr :: rows -> rows = tl tp05_coeff. Proof. intros E. rewrite E. reflexivity. Qed.
Lemma tp05_sa_is m r sa : m <= 8.5 -> 0 <= r -> sa_of tp05 m r sa -> sa = map (fun c => Fin (exp (tp05_pub c m r))) (tl tp05_coeff).
Proof.
  intros M H (src & g & Hm & Hr & G & S). destruct (C108_published src m r Hm Hr M H) as (g' & pr & rows & G' & E & _ & _ & _ & _ & S' & _).
  rewrite G in G'. apply ok_inj in G'. subst g'. rewrite S in S'. apply ok_rows in S'. rewrite <- (tp05_tl_eq _ _ E). exact S'.
Qed.
Lemma tp05_sd_is m r sd : m <= 8.5 -> 0 <= r -> sd_of tp05 m r sd -> sd = map (fun c => Fin (tp05_sigma c m)) (tl tp05_coeff).
Proof.
  intros M H (src & g & Hm & Hr & G & S). destruct (C108_published src m r Hm Hr M H) as (g' & pr & rows & G' & E & _ & _ & _ & _ & _ & S').
  rewrite G in G'. apply ok_inj in G'. subst g'. rewrite S in S'. apply ok_rows in S'. rewrite <- (tp05_tl_eq _ _ E). exact S'.
Qed.
Lemma tp05_pga_is m r p : m <= 8.5 -> 0 <= r -> pga_of tp05 m r p -> p = Fin (exp (tp05_pub (hd (Mk_tp05_row 0 0 0 0 0 0 0 0 0 0 0 0 0 0 0 0 0) tp05_coeff) m r)).
Proof.
  intros M H (src & g & Hm & Hr & G & S). destruct (C108_published src m r Hm Hr M H) as (g' & pr & rows & G' & E & _ & P' & _).
  rewrite G in G'. apply ok_inj in G'. subst g'. rewrite S in P'. apply ok_inj in P'. rewrite E. exact P'.
Qed.
Lemma tp05_pub_c c (m r : R -> R) x : In c tp05_coeff -> continuous m x -> continuous r x -> 0 <= r x -> continuous (fun t => tp05_pub c (m t) (r t)) x.
Proof.
  intros Hin Cm Cr H. row_lt Hin (fun c => tp05_c_5 c) (fun _ : tp05_row => 0 # 1) as H5. unfold tp05_pub. cbv zeta.
  repeat match goal with |- continuous (fun t => ln (Rmax (r t) ?k / ?k)) _ => apply c_ln_over; [lra|exact Cr] | _ => cont2; cbv beta end; try assumption; try lra.
  apply sqrt_lt_R0. assert (K5 : Q2R (tp05_c_5 c) < 0) by lra. match goal with |- context [exp ?e] => pose proof (exp_pos e) as W; revert W; generalize (exp e) end.
  clear - K5. intros w W. assert (W2 : Q2R (tp05_c_5 c) * w < 0) by nra. assert (0 < (Q2R (tp05_c_5 c) * w) ^ 2) by (generalize dependent (Q2R (tp05_c_5 c) * w); intros; nra). pose proof (pow2_ge_0 (r x)). lra.
Qed.
Theorem C146_tavakoli_medians : forall m r t0, continuous m t0 -> continuous r t0 -> (forall t, m t <= 8.5) -> (forall t, 0 <= r t) ->
  vec_continuous ln_close (fun t => sa_of tp05 (m t) (r t)) t0 /\ val_continuous ln_close (fun t => pga_of tp05 (m t) (r t)) t0.
Proof.
  intros m r t0 Cm Cr M H. split.
  - apply (vec_cont_ln (tl tp05_coeff) (fun t c => tp05_pub c (m t) (r t)) _ t0 1); [lra|intros t l _; apply tp05_sa_is; auto|].
    intros c Hc. apply tp05_pub_c; auto. apply tp05_tl, Hc.
  - apply (val_cont_ln (fun t => tp05_pub (hd (Mk_tp05_row 0 0 0 0 0 0 0 0 0 0 0 0 0 0 0 0 0) tp05_coeff) (m t) (r t)) _ t0 1); [lra|intros t p _; apply tp05_pga_is; auto|].
    apply tp05_pub_c; auto. left; reflexivity.
Qed.
Theorem C146_tavakoli_sigma : forall m r t0, continuous m t0 -> m t0 <> 7.2 -> (forall t, m t <= 8.5) -> (forall t, 0 <= r t) ->
  vec_continuous num_close (fun t => sd_of tp05 (m t) (r t)) t0.
Proof.
  intros m r t0 Cm N M H. apply (vec_cont_num (tl tp05_coeff) (fun t c => tp05_sigma c (m t)) _ t0 1); [lra|intros t l _; apply tp05_sd_is; auto|].
  intros c Hc. unfold tp05_sigma. contc; try assumption; lra.
Qed.
(** At 7.2 the 0.5 s row jumps by 0.47 (C55), the others by at most 0.0067. *)
Lemma tp05_jump c : In c tp05_coeff -> tp05_period c <> (5#10)%Q -> Rabs (Q2R (tp05_c_14 c) + Q2R (tp05_c_15 c) * 7.2 - Q2R (tp05_c_16 c)) <= 0.0067.
Proof.
  intros Hin Hp. assert (E : forallb (fun c => Qeq_bool (tp05_period c) (5#10) || (Qle_bool (Qminus (Qplus (tp05_c_14 c) (Qmult (tp05_c_15 c) (72#10))) (tp05_c_16 c)) (67#10000) && Qle_bool (- 67#10000) (Qminus (Qplus (tp05_c_14 c) (Qmult (tp05_c_15 c) (72#10))) (tp05_c_16 c)))) tp05_coeff = true) by (vm_compute; reflexivity).
  rewrite forallb_forall in E. specialize (E c Hin). apply Bool.orb_true_iff in E as [E|E].
  - exfalso. assert (F : In c (filter (fun c => Qeq_bool (tp05_period c) (5#10)) tp05_coeff)) by (apply filter_In; split; assumption).
    cbn in F. destruct F as [<-|[]]. apply Hp. reflexivity.
  - apply andb_prop in E as [H1 H2]. apply QArith_base.Qle_bool_iff in H1. apply QArith_base.Qle_bool_iff in H2. apply Qreals.Qle_Rle in H1. apply Qreals.Qle_Rle in H2.
    rewrite ?Q2R_minus, ?Q2R_plus, ?Q2R_mult in *. unfold Q2R at 3 5 in H1. unfold Q2R at 1 4 in H2. cbn [QArith_base.Qnum QArith_base.Qden Qopp] in *. apply Rabs_le. 
    lra.
Qed.

Theorem C146_tavakoli_sigma_jump : forall m r t0, continuous m t0 -> (forall t, m t <= 8.5) -> (forall t, 0 <= r t) ->
  jumps_at_most 0.0067 (fun t l => exists sd, sd_of tp05 (m t) (r t) sd /\ l = firstn 6 sd ++ skipn 7 sd) t0.
Proof.
  intros m r t0 Cm M H. apply (rows_jump (firstn 6 (tl tp05_coeff) ++ skipn 7 (tl tp05_coeff)) _ (fun t c => tp05_sigma c (m t))).
  - intros t l (sd & S & ->). apply tp05_sd_is in S; auto. rewrite S, map_app, firstn_map, skipn_map. reflexivity.
  - intros c Hc. assert (X : In c tp05_coeff /\ tp05_period c <> (5#10)%Q).
    { clear - Hc. cbn [tl tp05_coeff firstn skipn app In] in Hc. repeat (destruct Hc as [<-|Hc]; [split; [unfold tp05_coeff; cbn [In]; tauto|discriminate]|]). contradiction. }
    destruct X as [X1 X2]. unfold tp05_sigma.
    apply (row_jump_if _ m (fun x => Q2R (tp05_c_14 c) + Q2R (tp05_c_15 c) * x) (fun _ => Q2R (tp05_c_16 c))); [lra|exact Cm|contc|contc|apply tp05_jump; assumption].
Qed.

(** ** Pezeshk et al. (2011) *)
Lemma pzt11_tl_eq pr rows : pzt11_coeff = pr :: rows -> rows = tl pzt11_coeff. Proof. intros E. rewrite E. reflexivity. Qed.
Lemma pzt11_sa_is m r sa : sa_of pzt11 m r sa -> sa = map (fun c => Fin (exp (ln 10 * pzt11_pub c m r))) (tl pzt11_coeff).
Proof.
  intros (src & g & Hm & Hr & G & S). destruct (C109_published src m r Hm Hr) as (g' & pr & rows & G' & E & _ & _ & _ & _ & S' & _).
  rewrite G in G'. apply ok_inj in G'. subst g'. rewrite S in S'. apply ok_rows in S'. rewrite <- (pzt11_tl_eq _ _ E), S'. apply map_ext. intros c. rewrite exp_ln10. reflexivity.
Qed.
Lemma pzt11_sd_is m r sd : sd_of pzt11 m r sd -> sd = map (fun c => Fin (pzt11_sigma c m)) (tl pzt11_coeff).
Proof.
  intros (src & g & Hm & Hr & G & S). destruct (C109_published src m r Hm Hr) as (g' & pr & rows & G' & E & _ & _ & _ & _ & _ & S').
  rewrite G in G'. apply ok_inj in G'. subst g'. rewrite S in S'. apply ok_rows in S'. rewrite <- (pzt11_tl_eq _ _ E). exact S'.
Qed.
Lemma pzt11_pga_is m r p : pga_of pzt11 m r p -> p = Fin (exp (ln 10 * pzt11_pub (hd (Mk_pzt11_row 0 0 0 0 0 0 0 0 0 0 0 0 0 0 0 0) pzt11_coeff) m r)).
Proof.
  intros (src & g & Hm & Hr & G & S). destruct (C109_published src m r Hm Hr) as (g' & pr & rows & G' & E & _ & P' & _).
  rewrite G in G'. apply ok_inj in G'. subst g'. rewrite S in P'. apply ok_inj in P'. rewrite E, exp_ln10. exact P'.
Qed.
Lemma clog10 (f : R -> R) x : continuous f x -> 0 < f x -> continuous (fun t => log10 (f t)) x.
Proof. intros C P. unfold log10. apply cdiv; [apply cln; assumption|apply cconst|]. pose proof ln10_pos. lra. Qed.
Lemma pzt11_pub_c c (m r : R -> R) x : In c pzt11_coeff -> continuous m x -> continuous r x -> continuous (fun t => ln 10 * pzt11_pub c (m t) (r t)) x.
Proof.
  intros Hin Cm Cr. pose proof (pzt11_k11 c Hin) as K. unfold pzt11_pub. cbv zeta. set (k := Q2R (pzt11_c_11 c)) in *.
  assert (P : 0 < sqrt (r x ^ 2 + k ^ 2)). { apply sqrt_lt_R0. pose proof (pow2_ge_0 (r x)). assert (0 < k ^ 2) by (apply pow_lt; lra). lra. }
  assert (CD : continuous (fun t => sqrt (r t ^ 2 + k ^ 2)) x) by (contc; assumption).
  repeat match goal with
  | |- continuous (fun t => sqrt (r t ^ 2 + k ^ 2)) _ => exact CD
  | |- continuous (fun t => log10 (@?f t)) _ => apply (clog10 f)
  | _ => cont2; cbv beta end; try assumption; try lra.
  - apply Rmin_pos; [exact P|lra].
  - apply Rdiv_lt_0_compat; [|lra]. apply Rlt_le_trans with 70; [lra|apply Rmax_l].
  - apply Rdiv_lt_0_compat; [|lra]. apply Rlt_le_trans with 140; [lra|apply Rmax_r].
Qed.
Theorem C146_pezeshk_medians : forall m r t0, continuous m t0 -> continuous r t0 ->
  vec_continuous ln_close (fun t => sa_of pzt11 (m t) (r t)) t0 /\ val_continuous ln_close (fun t => pga_of pzt11 (m t) (r t)) t0.
Proof.
  intros m r t0 Cm Cr. split.
  - apply (vec_cont_ln (tl pzt11_coeff) (fun t c => ln 10 * pzt11_pub c (m t) (r t)) _ t0 1); [lra|intros t l _; apply pzt11_sa_is|].
    intros c Hc. apply pzt11_pub_c; auto. apply pzt11_tl, Hc.
  - apply (val_cont_ln (fun t => ln 10 * pzt11_pub (hd (Mk_pzt11_row 0 0 0 0 0 0 0 0 0 0 0 0 0 0 0 0) pzt11_coeff) (m t) (r t)) _ t0 1); [lra|intros t p _; apply pzt11_pga_is|].
    apply pzt11_pub_c; auto. left; reflexivity.
Qed.
Theorem C146_pezeshk_sigma : forall m r t0, continuous m t0 -> m t0 <> 7 ->
  vec_continuous num_close (fun t => sd_of pzt11 (m t) (r t)) t0.
Proof.
  intros m r t0 Cm N. apply (vec_cont_num (tl pzt11_coeff) (fun t c => pzt11_sigma c (m t)) _ t0 1); [lra|intros t l _; apply pzt11_sd_is|].
  intros c Hc. unfold pzt11_sigma. cbv zeta. contc; try assumption; lra.
Qed.

Lemma sqrt_lip a b s : Rabs (sqrt (a ^ 2 + s ^ 2) - sqrt (b ^ 2 + s ^ 2)) <= Rabs (a - b).
Proof.
  set (u := sqrt (a ^ 2 + s ^ 2)). set (v := sqrt (b ^ 2 + s ^ 2)).
  assert (Pu : 0 <= a ^ 2 + s ^ 2) by (pose proof (pow2_ge_0 a); pose proof (pow2_ge_0 s); lra). assert (Pv : 0 <= b ^ 2 + s ^ 2) by (pose proof (pow2_ge_0 b); pose proof (pow2_ge_0 s); lra).
  assert (U : u * u = a ^ 2 + s ^ 2) by (apply sqrt_sqrt, Pu). assert (V : v * v = b ^ 2 + s ^ 2) by (apply sqrt_sqrt, Pv).
  assert (U0 : 0 <= u) by apply sqrt_pos. assert (V0 : 0 <= v) by apply sqrt_pos.
  apply Rsqr_le_abs_0. unfold Rsqr. replace ((u - v) * (u - v)) with (u * u + v * v - 2 * (u * v)) by ring. rewrite U, V.
  assert (C : a * b + s * s <= u * v).
  { destruct (Rle_dec (a * b + s * s) 0) as [N|N]; [apply Rle_trans with 0; [exact N|apply Rmult_le_pos; assumption]|].
    apply Rsqr_incr_0_var; [|apply Rmult_le_pos; assumption]. unfold Rsqr. replace (u * v * (u * v)) with ((u * u) * (v * v)) by ring. rewrite U, V.
    pose proof (pow2_ge_0 (a * s - b * s)). nra. }
  nra.
Qed.
Lemma pzt11_jump c : In c pzt11_coeff -> Rabs ((Q2R (pzt11_c_12 c) * 7 + Q2R (pzt11_c_13 c)) - (- 0.00695 * 7 + Q2R (pzt11_c_14 c))) <= 0.0001.
Proof.
  intros Hin. row_le Hin (fun c => Qminus (Qplus (Qmult (pzt11_c_12 c) (7#1)) (pzt11_c_13 c)) (pzt11_c_14 c)) (fun _ : pzt11_row => (-4855)#100000) as H1.
  row_le Hin (fun _ : pzt11_row => (-4875)#100000) (fun c => Qminus (Qplus (Qmult (pzt11_c_12 c) (7#1)) (pzt11_c_13 c)) (pzt11_c_14 c)) as H2.
  apply Rabs_le. rewrite ?Q2R_minus, ?Q2R_plus, ?Q2R_mult in *. lra.
Qed.
Lemma row_jump_ifle b (u f g : R -> R) k x0 : 0 <= b -> continuous u x0 -> continuous f (u x0) -> continuous g (u x0) -> Rabs (f k - g k) <= b ->
  row_jump b (fun x => if Rle_dec (u x) k then f (u x) else g (u x)) x0.
Proof.
  intros Hb Cu Cf Cg J eps He.
  destruct (row_jump_if b (fun x => - u x) (fun x => g (- x)) (fun x => f (- x)) (- k) x0) with (eps := eps) as (d & Hd & U); try assumption.
  - apply copp, Cu.
  - apply (continuous_comp (fun x => - x) g); [apply copp, cid|rewrite Ropp_involutive; exact Cg].
  - apply (continuous_comp (fun x => - x) f); [apply copp, cid|rewrite Ropp_involutive; exact Cf].
  - rewrite !Ropp_involutive, Rabs_minus_sym. exact J.
  - exists d. split; [exact Hd|]. intros x Hx. specialize (U x Hx). cbv beta in U. rewrite !Ropp_involutive in U.
    destruct (Rlt_dec (- u x) (- k)), (Rle_dec (u x) k); try lra; destruct (Rlt_dec (- u x0) (- k)), (Rle_dec (u x0) k); try lra; exact U.
Qed.
Theorem C146_pezeshk_sigma_jump : forall m r t0, continuous m t0 -> jumps_at_most 0.0001 (fun t => sd_of pzt11 (m t) (r t)) t0.
Proof.
  intros m r t0 Cm. apply (rows_jump (tl pzt11_coeff) _ (fun t c => pzt11_sigma c (m t))); [intros t l; apply pzt11_sd_is|].
  intros c Hc eps He. destruct (row_jump_ifle 0.0001 m (fun x => sqrt ((Q2R (pzt11_c_12 c) * x + Q2R (pzt11_c_13 c)) ^ 2 + Q2R (pzt11_sigma_reg c) ^ 2))
    (fun x => sqrt ((- 0.00695 * x + Q2R (pzt11_c_14 c)) ^ 2 + Q2R (pzt11_sigma_reg c) ^ 2)) 7 t0) with (eps := eps) as (d & Hd & U); [lra|exact Cm|contc|contc| |exact He|].
  - apply Rle_trans with (1 := sqrt_lip _ _ _). apply pzt11_jump, pzt11_tl, Hc.
  - exists d. split; [exact Hd|]. intros x Hx. specialize (U x Hx). unfold pzt11_sigma. cbv beta zeta in *.
    destruct (Rle_dec (m x) 7), (Rle_dec (m t0) 7); exact U.
Qed.

(** ** Idriss (2014): on each side of magnitude 6.75; the standard deviation everywhere *)
Definition i14_sa_of (m r v : R) (mech : string) (sa : list flt) : Prop :=
  exists src g, i14_scenario src m r v mech /\ result (i14 src) = Ok g /\ result (g_spec_accels g) = Ok sa.
Definition i14_sd_of (m r v : R) (mech : string) (sd : list flt) : Prop :=
  exists src g, i14_scenario src m r v mech /\ result (i14 src) = Ok g /\ result (g_ln_stds g) = Ok sd.
Lemma i14_sa_is m r v mech sa : 0 <= r -> 0 < v -> mech = "SS" \/ mech = "RS" -> i14_sa_of m r v mech sa ->
  sa = map (fun c => Fin (exp (i14_pub c m r v (String.eqb mech "RS")))) (i14_rows m).
Proof.
  intros H V K (src & g & Hs & G & S). destruct (C110_published src m r v mech Hs H V K) as (g' & pr & G' & _ & _ & _ & S' & _).
  rewrite G in G'. apply ok_inj in G'. subst g'. rewrite S in S'. apply ok_rows in S'. exact S'.
Qed.
Lemma i14_sd_is m r v mech sd : 0 <= r -> 0 < v -> mech = "SS" \/ mech = "RS" -> i14_sd_of m r v mech sd ->
  sd = map (fun c => Fin (i14_sigma c m)) i14_small_coeff.
Proof.
  intros H V K (src & g & Hs & G & S). destruct (C110_published src m r v mech Hs H V K) as (g' & pr & G' & _ & _ & _ & _ & S').
  rewrite G in G'. apply ok_inj in G'. subst g'. rewrite S in S'. apply ok_rows in S'. rewrite S'.
  unfold i14_rows. destruct (Rle_dec m 6.75); [reflexivity|]. unfold i14_sigma.
  assert (P : map i14_period i14_large_coeff = map i14_period i14_small_coeff) by reflexivity.
  transitivity (map (fun q => Fin (1.18 + 0.035 * ln (Rmin (Rmax (Q2R q) 0.05) 3) - 0.06 * Rmin (Rmax m 5) 7.5)) (map i14_period i14_large_coeff)).
  - rewrite map_map. reflexivity.
  - rewrite P, map_map. reflexivity.
Qed.
Theorem C146_idriss_medians : forall m r v mech t0, continuous m t0 -> continuous r t0 -> continuous v t0 ->
  (forall t, m t <= 6.75) \/ (forall t, 6.75 < m t) -> (forall t, 0 <= r t) -> (forall t, 0 < v t) -> mech = "SS" \/ mech = "RS" ->
  vec_continuous ln_close (fun t => i14_sa_of (m t) (r t) (v t) mech) t0.
Proof.
  intros m r v mech t0 Cm Cr Cv B H V K. apply (vec_cont_ln (i14_rows (m t0)) (fun t c => i14_pub c (m t) (r t) (v t) (String.eqb mech "RS")) _ t0 1); [lra| |].
  - intros t l _ R. apply i14_sa_is in R; auto. rewrite R. apply (f_equal (map _)). unfold i14_rows. destruct B as [B|B]; pose proof (B t); pose proof (B t0); destruct (Rle_dec (m t) 6.75), (Rle_dec (m t0) 6.75); (reflexivity || lra).
  - intros c _. pose proof (H t0). pose proof (V t0). unfold i14_pub. contc; try assumption; lra.
Qed.
Theorem C146_idriss_sigma : forall m r v mech t0, continuous m t0 -> (forall t, 0 <= r t) -> (forall t, 0 < v t) -> mech = "SS" \/ mech = "RS" ->
  vec_continuous num_close (fun t => i14_sd_of (m t) (r t) (v t) mech) t0.
Proof.
  intros m r v mech t0 Cm H V K. apply (vec_cont_num i14_small_coeff (fun t c => i14_sigma c (m t)) _ t0 1); [lra|intros t l _; apply i14_sd_is; auto|].
  intros c _. unfold i14_sigma. contc; try assumption; lra.
Qed.

(** The runs exist: each of the four models answers the scenarios. *)
Example C146_nonvacuous : (exists sa sd, sa_of c03 6.5 20 sa /\ sd_of c03 6.5 20 sd) /\ (exists sa p, sa_of tp05 6.5 20 sa /\ pga_of tp05 6.5 20 p) /\
  (exists sa sd, sa_of pzt11 6.5 20 sa /\ sd_of pzt11 6.5 20 sd) /\ (exists sa, i14_sa_of 6.5 20 700 "RS" sa) /\
  continuous (fun t : R => 6 + t) 0 /\ jumps_at_most 1 (fun x l => l = [Fin x]) 0.
Proof.
  split; [|split; [|split; [|split; [|split]]]].
  - destruct (C107_published (ex_mr 6.5 20) 6.5 20 eq_refl eq_refl ltac:(lra)) as (g & G & _ & S & D). do 2 eexists. split; exists (ex_mr 6.5 20), g; repeat split; eassumption.
  - destruct (C108_published (ex_mr 6.5 20) 6.5 20 eq_refl eq_refl ltac:(lra) ltac:(lra)) as (g & pr & rows & G & _ & _ & P & _ & _ & S & _). do 2 eexists. split; exists (ex_mr 6.5 20), g; repeat split; eassumption.
  - destruct (C109_published (ex_mr 6.5 20) 6.5 20 eq_refl eq_refl) as (g & pr & rows & G & _ & _ & _ & _ & _ & S & D). do 2 eexists. split; exists (ex_mr 6.5 20), g; repeat split; eassumption.
  - destruct C110_nonvacuous as (s & _ & Hs & _).
    destruct (C110_published s 6.5 20 700 "RS" Hs ltac:(lra) ltac:(lra) (or_intror eq_refl)) as (g & pr & G & _ & _ & _ & S & _). eexists. exists s, g. exact (conj Hs (conj G S)).
  - contc.
  - intros eps He. exists 1. split; [lra|]. intros x l0 l Hx -> ->. constructor; [|constructor]. exists 0, x. repeat split. lra.
Qed.
Print Assumptions C146_campbell_medians.
Print Assumptions C146_campbell_sigma.
Print Assumptions C146_campbell_sigma_jump.
Print Assumptions C146_campbell_sigma_refuted.
Print Assumptions C146_tavakoli_medians.
Print Assumptions C146_tavakoli_sigma.
Print Assumptions C146_tavakoli_sigma_jump.
Print Assumptions C146_pezeshk_medians.
Print Assumptions C146_pezeshk_sigma.
Print Assumptions C146_pezeshk_sigma_jump.
Print Assumptions C146_idriss_medians.
Print Assumptions C146_idriss_sigma.
