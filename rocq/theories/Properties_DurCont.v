(** * C149: the duration models along curves of magnitude, distance, velocity and depth moving at once

    Vocabulary: Spec_dur.v, Spec_pr23.v, Spec_pr24.v; [val_continuous], [vec_continuous], [num_close] in Cont1.v. *)
From Coquelicot Require Import Coquelicot.
From Coq Require Import List Lia.
From Verif Require Import M_as96 M_ks06 M_as16 M_pr23 M_pr24 Anal Nga Cont Cont1 Spec_dur Spec_pr23 Spec_pr24 P_dur P_as16 P_ngacont.
From Verif Require P_pr23 P_pr24 Properties_Pr23 Properties_Pr24.
Open Scope R_scope.
Open Scope string_scope.
Open Scope list_scope.

Lemma source_dur_cont (L M : R -> R) t0 : continuous L t0 -> continuous M t0 -> continuous (fun t => source_dur (L t) (M t)) t0.
Proof.
  intros HL HM. apply continuous_ext with (f := fun t => 1 / (4900000 * 3.2) * exp ((1 / 3) * ((1.5 * M t + 16.05) * ln 10 - L t))).
  - intros t. unfold source_dur, corner_freq, Rpower.
    generalize ((1.5 * M t + 16.05) * ln 10) as X. intros X. generalize (L t) as l. intros l.
    replace (exp l / exp X) with (exp (l - X)) by (unfold Rminus, Rdiv; rewrite exp_plus, exp_Ropp; reflexivity). rewrite ln_exp.
    replace (1 / 3 * (X - l)) with (- (1 / 3 * (l - X))) by lra. rewrite exp_Ropp. pose proof (exp_pos (1 / 3 * (l - X))).
    match goal with |- @eq _ ?a ?b => change (@eq R a b) end. field. lra.
  - contc; assumption.
Qed.

(** ** AS96 *)
Definition run96 (M D : R -> R) (site : string) (t : R) (y : flt) : Prop :=
  exists src m, dur96_gives src (Dur96 (M t) (D t) site) /\ result (as96 src) = Ok m /\ as96_duration m = y.
Theorem C149_as96 : forall (M D : R -> R) site t0, continuous M t0 -> continuous D t0 -> val_continuous num_close (run96 M D site) t0.
Proof.
  intros M D site t0 HM HD. apply (val_cont_num (fun t => base96 (Dur96 (M t) (D t) site) * exp (arias_incr 0.75)) _ _ 1); [lra| |].
  - intros t y _ (src & m & G & E & <-). destruct (as96_published _ _ G) as (m' & E' & P & _). rewrite E in E'. injection E' as <-. exact P.
  - unfold base96. cbn [d96_m d96_r d96_site]. contc; try assumption. apply source_dur_cont; contc; assumption.
Qed.
Print Assumptions C149_as96.

(** ** KS06: at a positive duration, each measure *)
Definition run06 (f : ks06_rec -> flt) (M D V : R -> R) (t : R) (y : flt) : Prop :=
  exists src m, dur06_gives src (Dur06 (M t) (D t) (V t)) /\ result (ks06 src) = Ok m /\ f (ks06_duration m) = y.
Theorem C149_ks06 : forall f (M D V : R -> R) t0 y0, In f [D_5t75a; D_5t95a; D_5t75v; D_5t95v] -> continuous M t0 -> continuous D t0 -> continuous V t0 ->
  run06 f M D V t0 y0 -> fpos y0 -> val_continuous num_close (run06 f M D V) t0.
Proof.
  intros f M D V t0 y0 Hf HM HD HV R0 P0.
  assert (K : exists T : dur06 -> R, (forall src a m, dur06_gives src a -> result (ks06 src) = Ok m -> f (ks06_duration m) = shown (T a)) /\
     continuous (fun t => T (Dur06 (M t) (D t) (V t))) t0).
  { destruct Hf as [<-|[<-|[<-|[<-|[]]]]]; [exists t75a|exists t95a|exists t75v|exists t95v];
      (split; [intros src a m G E; destruct (ks06_published _ _ G) as (m' & E' & P & _); rewrite E in E'; injection E' as <-; rewrite P; reflexivity|];
       unfold t75a, t95a, t75v, t95v; cbn [d06_m d06_r d06_v]; contc; try assumption; apply source_dur_cont; contc; assumption). }
  destruct K as (T & P & C). set (g := fun t => T (Dur06 (M t) (D t) (V t))) in *.
  assert (G0 : 0 < g t0).
  { destruct R0 as (src & m & G & E & Y). rewrite (P _ _ _ G E) in Y. fold (g t0) in Y. subst y0. destruct P0 as (x & X & Hx). unfold shown in X.
    destruct (Rlt_dec 0 (g t0)); [assumption|]. destruct (Req_EM_T (g t0) 0); [inversion X; lra|discriminate]. }
  destruct (near_lt (fun _ => 0) g t0 (continuous_const _ _) C G0) as (r & Hr & N).
  apply (val_cont_num g _ _ r); [exact Hr| |exact C].
  intros t y Ht (src & m & G & E & <-). rewrite (P _ _ _ G E). unfold shown. specialize (N t Ht). unfold g in N.
  destruct (Rlt_dec 0 _); [reflexivity|contradiction].
Qed.
Print Assumptions C149_ks06.

(** ** AS16: away from the lower magnitude hinge of the measure (C83); the standard errors everywhere *)
Definition curve16 (M D V : R -> R) (Z : option (R -> R)) (mech : string) (t : R) : dur16 :=
  Dur16 (M t) (D t) (V t) mech (match Z with Some z => Some (z t) | None => None end).
Definition run16 (f : as16_obj -> flt) (M D V : R -> R) (Z : option (R -> R)) (mech : string) (t : R) (y : flt) : Prop :=
  exists src m, dur16_gives src (curve16 M D V Z mech t) /\ result (as16 src) = Ok m /\ f m = y.
Definition opt_continuous (Z : option (R -> R)) (t0 : R) : Prop := match Z with Some z => continuous z t0 | None => True end.
Lemma z_ref_cont (V : R -> R) t0 : continuous V t0 -> continuous (fun t => z_ref (V t)) t0.
Proof.
  intros C. assert (P : 0 <= V t0 ^ 4) by (replace (V t0 ^ 4) with ((V t0 * V t0) * (V t0 * V t0)) by ring; apply Rle_0_sqr).
  assert (N : 1360 ^ 4 + 570.94 ^ 4 <> 0) by lra. unfold z_ref. contc; try assumption; try lra.
Qed.
Lemma med16_cont k M D V Z mech t0 : In k [k5t75; k5t95; k20t80] -> continuous M t0 -> continuous D t0 -> continuous V t0 -> opt_continuous Z t0 ->
  0 < V t0 -> M t0 <> k_m1 k -> continuous (fun t => med16 k (curve16 M D V Z mech t)) t0.
Proof.
  intros Hk CM CD CV CZ HV HM. assert (VR : 0 < k_vr k) by (destruct Hk as [<-|[<-|[<-|[]]]]; cbn; lra).
  unfold med16, curve16; cbn [d16_m d16_r d16_v d16_mech d16_z]. apply cmult; [apply cmult; [apply cplus|]|].
  - unfold source16. apply (cif_le M (fun _ => k_m1 k)); [exact CM|apply cconst|intros _; apply cconst| |intros E; contradiction].
    intros _. apply source_dur_cont; contc; assumption.
  - unfold path16. contc; assumption.
  - apply cpower; [contc; try assumption; lra|]. apply Rdiv_lt_0_compat; [|exact VR]. apply Rmin_glb_lt; lra.
  - apply cexp. unfold basin16. destruct Z as [z|]; [|apply cconst]. cbn [opt_continuous] in CZ. contc; try assumption. apply z_ref_cont, CV.
Qed.
Theorem C149_as16 : forall f m1 M D V Z mech t0, In (f, m1) [(D_5t75, 5.35); (D_5t95, 5.2); (D_20t80, 5.2)] ->
  continuous M t0 -> continuous D t0 -> continuous V t0 -> opt_continuous Z t0 -> (forall t, 0 <= D t) -> (forall t, 0 < V t) ->
  (M t0 <> m1 -> val_continuous num_close (run16 (fun m => f (as16_duration m)) M D V Z mech) t0) /\
  val_continuous num_close (run16 (fun m => f (as16_std_err m)) M D V Z mech) t0.
Proof.
  intros f m1 M D V Z mech t0 Hf CM CD CV CZ HD HV.
  assert (K : exists k, In k [k5t75; k5t95; k20t80] /\ k_m1 k = m1 /\ forall t src m, dur16_gives src (curve16 M D V Z mech t) -> result (as16 src) = Ok m ->
     f (as16_duration m) = Fin (med16 k (curve16 M D V Z mech t)) /\ f (as16_std_err m) = Fin (sd16 k (M t))).
  { destruct Hf as [E|[E|[E|[]]]]; injection E as <- <-; [exists k5t75|exists k5t95|exists k20t80]; (split; [cbn; auto|]; split; [reflexivity|]);
      intros t src m G E; destruct (as16_published _ _ G (HD t) (HV t)) as (m' & E' & P & S); rewrite E in E'; injection E' as <-; rewrite P, S; split; reflexivity. }
  destruct K as (k & Hk & E1 & K). split.
  - intros HM. apply (val_cont_num (fun t => med16 k (curve16 M D V Z mech t)) _ _ 1); [lra| |].
    + intros t y _ (src & m & G & E & <-). apply (K t src m G E).
    + apply med16_cont; auto. rewrite E1. exact HM.
  - apply (val_cont_num (fun t => sd16 k (M t)) _ _ 1); [lra| |].
    + intros t y _ (src & m & G & E & <-). apply (K t src m G E).
    + unfold sd16, Spec_dur.ramp. contc; try assumption; lra.
Qed.
Print Assumptions C149_as16.

(** ** PR23 within its limits: the median and the two percentiles *)
Definition run23 (M D V : R -> R) (t : R) (l : list flt) : Prop :=
  exists src m, eq23_gives src (Eq23 (M t) (D t) (V t)) /\ result (pr23 src) = Ok m /\ l = [pr23_duration m; pr23_plus m; pr23_minus m].
Lemma slope23_cont r0 : continuous slope23 r0.
Proof.
  unfold slope23. apply (cif_le (fun r => r) (fun _ => 10) (fun r => 0.41 + 0.045 * r / 10)
     (fun r => if Rle_dec r 42 then 0.455 + 0.085 * (r - 10) / 32 else 0.54 + 0.035 * (r - 42) / 158)); [apply cid|apply cconst|intros _; contc; lra| |].
  - intros _. apply (cif_le (fun r => r) (fun _ => 42) (fun r => 0.455 + 0.085 * (r - 10) / 32) (fun r => 0.54 + 0.035 * (r - 42) / 158)); [apply cid|apply cconst|intros _; contc; lra|intros _; contc; lra|intros ->; lra].
  - intros ->. destruct (Rle_dec 10 42); lra.
Qed.
Lemma median23_cont (M D V : R -> R) t0 : continuous M t0 -> continuous D t0 -> continuous V t0 -> 0 < V t0 ->
  continuous (fun t => median23 (Eq23 (M t) (D t) (V t))) t0.
Proof.
  intros CM CD CV HV. unfold median23; cbn [q_m q_r q_v]. apply cplus; [apply cplus|].
  - apply continuous_ext with (f := fun t => 3.655 * exp ((Rmin (M t - 6.75) 0 * 0.515 + Rmax (M t - 6.75) 0 * slope23 (D t)) * ln 10)).
    + intros t. unfold source23, Rpower. destruct (Rlt_dec (M t) 6.75); [rewrite Rmin_left, Rmax_right by lra|rewrite Rmin_right, Rmax_left by lra];
        apply (f_equal (Rmult _)), (f_equal exp); ring.
    + contc; try assumption. apply (continuous_comp D slope23); [exact CD|apply slope23_cont].
  - apply (continuous_comp D path23); [exact CD|apply P_pr23.path_cont].
  - apply (continuous_comp V site23); [exact CV|apply P_pr23.site_cont, HV].
Qed.
Theorem C149_pr23 : forall (M D V : R -> R) t0, continuous M t0 -> continuous D t0 -> continuous V t0 -> (forall t, eq23_ok (Eq23 (M t) (D t) (V t))) ->
  vec_continuous num_close (run23 M D V) t0.
Proof.
  intros M D V t0 CM CD CV OK. set (a t := Eq23 (M t) (D t) (V t)) in *.
  assert (HV : 0 < V t0) by (destruct (OK t0) as (_ & _ & K); cbn [q_v a] in K; lra).
  assert (Cm : continuous (fun t => median23 (a t)) t0) by (apply median23_cont; assumption).
  assert (Cs : continuous (fun t => sigma23 (a t)) t0).
  { unfold a, sigma23; cbn [q_m q_r q_v]. contc; try assumption; try lra. apply Rdiv_lt_0_compat; lra. }
  assert (P : forall t, 0 < median23 (a t) /\ sigma23 (a t) < Rpower (median23 (a t)) 0.3).
  { intros t. split; [apply P_pr23.median_pos, OK|]. pose proof (P_pr23.m03_gt (a t) (OK t)) as X1. destruct (P_pr23.sigma_range (a t) (OK t)) as ((S1 & S2) & _). clear - X1 S2. lra. }
  apply (vec_cont_num [fun t => median23 (a t); fun t => plus23 (median23 (a t)) (sigma23 (a t)); fun t => minus23 (median23 (a t)) (sigma23 (a t))] (fun t g => g t) _ _ 1); [lra| |].
  - intros t l _ (src & m & G & E & ->). destruct (Properties_Pr23.C44_published _ _ G (OK t)) as (m' & E' & A & B & C). rewrite E in E'. injection E' as <-.
    rewrite A, B, C. reflexivity.
  - intros g Hg. destruct (P t0) as [P1 P2]. destruct (P_pr23.sigma_range (a t0) (OK t0)) as ((S1 & S2) & _).
    destruct Hg as [<-|[<-|[<-|[]]]]; [exact Cm| |]; cbv beta; [unfold plus23|unfold minus23].
    + apply cpower; [contc; assumption|lra].
    + apply cpower; [contc; assumption|lra].
Qed.
Print Assumptions C149_pr23.

(** ** PR24 within its limits *)
Definition run24 (ev : ev24) (re : string) (M D V : R -> R) (t : R) (l : list flt) : Prop :=
  exists src m, eq24_gives src (Eq24 ev re (M t) (D t) (V t)) /\ result (pr24 src) = Ok m /\ l = [pr24_duration m; pr24_plus m; pr24_minus m].
Theorem C149_pr24 : forall ev re (M D V : R -> R) t0, continuous M t0 -> continuous D t0 -> continuous V t0 -> (forall t, eq24_ok (Eq24 ev re (M t) (D t) (V t))) ->
  vec_continuous num_close (run24 ev re M D V) t0.
Proof.
  intros ev re M D V t0 CM CD CV OK. set (a t := Eq24 ev re (M t) (D t) (V t)) in *.
  assert (HV : 0 < V t0) by (destruct (OK t0) as (_ & _ & _ & K); cbn [k_v a] in K; lra).
  assert (Cm : continuous (fun t => median24 (a t)) t0).
  { unfold a, median24; cbn [k_ev k_re k_m k_r k_v]. destruct (region24 ev re) as [[rate site]|]; [|apply cconst].
    apply cplus; [apply cplus; [apply cplus|]|].
    - apply (continuous_comp M (source24 ev)); [exact CM|apply Properties_Pr24.source24_cont].
    - assert (0 < 3100 / V t0) by (apply Rdiv_lt_0_compat; lra). contc; try assumption; lra.
    - apply (continuous_comp D (path24 ev)); [exact CD|apply Properties_Pr24.path24_cont].
    - contc; assumption. }
  assert (Cs : continuous (fun t => sigma24 (a t)) t0) by (unfold a, sigma24; cbn [k_m k_r k_v k_ev]; destruct ev; contc; try assumption; lra).
  assert (P : forall t, 0 < median24 (a t) /\ 0.98 < Rpower (median24 (a t)) (n24 ev) /\ 0.05 < sigma24 (a t) < 0.26).
  { intros t. pose proof (P_pr24.median_low (a t) (OK t)) as X1. pose proof (P_pr24.mn_gt (a t) (OK t)) as X2. split; [lra|]. split; [exact X2|]. apply P_pr24.sigma_range, OK. }
  apply (vec_cont_num [fun t => median24 (a t); fun t => plus24 (n24 ev) (median24 (a t)) (sigma24 (a t)); fun t => minus24 (n24 ev) (median24 (a t)) (sigma24 (a t))] (fun t g => g t) _ _ 1); [lra| |].
  - intros t l _ (src & m & G & E & ->). destruct (Properties_Pr24.C103_published _ _ G (OK t)) as (m' & E' & A & B & C & _). rewrite E in E'. injection E' as <-.
    rewrite A, B, C. reflexivity.
  - intros g Hg. destruct (P t0) as (P1 & P2 & P3 & P4).
    destruct Hg as [<-|[<-|[<-|[]]]]; [exact Cm| |]; cbv beta; [unfold plus24|unfold minus24].
    + apply cpower; [contc; assumption|lra].
    + apply cpower; [contc; assumption|lra].
Qed.
Print Assumptions C149_pr24.

(** Curves that move all inputs at once, and scenarios on them. *)
Example C149_nonvacuous : let M := fun t => 6 + t * t in let D := fun t => 30 + t in let V := fun t => 400 - t in
  (exists y, run96 M D "soil" 1 y) /\ (exists y, run06 D_5t75a M D V 1 y /\ fpos y) /\
  (exists y, run16 (fun m => D_5t75 (as16_duration m)) M D V (Some (fun t => t)) "RS" 1 y) /\
  (exists l, run23 M D V 1 l) /\ (exists l, run24 Interface "Japan" M D V 1 l) /\
  continuous M 1 /\ continuous D 1 /\ continuous V 1.
Proof.
  cbv zeta. split; [|split; [|split; [|split; [|split]]]].
  - destruct (as96_published _ _ (dur96_src_gives (Dur96 (6 + 1 * 1) (30 + 1) "soil"))) as (m & E & _). eexists. exists (dur96_src (Dur96 (6 + 1 * 1) (30 + 1) "soil")), m. split; [apply dur96_src_gives|]. split; [exact E|reflexivity].
  - destruct (ks06_finite _ _ (dur06_src_gives (Dur06 (6 + 1 * 1) (30 + 1) (400 - 1)))) as (m & E & F & _); try (cbn; lra).
    eexists. split; [|exact F]. exists (dur06_src (Dur06 (6 + 1 * 1) (30 + 1) (400 - 1))), m. split; [apply dur06_src_gives|]. split; [exact E|reflexivity].
  - destruct (as16_published _ _ (dur16_src_gives (Dur16 (6 + 1 * 1) (30 + 1) (400 - 1) "RS" (Some 1)))) as (m & E & _); try (cbn; lra).
    eexists. exists (dur16_src (Dur16 (6 + 1 * 1) (30 + 1) (400 - 1) "RS" (Some 1))), m. split; [apply dur16_src_gives|]. split; [exact E|reflexivity].
  - destruct (Properties_Pr23.C44_published _ _ (Properties_Pr23.src23_gives (Eq23 (6 + 1 * 1) (30 + 1) (400 - 1)))) as (m & E & _); [unfold eq23_ok; cbn; lra|].
    eexists. exists (Properties_Pr23.src23 (6 + 1 * 1) (30 + 1) (400 - 1)), m. split; [exact (Properties_Pr23.src23_gives (Eq23 _ _ _))|]. split; [exact E|reflexivity].
  - destruct (Properties_Pr24.C103_published _ _ (Properties_Pr24.src24_gives (Eq24 Interface "Japan" (6 + 1 * 1) (30 + 1) (400 - 1)))) as (m & E & _); [split; [discriminate|cbn; lra]|].
    eexists. exists (Properties_Pr24.src24 (Eq24 Interface "Japan" (6 + 1 * 1) (30 + 1) (400 - 1))), m. split; [apply Properties_Pr24.src24_gives|]. split; [exact E|reflexivity].
  - split; [|split]; contc.
Qed.
