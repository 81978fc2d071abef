(** * Proofs for the duration models AS96 and KS06 *)
From Coquelicot Require Import Coquelicot.
From Interval Require Import Tactic.
From Coq Require Import List.
From Verif Require Import M_as96 M_ks06 FrameworkProofs NpProofs Anal Nga Spec_dur.
Open Scope R_scope.
Open Scope string_scope.
Open Scope list_scope.

(** ** Source duration *)
Lemma source_closed s m : source_dur s m = exp ((ln 10 * (1.5 * m + 16.05) - s) / 3) / 15680000.
Proof.
  unfold source_dur, corner_freq. unfold Rpower.
  replace (exp s / exp ((1.5 * m + 16.05) * ln 10)) with (exp (s - (1.5 * m + 16.05) * ln 10)) by (unfold Rminus; rewrite exp_plus, exp_Ropp; reflexivity).
  rewrite ln_exp. replace ((ln 10 * (1.5 * m + 16.05) - s) / 3) with (- (1 / 3 * (s - (1.5 * m + 16.05) * ln 10))) by field.
  rewrite exp_Ropp. set (x := exp (1 / 3 * _)). assert (0 < x) by apply exp_pos. replace (4900000 * 3.2) with 15680000 by lra. field. lra.
Qed.
Lemma source_pos s m : 0 < source_dur s m.
Proof. rewrite source_closed. apply Rdiv_lt_0_compat; [apply exp_pos|lra]. Qed.
Lemma fsource s m : (fpow (fexp (Fin s) / fpowf $10 ($1.5 * Fin m + $16.05)) (-1 / 3) / ($4900000 * $3.2))%flt = Fin (source_dur s m).
Proof.
  fcbn. rewrite fpowf_fin by lra. rewrite fdiv_fin by (apply Rgt_not_eq, Rpower_pos).
  rewrite fpow_fin by (apply Rdiv_lt_0_compat; [apply exp_pos|apply Rpower_pos]). rewrite fdiv_fin by lra. apply (f_equal Fin).
  unfold source_dur, corner_freq. replace (-1 / 3) with (- (1 / 3)) by lra. rewrite Rpower_Ropp.
  set (x := Rpower (_ / _) _). assert (0 < x) by apply Rpower_pos. replace (4900000 * 3.2) with 15680000 by lra. field. lra.
Qed.
(** The source duration grows with magnitude if the stress drop grows slowly enough. *)
Lemma source_incr s0 k m1 m2 : 0 <= k <= 3.4 -> m1 < m2 -> source_dur (s0 + k * (m1 - 6)) m1 < source_dur (s0 + k * (m2 - 6)) m2.
Proof.
  intros K H. rewrite !source_closed. apply Rmult_lt_compat_r; [lra|]. apply exp_increasing.
  assert (2.3 < ln 10) by interval. nra.
Qed.
Lemma source_incr0 s m1 m2 : m1 < m2 -> source_dur s m1 < source_dur s m2.
Proof.
  intros H. rewrite !source_closed. apply Rmult_lt_compat_r; [lra|]. apply exp_increasing.
  assert (2.3 < ln 10) by interval. nra.
Qed.

(** ** AS96 *)
Lemma dur96_src_gives a : dur96_gives (dur96_src a) a.
Proof. repeat split. Qed.
Definition as96_site (a : dur96) : pyval := choice ["soil"; "rock"] PNone (Some (d96_site a)).
Definition as96_scen (a : dur96) : scen :=
  Scen [("mag", PNum (Fin (d96_m a))); ("dist_rup", PNum (Fin (d96_r a))); ("site_cond", as96_site a)] [].
Lemma base96_pos a : 0 < base96 a.
Proof.
  unfold base96. pose proof (source_pos (5.204 + 0.851 * (d96_m a - 6)) (d96_m a)). pose proof (Rmax_r (d96_r a - 10) 0).
  destruct (String.eqb _ _); lra.
Qed.
Lemma incr_fin q : 0.05 < q -> q < 1 -> as96_incr1 (Fin q) = Fin (arias_incr q).
Proof.
  intros H1 H2. unfold as96_incr1. fcbn. rewrite fdiv_fin by lra. rewrite flog_fin by (apply Rdiv_lt_0_compat; lra).
  fcbn. apply (f_equal Fin). unfold arias_incr. reflexivity.
Qed.
Lemma mask_in q : 0.10 <= q <= 0.95 -> as96_mask1 (Fin q) = Fin q.
Proof. intros H. unfold as96_mask1. fcbn. rewrite !Rltb_false by lra. reflexivity. Qed.
Lemma site_soil a : is_str (as96_site a) "soil" = String.eqb (d96_site a) "soil".
Proof.
  unfold as96_site, choice, existsb. destruct (String.eqb (d96_site a) "soil") eqn:E; cbn [orb].
  - apply String.eqb_eq in E. rewrite E. reflexivity.
  - destruct (String.eqb (d96_site a) "rock") eqn:E2; cbn [orb]; [|reflexivity]. apply String.eqb_eq in E2. rewrite E2. reflexivity.
Qed.
Lemma as96_construct src a : dur96_gives src a ->
  result (as96 src) = Ok (As96 (as96_scen a) (Fin (ln (base96 a) + arias_incr 0.75)) (Fin 0.55)).
Proof.
  intros (G1 & G2 & G3). unfold as96. rewrite result_bind, model_init_result' by reflexivity.
  let x := eval cbv [as96_params NumP CatP CatBoolP map] in as96_params in change as96_params with x.
  unfold has_num, has_str in *. cbn [checks p_name]. rewrite G1, G2, G3.
  repeat (rewrite ?chk_num; cbn [checks p_name]).
  change [PStr "soil"; PStr "rock"] with (map PStr ["soil"; "rock"]). rewrite chk_str_req. cbn [checks p_name]. fold (as96_site a).
  rewrite !num_hit with (x := Fin (d96_m a)) by reflexivity. rewrite bind_ret_l.
  rewrite attr_hit with (v := as96_site a) by reflexivity. rewrite bind_ret_l.
  rewrite !num_hit with (x := Fin (d96_r a)) by reflexivity. rewrite bind_ret_l. rewrite result_ret.
  rewrite site_soil. pose proof (fsource (5.204 + 0.851 * (d96_m a - 6)) (d96_m a)) as S.
  assert (B : (fpow (fexp ($5.204 + $0.851 * (Fin (d96_m a) - $6)) / fpowf $10 ($1.5 * Fin (d96_m a) + $16.05)) (-1 / 3) / ($4900000 * $3.2)
     + $0.805 * (if String.eqb (d96_site a) "soil" then $1 else $0) + $0.063 * pymax (Fin (d96_r a) - $10) $0)%flt = Fin (base96 a)).
  { change (fexp ($5.204 + $0.851 * (Fin (d96_m a) - $6))%flt) with (fexp (Fin (5.204 + 0.851 * (d96_m a - 6)))). rewrite S.
    cbn [fsub]. rewrite pymax_fin. unfold base96. destruct (String.eqb (d96_site a) "soil"); fcbn; f_equal; ring. }
  rewrite B. rewrite flog_fin by apply base96_pos. rewrite mask_in, incr_fin by lra. reflexivity.
Qed.
Lemma as96_published src a : dur96_gives src a ->
  exists m, result (as96 src) = Ok m /\ as96_duration m = Fin (base96 a * exp (arias_incr 0.75)) /\ as96_std_err m = Fin 0.55.
Proof.
  intros G. eexists. split; [apply as96_construct; exact G|]. split; [|reflexivity]. unfold as96_duration; cbn [a96_ln_dur fexp].
  rewrite exp_plus, exp_ln by apply base96_pos. reflexivity.
Qed.
Lemma arias_075 : 0.0085 < arias_incr 0.75 < 0.0086.
Proof. unfold arias_incr. split; interval with (i_prec 60). Qed.

Lemma arias_mono q1 q2 : 0.10 <= q1 -> q1 < q2 -> q2 <= 0.95 -> arias_incr q1 < arias_incr q2.
Proof.
  intros H1 H2 H3. unfold arias_incr.
  assert (P : forall q, 0.10 <= q <= 0.95 -> 0 < (q - 0.05) / (1 - q)) by (intros; apply Rdiv_lt_0_compat; lra).
  assert (A : (q1 - 0.05) / (1 - q1) < (q2 - 0.05) / (1 - q2)).
  { apply Rminus_gt_0_lt. replace ((q2 - 0.05) / (1 - q2) - (q1 - 0.05) / (1 - q1)) with ((q2 - q1) * (95/100) / ((1 - q2) * (1 - q1))) by (field_simplify_eq; [lra|split; apply Rgt_not_eq; lra]).
    apply Rdiv_lt_0_compat; [lra|]. apply Rmult_lt_0_compat; lra. }
  assert (L : ln ((q1 - 0.05) / (1 - q1)) < ln ((q2 - 0.05) / (1 - q2))) by (apply ln_increasing; [apply P; lra|exact A]).
  assert (U : ln ((q2 - 0.05) / (1 - q2)) <= 3).
  { rewrite <- (ln_exp 3). apply ln_le_mono; [apply P; lra|]. apply Rle_trans with 18; [|interval].
    apply Rmult_le_reg_r with (1 - q2); [lra|]. unfold Rdiv. rewrite Rmult_assoc, Rinv_l by lra. lra. }
  set (x := ln _) in *. set (y := ln _) in *. nra.
Qed.

(** Ratios inside the band. *)
Lemma mask_cases x : (exists q, x = Fin q /\ 0.10 <= q <= 0.95 /\ as96_mask1 x = x) \/ (~ (exists q, x = Fin q /\ 0.10 <= q <= 0.95) /\ as96_mask1 x = NaN).
Proof.
  destruct x as [q| | |].
  - destruct (Rlt_dec q 0.10) as [L|L]; [right|destruct (Rlt_dec 0.95 q) as [U|U]; [right|left]].
    + split; [intros (p & E & B); injection E as ->; lra|]. unfold as96_mask1. fcbn. rewrite Rltb_true by lra. reflexivity.
    + split; [intros (p & E & B); injection E as ->; lra|]. unfold as96_mask1. fcbn. rewrite (Rltb_true 0.95) by lra. rewrite orb_true_r. reflexivity.
    + exists q. split; [reflexivity|]. split; [lra|]. apply mask_in; lra.
  - right. split; [intros (p & E & _); discriminate|reflexivity].
  - right. split; [intros (p & E & _); discriminate|reflexivity].
  - right. split; [intros (p & E & _); discriminate|reflexivity].
Qed.
Lemma mask_idem x : as96_mask1 (as96_mask1 x) = as96_mask1 x.
Proof. destruct (mask_cases x) as [(q & -> & B & E)|[_ E]]; rewrite E; [exact E|reflexivity]. Qed.
Lemma incr_nan : as96_incr1 NaN = NaN. Proof. reflexivity. Qed.
Lemma aset_same h p l : (p < List.length h)%nat -> nth_error (aset h p l) p = Some l.
Proof. revert p; induction h as [|x h IH]; intros [|p] H; cbn in *; try lia; [reflexivity|]. apply IH; lia. Qed.
Lemma aset_other h p l p' : p' <> p -> nth_error (aset h p l) p' = nth_error h p'.
Proof. revert p p'; induction h as [|x h IH]; intros [|p] [|p'] H; cbn; try reflexivity; try congruence. apply IH; congruence. Qed.
Lemma aset_aset h p l l' : aset (aset h p l) p l' = aset h p l'.
Proof. revert p; induction h as [|x h IH]; intros [|p]; cbn; try reflexivity. f_equal. apply IH. Qed.
Lemma aset_id h p : aset h p (nth p h []) = h.
Proof. revert p; induction h as [|x h IH]; intros [|p]; cbn; try reflexivity. f_equal. apply IH. Qed.
Lemma nth_aset h p l : (p < List.length h)%nat -> nth p (aset h p l) [] = l.
Proof. revert p; induction h as [|x h IH]; intros [|p] H; cbn in *; try lia; [reflexivity|]. apply IH; lia. Qed.
Lemma nth_aset_out h p l : (List.length h <= p)%nat -> aset h p l = h.
Proof. revert p; induction h as [|x h IH]; intros [|p] H; cbn in *; try lia; try reflexivity. f_equal. apply IH; lia. Qed.

(** [interp] in terms of the ratios read. *)
Lemma as96_interp_eq h m nias stds :
  (match nias with ADup _ => True | ARef p => (p < List.length h)%nat end) ->
  as96_interp h m nias stds =
  (match stds with
   | None => [map (fun x => fexp (a96_ln_dur m + as96_incr1 (as96_mask1 x))%flt) (aread h nias)]
   | Some ss => map (fun sd => map (fun x => fexp (a96_ln_dur m + as96_incr1 (as96_mask1 x) + sd * np_interp as96_std_x as96_std_y (as96_mask1 x))%flt) (aread h nias)) ss
   end, awrite h nias (map as96_mask1 (aread h nias))).
Proof.
  intros V. unfold as96_interp, as96_calc_incr.
  assert (C : forall (f : flt -> flt) (g : flt * flt -> flt) l, map g (combine (map f l) l) = map (fun x => g (f x, x)) l).
  { intros f g l. induction l as [|x l IH]; cbn; [reflexivity|]. rewrite IH. reflexivity. }
  destruct nias as [l|p]; cbn [aread awrite].
  - f_equal. destruct stds as [ss|].
    + apply map_ext. intros sd. rewrite !map_map.
      replace (map (fun x => (a96_ln_dur m + as96_incr1 (as96_mask1 (as96_mask1 x)))%flt) l) with (map (fun x => (a96_ln_dur m + as96_incr1 x)%flt) (map as96_mask1 l)) by (rewrite map_map; apply map_ext; intros; rewrite mask_idem; reflexivity).
      rewrite C, map_map. reflexivity.
    + rewrite !map_map. f_equal. apply map_ext. intros x. rewrite mask_idem. reflexivity.
  - rewrite nth_aset by exact V. rewrite aset_aset. rewrite (map_map as96_mask1 as96_mask1). rewrite (map_ext _ as96_mask1 mask_idem).
    f_equal. destruct stds as [ss|].
    + apply map_ext. intros sd. rewrite (map_map as96_incr1). rewrite C, !map_map. reflexivity.
    + rewrite !map_map. reflexivity.
Qed.

Lemma Forall2_map_r {A B} (R : A -> B -> Prop) (f : A -> B) l : (forall x, R x (f x)) -> Forall2 R l (map f l).
Proof. intros H. induction l; cbn; constructor; auto. Qed.

Lemma calc_incr_ok h nias : Forall2 (banded arias_incr) (aread h nias) (fst (as96_calc_incr h nias)).
Proof.
  unfold as96_calc_incr; cbn [fst]. rewrite map_map. apply Forall2_map_r. intros x.
  destruct (mask_cases x) as [(q & -> & B & E)|[N E]]; rewrite E.
  - left. exists q. split; [reflexivity|]. split; [exact B|]. apply incr_fin; lra.
  - right. split; [exact N|reflexivity].
Qed.
Lemma interp_values src a m h nias : dur96_gives src a -> result (as96 src) = Ok m ->
  (match nias with ADup _ => True | ARef p => (p < List.length h)%nat end) ->
  exists row, fst (as96_interp h m nias None) = [row] /\
    Forall2 (banded (fun q => base96 a * exp (arias_incr 0.75) * exp (arias_incr q))) (aread h nias) row.
Proof.
  intros G E V. rewrite (as96_construct src a G) in E. injection E as <-. rewrite as96_interp_eq by exact V. cbn [fst a96_ln_dur].
  eexists. split; [reflexivity|]. apply Forall2_map_r. intros x.
  destruct (mask_cases x) as [(q & -> & B & Em)|[N Em]]; rewrite Em.
  - left. exists q. split; [reflexivity|]. split; [exact B|]. rewrite incr_fin by lra. cbn [fadd fexp]. apply (f_equal Fin).
    rewrite !exp_plus, exp_ln by apply base96_pos. reflexivity.
  - right. split; [exact N|reflexivity].
Qed.

Definition std96 : list (R * R) :=
  [(0.10, 0.843); (0.15, 0.759); (0.20, 0.713); (0.25, 0.691); (0.30, 0.674); (0.35, 0.660); (0.40, 0.646); (0.45, 0.636); (0.50, 0.628);
   (0.55, 0.616); (0.60, 0.605); (0.65, 0.594); (0.70, 0.582); (0.75, 0.565); (0.80, 0.545); (0.85, 0.528); (0.90, 0.510); (0.95, 0.493)].
Lemma std_between q : exists s, np_interp as96_std_x as96_std_y (Fin q) = Fin s /\ 0.493 <= s <= 0.843.
Proof.
  destruct (np_interp_rows fst std96 q) as (c1 & c2 & w & H1 & H2 & Hw & HF); [discriminate|cbn; lra|].
  specialize (HF (fun c => Fin (snd c)) snd (fun c _ => eq_refl)).
  change (map (fun c => Fin (fst c)) std96) with as96_std_x in HF. change (map (fun c => Fin (snd c)) std96) with as96_std_y in HF.
  rewrite HF. eexists. split; [reflexivity|].
  assert (B : forall c, In c std96 -> 0.493 <= snd c <= 0.843).
  { intros c Hc. unfold std96 in Hc. repeat (destruct Hc as [<-|Hc]; [cbn; lra|]). destruct Hc. }
  pose proof (B c1 H1). pose proof (B c2 H2). nra.
Qed.
Lemma interp_stds src a m h nias s1 s2 : dur96_gives src a -> result (as96 src) = Ok m ->
  (match nias with ADup _ => True | ARef p => (p < List.length h)%nat end) -> s1 < s2 ->
  exists lo hi, fst (as96_interp h m nias (Some [Fin s1; Fin s2])) = [lo; hi] /\
    Forall2 (fun x y => (y = NaN /\ ~ (exists q, x = Fin q /\ 0.10 <= q <= 0.95)) \/ (fpos y /\ exists q, x = Fin q /\ 0.10 <= q <= 0.95)) (aread h nias) lo /\
    Forall2 (fun y z => (y = NaN /\ z = NaN) \/ flt_lt y z) lo hi.
Proof.
  intros G E V Hs. rewrite (as96_construct src a G) in E. injection E as <-. rewrite as96_interp_eq by exact V. cbn [fst a96_ln_dur map].
  eexists _, _. split; [reflexivity|]. split.
  - apply Forall2_map_r. intros x. destruct (mask_cases x) as [(q & -> & B & Em)|[N Em]]; rewrite Em.
    + right. split; [|exists q; auto]. rewrite incr_fin by lra. destruct (std_between q) as (s & -> & _). cbn [fadd fmul fexp]. eexists; split; [reflexivity|apply exp_pos].
    + left. split; [reflexivity|exact N].
  - induction (aread h nias) as [|x l IH]; cbn [map]; constructor; [|exact IH].
    destruct (mask_cases x) as [(q & -> & B & Em)|[N Em]]; rewrite Em.
    + right. rewrite incr_fin by lra. destruct (std_between q) as (s & -> & Bs). cbn [fadd fmul]. apply flt_lt_exp, flt_lt_fin. nra.
    + left. split; reflexivity.
Qed.

(** Effect on the caller's arrays. *)
Lemma map_masked l : Forall2 masked l (map as96_mask1 l).
Proof.
  apply Forall2_map_r. intros x. destruct (mask_cases x) as [(q & -> & B & Em)|[N Em]]; rewrite Em; [left|right]; split; try reflexivity; [eauto|exact N].
Qed.
Lemma interp_mutates h m p l stds : nth_error h p = Some l ->
  exists l', nth_error (snd (as96_interp h m (ARef p) stds)) p = Some l' /\ Forall2 masked l l' /\
    forall p', p' <> p -> nth_error (snd (as96_interp h m (ARef p) stds)) p' = nth_error h p'.
Proof.
  intros H. assert (V : (p < List.length h)%nat) by (apply nth_error_Some; rewrite H; discriminate).
  rewrite as96_interp_eq by exact V. cbn [snd awrite aread]. exists (map as96_mask1 l). rewrite (nth_error_nth h p [] H).
  split; [apply aset_same; exact V|]. split; [apply map_masked|]. intros p' Hp. apply aset_other; exact Hp.
Qed.
Lemma calc_incr_mutates h p l : nth_error h p = Some l ->
  exists l', nth_error (snd (as96_calc_incr h (ARef p))) p = Some l' /\ Forall2 masked l l' /\
    forall p', p' <> p -> nth_error (snd (as96_calc_incr h (ARef p))) p' = nth_error h p'.
Proof.
  intros H. assert (V : (p < List.length h)%nat) by (apply nth_error_Some; rewrite H; discriminate).
  unfold as96_calc_incr. cbn [snd awrite aread]. exists (map as96_mask1 l). rewrite (nth_error_nth h p [] H).
  split; [apply aset_same; exact V|]. split; [apply map_masked|]. intros p' Hp. apply aset_other; exact Hp.
Qed.
Lemma interp_list_pure h m l stds : snd (as96_interp h m (ADup l) stds) = h.
Proof. reflexivity. Qed.
Lemma interp_again h m p stds : (p < List.length h)%nat ->
  as96_interp (snd (as96_interp h m (ARef p) stds)) m (ARef p) stds = as96_interp h m (ARef p) stds.
Proof.
  intros V. rewrite (as96_interp_eq h m (ARef p) stds V). cbn [snd]. cbn [awrite aread].
  assert (V' : (p < List.length (aset h p (map as96_mask1 (nth p h []))))%nat).
  { apply nth_error_Some. rewrite aset_same by exact V. discriminate. }
  rewrite as96_interp_eq by exact V'. cbn [aread awrite]. rewrite nth_aset by exact V. rewrite aset_aset.
  rewrite (map_map as96_mask1 as96_mask1). rewrite (map_ext _ as96_mask1 mask_idem). f_equal.
  destruct stds as [ss|].
  - apply map_ext; intros sd. rewrite map_map. apply map_ext; intros x. rewrite mask_idem. reflexivity.
  - rewrite map_map. f_equal. apply map_ext; intros x. rewrite mask_idem. reflexivity.
Qed.

Lemma as96_effects src1 src2 a b : dur96_gives src1 a -> dur96_gives src2 b ->
  d96_m a <= d96_m b -> d96_r a <= d96_r b -> (d96_site a = "soil" -> d96_site b = "soil") ->
  exists m1 m2, result (as96 src1) = Ok m1 /\ result (as96 src2) = Ok m2 /\
    flt_le (as96_duration m1) (as96_duration m2) /\
    (d96_m a < d96_m b \/ (10 <= d96_r a /\ d96_r a < d96_r b) \/ (d96_site a <> "soil" /\ d96_site b = "soil") ->
     flt_lt (as96_duration m1) (as96_duration m2)).
Proof.
  intros G1 G2 Hm Hr Hs. destruct (as96_published src1 a G1) as (m1 & E1 & D1 & _). destruct (as96_published src2 b G2) as (m2 & E2 & D2 & _).
  exists m1, m2. split; [exact E1|]. split; [exact E2|]. rewrite D1, D2.
  assert (S : source_dur (5.204 + 0.851 * (d96_m a - 6)) (d96_m a) <= source_dur (5.204 + 0.851 * (d96_m b - 6)) (d96_m b) /\
     (d96_m a < d96_m b -> source_dur (5.204 + 0.851 * (d96_m a - 6)) (d96_m a) < source_dur (5.204 + 0.851 * (d96_m b - 6)) (d96_m b))).
  { destruct Hm as [Hm|Hm]; [|rewrite Hm; split; [lra|intros; lra]]. pose proof (source_incr 5.204 0.851 _ _ ltac:(lra) Hm). split; [lra|auto]. }
  assert (R : Rmax (d96_r a - 10) 0 <= Rmax (d96_r b - 10) 0 /\ (10 <= d96_r a -> d96_r a < d96_r b -> Rmax (d96_r a - 10) 0 < Rmax (d96_r b - 10) 0)).
  { split; [apply Rle_max_compat_r; lra|]. intros. rewrite !Rmax_left by lra. lra. }
  assert (T : (if String.eqb (d96_site a) "soil" then 0.805 else 0) <= (if String.eqb (d96_site b) "soil" then 0.805 else 0) /\
     (d96_site a <> "soil" -> d96_site b = "soil" -> (if String.eqb (d96_site a) "soil" then 0.805 else 0) < (if String.eqb (d96_site b) "soil" then 0.805 else 0))).
  { destruct (String.eqb_spec (d96_site a) "soil") as [A|A], (String.eqb_spec (d96_site b) "soil") as [B|B]; split; try lra; intros; try contradiction; try lra; exfalso; auto. }
  destruct S as [S1 S2], R as [R1 R2], T as [T1 T2]. pose proof (exp_pos (arias_incr 0.75)).
  split.
  - apply flt_le_fin. apply Rmult_le_compat_r; [lra|]. unfold base96. lra.
  - intros C. apply flt_lt_fin. apply Rmult_lt_compat_r; [lra|]. unfold base96.
    destruct C as [C|[[C1 C2]|[C1 C2]]]; [specialize (S2 C)|specialize (R2 C1 C2)|specialize (T2 C1 C2)]; lra.
Qed.

(** ** KS06 *)
Lemma dur06_src_gives a : dur06_gives (dur06_src a) a.
Proof. repeat split. Qed.
Lemma flog_exp_shown t : fexp (flog (Fin t)) = shown t.
Proof.
  unfold shown, flog. destruct (Rlt_dec 0 t) as [H|H].
  - rewrite Rltb_true by exact H. cbn. rewrite exp_ln by exact H. reflexivity.
  - rewrite Rltb_false by lra. destruct (Req_EM_T t 0) as [->|N]; [rewrite Reqb_true by reflexivity|rewrite Reqb_false by exact N]; reflexivity.
Qed.
Lemma ks06_total m r v s p c k : fexp (ks06_ln_dur (Fin m) (Fin r) (Fin v) (Fin s) (Fin p) (Fin c) (Fin k)) = shown (source_dur s m + p * r + (c + k * v)).
Proof. unfold ks06_ln_dur, ks06_source. cbv zeta. rewrite fsource. cbn [fadd fmul]. apply flog_exp_shown. Qed.
Lemma ks06_published src a : dur06_gives src a ->
  exists m, result (ks06 src) = Ok m /\
    ks06_duration m = Ks06Rec (shown (t75a a)) (shown (t95a a)) (shown (t75v a)) (shown (t95v a)) /\
    ks06_std_err m = Ks06Rec (Fin 0.57) (Fin 0.47) (Fin 0.66) (Fin 0.52).
Proof.
  intros (G1 & G2 & G3). unfold ks06. rewrite result_bind, model_init_result' by reflexivity.
  let x := eval cbv [ks06_params NumP CatP CatBoolP map] in ks06_params in change ks06_params with x.
  unfold has_num in *. cbn [checks p_name]. rewrite G1, G2, G3.
  repeat (rewrite ?chk_num; cbn [checks p_name]).
  rewrite !num_hit with (x := Fin (d06_m a)) by reflexivity. rewrite bind_ret_l.
  rewrite !num_hit with (x := Fin (d06_r a)) by reflexivity. rewrite bind_ret_l.
  rewrite !num_hit with (x := Fin (d06_v a)) by reflexivity. rewrite bind_ret_l. rewrite result_ret.
  eexists. split; [reflexivity|]. split; [|reflexivity].
  unfold ks06_duration; cbn [k06_ln_dur D_5t75a D_5t95a D_5t75v D_5t95v fadd fmul fsub]. rewrite !ks06_total.
  unfold t75a, t95a, t75v, t95v. f_equal; apply (f_equal shown); lra.
Qed.
Lemma shown_pos t : 0 < t -> shown t = Fin t. Proof. intros H. unfold shown. destruct (Rlt_dec 0 t); [reflexivity|lra]. Qed.
Lemma shown_neg t : t < 0 -> shown t = NaN. Proof. intros H. unfold shown. destruct (Rlt_dec 0 t); [lra|]. destruct (Req_EM_T t 0); [lra|reflexivity]. Qed.
Lemma shown_fpos t : fpos (shown t) <-> 0 < t.
Proof.
  unfold shown. destruct (Rlt_dec 0 t); [split; auto; intros; eexists; split; [reflexivity|assumption]|].
  destruct (Req_EM_T t 0); split; intros H; try lra; destruct H as (x & E & P); [injection E as <-; lra|discriminate].
Qed.
Lemma source_ge s0 k m0 m : 0 <= k <= 3.4 -> m0 <= m -> source_dur (s0 + k * (m0 - 6)) m0 <= source_dur (s0 + k * (m - 6)) m.
Proof. intros K [H| ->]; [left; apply source_incr; assumption|lra]. Qed.
Lemma ks06_positive a : 5 <= d06_m a -> 0 <= d06_r a -> d06_v a <= 1000 ->
  0 < t75a a /\ 0 < t95a a /\ 0 < t95v a /\ (5.08 <= d06_m a \/ 0.7 <= d06_r a \/ d06_v a <= 965 -> 0 < t75v a).
Proof.
  intros Hm Hr Hv.
  assert (S1 : source_dur 6.02 5 <= source_dur 6.02 (d06_m a)) by (destruct Hm as [H| ->]; [left; apply source_incr0; exact H|lra]).
  assert (S3 : source_dur 5.46 5 <= source_dur 5.46 (d06_m a)) by (destruct Hm as [H| ->]; [left; apply source_incr0; exact H|lra]).
  pose proof (source_ge 2.79 0.82 5 (d06_m a) ltac:(lra) Hm) as S2. pose proof (source_ge 1.53 1.34 5 (d06_m a) ltac:(lra) Hm) as S4.
  assert (B1 : 0.6 <= source_dur 6.02 5) by (rewrite source_closed; clear; interval with (i_prec 40)).
  assert (B2 : 2.3 <= source_dur (2.79 + 0.82 * (5 - 6)) 5) by (rewrite source_closed; clear; interval with (i_prec 40)).
  assert (B3 : 0.731 <= source_dur 5.46 5) by (rewrite source_closed; clear; interval with (i_prec 40)).
  assert (B4 : 4.2 <= source_dur (1.53 + 1.34 * (5 - 6)) 5) by (rewrite source_closed; clear; interval with (i_prec 40)).
  unfold t75a, t95a, t75v, t95v. split; [lra|]. split; [lra|]. split; [lra|].
  intros [C|[C|C]]; [|lra|lra].
  assert (S5 : source_dur 5.46 5.08 <= source_dur 5.46 (d06_m a)) by (destruct C as [H| <-]; [left; apply source_incr0; exact H|lra]).
  assert (B5 : 0.8 < source_dur 5.46 5.08 + 0) by (rewrite Rplus_0_r, source_closed; clear; interval with (i_prec 40)).
  lra.
Qed.
Lemma ks06_nan src a : dur06_gives src a -> d06_m a <= 5.02 -> d06_r a <= 0.1 -> 990 <= d06_v a ->
  exists m, result (ks06 src) = Ok m /\ D_5t75v (ks06_duration m) = NaN.
Proof.
  intros G Hm Hr Hv. destruct (ks06_published src a G) as (m & E & D & _). exists m. split; [exact E|]. rewrite D. cbn [D_5t75v]. apply shown_neg.
  assert (S : source_dur 5.46 (d06_m a) <= source_dur 5.46 5.02) by (destruct Hm as [H| ->]; [left; apply source_incr0; exact H|lra]).
  assert (B : source_dur 5.46 5.02 <= 0.757) by (rewrite source_closed; clear; interval with (i_prec 40)).
  unfold t75v. lra.
Qed.
Lemma ks06_effects src1 src2 a b : dur06_gives src1 a -> dur06_gives src2 b ->
  d06_m a <= d06_m b -> d06_r a <= d06_r b -> d06_v b <= d06_v a -> a <> b ->
  exists m1 m2, result (ks06 src1) = Ok m1 /\ result (ks06 src2) = Ok m2 /\
    forall f, In f [D_5t75a; D_5t95a; D_5t75v; D_5t95v] -> fpos (f (ks06_duration m1)) ->
      flt_lt (f (ks06_duration m1)) (f (ks06_duration m2)).
Proof.
  intros G1 G2 Hm Hr Hv N. destruct (ks06_published src1 a G1) as (m1 & E1 & D1 & _). destruct (ks06_published src2 b G2) as (m2 & E2 & D2 & _).
  exists m1, m2. split; [exact E1|]. split; [exact E2|].
  assert (N' : d06_m a < d06_m b \/ d06_r a < d06_r b \/ d06_v b < d06_v a).
  { destruct a as [ma ra va], b as [mb rb vb]; cbn in *. destruct Hm as [?|Hm]; [auto|]. destruct Hr as [?|Hr]; [auto|]. destruct Hv as [?|Hv]; [auto|].
    contradiction N. congruence. }
  assert (S1 : forall s, source_dur s (d06_m a) <= source_dur s (d06_m b) /\ (d06_m a < d06_m b -> source_dur s (d06_m a) < source_dur s (d06_m b))).
  { intros s. destruct Hm as [H|H]; [pose proof (source_incr0 s _ _ H); split; [lra|auto]|rewrite H; split; intros; lra]. }
  assert (S2 : forall s k, 0 <= k <= 3.4 -> source_dur (s + k * (d06_m a - 6)) (d06_m a) <= source_dur (s + k * (d06_m b - 6)) (d06_m b) /\
     (d06_m a < d06_m b -> source_dur (s + k * (d06_m a - 6)) (d06_m a) < source_dur (s + k * (d06_m b - 6)) (d06_m b))).
  { intros s k K. destruct Hm as [H|H]; [pose proof (source_incr s k _ _ K H); split; [lra|auto]|rewrite H; split; intros; lra]. }
  assert (L : forall t t', t < t' -> fpos (shown t) -> flt_lt (shown t) (shown t')).
  { intros t t' H P. apply shown_fpos in P. rewrite !shown_pos by lra. apply flt_lt_fin; exact H. }
  intros f Hf. rewrite D1, D2. 
  destruct Hf as [<-|[<-|[<-|[<-|[]]]]]; cbn [D_5t75a D_5t95a D_5t75v D_5t95v]; apply L.
  - unfold t75a. destruct (S1 6.02) as [A B]. destruct N' as [C|[C|C]]; [specialize (B C)| |]; lra.
  - unfold t95a. destruct (S2 2.79 0.82 ltac:(lra)) as [A B]. destruct N' as [C|[C|C]]; [specialize (B C)| |]; lra.
  - unfold t75v. destruct (S1 5.46) as [A B]. destruct N' as [C|[C|C]]; [specialize (B C)| |]; lra.
  - unfold t95v. destruct (S2 1.53 1.34 ltac:(lra)) as [A B]. destruct N' as [C|[C|C]]; [specialize (B C)| |]; lra.
Qed.
Lemma ks06_finite src a : dur06_gives src a -> 5 <= d06_m a -> 0 <= d06_r a -> d06_v a <= 1000 ->
  exists m, result (ks06 src) = Ok m /\ fpos (D_5t75a (ks06_duration m)) /\ fpos (D_5t95a (ks06_duration m)) /\ fpos (D_5t95v (ks06_duration m)) /\
    (5.08 <= d06_m a \/ 0.7 <= d06_r a \/ d06_v a <= 965 -> fpos (D_5t75v (ks06_duration m))).
Proof.
  intros G Hm Hr Hv. destruct (ks06_published src a G) as (m & E & D & _). exists m. split; [exact E|]. rewrite D. cbn [D_5t75a D_5t95a D_5t75v D_5t95v].
  destruct (ks06_positive a Hm Hr Hv) as (P1 & P2 & P4 & P3). split; [apply shown_fpos; exact P1|]. split; [apply shown_fpos; exact P2|].
  split; [apply shown_fpos; exact P4|]. intros C. apply shown_fpos. apply P3; exact C.
Qed.
