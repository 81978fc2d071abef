(** * Baker & Jayaram (2008): the correlation matrix is positive semidefinite (C120)

    1 - sin |x - y| is a mixture of tents, and a tent is the measure of the intersection of two intervals. *)
From Coquelicot Require Import Coquelicot.
From Interval Require Import Tactic.
From Coq Require Import List.
From Verif Require Import M_bj08 Anal Spec_cms Spec_cms2 P_bj08.
Open Scope R_scope.
Open Scope list_scope.

Definition ind (a b s : R) : R := if Rle_dec a s then (if Rlt_dec s b then 1 else 0) else 0.
Lemma is_RInt_zero a b : is_RInt (fun _ : R => 0) a b 0.
Proof. pose proof (is_RInt_const a b 0) as H. unfold scal in H; cbn in H. unfold mult in H; cbn in H. rewrite Rmult_0_r in H. exact H. Qed.
Lemma is_RInt_one a b : is_RInt (fun _ : R => 1) a b (b - a).
Proof. pose proof (is_RInt_const a b 1) as H. unfold scal in H; cbn in H. unfold mult in H; cbn in H. rewrite Rmult_1_r in H. exact H. Qed.
Lemma int_chasles (f : R -> R) a b c u v : is_RInt f a b u -> is_RInt f b c v -> is_RInt f a c (u + v).
Proof. intros H1 H2. apply (is_RInt_Chasles f a b c u v H1 H2). Qed.
Lemma int_plus (f g : R -> R) a b u v : is_RInt f a b u -> is_RInt g a b v -> is_RInt (fun s => f s + g s) a b (u + v).
Proof. intros H1 H2. apply (is_RInt_plus f g a b u v H1 H2). Qed.
Lemma int_scal (f : R -> R) a b k u : is_RInt f a b u -> is_RInt (fun s => k * f s) a b (k * u).
Proof. intros H1. apply (is_RInt_scal f a b k u H1). Qed.
Lemma int_derive (F f : R -> R) a b : (forall x, is_derive F x (f x)) -> (forall x, continuous f x) -> is_RInt f a b (F b - F a).
Proof. intros H1 H2. apply (is_RInt_derive F f a b); intros; [apply H1|apply H2]. Qed.
Lemma ind_int a b A B : A <= a -> a <= B -> A <= b -> b <= B -> is_RInt (ind a b) A B (Rmax (b - a) 0).
Proof.
  intros H1 H2 H3 H4. destruct (Rle_dec b a) as [L|L].
  - rewrite Rmax_right by lra. apply (is_RInt_ext (fun _ => 0)); [|apply is_RInt_zero].
    intros s _. unfold ind. destruct (Rle_dec a s), (Rlt_dec s b); try reflexivity; lra.
  - rewrite Rmax_left by lra. replace (b - a) with (0 + ((b - a) + 0)) by ring.
    apply (int_chasles _ A a B); [|apply (int_chasles _ a b B)].
    + apply (is_RInt_ext (fun _ => 0)); [|apply is_RInt_zero]. intros s. rewrite Rmin_left, Rmax_right by lra. intros S. unfold ind. destruct (Rle_dec a s); [lra|reflexivity].
    + apply (is_RInt_ext (fun _ => 1)); [|apply is_RInt_one]. intros s. rewrite Rmin_left, Rmax_right by lra. intros S. unfold ind. destruct (Rle_dec a s); [|lra]. destruct (Rlt_dec s b); [reflexivity|lra].
    + apply (is_RInt_ext (fun _ => 0)); [|apply is_RInt_zero]. intros s. rewrite Rmin_left, Rmax_right by lra. intros S. unfold ind. destruct (Rle_dec a s); [|reflexivity]. destruct (Rlt_dec s b); [lra|reflexivity].
Qed.
Definition tent (t d : R) : R := Rmax (t - d) 0.
Lemma ind_prod x y t s : 0 <= t -> ind x (x + t) s * ind y (y + t) s = ind (Rmax x y) (Rmin x y + t) s.
Proof.
  intros Ht. unfold ind, Rmax, Rmin. destruct (Rle_dec x y);
  repeat match goal with |- context [Rle_dec ?a ?b] => destruct (Rle_dec a b) | |- context [Rlt_dec ?a ?b] => destruct (Rlt_dec a b) end; lra.
Qed.
Lemma tent_int x y t A B : 0 <= t -> A <= x -> A <= y -> x + t <= B -> y + t <= B ->
  is_RInt (fun s => ind x (x + t) s * ind y (y + t) s) A B (tent t (Rabs (x - y))).
Proof.
  intros Ht H1 H2 H3 H4. apply (is_RInt_ext (ind (Rmax x y) (Rmin x y + t))); [intros s _; symmetry; apply ind_prod; exact Ht|].
  replace (tent t (Rabs (x - y))) with (Rmax (Rmin x y + t - Rmax x y) 0).
  - apply ind_int; unfold Rmax, Rmin; destruct (Rle_dec x y); lra.
  - unfold tent. apply (f_equal (fun z => Rmax z 0)). unfold Rabs, Rmin, Rmax. destruct (Rle_dec x y), (Rcase_abs (x - y)); lra.
Qed.

(** Quadratic forms over a list of (position, weight). *)
Fixpoint sumr {A} (f : A -> R) (l : list A) : R := match l with [] => 0 | a :: l' => f a + sumr f l' end.
Lemma sumr_ext {A} (f g : A -> R) l : (forall a, In a l -> f a = g a) -> sumr f l = sumr g l.
Proof. induction l as [|a l IH]; intros H; cbn; [reflexivity|]. rewrite H by (left; reflexivity). rewrite IH by (intros; apply H; right; assumption). reflexivity. Qed.
Lemma sumr_scal {A} k (f : A -> R) l : sumr (fun a => k * f a) l = k * sumr f l.
Proof. induction l as [|a l IH]; cbn; [ring|]. rewrite IH. ring. Qed.
Lemma sumr_int {A} (f : A -> R -> R) (v : A -> R) l a b : (forall x, In x l -> is_RInt (f x) a b (v x)) -> is_RInt (fun s => sumr (fun x => f x s) l) a b (sumr v l).
Proof.
  induction l as [|x l IH]; intros H; cbn; [apply is_RInt_zero|]. apply (int_plus (f x) (fun s => sumr (fun x => f x s) l)); [apply H; left; reflexivity|].
  apply IH. intros; apply H; right; assumption.
Qed.
Definition quad (k : R -> R -> R) (l : list (R * R)) : R := sumr (fun p => sumr (fun q => snd p * snd q * k (fst p) (fst q)) l) l.
Lemma quad_int (f : R -> R -> R -> R) (k : R -> R -> R) l a b : (forall p q, In p l -> In q l -> is_RInt (f (fst p) (fst q)) a b (k (fst p) (fst q))) ->
  is_RInt (fun s => quad (fun x y => f x y s) l) a b (quad k l).
Proof.
  intros H. unfold quad. apply (sumr_int (fun p s => sumr (fun q => snd p * snd q * f (fst p) (fst q) s) l)). intros p Hp.
  apply (sumr_int (fun q s => snd p * snd q * f (fst p) (fst q) s)). intros q Hq. apply int_scal. apply H; assumption.
Qed.
Lemma quad_prod (g : R -> R) l : quad (fun x y => g x * g y) l = sumr (fun p => snd p * g (fst p)) l ^ 2.
Proof.
  unfold quad. transitivity (sumr (fun p => sumr (fun q => snd q * g (fst q)) l * (snd p * g (fst p))) l).
  - apply sumr_ext. intros p _. rewrite (sumr_ext _ (fun q => (snd p * g (fst p)) * (snd q * g (fst q)))) by (intros; ring). rewrite sumr_scal. ring.
  - rewrite sumr_scal. ring.
Qed.
Lemma is_RInt_nonneg f a b v : a <= b -> is_RInt f a b v -> (forall x, a < x < b -> 0 <= f x) -> 0 <= v.
Proof. intros Hab H P. rewrite <- (is_RInt_unique _ _ _ _ H). apply RInt_ge_0; [exact Hab|exists v; exact H|exact P]. Qed.
Lemma bounded_list (l : list (R * R)) : exists A B, A <= B /\ forall p, In p l -> A <= fst p <= B.
Proof.
  induction l as [|p l (A & B & HAB & H)]; [exists 0, 0; split; [lra|intros p []]|]. exists (Rmin A (fst p)), (Rmax B (fst p)).
  split; [apply Rle_trans with A; [apply Rmin_l|apply Rle_trans with B; [exact HAB|apply Rmax_l]]|].
  intros q [<-|Hq]; [split; [apply Rmin_r|apply Rmax_r]|]. specialize (H q Hq). split; [apply Rle_trans with A; [apply Rmin_l|lra]|apply Rle_trans with B; [lra|apply Rmax_l]].
Qed.
Lemma tent_psd t l : 0 <= t -> 0 <= quad (fun x y => tent t (Rabs (x - y))) l.
Proof.
  intros Ht. destruct (bounded_list l) as (A & B & HAB & H).
  apply (is_RInt_nonneg (fun s => quad (fun x y => ind x (x + t) s * ind y (y + t) s) l) A (B + t)); [lra| |].
  - apply (quad_int (fun x y s => ind x (x + t) s * ind y (y + t) s)). intros p q Hp Hq. pose proof (H p Hp). pose proof (H q Hq). apply tent_int; lra.
  - intros s _. rewrite (quad_prod (fun x => ind x (x + t) s)). apply pow2_ge_0.
Qed.
Lemma sin_tent d : 0 <= d <= PI / 2 -> is_RInt (fun t => sin t * tent t d) 0 (PI / 2) (1 - sin d).
Proof.
  intros H. pose proof PI_RGT_0. replace (1 - sin d) with (0 + (1 - sin d)) by ring.
  apply (int_chasles _ 0 d (PI / 2)).
  - apply (is_RInt_ext (fun _ => 0)); [|apply is_RInt_zero]. intros t. rewrite Rmin_left, Rmax_right by lra. intros T. unfold tent. rewrite Rmax_right by lra. symmetry. apply Rmult_0_r.
  - apply (is_RInt_ext (fun t => sin t * (t - d))).
    + intros t. rewrite Rmin_left, Rmax_right by lra. intros T. unfold tent. rewrite Rmax_left by lra. reflexivity.
    + replace (1 - sin d) with ((sin (PI / 2) - (PI / 2 - d) * cos (PI / 2)) - (sin d - (d - d) * cos d)) by (rewrite sin_PI2, cos_PI2; ring).
      apply (int_derive (fun t => sin t - (t - d) * cos t)).
      * intros t. auto_derive; [exact I|]. ring.
      * intros t. apply (ex_derive_continuous (fun t => sin t * (t - d))). auto_derive. exact I.
Qed.
Lemma sin_psd l : (forall p q, In p l -> In q l -> Rabs (fst p - fst q) <= PI / 2) -> 0 <= quad (fun x y => 1 - sin (Rabs (x - y))) l.
Proof.
  intros H. pose proof PI_RGT_0. apply (is_RInt_nonneg (fun t => quad (fun x y => sin t * tent t (Rabs (x - y))) l) 0 (PI / 2)); [lra| |].
  - apply (quad_int (fun x y t => sin t * tent t (Rabs (x - y)))). intros p q Hp Hq. apply sin_tent. split; [apply Rabs_pos|apply H; assumption].
  - intros t Ht. replace (quad (fun x y => sin t * tent t (Rabs (x - y))) l) with (sin t * quad (fun x y => tent t (Rabs (x - y))) l).
    + apply Rmult_le_pos; [apply Rlt_le, sin_gt_0; lra|]. apply tent_psd; lra.
    + unfold quad. rewrite <- sumr_scal. apply sumr_ext. intros p _. rewrite <- sumr_scal. apply sumr_ext. intros q _. ring.
Qed.

(** ** Positive definite for distinct positions *)
Definition same (x y : R) : R := if Req_EM_T x y then 1 else 0.
Lemma sin_tent_tail dl d : 0 < dl <= PI / 2 -> d = 0 \/ dl <= d <= PI / 2 ->
  is_RInt (fun t => sin t * tent t d) dl (PI / 2) (1 - sin d - (if Req_EM_T d 0 then sin dl - dl * cos dl else 0)).
Proof.
  intros Hd H. pose proof PI_RGT_0.
  assert (T : forall a, d <= a <= PI / 2 -> is_RInt (fun t => sin t * tent t d) a (PI / 2) (1 - (sin a - (a - d) * cos a))).
  { intros a Ha. apply (is_RInt_ext (fun t => sin t * (t - d))).
    - intros t. rewrite Rmin_left, Rmax_right by lra. intros T. unfold tent. rewrite Rmax_left by lra. reflexivity.
    - replace (1 - (sin a - (a - d) * cos a)) with ((sin (PI / 2) - (PI / 2 - d) * cos (PI / 2)) - (sin a - (a - d) * cos a)) by (rewrite sin_PI2, cos_PI2; ring).
      apply (int_derive (fun t => sin t - (t - d) * cos t)).
      + intros t. auto_derive; [exact I|]. ring.
      + intros t. apply (ex_derive_continuous (fun t => sin t * (t - d))). auto_derive. exact I. }
  destruct (Req_EM_T d 0) as [E|E].
  - replace (1 - sin d - (sin dl - dl * cos dl)) with (1 - (sin dl - (dl - d) * cos dl)) by (rewrite E, sin_0; ring). apply T. lra.
  - replace (1 - sin d - 0) with (0 + (1 - (sin d - (d - d) * cos d))) by ring. apply (int_chasles _ dl d (PI / 2)); [|apply T; lra].
    apply (is_RInt_ext (fun _ => 0)); [|apply is_RInt_zero]. intros t. rewrite Rmin_left, Rmax_right by lra. intros TT. unfold tent. rewrite Rmax_right by lra. symmetry. apply Rmult_0_r.
Qed.
Lemma quad_plus k1 k2 l : quad (fun x y => k1 x y + k2 x y) l = quad k1 l + quad k2 l.
Proof.
  unfold quad. assert (P : forall (f g : R * R -> R) m, sumr (fun p => f p + g p) m = sumr f m + sumr g m) by (intros f g m; induction m as [|a m IH]; cbn; [ring|rewrite IH; ring]).
  rewrite <- P. apply sumr_ext. intros p _. rewrite <- P. apply sumr_ext. intros q _. ring.
Qed.
Lemma quad_scal c k l : quad (fun x y => c * k x y) l = c * quad k l.
Proof. unfold quad. rewrite <- sumr_scal. apply sumr_ext. intros p _. rewrite <- sumr_scal. apply sumr_ext. intros q _. ring. Qed.
Lemma quad_ext k1 k2 l : (forall p q, In p l -> In q l -> k1 (fst p) (fst q) = k2 (fst p) (fst q)) -> quad k1 l = quad k2 l.
Proof. intros H. unfold quad. apply sumr_ext. intros p Hp. apply sumr_ext. intros q Hq. rewrite H by assumption. reflexivity. Qed.
Lemma same_row x w l : sumr (fun q => w * snd q * same x (fst q)) l = w * sumr (fun q => snd q * same x (fst q)) l.
Proof. rewrite <- sumr_scal. apply sumr_ext. intros; ring. Qed.
Lemma same_none x l : (forall q, In q l -> fst q <> x) -> sumr (fun q => snd q * same x (fst q)) l = 0.
Proof. induction l as [|q l IH]; intros H; cbn; [reflexivity|]. rewrite IH by (intros; apply H; right; assumption). unfold same. destruct (Req_EM_T x (fst q)) as [E|E]; [exfalso; apply (H q (or_introl eq_refl)); congruence|ring]. Qed.
Lemma same_one l : NoDup (map fst l) -> forall p, In p l -> sumr (fun q => snd q * same (fst p) (fst q)) l = snd p.
Proof.
  induction l as [|q l IH]; intros N p []; cbn; inversion N as [|a b N1 N2]; subst.
  - rewrite same_none; [unfold same; destruct (Req_EM_T (fst p) (fst p)); [ring|congruence]|]. intros r Hr E. apply N1. rewrite <- E. apply in_map; exact Hr.
  - rewrite IH by assumption. unfold same. destruct (Req_EM_T (fst p) (fst q)) as [E|E]; [exfalso; apply N1; rewrite <- E; apply in_map; assumption|ring].
Qed.
Lemma quad_same l : NoDup (map fst l) -> quad same l = sumr (fun p => snd p ^ 2) l.
Proof. intros N. unfold quad. apply sumr_ext. intros p Hp. rewrite same_row, same_one by assumption. ring. Qed.
Lemma gap_exists (l : list R) : exists dl, 0 < dl <= PI / 2 /\ forall x y, In x l -> In y l -> x = y \/ dl <= Rabs (x - y).
Proof.
  pose proof PI_RGT_0 as PP.
  induction l as [|a l (dl & Hd & H)]; [exists (PI / 2); split; [lra|intros x y []]|].
  assert (G : exists e, 0 < e /\ forall y, In y l -> a = y \/ e <= Rabs (a - y)).
  { clear H. induction l as [|b l (e & He & H)]; [exists 1; split; [lra|intros y []]|]. destruct (Req_EM_T a b) as [E|E].
    - exists e. split; [exact He|]. intros y [<-|Hy]; [left; exact E|apply H, Hy].
    - exists (Rmin e (Rabs (a - b))). assert (0 < Rabs (a - b)) by (apply Rabs_pos_lt; lra). split; [apply Rmin_pos; assumption|].
      intros y [<-|Hy]; [right; apply Rmin_r|]. destruct (H y Hy) as [K|K]; [left; exact K|right]. apply Rle_trans with e; [apply Rmin_l|exact K]. }
  destruct G as (e & He & G). exists (Rmin dl e). split; [split; [apply Rmin_pos; lra|apply Rle_trans with dl; [apply Rmin_l|lra]]|].
  assert (R1 : Rmin dl e <= dl) by apply Rmin_l. assert (R2 : Rmin dl e <= e) by apply Rmin_r.
  intros x y [<-|Hx] [<-|Hy].
  - left; reflexivity.
  - destruct (G y Hy); [left; assumption|right; lra].
  - destruct (G x Hx); [left; symmetry; assumption|right]. rewrite Rabs_minus_sym. lra.
  - destruct (H x y Hx Hy); [left; assumption|right; lra].
Qed.
Lemma kappa_pos dl : 0 < dl <= PI / 2 -> 0 < sin dl - dl * cos dl.
Proof.
  intros H. pose proof PI_RGT_0. pose proof (incr_by_derive (fun t => sin t - t * cos t) (fun t => t * sin t) 0 dl) as Q. cbv beta in Q. rewrite sin_0, cos_0 in Q.
  replace 0 with (0 - 0 * 1) by ring. apply Q; [lra| |].
  - intros t _. auto_derive; [exact I|]. ring.
  - intros t Ht. apply Rmult_lt_0_compat; [lra|]. apply sin_gt_0; lra.
Qed.
Lemma sin_pd l : NoDup (map fst l) -> (forall p q, In p l -> In q l -> Rabs (fst p - fst q) <= PI / 2) ->
  exists k, 0 < k /\ k * sumr (fun p => snd p ^ 2) l <= quad (fun x y => 1 - sin (Rabs (x - y))) l.
Proof.
  intros N H. pose proof PI_RGT_0. destruct (gap_exists (map fst l)) as (dl & Hd & G). set (k := sin dl - dl * cos dl). exists k. split; [apply kappa_pos; exact Hd|].
  rewrite <- quad_same by exact N. rewrite <- quad_scal.
  cut (0 <= quad (fun x y => 1 - sin (Rabs (x - y)) + (-1) * (k * same x y)) l). { rewrite (quad_plus (fun x y => 1 - sin (Rabs (x - y)))), quad_scal. lra. }
  apply (is_RInt_nonneg (fun t => quad (fun x y => sin t * tent t (Rabs (x - y))) l) dl (PI / 2)); [lra| |].
  - apply (quad_int (fun x y t => sin t * tent t (Rabs (x - y))) (fun x y => 1 - sin (Rabs (x - y)) + (-1) * (k * same x y))). intros p q Hp Hq.
    replace (1 - sin (Rabs (fst p - fst q)) + (-1) * (k * same (fst p) (fst q))) with (1 - sin (Rabs (fst p - fst q)) - (if Req_EM_T (Rabs (fst p - fst q)) 0 then sin dl - dl * cos dl else 0)).
    + apply sin_tent_tail; [exact Hd|]. destruct (G (fst p) (fst q) (in_map fst _ _ Hp) (in_map fst _ _ Hq)) as [E|E]; [left; rewrite E, Rminus_eq_0; apply Rabs_R0|right; split; [exact E|apply H; assumption]].
    + unfold same. fold k. destruct (Req_EM_T (Rabs (fst p - fst q)) 0) as [E|E], (Req_EM_T (fst p) (fst q)) as [E2|E2]; try ring.
      * exfalso. apply E2. destruct (Req_dec (fst p - fst q) 0); [lra|]. exfalso; apply (Rabs_no_R0 (fst p - fst q)); assumption.
      * exfalso. apply E. rewrite E2, Rminus_eq_0. apply Rabs_R0.
  - intros t Ht. rewrite quad_scal. apply Rmult_le_pos; [apply Rlt_le, sin_gt_0; lra|]. apply tent_psd; lra.
Qed.

(** ** The correlation of Baker & Jayaram (2008) above 0.109 s *)
Definition logt (t : R) : R := 0.366 * ln t.
Lemma logt_gap t u : 0 < t -> 0 < u -> u <= 73 * t -> t <= 73 * u -> Rabs (logt t - logt u) <= PI / 2.
Proof.
  intros Ht Hu H1 H2. unfold logt. assert (L : 0.366 * ln 73 <= PI / 2) by interval with (i_prec 40).
  assert (A : ln u <= ln 73 + ln t) by (rewrite <- ln_mult by lra; apply ln_le_mono; lra). assert (B : ln t <= ln 73 + ln u) by (rewrite <- ln_mult by lra; apply ln_le_mono; lra).
  apply Rabs_le. lra.
Qed.
Lemma logt_inj t u : 0 < t -> 0 < u -> logt t = logt u -> t = u.
Proof. intros Ht Hu E. unfold logt in E. apply ln_inv; [assumption|assumption|lra]. Qed.
Lemma rho_sin t u : 0.109 < t -> 0.109 < u -> bj_rho t u = 1 - sin (Rabs (logt t - logt u)).
Proof.
  intros Ht Hu. unfold bj_rho. cbv zeta. destruct (Rlt_dec (Rmax t u) 0.109) as [L|L]; [exfalso; pose proof (Rmax_l t u); lra|].
  destruct (Rlt_dec 0.109 (Rmin t u)) as [M|M]; [|exfalso; apply M, Rmin_glb_lt; assumption].
  unfold bj_c1. apply (f_equal (fun z => 1 - sin z)). rewrite (Rmax_left (Rmin t u)) by lra. unfold logt.
  unfold Rmax, Rmin. destruct (Rle_dec t u) as [E|E].
  - rewrite ln_div by lra. assert (ln t <= ln u) by (apply ln_le_mono; lra). rewrite Rabs_left1 by lra. ring.
  - rewrite ln_div by lra. assert (ln u <= ln t) by (apply ln_le_mono; lra). rewrite Rabs_right by lra. ring.
Qed.
(** Periods to which the result applies. *)
Lemma quad_rho l : mid_periods (map fst l) -> quad bj_rho l = quad (fun x y => 1 - sin (Rabs (x - y))) (map (fun p => (logt (fst p), snd p)) l).
Proof.
  intros [H1 _]. assert (M : forall f, sumr f (map (fun p : R * R => (logt (fst p), snd p)) l) = sumr (fun p => f (logt (fst p), snd p)) l).
  { intros f. clear. induction l as [|a l IH]; cbn; [reflexivity|rewrite IH; reflexivity]. }
  unfold quad. rewrite M. apply sumr_ext. intros p Hp. rewrite M. apply sumr_ext. intros q Hq. cbn [fst snd]. rewrite rho_sin; [reflexivity| |]; apply H1, in_map; assumption.
Qed.
Lemma map_logt l : map fst (map (fun p : R * R => (logt (fst p), snd p)) l) = map logt (map fst l).
Proof. rewrite !map_map. reflexivity. Qed.
Lemma in_logt l p : In p (map (fun p : R * R => (logt (fst p), snd p)) l) -> exists q, In q l /\ p = (logt (fst q), snd q).
Proof. intros H. apply in_map_iff in H. destruct H as (q & E & Hq). exists q. split; [exact Hq|symmetry; exact E]. Qed.
Lemma rho_psd l : mid_periods (map fst l) -> 0 <= quad bj_rho l.
Proof.
  intros H. rewrite quad_rho by exact H. apply sin_psd. intros p q Hp Hq. destruct (in_logt _ _ Hp) as (p' & Hp' & ->). destruct (in_logt _ _ Hq) as (q' & Hq' & ->). cbn [fst].
  destruct H as [H1 H2]. apply (in_map fst) in Hp', Hq'. pose proof (H1 _ Hp'). pose proof (H1 _ Hq'). apply logt_gap; try lra; apply H2; assumption.
Qed.
Lemma rho_pd l : mid_periods (map fst l) -> NoDup (map fst l) -> (exists p, In p l /\ snd p <> 0) -> 0 < quad bj_rho l.
Proof.
  intros H N (p & Hp & Z). rewrite quad_rho by exact H.
  destruct (sin_pd (map (fun p => (logt (fst p), snd p)) l)) as (k & Hk & Q).
  - rewrite map_logt. destruct H as [H1 _]. clear Hp. revert N H1. generalize (map fst l). intros ts N H1. induction N as [|t ts NI N IH]; cbn; constructor.
    + intros I. apply in_map_iff in I. destruct I as (u & E & Hu). apply NI. pose proof (H1 t (or_introl eq_refl)). pose proof (H1 u (or_intror Hu)).
      replace t with u; [exact Hu|]. apply logt_inj; (lra || exact E).
    + apply IH. intros; apply H1; right; assumption.
  - intros a b Ha Hb. destruct (in_logt _ _ Ha) as (p' & Hp' & ->). destruct (in_logt _ _ Hb) as (q' & Hq' & ->). cbn [fst].
    destruct H as [H1 H2]. apply (in_map fst) in Hp', Hq'. pose proof (H1 _ Hp'). pose proof (H1 _ Hq'). apply logt_gap; try lra; apply H2; assumption.
  - eapply Rlt_le_trans; [|exact Q]. apply Rmult_lt_0_compat; [exact Hk|].
    clear -Hp Z. induction l as [|a l IH]; [destruct Hp|]. cbn.
    assert (P : 0 <= sumr (fun p => snd p ^ 2) (map (fun p : R * R => (logt (fst p), snd p)) l)). { clear. induction l as [|b l IH]; cbn; [lra|]. pose proof (pow2_ge_0 (snd b)). cbn in *. lra. }
    pose proof (pow2_ge_0 (snd a)) as S. cbn [pow] in *. destruct Hp as [->|Hp].
    + assert (0 < snd p * (snd p * 1)) by (rewrite Rmult_1_r; apply Rsqr_pos_lt; exact Z). lra.
    + specialize (IH Hp). lra.
Qed.
