(** * Anal: real-analysis lemmas *)

From Coq Require Import Reals Lra Psatz.
From Coquelicot Require Import Coquelicot.
Open Scope R_scope.

(** Strict decrease from a negative derivative. *)
Lemma decr_by_derive (f df : R -> R) (a b : R) : a < b ->
  (forall x, a <= x <= b -> is_derive f x (df x)) ->
  (forall x, a < x < b -> df x < 0) -> f b < f a.
Proof.
  intros Hab Hd Hn.
  destruct (MVT_cor2 f df a b Hab) as (c & Hc & Hcin).
  - intros c Hc. apply is_derive_Reals. apply Hd; exact Hc.
  - specialize (Hn c Hcin). nra.
Qed.
Lemma incr_by_derive (f df : R -> R) (a b : R) : a < b ->
  (forall x, a <= x <= b -> is_derive f x (df x)) ->
  (forall x, a < x < b -> 0 < df x) -> f a < f b.
Proof.
  intros Hab Hd Hn.
  destruct (MVT_cor2 f df a b Hab) as (c & Hc & Hcin).
  - intros c Hc. apply is_derive_Reals. apply Hd; exact Hc.
  - specialize (Hn c Hcin). nra.
Qed.
Lemma decr_by_derive_le (f df : R -> R) (a b : R) : a <= b ->
  (forall x, a <= x <= b -> is_derive f x (df x)) ->
  (forall x, a < x < b -> df x <= 0) -> f b <= f a.
Proof.
  intros Hab Hd Hn. destruct (Req_dec a b) as [->|Hne]; [lra|].
  destruct (MVT_cor2 f df a b ltac:(lra)) as (c & Hc & Hcin).
  - intros c Hc. apply is_derive_Reals. apply Hd; exact Hc.
  - specialize (Hn c Hcin). nra.
Qed.

Lemma ln_le_mono x y : 0 < x -> x <= y -> ln x <= ln y.
Proof. intros Hx [H| ->]; [left; apply ln_increasing; lra | lra]. Qed.
Lemma exp_le_mono x y : x <= y -> exp x <= exp y.
Proof. intros [H| ->]; [left; apply exp_increasing; exact H | lra]. Qed.
Lemma ln_sqrt x : 0 < x -> ln (sqrt x) = / 2 * ln x.
Proof.
  intros H. assert (0 < sqrt x) by (apply sqrt_lt_R0; exact H).
  replace (ln x) with (ln (sqrt x * sqrt x)) by (rewrite sqrt_sqrt; [reflexivity|lra]).
  rewrite ln_mult by assumption. lra.
Qed.
Lemma sqrt_pos_lt x : 0 < x -> 0 < sqrt x.
Proof. apply sqrt_lt_R0. Qed.
Lemma exp_0_1 : exp 0 = 1. Proof. apply exp_0. Qed.
Lemma exp_ge_1 x : 0 <= x -> 1 <= exp x.
Proof. intros H. rewrite <- exp_0. apply exp_le_mono; exact H. Qed.
Lemma ln_nonneg x : 1 <= x -> 0 <= ln x.
Proof. intros H. rewrite <- ln_1. apply ln_le_mono; lra. Qed.
Lemma ln_nonpos x : 0 < x <= 1 -> ln x <= 0.
Proof. intros H. rewrite <- ln_1. apply ln_le_mono; lra. Qed.
Lemma ln_pos_lt x : 1 < x -> 0 < ln x.
Proof. intros H. rewrite <- ln_1. apply ln_increasing; lra. Qed.
Lemma ln_neg_lt x : 0 < x < 1 -> ln x < 0.
Proof. intros H. rewrite <- ln_1. apply ln_increasing; lra. Qed.
Lemma ln10_pos : 0 < ln 10. Proof. apply ln_pos_lt; lra. Qed.
Lemma Rpower_pos x y : 0 < Rpower x y. Proof. apply exp_pos. Qed.
Lemma sq2_pos x s : 0 < s -> 0 < x * x + s * s.
Proof. intros H. nra. Qed.
Lemma sq2_nonneg x s : 0 <= x * x + s * s.
Proof. nra. Qed.
(** A linear function negative (positive) at both ends is so in between. *)
Lemma lin_neg a b lo hi x : lo < hi -> a + b * lo < 0 -> a + b * hi < 0 -> lo <= x <= hi -> a + b * x < 0.
Proof.
  intros H0 H1 H2 [Hx1 Hx2]. destruct (Rle_dec 0 b).
  - assert (b * x <= b * hi) by (apply Rmult_le_compat_l; lra). lra.
  - assert (b * x <= b * lo) by (apply Rmult_le_compat_neg_l; lra). lra.
Qed.
Lemma lin_pos a b lo hi x : lo < hi -> 0 < a + b * lo -> 0 < a + b * hi -> lo <= x <= hi -> 0 < a + b * x.
Proof.
  intros H0 H1 H2 [Hx1 Hx2]. destruct (Rle_dec 0 b).
  - assert (b * lo <= b * x) by (apply Rmult_le_compat_l; lra). lra.
  - assert (b * hi <= b * x) by (apply Rmult_le_compat_neg_l; lra). lra.
Qed.
Lemma Rlt_0_minus_lt' a b : 0 < b - a -> a < b. Proof. lra. Qed.
