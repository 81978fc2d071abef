(** * Further facts about conditional spectra: continuity, invertibility for two conditions *)
From Coquelicot Require Import Coquelicot.
From Interval Require Import Tactic.
From Coq Require Import List ClassicalEpsilon.
From Verif Require Import M_k17 Anal Cont1 Spec_cms Spec_k17 P_bj08 P_k17.
Open Scope R_scope.
Open Scope list_scope.

(** An [inv] as assumed exists. *)
Lemma inverse_unique n f g h : inverse_of n f g -> inverse_of n f h -> forall i j, (i < n)%nat -> (j < n)%nat -> g i j = h i j.
Proof.
  intros G H i j Hi Hj.
  transitivity (Rsum (map (fun k => Rsum (map (fun m => g i m * f m k) (seq 0 n)) * h k j) (seq 0 n))).
  - transitivity (Rsum (map (fun m => g i m * Rsum (map (fun k => f m k * h k j) (seq 0 n))) (seq 0 n))).
    + rewrite <- (Rsum_delta_r n j (fun m => g i m) Hj). apply Rsum_ext. intros k Hk. apply in_seq in Hk.
      destruct (H k j ltac:(lia) Hj) as [-> _]. reflexivity.
    + transitivity (Rsum (map (fun m => Rsum (map (fun k => g i m * f m k * h k j) (seq 0 n))) (seq 0 n))).
      * apply Rsum_ext. intros m Hm. rewrite <- Rsum_scal. apply Rsum_ext. intros k Hk. ring.
      * rewrite Rsum_swap. apply Rsum_ext. intros k Hk. rewrite <- Rsum_scal_r. reflexivity.
  - rewrite <- (Rsum_delta n i (fun k => h k j) Hi). apply Rsum_ext. intros k Hk. apply in_seq in Hk.
    destruct (G i k Hi ltac:(lia)) as [_ ->]. reflexivity.
Qed.
Definition real_of (a : flt) : R := match a with Fin x => x | _ => 0 end.
Lemma inv_exists : exists inv, inv_spec inv.
Proof.
  assert (Q : forall a, exists b, match b with
      | Some b => mr b = mr a /\ mc b = mr a /\ exists g, (forall i j, me b i j = Fin (g i j)) /\ inverse_of (mr a) (fun i j => real_of (me a i j)) g
      | None => ~ exists g, inverse_of (mr a) (fun i j => real_of (me a i j)) g end).
  { intros a. destruct (classic (exists g, inverse_of (mr a) (fun i j => real_of (me a i j)) g)) as [(g & G)|N].
    - exists (Some (Mat (mr a) (mr a) (fun i j => Fin (g i j)))). cbn. split; [reflexivity|]. split; [reflexivity|]. exists g. split; [reflexivity|exact G].
    - exists None. exact N. }
  exists (fun a => proj1_sig (constructive_indefinite_description _ (Q a))).
  intros n a f R C F. destruct (constructive_indefinite_description _ (Q a)) as [b B]. cbn [proj1_sig].
  assert (FE : forall g, inverse_of (mr a) (fun i j => real_of (me a i j)) g <-> inverse_of n f g).
  { intros g. unfold inverse_of. rewrite R. split; intros H i j Hi Hj; destruct (H i j Hi Hj) as [H1 H2];
      (split; [rewrite <- H1|rewrite <- H2]); apply Rsum_ext; intros k Hk; apply in_seq in Hk; rewrite ?F by lia; reflexivity. }
  destruct b as [b|].
  - destruct B as (B1 & B2 & g & B3 & B4). rewrite R in B1, B2. split; [exact B1|]. split; [exact B2|]. exists g.
    split; [intros; apply B3|]. apply FE, B4.
  - intros (g & G). apply B. exists g. apply FE, G.
Qed.

(** Distinct periods are never perfectly correlated. *)
Lemma c1_lt lo hi : lo < hi -> 0.109 < hi -> hi <= 500 -> bj_c1 lo hi < 1.
Proof.
  intros H1 H2 H3. unfold bj_c1. assert (P := Rmax_109_pos lo).
  assert (M : Rmax lo 0.109 < hi) by (apply Rmax_lub_lt; lra).
  assert (G : 0.109 <= Rmax lo 0.109) by apply Rmax_r.
  assert (1 < hi / Rmax lo 0.109) by (apply Rmult_lt_reg_r with (Rmax lo 0.109); [lra|]; unfold Rdiv; rewrite Rmult_assoc, Rinv_l by lra; lra).
  assert (hi / Rmax lo 0.109 <= 4600).
  { apply Rmult_le_reg_r with (Rmax lo 0.109); [lra|]; unfold Rdiv; rewrite Rmult_assoc, Rinv_l by lra. lra. }
  assert (0 < ln (hi / Rmax lo 0.109)) by (rewrite <- ln_1; apply ln_increasing; lra).
  assert (ln (hi / Rmax lo 0.109) <= ln 4600) by (apply ln_le; lra).
  assert (ln 4600 <= 8.5) by (clear; interval with (i_prec 40)).
  assert (3.14 < PI) by (clear; interval with (i_prec 40)).
  assert (0 < sin (0.366 * ln (hi / Rmax lo 0.109))) by (apply sin_gt_0; lra). lra.
Qed.
Lemma c2_lt lo hi : 0.0099 < hi -> lo < hi -> bj_c2 lo hi < 1.
Proof.
  intros H1 H2. unfold bj_c2. pose proof (exp_pos (100 * hi - 5)) as E.
  assert (0 < 1 - 1 / (1 + exp (100 * hi - 5))).
  { assert (1 / (1 + exp (100 * hi - 5)) < 1); [|lra]. apply Rmult_lt_reg_r with (1 + exp (100 * hi - 5)); [lra|]. unfold Rdiv. rewrite Rmult_assoc, Rinv_l by lra. lra. }
  assert (0 < (hi - lo) / (hi - 0.0099)) by (apply Rdiv_lt_0_compat; lra).
  assert (0 < 0.105 * (1 - 1 / (1 + exp (100 * hi - 5))) * ((hi - lo) / (hi - 0.0099))) by (apply Rmult_lt_0_compat; [apply Rmult_lt_0_compat; lra|lra]).
  lra.
Qed.
Lemma rho_lt_one t1 t2 : 0.0099 <= t1 <= 500 -> 0.0099 <= t2 <= 500 -> t1 <> t2 -> bj_rho t1 t2 < 1.
Proof.
  intros H1 H2 N.
  assert (O : Rmin t1 t2 < Rmax t1 t2) by (unfold Rmin, Rmax; destruct (Rle_dec t1 t2); lra).
  assert (L : 0.0099 <= Rmin t1 t2) by (apply Rmin_glb; lra). assert (U : Rmax t1 t2 <= 500) by (apply Rmax_lub; lra).
  unfold bj_rho. set (lo := Rmin t1 t2) in *. set (hi := Rmax t1 t2) in *. clearbody lo hi. clear H1 H2 N t1 t2.
  assert (C4 : 0.109 < hi -> bj_c4 lo hi < 1).
  { intros H. pose proof (c1_lt lo hi O H U). pose proof (c1_nonneg lo hi) as P. unfold bj_c4. pose proof (cos_le_1 (PI * lo / 0.109)).
    pose proof (cos_ge_m1 (PI * lo / 0.109)). set (c := bj_c1 lo hi) in *. clearbody c.
    assert (S : sqrt c < 1) by (rewrite <- sqrt_1; apply sqrt_lt_1_alt; lra). pose proof (sqrt_pos c). pose proof (sqrt_sqrt c P).
    assert (c <= sqrt c) by nra. set (s := sqrt c) in *. clearbody s. set (k := cos _) in *. clearbody k. nra. }
  destruct (Rlt_dec hi 0.109); [apply c2_lt; lra|]. destruct (Rlt_dec 0.109 lo); [apply c1_lt; lra|].
  destruct (Rlt_dec hi 0.2).
  - eapply Rle_lt_trans; [apply Rmin_l|]. apply c2_lt; lra.
  - apply C4. lra.
Qed.

(** Two conditions never make the computation fail. *)
Lemma two_not_singular l y z : spectrum_ok (map fst l) -> conditioned l = [y; z] -> 0 < o_s (fst y) -> 0 < o_s (fst z) -> ~ singular l.
Proof.
  intros OK C Hy Hz S. apply S. rewrite C. cbn [List.length].
  assert (IN : forall x, In x [y; z] -> 0.01 <= o_t (fst x) <= 300).
  { intros x Hx. rewrite <- C in Hx. apply cond_In in Hx. destruct Hx as [Hx _]. destruct OK as [_ F]. rewrite Forall_forall in F.
    apply (F (fst x)), in_map, Hx. }
  assert (NE : o_t (fst y) < o_t (fst z)).
  { assert (SO := spectrum_sorted l OK). assert (SF : sorted (fun x : item => o_t (fst x)) (conditioned l)).
    { clear - SO. induction l as [|x l IH]; [exact I|]. unfold conditioned. cbn [filter]. pose proof (sorted_hd _ _ _ SO) as HD. specialize (IH (sorted_tl _ _ _ SO)).
      destruct (negb (free x)); [|exact IH]. fold (conditioned l). destruct (conditioned l) as [|u r] eqn:E; [exact I|].
      split; [|exact IH]. apply HD. assert (In u (conditioned l)) as Q by (rewrite E; left; reflexivity). apply cond_In in Q. apply Q. }
    rewrite C in SF. destruct SF as [SF _]. exact SF. }
  pose proof (IN y (or_introl eq_refl)) as Ry. pose proof (IN z (or_intror (or_introl eq_refl))) as Rz.
  assert (R1 : bj_rho (o_t (fst y)) (o_t (fst z)) < 1) by (apply rho_lt_one; lra).
  assert (R0 : 0 <= bj_rho (o_t (fst y)) (o_t (fst z))).
  { apply bj_rho_range; [lra|lra|]. unfold Rmax; destruct (Rle_dec _ _); lra. }
  set (a := o_s (fst y)) in *. set (b := o_s (fst z)) in *. set (r := bj_rho (o_t (fst y)) (o_t (fst z))) in *.
  assert (CC : forall i j, cond_cov l i j = cov (nth i [y; z] d0) (nth j [y; z] d0)) by (intros; unfold cond_cov; rewrite C; reflexivity).
  assert (E00 : cond_cov l 0 0 = a * a) by (rewrite CC; apply cov_self).
  assert (E11 : cond_cov l 1 1 = b * b) by (rewrite CC; apply cov_self).
  assert (E01 : cond_cov l 0 1 = a * r * b) by (rewrite CC; reflexivity).
  assert (E10 : cond_cov l 1 0 = a * r * b) by (rewrite CC; cbn [nth]; rewrite cov_sym; reflexivity).
  set (d := a * a * (b * b) * (1 - r * r)). assert (D : d <> 0).
  { unfold d. apply Rmult_integral_contrapositive_currified; [|nra]. apply Rmult_integral_contrapositive_currified; nra. }
  exists (fun i j => match i, j with O, O => b * b / d | S O, S O => a * a / d | _, _ => - (a * r * b) / d end).
  intros i j Hi Hj. assert (Ii : i = 0%nat \/ i = 1%nat) by lia. assert (Ij : j = 0%nat \/ j = 1%nat) by lia.
  cbn [seq map]. rewrite !Rsum_cons, !Rsum_nil.
  destruct Ii as [-> | ->], Ij as [-> | ->]; rewrite ?E00, ?E11, ?E01, ?E10; unfold delta; cbn [Nat.eqb]; split; field_simplify_eq; try exact D; unfold d; ring.
Qed.

(** A target on the spectrum gives the spectrum back. *)
Lemma cms_at_median l tc j c : spectrum_ok l -> nth_error l j = Some c -> o_t c = tc -> o_s c <> 0 ->
  exists stds, bj08_cms (col o_t l) (col o_m l) (col o_s l) (Fin tc) (Fin (o_m c)) = Ok (col o_m l, stds).
Proof.
  intros OK Hj <- Hs. assert (Hc := nth_error_In _ _ Hj). assert (N : l <> []) by (intros ->; destruct Hc).
  assert (T : 0.01 <= o_t c <= 300) by (destruct OK as [_ F]; rewrite Forall_forall in F; apply F, Hc).
  assert (I := increasing_incr _ (proj1 OK)).
  eexists. rewrite cms_rows by exact N. f_equal. f_equal. unfold col. apply map_ext_in. intros d Hd.
  unfold cms_mean, cms_eps, col. rewrite !(NpProofs.np_interp_knot o_t l c _ _ I Hc (fun _ _ => eq_refl)).
  destruct OK as [_ F]. rewrite Forall_forall in F. destruct (F d Hd) as [Ft _].
  rewrite bj_correl_fin by (split; [lra|]; split; [lra|]; unfold Rmax; destruct (Rle_dec (o_t d) (o_t c)); lra).
  fcbn. rewrite fdiv_fin by exact Hs. fcbn. apply (f_equal Fin). field. exact Hs.
Qed.
Lemma linear_between {A} (kx ky : A -> R) l t y (P : R -> Prop) : (forall a b k, P a -> P b -> 0 < k < 1 -> P (a + (b - a) * k)) ->
  Forall (fun c => P (ky c)) l -> linear_at kx ky l t y -> P y.
Proof.
  intros HP F H. rewrite Forall_forall in F. destruct H as [(c & Hc & _ & ->)|[(pre & c & d & post & -> & Ht & ->)|[(c & r & -> & _ & ->)|(pre & c & -> & _ & ->)]]].
  - apply F, Hc.
  - apply HP; [apply F; apply in_or_app; right; left; reflexivity|apply F; apply in_or_app; right; right; left; reflexivity|].
    assert (0 < kx d - kx c) by lra. split.
    + apply Rdiv_lt_0_compat; lra.
    + apply Rmult_lt_reg_r with (kx d - kx c); [lra|]. unfold Rdiv. rewrite Rmult_assoc, Rinv_l by lra. lra.
  - apply F; left; reflexivity.
  - apply F; apply in_or_app; right; left; reflexivity.
Qed.
Lemma cms_monotone l tc t1 t2 m1 s1 m2 s2 : spectrum_ok l -> Forall (fun c => 0 < o_s c) l -> 0.01 <= tc <= 300 -> t1 <= t2 ->
  bj08_cms (col o_t l) (col o_m l) (col o_s l) (Fin tc) (Fin t1) = Ok (m1, s1) ->
  bj08_cms (col o_t l) (col o_m l) (col o_s l) (Fin tc) (Fin t2) = Ok (m2, s2) ->
  Forall2 (fun a b => exists x y, a = Fin x /\ b = Fin y /\ 0 <= y - x) m1 m2 /\ s1 = s2.
Proof.
  intros OK P T H E1 E2. assert (N : l <> []) by (intros ->; discriminate E1).
  destruct (np_interp_linear o_t o_m l tc N (increasing_incr _ (proj1 OK))) as (mc & L1 & I1).
  destruct (np_interp_linear o_t o_s l tc N (increasing_incr _ (proj1 OK))) as (sc & L2 & I2).
  assert (S : 0 < sc). { apply (linear_between _ _ _ _ _ (fun y => 0 < y)) with (3 := L2); [|exact P]. intros a b k A B K. nra. }
  rewrite cms_rows in E1, E2 by exact N. injection E1 as <- <-. injection E2 as <- <-. split; [|reflexivity].
  assert (EP : forall t, cms_eps l tc t = Fin ((t - mc) / sc)).
  { intros t. unfold cms_eps. rewrite I1, I2. fcbn. rewrite fdiv_fin by lra. reflexivity. }
  rewrite !EP. apply Forall2_map_intro. intros c Hc. rewrite Forall_forall in P. destruct OK as [_ F]. rewrite Forall_forall in F. destruct (F c Hc) as [Ft _]. specialize (P c Hc). cbv beta in P.
  assert (M : Rmax (o_t c) tc <> 0.0099) by (unfold Rmax; destruct (Rle_dec (o_t c) tc); lra).
  unfold cms_mean. rewrite bj_correl_fin by (split; [lra|]; split; [lra|exact M]). fcbn. eexists _, _. split; [reflexivity|]. split; [reflexivity|].
  pose proof (bj_rho_range (o_t c) tc ltac:(lra) ltac:(lra) M) as B.
  replace (_ - _) with (o_s c * bj_rho (o_t c) tc * ((t2 - t1) / sc)) by (field; lra).
  apply Rmult_le_pos; [apply Rmult_le_pos; lra|]. apply Rdiv_le_0_compat; lra.
Qed.
