(** * Proofs for Derras, Bard & Cotton (2014): decay with distance

    The partial derivative of every output with respect to the scaled log-distance is
    negative on the recommended input box.  The box is cut into cells (script output, checked
    here cell by cell): on each cell the hidden-layer derivatives sech^2 are enclosed, and the
    sign of the weighted sum is decided for all 64 rows over the rationals. *)
From Coquelicot Require Import Coquelicot.
From Interval Require Import Tactic.
From Coq Require Import List.
From Verif Require Import M_dbc14 FrameworkProofs Anal Nga Outs Spec_dbc14 P_dbc14.
Open Scope R_scope.
Open Scope string_scope.
Open Scope list_scope.

Definition sech2 (a : R) : R := 4 / ((exp a + exp (- a)) * (exp a + exp (- a))).
Lemma cosh2_pos a : 0 < (exp a + exp (- a)) * (exp a + exp (- a)).
Proof. pose proof (exp_pos a). pose proof (exp_pos (-a)). apply Rmult_lt_0_compat; lra. Qed.
Lemma tanh_derive a : is_derive tanh a (sech2 a).
Proof.
  unfold tanh, sinh, cosh, sech2. pose proof (exp_pos a) as P. pose proof (exp_pos (-a)) as N.
  auto_derive; [apply Rgt_not_eq; lra|]. rewrite exp_Ropp in *. set (u := exp a) in *. field. assert (0 < u * u) by nra. split; apply Rgt_not_eq; lra.
Qed.
Lemma cosh_mono x y : 0 <= x -> x <= y -> exp x + exp (- x) <= exp y + exp (- y).
Proof.
  intros Hx H. rewrite !exp_Ropp. pose proof (exp_ge_1 x Hx) as X. pose proof (exp_le_mono x y H) as Y.
  set (u := exp x) in *. set (v := exp y) in *.
  assert (E : v + / v - (u + / u) = (v - u) * (1 - / (u * v))) by (field; lra).
  assert (K : / (u * v) <= 1) by (rewrite <- Rinv_1; apply Rinv_le_contravar; nra).
  nra.
Qed.
Lemma sech2_abs a : sech2 a = sech2 (Rabs a).
Proof. unfold Rabs. destruct (Rcase_abs a); [|reflexivity]. unfold sech2. rewrite Ropp_involutive. f_equal. ring. Qed.
Lemma sech2_mono x y : 0 <= x -> x <= y -> sech2 y <= sech2 x.
Proof.
  intros Hx H. unfold sech2. pose proof (cosh_mono x y Hx H) as C. pose proof (exp_pos x). pose proof (exp_pos (-x)).
  apply Rmult_le_compat_l; [lra|]. apply Rinv_le_contravar; [apply cosh2_pos|]. nra.
Qed.
Lemma sech2_ge m a L : -m <= a <= m -> L <= sech2 m -> L <= sech2 a.
Proof. intros H K. apply Rle_trans with (1 := K). rewrite (sech2_abs a). apply sech2_mono; [apply Rabs_pos|]. apply Rabs_le; exact H. Qed.
Lemma sech2_le m a U : 0 <= m -> m <= a \/ a <= - m -> sech2 m <= U -> sech2 a <= U.
Proof.
  intros H0 H K. apply Rle_trans with (2 := K). rewrite (sech2_abs a). apply sech2_mono; [exact H0|].
  destruct H; [apply Rle_trans with a; [assumption|apply Rle_abs]|]. apply Rle_trans with (- a); [lra|]. rewrite <- Rabs_Ropp. apply Rle_abs.
Qed.
Lemma sech2_0 : sech2 0 = 1.
Proof. unfold sech2. rewrite Ropp_0, exp_0. lra. Qed.
Lemma sech2_le1 a : sech2 a <= 1.
Proof. rewrite <- sech2_0. rewrite (sech2_abs a). apply sech2_mono; [lra|apply Rabs_pos]. Qed.

(** The weights of the scaled log-distance in the hidden layer. *)
Definition w10 : list Q := map (fun bw => hd 0%Q (snd bw)) dbc14_hidden.
Definition dkoef (c : dbc14_row) : list Q := map (fun p => (fst p * snd p)%Q) (combine (dbc14_w2 c) w10).
Fixpoint ubound (ks L U : list Q) : Q :=
  match ks, L, U with
  | k :: ks', l :: L', u :: U' => ((if Qle_bool k 0 then k * l else k * u) + ubound ks' L' U')%Q
  | _, _, _ => 0%Q
  end.
Lemma wsum_ub ks : forall L U ss, Forall2 (fun l s => Q2R l <= s) L ss -> Forall2 (fun u s => s <= Q2R u) U ss ->
  List.length ks = List.length ss -> wsum ks ss <= Q2R (ubound ks L U).
Proof.
  induction ks as [|k ks IH]; intros L U ss HL HU Hn.
  - cbn. unfold Q2R; cbn; lra.
  - destruct ss as [|s ss]; [discriminate|]. inversion HL as [|l ? L' ? Hl HL' E1 E2]; subst. inversion HU as [|u ? U' ? Hu HU' E3 E4]; subst.
    cbn [wsum ubound]. rewrite Q2R_plus. specialize (IH L' U' ss HL' HU' ltac:(cbn in Hn; congruence)).
    assert (Q2R k * s <= Q2R (if Qle_bool k 0 then k * l else k * u)%Q).
    { destruct (Qle_bool k 0) eqn:E; rewrite Q2R_mult.
      - apply Qleb_R in E. change (Q2R 0) with (0 * / 1) in E. nra.
      - assert (0 < Q2R k). { assert (Qltb 0 k = true) by (unfold Qltb; rewrite E; reflexivity). apply Qltb_R in H. change (Q2R 0) with (0 * / 1) in H. lra. } nra. }
    lra.
Qed.
Definition pre (bw : Q * list Q) (xs : list R) : R := Q2R (fst bw) + wsum (snd bw) xs.
Definition slopes (xs : list R) : list R := map (fun bw => sech2 (pre bw xs)) dbc14_hidden.

Ltac sech_lo m := apply (sech2_ge m); [unfold pre; cbn [fst snd wsum]; qlit; lra | clear; unfold sech2; qlit; interval with (i_prec 40)].
Ltac sech_hi n := first [ lazymatch n with (0 / _) => apply Rle_trans with 1; [apply sech2_le1|qlit; lra] end
  | apply (sech2_le n); [lra| first [left; unfold pre; cbn [fst snd wsum]; qlit; lra | right; unfold pre; cbn [fst snd wsum]; qlit; lra] | clear; unfold sech2; qlit; interval with (i_prec 40)] ].
Lemma leaf_rows L U ss c : In c dbc14_coeff -> List.length ss = 5%nat ->
  forallb (fun c => Qltb (ubound (dkoef c) L U) 0) dbc14_coeff = true ->
  forallb (fun c => Nat.eqb (List.length (dkoef c)) 5) dbc14_coeff = true ->
  Forall2 (fun l s => Q2R l <= s) L ss -> Forall2 (fun u s => s <= Q2R u) U ss -> wsum (dkoef c) ss < 0.
Proof.
  intros Hc Hn B N HL HU. rewrite forallb_forall in B, N. specialize (B c Hc). specialize (N c Hc). apply Nat.eqb_eq in N.
  apply Rle_lt_trans with (1 := wsum_ub (dkoef c) L U ss HL HU (eq_trans N (eq_sym Hn))).
  apply Qltb_R in B. change (Q2R 0) with (0 * / 1) in B. lra.
Qed.
Tactic Notation "leaf" constr(L) constr(U) constr(m0) constr(n0) constr(m1) constr(n1) constr(m2) constr(n2) constr(m3) constr(n3) constr(m4) constr(n4) :=
  lazymatch goal with H : In _ dbc14_coeff |- _ => refine (leaf_rows L U _ _ H _ _ _ _ _); [reflexivity|vm_compute; reflexivity|vm_compute; reflexivity| |] end;
  unfold slopes, dbc14_hidden; cbn [map];
  [constructor; [sech_lo m0|constructor; [sech_lo m1|constructor; [sech_lo m2|constructor; [sech_lo m3|constructor; [sech_lo m4|constructor]]]]]
  |constructor; [sech_hi n0|constructor; [sech_hi n1|constructor; [sech_hi n2|constructor; [sech_hi n3|constructor; [sech_hi n4|constructor]]]]]].
Lemma slope_neg c x0 x1 x2 x3 x4 : In c dbc14_coeff ->
  -91 / 1000 <= x0 <= 7663 / 10000 -> -8 / 10 <= x1 <= 7 / 10 -> -456 / 1000 <= x2 <= 5154 / 10000 -> -1 <= x3 <= 1 -> -1 <= x4 <= 1 ->
  wsum (dkoef c) (slopes [x0; x1; x2; x3; x4]) < 0.
Proof.
  intros Hc H0 H1 H2 H3 H4.
  destruct (Rle_dec x0 (169 / 500)) as [?|?].
  {
    destruct (Rle_dec x1 (-1 / 20)) as [?|?].
    {
      leaf ([(1387 # 10000); (41 # 2000); (1101 # 2500); (549 # 2000); (1849 # 10000)])%Q ([(1 # 1); (8949 # 10000); (1 # 1); (1 # 1); (1 # 1)])%Q (16441 / 10000) (0 / 1) (26301 / 10000) (673 / 2000) (1937 / 2000) (0 / 1) (101 / 80) (0 / 1) (1859 / 1250) (0 / 1).
    }
    {
      destruct (Rle_dec x0 (31 / 250)) as [?|?].
      {
        destruct (Rle_dec x1 (13 / 40)) as [?|?].
        {
          leaf ([(647 # 10000); (113 # 2500); (2543 # 10000); (1429 # 2500); (2471 # 10000)])%Q ([(1599 # 2500); (7537 # 10000); (8767 # 10000); (1 # 1); (1 # 1)])%Q (10227 / 5000) (6937 / 10000) (22289 / 10000) (1361 / 2500) (13069 / 10000) (3669 / 10000) (7831 / 10000) (0 / 1) (3309 / 2500) (0 / 1).
        }
        {
          destruct (Rle_dec x0 (2 / 125)) as [?|?].
          {
            leaf ([(59 # 2000); (167 # 2500); (773 # 10000); (331 # 625); (2843 # 10000)])%Q ([(559 # 2500); (937 # 1250); (3983 # 10000); (1 # 1); (1 # 1)])%Q (24467 / 10000) (1381 / 1000) (10141 / 5000) (5499 / 10000) (9763 / 5000) (5173 / 5000) (21 / 25) (0 / 1) (6209 / 5000) (0 / 1).
          }
          {
            leaf ([(257 # 5000); (989 # 10000); (741 # 10000); (1169 # 2000); (2851 # 10000)])%Q ([(3621 # 10000); (4453 # 5000); (77 # 200); (1 # 1); (1 # 1)])%Q (10817 / 5000) (219 / 200) (228 / 125) (3437 / 10000) (9873 / 5000) (2641 / 2500) (7659 / 10000) (0 / 1) (12401 / 10000) (0 / 1).
          }
        }
      }
      {
        leaf ([(893 # 10000); (999 # 10000); (341 # 5000); (4653 # 10000); (497 # 2000)])%Q ([(9841 # 10000); (1 # 1); (8487 # 10000); (1 # 1); (1 # 1)])%Q (9387 / 5000) (127 / 1000) (3637 / 2000) (0 / 1) (20181 / 10000) (4107 / 10000) (9313 / 10000) (0 / 1) (6601 / 5000) (0 / 1).
      }
    }
  }
  {
    destruct (Rle_dec x1 (-1 / 20)) as [?|?].
    {
      destruct (Rle_dec x0 (69 / 125)) as [?|?].
      {
        leaf ([(71 # 250); (1013 # 10000); (5001 # 10000); (53 # 250); (117 # 625)])%Q ([(1 # 1); (1 # 1); (1 # 1); (1 # 1); (1 # 1)])%Q (12423 / 10000) (0 / 1) (18113 / 10000) (0 / 1) (2203 / 2500) (0 / 1) (14107 / 10000) (0 / 1) (14803 / 10000) (0 / 1).
      }
      {
        destruct (Rle_dec x1 (-17 / 40)) as [?|?].
        {
          destruct (Rle_dec x0 (659 / 1000)) as [?|?].
          {
            leaf ([(431 # 2500); (43 # 200); (2657 # 5000); (1857 # 10000); (471 # 2500)])%Q ([(1019 # 1250); (1 # 1); (1 # 1); (9897 # 10000); (1 # 1)])%Q (1907 / 1250) (4599 / 10000) (14029 / 10000) (0 / 1) (1047 / 1250) (0 / 1) (928 / 625) (1021 / 10000) (923 / 625) (0 / 1).
          }
          {
            destruct (Rle_dec x1 (-153 / 250)) as [?|?].
            {
              destruct (Rle_dec x2 (3 / 100)) as [?|?].
              {
                destruct (Rle_dec x0 (713 / 1000)) as [?|?].
                {
                  leaf ([(1549 # 10000); (3057 # 10000); (5763 # 10000); (347 # 2000); (6381 # 10000)])%Q ([(4573 # 10000); (1167 # 1250); (9439 # 10000); (3423 # 5000); (1 # 1)])%Q (15841 / 10000) (9433 / 10000) (5993 / 5000) (2637 / 10000) (971 / 1250) (151 / 625) (7611 / 5000) (397 / 625) (1391 / 2000) (0 / 1).
                }
                {
                  destruct (Rle_dec x1 (-353 / 500)) as [?|?].
                  {
                    destruct (Rle_dec x3 (0 / 1)) as [?|?].
                    {
                      leaf ([(283 # 2000); (1169 # 2500); (2923 # 5000); (859 # 5000); (1677 # 2500)])%Q ([(1559 # 5000); (9563 # 10000); (106 # 125); (78 # 125); (1 # 1)])%Q (16331 / 10000) (11869 / 10000) (9279 / 10000) (2123 / 10000) (3829 / 5000) (4117 / 10000) (611 / 400) (7141 / 10000) (653 / 1000) (0 / 1).
                    }
                    {
                      destruct (Rle_dec x2 (-213 / 1000)) as [?|?].
                      {
                        leaf ([(129 # 1000); (3617 # 10000); (6097 # 10000); (811 # 5000); (9127 # 10000)])%Q ([(2669 # 10000); (3743 # 5000); (8569 # 10000); (2317 # 5000); (1 # 1)])%Q (16829 / 10000) (12791 / 10000) (2739 / 2500) (689 / 1250) (3663 / 5000) (1991 / 5000) (1949 / 1250) (9343 / 10000) (761 / 2500) (0 / 1).
                      }
                      {
                        leaf ([(149 # 1250); (4701 # 10000); (5949 # 10000); (569 # 2500); (1597 # 2500)])%Q ([(2481 # 10000); (4343 # 5000); (211 # 250); (2999 # 5000); (9651 # 10000)])%Q (4313 / 2500) (6607 / 5000) (4621 / 5000) (3799 / 10000) (3761 / 5000) (4177 / 10000) (13707 / 10000) (7459 / 10000) (3473 / 5000) (1891 / 10000).
                      }
                    }
                  }
                  {
                    leaf ([(719 # 5000); (979 # 2500); (7127 # 10000); (1749 # 10000); (3273 # 5000)])%Q ([(459 # 1250); (9743 # 10000); (4743 # 5000); (6559 # 10000); (1 # 1)])%Q (8123 / 5000) (10863 / 10000) (10453 / 10000) (81 / 500) (374 / 625) (577 / 2500) (15177 / 10000) (3363 / 5000) (6741 / 10000) (0 / 1).
                  }
                }
              }
              {
                destruct (Rle_dec x0 (713 / 1000)) as [?|?].
                {
                  leaf ([(53 # 400); (5181 # 10000); (342 # 625); (1669 # 5000); (189 # 1000)])%Q ([(503 # 1250); (1 # 1); (2313 # 2500); (117 # 125); (7733 # 10000)])%Q (8343 / 5000) (10279 / 10000) (8559 / 10000) (0 / 1) (8159 / 10000) (2807 / 10000) (11453 / 10000) (647 / 2500) (14751 / 10000) (5181 / 10000).
                }
                {
                  destruct (Rle_dec x1 (-353 / 500)) as [?|?].
                  {
                    destruct (Rle_dec x3 (0 / 1)) as [?|?].
                    {
                      leaf ([(1209 # 10000); (1807 # 2500); (2777 # 5000); (3309 # 10000); (2039 # 10000)])%Q ([(169 # 625); (1 # 1); (4107 # 5000); (4471 # 5000); (7587 # 10000)])%Q (2147 / 1250) (2543 / 2000) (1463 / 2500) (0 / 1) (8049 / 10000) (4509 / 10000) (2301 / 2000) (3377 / 10000) (7163 / 5000) (2689 / 5000).
                    }
                    {
                      destruct (Rle_dec x2 (273 / 1000)) as [?|?].
                      {
                        leaf ([(11 # 100); (5943 # 10000); (5801 # 10000); (3141 # 10000); (3679 # 10000)])%Q ([(461 # 2000); (4789 # 5000); (2077 # 2500); (93 # 125); (7273 # 10000)])%Q (4419 / 2500) (13637 / 10000) (7529 / 10000) (1043 / 5000) (3859 / 5000) (4373 / 10000) (5911 / 5000) (2787 / 5000) (10849 / 10000) (2897 / 5000).
                      }
                      {
                        leaf ([(127 # 1250); (907 # 1250); (1131 # 2000); (4239 # 10000); (1893 # 10000)])%Q ([(2139 # 10000); (4993 # 5000); (8173 # 10000); (8751 # 10000); (4397 # 10000)])%Q (9049 / 5000) (703 / 500) (1163 / 2000) (47 / 1250) (7913 / 10000) (571 / 1250) (4969 / 5000) (1847 / 5000) (7371 / 5000) (9697 / 10000).
                      }
                    }
                  }
                  {
                    leaf ([(307 # 2500); (6327 # 10000); (1707 # 2500); (3363 # 10000); (491 # 2500)])%Q ([(1601 # 5000); (1 # 1); (4653 # 5000); (2293 # 2500); (7739 # 10000)])%Q (4273 / 2500) (11709 / 10000) (3513 / 5000) (0 / 1) (51 / 80) (2699 / 10000) (11407 / 10000) (1481 / 5000) (14537 / 10000) (5173 / 10000).
                  }
                }
              }
            }
            {
              leaf ([(1481 # 10000); (3603 # 10000); (4 # 5); (943 # 5000); (1017 # 5000)])%Q ([(3009 # 5000); (1 # 1); (1 # 1); (606 # 625); (1 # 1)])%Q (8043 / 5000) (929 / 1250) (549 / 500) (0 / 1) (4811 / 10000) (0 / 1) (7381 / 5000) (881 / 5000) (14341 / 10000) (0 / 1).
            }
          }
        }
        {
          leaf ([(2129 # 10000); (1519 # 5000); (1163 # 2000); (1093 # 5000); (109 # 500)])%Q ([(4983 # 5000); (1 # 1); (1 # 1); (1 # 1); (1 # 1)])%Q (3521 / 2500) (117 / 2000) (6011 / 5000) (0 / 1) (7699 / 10000) (0 / 1) (871 / 625) (0 / 1) (279 / 200) (0 / 1).
        }
      }
    }
    {
      leaf ([(1263 # 5000); (2123 # 10000); (36 # 625); (291 # 1000); (2501 # 10000)])%Q ([(1 # 1); (1 # 1); (8191 # 10000); (1 # 1); (1 # 1)])%Q (3277 / 2500) (0 / 1) (141 / 100) (0 / 1) (21053 / 10000) (2271 / 5000) (307 / 250) (0 / 1) (13167 / 10000) (0 / 1).
    }
  }
Qed.

Lemma deriv_list xs : forall hs ws x0, Forall (fun bw : Q * list Q => snd bw <> []) hs ->
  is_derive (fun t => wsum ws (map (fun bw => tanh (pre bw (t :: xs))) hs)) x0
    (wsum (map (fun p => (fst p * snd p)%Q) (combine ws (map (fun bw => hd 0%Q (snd bw)) hs))) (map (fun bw => sech2 (pre bw (x0 :: xs))) hs)).
Proof.
  induction hs as [|bw hs IH]; intros ws x0 H.
  - destruct ws as [|w ws]; cbn; apply (is_derive_const 0 x0).
  - inversion H as [|? ? H1 H2]; subst. destruct ws as [|w ws]; [cbn; apply (is_derive_const 0 x0)|].
    cbn [map combine wsum fst snd]. apply (is_derive_plus (fun t => Q2R w * tanh (pre bw (t :: xs)))); [|apply IH; exact H2].
    destruct bw as [b [|v vs]]; [contradiction H1; reflexivity|]. cbn [hd snd]. rewrite Q2R_mult.
    unfold pre; cbn [fst snd wsum].
    replace (Q2R w * Q2R v * sech2 (Q2R b + (Q2R v * x0 + wsum vs xs))) with (Q2R w * (Q2R v * sech2 (Q2R b + (Q2R v * x0 + wsum vs xs)))) by ring.
    apply (is_derive_scal (fun t => tanh (Q2R b + (Q2R v * t + wsum vs xs)))).
    apply (is_derive_comp tanh (fun t => Q2R b + (Q2R v * t + wsum vs xs)) x0 (sech2 (Q2R b + (Q2R v * x0 + wsum vs xs))) (Q2R v)); [apply tanh_derive|].
    auto_derive; [trivial|ring].
Qed.
Lemma nn_decr c x0 y0 x1 x2 x3 x4 : In c dbc14_coeff ->
  -91 / 1000 <= x0 -> x0 < y0 -> y0 <= 7663 / 10000 -> -8 / 10 <= x1 <= 7 / 10 -> -456 / 1000 <= x2 <= 5154 / 10000 -> -1 <= x3 <= 1 -> -1 <= x4 <= 1 ->
  nn_output c (map (fun bw => tanh (pre bw [y0; x1; x2; x3; x4])) dbc14_hidden) < nn_output c (map (fun bw => tanh (pre bw [x0; x1; x2; x3; x4])) dbc14_hidden).
Proof.
  intros Hc H0 H H0' H1 H2 H3 H4. row_lt Hc (fun c => dbc14_min c) (fun c => dbc14_max c) as D.
  assert (K : wsum (dbc14_w2 c) (map (fun bw => tanh (pre bw [y0; x1; x2; x3; x4])) dbc14_hidden) < wsum (dbc14_w2 c) (map (fun bw => tanh (pre bw [x0; x1; x2; x3; x4])) dbc14_hidden)).
  { apply (decr_by_derive (fun t => wsum (dbc14_w2 c) (map (fun bw => tanh (pre bw [t; x1; x2; x3; x4])) dbc14_hidden))
      (fun t => wsum (dkoef c) (slopes [t; x1; x2; x3; x4]))); [exact H| |].
    - intros t _. apply deriv_list. repeat constructor; discriminate.
    - intros t Ht. apply slope_neg; try assumption; lra. }
  unfold nn_output. nra.
Qed.
Lemma log10_mono x y : 0 < x -> x < y -> log10 x < log10 y.
Proof. intros Hx H. unfold log10, Rdiv. apply Rmult_lt_compat_r; [apply Rinv_0_lt_compat, ln10_pos|]. apply ln_increasing; assumption. Qed.
Lemma log10_bounds lo hi l h x : 0 < lo -> lo <= x <= hi -> l <= log10 lo -> log10 hi <= h -> l <= log10 x <= h.
Proof.
  intros P [A B] L H. assert (M : forall u v, 0 < u -> u <= v -> log10 u <= log10 v).
  { intros u v Hu [E| ->]; [left; apply log10_mono; assumption|lra]. }
  pose proof (M lo x P A). pose proof (M x hi ltac:(lra) B). lra.
Qed.
Lemma mech_code_range t k : mech_code t = Some k -> 1 <= k <= 4.
Proof. unfold mech_code. repeat destruct (String.eqb t _); intros H; try discriminate; apply some_inj in H; lra. Qed.
Lemma dbc_val_decr a k d1 d2 c : In c dbc14_coeff -> mech_code (d_mech a) = Some k ->
  5 <= d1 -> d1 < d2 -> d2 <= 200 -> 4 <= d_m a <= 7 -> 200 <= d_v a <= 800 -> 0 <= d_z a <= 25 ->
  dbc_val (dbc_with_d a d2) k c < dbc_val (dbc_with_d a d1) k c.
Proof.
  intros Hc Hk H1 H2 H3 Hm Hv Hz. apply mech_code_range in Hk.
  assert (B : forall d, 5 <= d <= 200 -> 0.69896 <= log10 d <= 2.30104).
  { intros d Hd. apply (log10_bounds 5 200); try lra; clear; unfold log10; interval with (i_prec 40). }
  assert (V : 2.30102 <= log10 (d_v a) <= 2.9031).
  { apply (log10_bounds 200 800); try lra; clear; unfold log10; interval with (i_prec 40). }
  pose proof (B d1 ltac:(lra)) as B1. pose proof (B d2 ltac:(lra)) as B2. pose proof (log10_mono d1 d2 ltac:(lra) H2) as L.
  unfold dbc_val, nn_hidden, nn_inputs, dbc_with_d; cbn [d_jb d_m d_v d_z].
  assert (E1 : forall x, unit_scale x (-1) 2.738 = 2 * (x + 1) * / 3.738 - 1) by (intro; unfold unit_scale; lra).
  assert (E2 : forall x, unit_scale x 3.6 7.6 = (x - 3.6) / 2 - 1) by (intro; unfold unit_scale; lra).
  assert (E3 : forall x, unit_scale x 1.9638 3.2035 = 2 * (x - 1.9638) * / 1.2397 - 1) by (intro; unfold unit_scale; lra).
  assert (E4 : forall x, unit_scale x 0 25 = 2 * x / 25 - 1) by (intro; unfold unit_scale; lra).
  assert (E5 : forall x, unit_scale x 1 4 = 2 * (x - 1) / 3 - 1) by (intro; unfold unit_scale; lra).
  rewrite !E1, E2, E3, E4, E5. apply nn_decr; [exact Hc| | | | | | |]; lra.
Qed.
Lemma dbc14_decay src1 src2 a k d1 d2 : dbc_gives src1 (dbc_with_d a d1) -> dbc_gives src2 (dbc_with_d a d2) -> mech_code (d_mech a) = Some k ->
  5 <= d1 -> d1 < d2 -> d2 <= 200 -> 4 <= d_m a <= 7 -> 200 <= d_v a <= 800 -> 0 <= d_z a <= 25 ->
  exists o1 o2, gmm_out (dbc14 src1) o1 /\ gmm_out (dbc14 src2) o2 /\ resp2 flt_lt o2 o1.
Proof.
  intros G1 G2 Hk H1 H2 H3 Hm Hv Hz. exists (dbc_outs (dbc_with_d a d1) k), (dbc_outs (dbc_with_d a d2) k).
  split; [apply dbc14_out; assumption|]. split; [apply dbc14_out; assumption|].
  apply (row_resp_lt dbc_rows); [exact dbc_incl|exact dbc_in1|exact dbc_in0|].
  intros [i c] Hi. unfold dbc_row. cbn [fst snd]. rewrite !dbc_layer_fin by (cbn; lra).
  unfold dbc14_ln_resp. rewrite !dot_fin. unfold qf. fcbn.
  replace (if Nat.eqb i 0 then Fin 0.01 else Fin (9.80665 * 1)) with (Fin (dbc_unit i)) by (unfold dbc_unit; destruct (Nat.eqb i 0); f_equal; lra).
  rewrite flog10_fin by apply dbc_unit_pos. fcbn. rewrite !fpowf_fin by lra. rewrite !flog_fin by apply exp_pos. rewrite !ln_Rpower10.
  apply flt_lt_fin. apply Rmult_lt_compat_r; [apply ln10_pos|].
  pose proof (dbc_val_decr a k d1 d2 c (dbc_rows_in _ Hi) Hk H1 H2 H3 Hm Hv Hz) as K. unfold dbc_val, nn_output in K. lra.
Qed.
