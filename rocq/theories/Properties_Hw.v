(** * Hanging wall and style of faulting in the NGA-West2 models: C134-C135

    Vocabulary: [with_hw a h], [with_x a x], [with_mech a s] are the scenario [a] with another on_hanging_wall, dist_x or
    mechanism (P_hw.v, P_mech.v); [resp2 flt_le o1 o2]: no ordinate, PGA and PGV included, of the first result exceeds that
    of the second; [cy_tor], [cb_tor], [cb_bor], [as_tor], [as_wid]: the depth of the top and bottom and the width of the
    rupture that the model uses, given or by default (Spec_cy14.v, Spec_cb14.v, Spec_ask14.v). *)
From Coquelicot Require Import Coquelicot.
From Interval Require Import Tactic.
From Coq Require Import List.
From Verif Require Import M_cy14 M_bssa14 M_cb14 M_ask14 FrameworkProofs Anal Nga Outs Cont Cont1 SpecNga P_cy14 P_bssa14 P_cb14 P_cb14b P_ask14 P_ask14b P_ngaspec
  Spec_cy14 Spec_bssa14 Spec_cb14 Spec_ask14 Properties_NGA Properties_NGAPub Properties_NGAPub2 Properties_NGAPub3 P_ngamag P_ngacont P_hw P_mech.
Open Scope R_scope.
Open Scope string_scope.
Open Scope list_scope.

(** ** C134: the hanging wall *)
Theorem C134_ask14 : forall src1 src2 a t x, nga_gives src1 (with_hw a (Some false)) -> nga_gives src2 (with_hw a (Some true)) ->
  n_mech a = Some t -> n_x a = Some x -> 0 <= x -> 0 < n_dip a <= 90 -> 180 <= n_v a -> match n_z1 a with Some z => 0 <= z | None => True end ->
  exists o1 o2, gmm_out (ask14 src1) o1 /\ gmm_out (ask14 src2) o2 /\ resp2 flt_le o1 o2.
Proof. exact as_hw. Qed.
Print Assumptions C134_ask14.
(** ... above the rupture, and to either side as far as its taper: strictly. *)
Theorem C134_ask14_pga : forall src1 src2 a t x, nga_gives src1 (with_hw a (Some false)) -> nga_gives src2 (with_hw a (Some true)) ->
  n_mech a = Some t -> n_x a = Some x -> 0 <= x -> 0 < n_dip a < 90 -> 180 <= n_v a -> match n_z1 a with Some z => 0 <= z | None => True end ->
  5.5 < n_mag a -> x < 3 * (as_wid a * cos (n_dip a * (PI / 180))) -> -10 < as_tor a < 10 -> n_y0 a = None -> n_jb a < 30 ->
  exists o1 o2, gmm_out (ask14 src1) o1 /\ gmm_out (ask14 src2) o2 /\ flt_lt (o_pga o1) (o_pga o2).
Proof. exact as_hw_pga. Qed.
Print Assumptions C134_ask14_pga.
Theorem C134_cy14 : forall src1 src2 a x, nga_gives src1 (with_hw a (Some false)) -> nga_gives src2 (with_hw a (Some true)) ->
  n_x a = Some x -> 0 <= x -> 0 <= n_dip a <= 90 -> 180 <= n_v a -> 0 <= n_rup a -> sqrt (n_jb a ^ 2 + cy_tor a ^ 2) <= n_rup a + 1 ->
  exists o1 o2, gmm_out (cy14 src1) o1 /\ gmm_out (cy14 src2) o2 /\ resp2 flt_le o1 o2.
Proof. exact cy_hw_le. Qed.
Print Assumptions C134_cy14.
(** ... but where the depth of the top of the rupture does not fit the distances the sign turns. *)
Theorem C134_cy14_lowers : forall src1 src2 a x, nga_gives src1 (with_hw a (Some false)) -> nga_gives src2 (with_hw a (Some true)) ->
  n_x a = Some x -> 0 <= x -> 0 <= n_dip a < 90 -> 180 <= n_v a -> 0 <= n_rup a -> n_rup a + 1 < sqrt (n_jb a ^ 2 + cy_tor a ^ 2) ->
  exists o1 o2, gmm_out (cy14 src1) o1 /\ gmm_out (cy14 src2) o2 /\ flt_lt (o_pga o2) (o_pga o1).
Proof. exact cy_hw_lowers. Qed.
Print Assumptions C134_cy14_lowers.
(** CB14 goes by the sign of dist_x. *)
Theorem C134_cb14_rock : forall src1 src2 a t x y, nga_gives src1 (with_x a (Some y)) -> nga_gives src2 (with_x a (Some x)) ->
  n_mech a = Some t -> y < 0 < x -> 0 < n_dip a <= 90 -> 0 <= n_jb a <= n_rup a -> (n_hyp a = None -> cb_tor a < cb_bor a) -> 1086 < n_v a ->
  exists o1 o2, gmm_out (cb14 src1) o1 /\ gmm_out (cb14 src2) o2 /\ resp2 flt_le o1 o2.
Proof. exact cb_hw_rock. Qed.
Print Assumptions C134_cb14_rock.
Theorem C134_cb14_pga : forall src1 src2 a t x y, nga_gives src1 (with_x a (Some y)) -> nga_gives src2 (with_x a (Some x)) ->
  n_mech a = Some t -> y < 0 < x -> 0 < n_dip a <= 90 -> 0 <= n_jb a <= n_rup a -> (n_hyp a = None -> cb_tor a < cb_bor a) -> 150 <= n_v a ->
  exists o1 o2, gmm_out (cb14 src1) o1 /\ gmm_out (cb14 src2) o2 /\ flt_le (o_pga o1) (o_pga o2).
Proof. exact cb_hw_pga. Qed.
Print Assumptions C134_cb14_pga.
(** A rupture of magnitude 6.7 dipping 45 degrees, 8 km from its trace; and a magnitude 4.5 whose top is left to the model
    (7.1 km) and whose distance is given as 5 km. *)
Definition hw_nga : nga := Nga 6.7 18 12 (Some 8) None None 45 270 (Some 2) None None (Some 9) (Some 14) (Some 0.4) (Some 2) None (Some "RS") None None None None.
Definition hw_small : nga := Nga 4.5 5 3 (Some 2) None None 45 270 None None None (Some 9) None None None None (Some "SS") None None None None.
Example C134_nonvacuous :
  (exists o1 o2, gmm_out (ask14 (nga_src (with_hw hw_nga (Some false)))) o1 /\ gmm_out (ask14 (nga_src (with_hw hw_nga (Some true)))) o2 /\ flt_lt (o_pga o1) (o_pga o2))
  /\ (exists o1 o2, gmm_out (cy14 (nga_src (with_hw hw_nga (Some false)))) o1 /\ gmm_out (cy14 (nga_src (with_hw hw_nga (Some true)))) o2 /\ resp2 flt_le o1 o2)
  /\ (exists o1 o2, gmm_out (cy14 (nga_src (with_hw hw_small (Some false)))) o1 /\ gmm_out (cy14 (nga_src (with_hw hw_small (Some true)))) o2 /\ flt_lt (o_pga o2) (o_pga o1))
  /\ (exists o1 o2, gmm_out (cb14 (nga_src (with_x hw_nga (Some (-8))))) o1 /\ gmm_out (cb14 (nga_src (with_x hw_nga (Some 8)))) o2 /\ flt_le (o_pga o1) (o_pga o2)).
Proof.
  split; [|split; [|split]].
  - apply (C134_ask14_pga _ _ hw_nga "RS" 8); try apply nga_src_gives; try reflexivity; cbn [hw_nga n_dip n_v n_z1 n_mag n_jb as_wid as_tor n_width n_tor or_else as_rad]; try lra.
    unfold as_wid; cbn [hw_nga n_width or_else]. interval with (i_prec 40).
  - apply (C134_cy14 _ _ hw_nga 8); try apply nga_src_gives; try reflexivity; cbn [hw_nga n_dip n_v n_rup n_jb]; try lra. unfold cy_tor. cbn [hw_nga n_tor or_else]. interval with (i_prec 40).
  - apply (C134_cy14_lowers _ _ hw_small 2); try apply nga_src_gives; try reflexivity; cbn [hw_small n_dip n_v n_rup n_jb]; try lra.
    unfold cy_tor, cy_mean_tor, cy_mech. cbn [hw_small n_tor or_else n_mag n_mech option_of existsb String.eqb Ascii.eqb Bool.eqb orb].
    rewrite (Rmax_right (4.5 - 4.970) 0) by lra. rewrite Rmax_left by lra. interval with (i_prec 40).
  - apply (C134_cb14_pga _ _ hw_nga "RS" 8 (-8)); try apply nga_src_gives; try reflexivity; cbn [hw_nga n_dip n_v n_rup n_jb n_hyp]; try lra. discriminate.
Qed.

(** ** C135: the style of faulting *)
Theorem C135_bssa14_normal : forall src1 src2 a, nga_gives src1 (with_mech a "NS") -> nga_gives src2 (with_mech a "SS") -> 180 <= n_v a ->
  exists o1 o2, gmm_out (bssa14 src1) o1 /\ gmm_out (bssa14 src2) o2 /\ resp2 flt_lt o1 o2.
Proof. exact bs_normal. Qed.
Print Assumptions C135_bssa14_normal.
Theorem C135_ask14_normal : forall src1 src2 a s, nga_gives src1 (with_mech a "NS") -> nga_gives src2 (with_mech a s) -> In s ["SS"; "RS"] ->
  180 <= n_v a -> as_geom a -> match n_z1 a with Some z => 0 <= z | None => True end ->
  exists o1 o2, gmm_out (ask14 src1) o1 /\ gmm_out (ask14 src2) o2 /\ resp2 (if Rle_dec (n_mag a) 4 then flt_le else flt_lt) o1 o2.
Proof. exact as_normal. Qed.
Print Assumptions C135_ask14_normal.
(** Reverse and strike slip: the same medians and standard deviations. *)
Theorem C135_ask14_reverse_same : forall src1 src2 a, nga_gives src1 (with_mech a "SS") -> nga_gives src2 (with_mech a "RS") ->
  0 < n_v a -> as_geom a -> match n_z1 a with Some z => 0 <= z | None => True end ->
  exists o, gmm_out (ask14 src1) o /\ gmm_out (ask14 src2) o.
Proof. exact as_reverse_same. Qed.
Print Assumptions C135_ask14_reverse_same.
Theorem C135_cb14_normal_rock : forall src1 src2 a x z, nga_gives src1 (with_mech a "NS") -> nga_gives src2 (with_mech a "SS") -> n_tor a = Some z -> n_x a = Some x ->
  1086 < n_v a -> 0 < n_dip a <= 90 -> (x = 0 -> n_dip a < 90 /\ match n_width a with Some w => w <> 0 | None => False end) -> (n_hyp a = None -> cb_tor a < cb_bor a) ->
  exists o1 o2, gmm_out (cb14 src1) o1 /\ gmm_out (cb14 src2) o2 /\ resp2 flt_le o1 o2.
Proof. exact cb_normal_rock. Qed.
Print Assumptions C135_cb14_normal_rock.
Theorem C135_cb14_normal_pga : forall src1 src2 a x z, nga_gives src1 (with_mech a "NS") -> nga_gives src2 (with_mech a "SS") -> n_tor a = Some z -> n_x a = Some x ->
  150 <= n_v a -> 0 < n_dip a <= 90 -> (x = 0 -> n_dip a < 90 /\ match n_width a with Some w => w <> 0 | None => False end) -> (n_hyp a = None -> cb_tor a < cb_bor a) ->
  exists o1 o2, gmm_out (cb14 src1) o1 /\ gmm_out (cb14 src2) o2 /\ flt_le (o_pga o1) (o_pga o2).
Proof. exact cb_normal_pga. Qed.
Print Assumptions C135_cb14_normal_pga.
Theorem C135_cb14_reverse_same : forall src1 src2 a x z, nga_gives src1 (with_mech a "SS") -> nga_gives src2 (with_mech a "RS") -> n_tor a = Some z -> n_x a = Some x ->
  0 < n_v a -> 0 < n_dip a <= 90 -> (x = 0 -> n_dip a < 90 /\ match n_width a with Some w => w <> 0 | None => False end) -> (n_hyp a = None -> cb_tor a < cb_bor a) ->
  exists o, gmm_out (cb14 src1) o /\ gmm_out (cb14 src2) o.
Proof. exact cb_reverse_same. Qed.
Print Assumptions C135_cb14_reverse_same.
Theorem C135_cy14 : forall src1 src2 a x s1 s2, nga_gives src1 (with_mech a s1) -> nga_gives src2 (with_mech a s2) ->
  (s1 = "NS" /\ s2 = "SS") \/ (s1 = "SS" /\ s2 = "RS") ->
  n_tor a = None -> n_hw a <> Some true -> n_x a = Some x -> 0 <= n_rup a -> 180 <= n_v a ->
  exists o1 o2, gmm_out (cy14 src1) o1 /\ gmm_out (cy14 src2) o2 /\ resp2 flt_le o1 o2.
Proof. exact cy_style. Qed.
Print Assumptions C135_cy14.
Example C135_nonvacuous :
  (exists o1 o2, gmm_out (bssa14 (nga_src (with_mech hw_nga "NS"))) o1 /\ gmm_out (bssa14 (nga_src (with_mech hw_nga "SS"))) o2 /\ resp2 flt_lt o1 o2)
  /\ (exists o1 o2, gmm_out (ask14 (nga_src (with_mech hw_nga "NS"))) o1 /\ gmm_out (ask14 (nga_src (with_mech hw_nga "RS"))) o2 /\ resp2 (if Rle_dec 6.7 4 then flt_le else flt_lt) o1 o2)
  /\ (exists o, gmm_out (cb14 (nga_src (with_mech hw_nga "SS"))) o /\ gmm_out (cb14 (nga_src (with_mech hw_nga "RS"))) o)
  /\ (exists o1 o2, gmm_out (cy14 (nga_src (with_mech hw_small "SS"))) o1 /\ gmm_out (cy14 (nga_src (with_mech hw_small "RS"))) o2 /\ resp2 flt_le o1 o2).
Proof.
  split; [|split; [|split]].
  - apply (C135_bssa14_normal _ _ hw_nga); try apply nga_src_gives. cbn; lra.
  - apply (C135_ask14_normal _ _ hw_nga "RS"); try apply nga_src_gives; [right; left; reflexivity|cbn; lra|intros W; discriminate W|cbn; lra].
  - apply (C135_cb14_reverse_same _ _ hw_nga 8 2); try apply nga_src_gives; try reflexivity; cbn [hw_nga n_v n_dip n_hyp n_width]; try lra. discriminate.
  - apply (C135_cy14 _ _ hw_small 2 "SS" "RS"); try apply nga_src_gives; try reflexivity; [right; split; reflexivity|discriminate|cbn; lra|cbn; lra].
Qed.
