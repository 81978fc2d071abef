(** * Interpolation kinds: property C136 *)
From Coq Require Import Reals Lra Lia List String Arith QArith Qreals.
From Verif Require Import Framework Np FrameworkProofs FrameworkProps M_interp P_interp.
From Verif Require Import M_ab06 M_aga16 M_asb14 M_ask14 M_bssa14 M_c03 M_cb14 M_cy14 M_dbc14 M_hkr14 M_i14 M_pzt11 M_tp05 GmmLib.
Import ListNotations.
Open Scope R_scope.
Open Scope string_scope.
Open Scope list_scope.

(** ** Specification *)
(** [run] is one of the two interpolation methods of [m] and [vals] the array behind it. *)
Definition interpolator (spl : nat -> list flt -> list flt -> flt -> flt) (m : gmm) (run : list flt -> string -> M (list flt)) (vals : list flt) : Prop :=
  (run = g_interp_ln_kind spl m /\ vals = g_ln_resp m) \/ (run = g_interp_ln_stds_kind spl m /\ g_ln_std m = Some vals).
(** The periods of [m] are [ps], positive and increasing, and the array has the numbers [ys] there. *)
Definition tabulated (m : gmm) (vals : list flt) (ps ys : list R) : Prop :=
  take_idx (gc_periods (g_class m)) (gc_psa (g_class m)) = Some (map Fin ps) /\
  take_idx vals (gc_psa (g_class m)) = Some (map Fin ys) /\
  Forall (fun p => 0 < p) ps /\ incr ps /\ (1 < List.length ps)%nat.
Definition kinds : list string := ["linear"; "slinear"; "previous"; "zero"; "next"; "nearest"; "nearest-up"; "quadratic"; "cubic"].
(** An interpolating spline passes through its points. *)
Definition spline_spec (spl : nat -> list flt -> list flt -> flt -> flt) : Prop :=
  forall k xs ys i, List.length xs = List.length ys -> incr xs -> (k < List.length xs)%nat -> (i < List.length xs)%nat ->
    spl k (map Fin xs) (map Fin ys) (Fin (nth i xs 0)) = Fin (nth i ys 0).
Definition enough (kind : string) (n : nat) : Prop := (kind = "quadratic" -> 3 <= n)%nat /\ (kind = "cubic" -> 4 <= n)%nat.
(** The value between two neighbouring periods p0 < p1 with the values y0 and y1. *)
Definition between (kind : string) (p0 p1 y0 y1 t : R) (v : flt) : Prop :=
  if String.eqb kind "linear" then v = Fin (y0 + (y1 - y0) * ((ln t - ln p0) / (ln p1 - ln p0)))
  else if String.eqb kind "slinear" then v = Fin (y0 + (y1 - y0) * ((ln t - ln p0) / (ln p1 - ln p0)))
  else if String.eqb kind "previous" then v = Fin (if Rlt_dec t p1 then y0 else y1)
  else if String.eqb kind "zero" then v = Fin (if Rlt_dec t p1 then y0 else y1)
  else if String.eqb kind "next" then v = Fin (if Rlt_dec p0 t then y1 else y0)
  else if String.eqb kind "nearest" then v = Fin (if Rle_dec (t * t) (p0 * p1) then y0 else y1)
  else if String.eqb kind "nearest-up" then v = Fin (if Rlt_dec (t * t) (p0 * p1) then y0 else y1)
  else True.
(** The ground motion models of the library. *)
Definition shipped : list gclass := [ab06_class; aga16_class; cop14_class; asb14_class; ask14_class; bssa14_class; c03_class; cb14_class;
  cy14_class; dbc14_class; hkr14_class; i14_class; pzt11_class; tp05_class].

(** ** Proofs *)
Lemma run_kind spl m run vals ps ys kind ts f : interpolator spl m run vals -> tabulated m vals ps ys ->
  interp1d_kind spl kind (map flog (map Fin ps)) (map Fin ys) = ret f -> result (run ts kind) = Ok (map (fun t => f (flog t)) ts).
Proof.
  intros [[-> ->]|[-> Hs]] (Hp & Hy & _) E; [unfold g_interp_ln_kind|unfold g_interp_ln_stds_kind; rewrite Hs]; unfold g_periods, arr_take; rewrite Hp, Hy; cbn [bind result ret];
    rewrite !bind_ret_l, E; reflexivity.
Qed.
Lemma mid_geo p0 p1 t : 0 < p0 -> 0 < p1 -> 0 < t -> (ln t <= (ln p0 + ln p1) / 2 <-> t * t <= p0 * p1) /\ (ln t < (ln p0 + ln p1) / 2 <-> t * t < p0 * p1).
Proof.
  intros H0 H1 Ht. assert (E1 : ln (t * t) = 2 * ln t) by (rewrite ln_mult by assumption; ring). assert (E2 : ln (p0 * p1) = ln p0 + ln p1) by (apply ln_mult; assumption).
  assert (P : 0 < t * t) by (apply Rmult_lt_0_compat; assumption). assert (Q : 0 < p0 * p1) by (apply Rmult_lt_0_compat; assumption).
  split; split; intros H.
  - destruct (Rle_dec (t * t) (p0 * p1)) as [|N]; [assumption|]. apply Rnot_le_lt, ln_increasing in N; [lra|exact Q].
  - destruct H as [H|H]; [apply ln_increasing in H; [lra|exact P]|rewrite H in E1; lra].
  - apply ln_lt_inv; try assumption; lra.
  - apply ln_increasing in H; [lra|exact P].
Qed.
Lemma ln_le2 a b : 0 < a -> a <= b -> ln a <= ln b.
Proof. intros H [L| ->]; [left; apply ln_increasing; assumption|lra]. Qed.

Theorem C136_kinds : forall spl m run vals ps ys kind,
  interpolator spl m run vals -> tabulated m vals ps ys -> spline_spec spl -> In kind kinds -> enough kind (List.length ps) ->
  exists f : R -> flt,
    (forall ts, Forall (fun t => 0 <= t) ts -> result (run (map Fin ts) kind) = Ok (map f ts)) /\
    (forall i, (i < List.length ps)%nat -> f (nth i ps 0) = Fin (nth i ys 0)) /\
    (forall i t, (S i < List.length ps)%nat -> nth i ps 0 <= t <= nth (S i) ps 0 -> between kind (nth i ps 0) (nth (S i) ps 0) (nth i ys 0) (nth (S i) ys 0) t (f t)) /\
    (forall t, 0 <= t -> t < nth 0 ps 0 \/ last ps 0 < t -> f t = NaN).
Proof.
  intros spl m run vals ps ys kind I T HS Hk HE.
  assert (Hlen : List.length ps = List.length ys).
  { destruct T as (Hp & Hy & _). apply take_idx_length in Hp, Hy. rewrite map_length in *. congruence. }
  destruct T as (Hp & Hy & Hpos & Hinc & Htwo) eqn:ET. clear ET.
  destruct ps as [|p0 ps]; [cbn in Htwo; lia|]. destruct ys as [|y0 ys]; [discriminate|].
  assert (Hn : forall i, (i < List.length (p0 :: ps))%nat -> 0 < nth i (p0 :: ps) 0) by (intros i Hi; rewrite Forall_forall in Hpos; apply Hpos, nth_In, Hi).
  assert (Hl : List.length (map ln ps) = List.length ys) by (rewrite map_length; cbn in Hlen; lia).
  assert (HI : incr (ln p0 :: map ln ps)) by (apply (incr_map_ln (p0 :: ps)); assumption).
  assert (L : last (map ln ps) (ln p0) = ln (last ps p0)).
  { clear. revert p0. induction ps as [|q ps IH]; intros p0; [reflexivity|]. destruct ps; [reflexivity|]. exact (IH p0). }
  assert (LL : last (p0 :: ps) 0 = last ps p0) by (destruct ps; [cbn in Htwo; lia|cbn [last]; clear; revert r; induction ps; intros r; [reflexivity|exact (IHps a)]]).
  assert (Lp : 0 < last ps p0) by (rewrite (last_nth p0 ps); apply Hn; cbn; lia).
  assert (EX : map flog (map Fin (p0 :: ps)) = map Fin (ln p0 :: map ln ps)) by (apply (map_flog_fin (p0 :: ps)); exact Hpos).
  assert (OUT : forall g t, 0 <= t -> t < nth 0 (p0 :: ps) 0 \/ last (p0 :: ps) 0 < t -> within g (map Fin (ln p0 :: map ln ps)) (map Fin (y0 :: ys)) (flog (Fin t)) = NaN).
  { intros g t Ht H. apply within_out; [exact Hl|]. destruct (Req_dec t 0) as [->|N]; [left; apply flog_zero|]. right; right. exists (ln t).
    split; [apply flog_fin; lra|]. rewrite L. rewrite LL in H. destruct H as [H|H]; [left; apply ln_increasing; [lra|exact H]|right; apply ln_increasing; [exact Lp|exact H]]. }
  assert (NL : forall i, (i < List.length (p0 :: ps))%nat -> nth i (ln p0 :: map ln ps) 0 = ln (nth i (p0 :: ps) 0)) by (intros i Hi; apply (nth_map_ln (p0 :: ps)), Hi).
  assert (NL2 : forall i, (S i < List.length (p0 :: ps))%nat -> nth i (map ln ps) 0 = ln (nth (S i) (p0 :: ps) 0)) by (intros i Hi; apply (NL (S i)), Hi).
  assert (NLE : forall i, (i < List.length (p0 :: ps))%nat -> p0 <= nth i (p0 :: ps) 0 <= last ps p0).
  { intros i Hi. split; [destruct i; [cbn; lra|left; apply (incr_hd_nth p0 ps i Hinc); cbn in Hi; lia]|].
    rewrite (last_nth p0 ps). destruct (Nat.eq_dec i (List.length ps)) as [->|N]; [lra|]. left. apply incr_nth; [exact Hinc|cbn in Hi; lia|cbn; lia]. }
  assert (IN : forall g i t, (i < List.length (p0 :: ps))%nat -> (nth i (p0 :: ps) 0 <= t)%R -> t <= last ps p0 ->
     within g (map Fin (ln p0 :: map ln ps)) (map Fin (y0 :: ys)) (flog (Fin t)) = g (Fin (ln p0)) (Fin y0) (combine (map Fin (map ln ps)) (map Fin ys)) (Fin (ln t))).
  { intros g i t Hi H1 H2. pose proof (NLE i Hi). pose proof (Hn 0%nat ltac:(cbn; lia)) as P0. cbn in P0. rewrite flog_fin by lra. apply within_in; [exact Hl|exact HI|apply ln_le2; lra|rewrite L; apply ln_le2; lra]. }
  assert (STEP : forall g, interp1d_kind spl kind (map flog (map Fin (p0 :: ps))) (map Fin (y0 :: ys)) = ret (within g (map Fin (ln p0 :: map ln ps)) (map Fin (y0 :: ys))) ->
     (forall i, (i < List.length (p0 :: ps))%nat -> g (Fin (ln p0)) (Fin y0) (combine (map Fin (map ln ps)) (map Fin ys)) (Fin (ln (nth i (p0 :: ps) 0))) = Fin (nth i (y0 :: ys) 0)) ->
     (forall i t, (S i < List.length (p0 :: ps))%nat -> 0 < t -> nth i (p0 :: ps) 0 <= t <= nth (S i) (p0 :: ps) 0 -> between kind (nth i (p0 :: ps) 0) (nth (S i) (p0 :: ps) 0) (nth i (y0 :: ys) 0) (nth (S i) (y0 :: ys) 0) t (g (Fin (ln p0)) (Fin y0) (combine (map Fin (map ln ps)) (map Fin ys)) (Fin (ln t)))) ->
     exists f : R -> flt,
      (forall ts, Forall (fun t => 0 <= t) ts -> result (run (map Fin ts) kind) = Ok (map f ts)) /\
      (forall i, (i < List.length (p0 :: ps))%nat -> f (nth i (p0 :: ps) 0) = Fin (nth i (y0 :: ys) 0)) /\
      (forall i t, (S i < List.length (p0 :: ps))%nat -> nth i (p0 :: ps) 0 <= t <= nth (S i) (p0 :: ps) 0 -> between kind (nth i (p0 :: ps) 0) (nth (S i) (p0 :: ps) 0) (nth i (y0 :: ys) 0) (nth (S i) (y0 :: ys) 0) t (f t)) /\
      (forall t, 0 <= t -> t < nth 0 (p0 :: ps) 0 \/ last (p0 :: ps) 0 < t -> f t = NaN)).
  { intros g E HK HB. exists (fun t => within g (map Fin (ln p0 :: map ln ps)) (map Fin (y0 :: ys)) (flog (Fin t))).
    split; [|split; [|split]].
    - intros ts _. rewrite (run_kind spl m run vals (p0 :: ps) (y0 :: ys) kind (map Fin ts) _ I T E). rewrite map_map. reflexivity.
    - intros i Hi. rewrite (IN g i) by (try exact Hi; try lra; apply NLE; exact Hi). apply HK, Hi.
    - intros i t Hi Ht. pose proof (Hn i ltac:(lia)). pose proof (NLE (S i) Hi). rewrite (IN g i) by (try lia; lra). apply HB; [exact Hi|lra|exact Ht].
    - intros t Ht H. apply OUT; assumption. }
  assert (LIN : interp1d_kind spl kind (map flog (map Fin (p0 :: ps))) (map Fin (y0 :: ys)) = ret (interp1d_nan (map flog (map Fin (p0 :: ps))) (map Fin (y0 :: ys))) ->
     between kind = (fun p0 p1 y0 y1 t v => v = Fin (y0 + (y1 - y0) * ((ln t - ln p0) / (ln p1 - ln p0)))) ->
     exists f : R -> flt,
      (forall ts, Forall (fun t => 0 <= t) ts -> result (run (map Fin ts) kind) = Ok (map f ts)) /\
      (forall i, (i < List.length (p0 :: ps))%nat -> f (nth i (p0 :: ps) 0) = Fin (nth i (y0 :: ys) 0)) /\
      (forall i t, (S i < List.length (p0 :: ps))%nat -> nth i (p0 :: ps) 0 <= t <= nth (S i) (p0 :: ps) 0 -> between kind (nth i (p0 :: ps) 0) (nth (S i) (p0 :: ps) 0) (nth i (y0 :: ys) 0) (nth (S i) (y0 :: ys) 0) t (f t)) /\
      (forall t, 0 <= t -> t < nth 0 (p0 :: ps) 0 \/ last (p0 :: ps) 0 < t -> f t = NaN)).
  { intros E B. exists (fun t => interp1d_nan (map flog (map Fin (p0 :: ps))) (map Fin (y0 :: ys)) (flog (Fin t))).
    split; [|split; [|split]].
    - intros ts _. rewrite (run_kind spl m run vals (p0 :: ps) (y0 :: ys) kind (map Fin ts) _ I T E). rewrite map_map. reflexivity.
    - intros i Hi. apply interp_knot; assumption.
    - intros i t Hi Ht. rewrite B. destruct (interp_seg_spec (p0 :: ps) (y0 :: ys) Hpos Hinc Hlen Htwo i t Hi Ht) as (y & E1 & E2 & _). rewrite E1, E2. reflexivity.
    - intros t Ht H. apply interp_outside; try assumption. rewrite !fltb_fin. destruct H; [left|right; left]; apply Rltb_true; assumption. }
  assert (LT : forall i j, (i < j)%nat -> (j < List.length (p0 :: ps))%nat -> ln (nth i (p0 :: ps) 0) < ln (nth j (p0 :: ps) 0)).
  { intros i j H1 H2. apply ln_increasing; [apply Hn; lia|]. apply incr_nth; assumption. }
  assert (PK : forall i, (i < List.length (p0 :: ps))%nat -> prev_val (Fin y0) (combine (map Fin (map ln ps)) (map Fin ys)) (Fin (ln (nth i (p0 :: ps) 0))) = Fin (nth i (y0 :: ys) 0)).
  { intros i Hi. apply (prev_seg (map ln ps) ys (ln p0)); [exact Hl|exact HI|rewrite map_length; cbn in Hi; lia|rewrite NL by exact Hi; lra|].
    intros H. rewrite map_length in H. rewrite NL2 by (cbn; lia). apply LT; [lia|cbn; lia]. }
  assert (PB : forall i t, (S i < List.length (p0 :: ps))%nat -> 0 < t -> nth i (p0 :: ps) 0 <= t <= nth (S i) (p0 :: ps) 0 ->
     prev_val (Fin y0) (combine (map Fin (map ln ps)) (map Fin ys)) (Fin (ln t)) = Fin (if Rlt_dec t (nth (S i) (p0 :: ps) 0) then nth i (y0 :: ys) 0 else nth (S i) (y0 :: ys) 0)).
  { intros i t Hi Ht H. destruct (Rlt_dec t (nth (S i) (p0 :: ps) 0)) as [C|C].
    - apply (prev_seg (map ln ps) ys (ln p0)); [exact Hl|exact HI|rewrite map_length; cbn in Hi; lia|rewrite NL by lia; apply ln_le2; [apply Hn; lia|apply H]|].
      intros _. rewrite NL2 by exact Hi. apply ln_increasing; assumption.
    - replace t with (nth (S i) (p0 :: ps) 0) by lra. apply PK, Hi. }
  assert (NK : forall i, (i < List.length (p0 :: ps))%nat -> next_val (Fin y0) (combine (map Fin (map ln ps)) (map Fin ys)) (Fin (ln p0)) (Fin (ln (nth i (p0 :: ps) 0))) = Fin (nth i (y0 :: ys) 0)).
  { intros i Hi. apply next_seg; [exact Hl|exact HI|rewrite map_length; cbn in Hi; lia|rewrite NL by exact Hi; lra|].
    intros j ->. rewrite NL by lia. apply LT; lia. }
  assert (NB : forall i t, (S i < List.length (p0 :: ps))%nat -> 0 < t -> nth i (p0 :: ps) 0 <= t <= nth (S i) (p0 :: ps) 0 ->
     next_val (Fin y0) (combine (map Fin (map ln ps)) (map Fin ys)) (Fin (ln p0)) (Fin (ln t)) = Fin (if Rlt_dec (nth i (p0 :: ps) 0) t then nth (S i) (y0 :: ys) 0 else nth i (y0 :: ys) 0)).
  { intros i t Hi Ht H. destruct (Rlt_dec (nth i (p0 :: ps) 0) t) as [C|C].
    - apply next_seg; [exact Hl|exact HI|rewrite map_length; cbn in Hi; lia|rewrite NL by lia; apply ln_le2; [lra|apply H]|].
      intros j E. injection E as <-. rewrite NL by lia. apply ln_increasing; [apply Hn; lia|exact C].
    - replace t with (nth i (p0 :: ps) 0) by lra. apply NK; lia. }
  assert (AB : forall up i t, (S i < List.length (p0 :: ps))%nat -> 0 < t -> nth i (p0 :: ps) 0 <= t <= nth (S i) (p0 :: ps) 0 ->
     near_val up (Fin (ln p0)) (Fin y0) (combine (map Fin (map ln ps)) (map Fin ys)) (Fin (ln t)) =
     Fin (if up then if Rlt_dec (t * t) (nth i (p0 :: ps) 0 * nth (S i) (p0 :: ps) 0) then nth i (y0 :: ys) 0 else nth (S i) (y0 :: ys) 0
          else if Rle_dec (t * t) (nth i (p0 :: ps) 0 * nth (S i) (p0 :: ps) 0) then nth i (y0 :: ys) 0 else nth (S i) (y0 :: ys) 0)).
  { intros up i t Hi Ht H. rewrite (near_seg up (map ln ps) ys (ln p0) y0 i (ln t)); [|exact Hl|exact HI|rewrite map_length; cbn in Hi; lia|].
    - rewrite NL by lia. rewrite NL2 by exact Hi. pose proof (mid_geo (nth i (p0 :: ps) 0) (nth (S i) (p0 :: ps) 0) t (Hn i ltac:(lia)) (Hn (S i) Hi) Ht) as [G1 G2].
      apply f_equal. change (nth (S i) (y0 :: ys) 0) with (nth i ys 0). destruct up.
      + destruct (Rlt_dec _ _) as [C|C]; [rewrite Rltb_true by (apply G2; exact C)|rewrite Rltb_false by (apply Rnot_lt_le; intros D; apply C, G2, D)]; reflexivity.
      + destruct (Rle_dec _ _) as [C|C]; [rewrite Rleb_true by (apply G1; exact C)|rewrite Rleb_false by (apply Rnot_le_lt; intros D; apply C, G1, D)]; reflexivity.
    - rewrite NL by lia. rewrite NL2 by exact Hi. pose proof (Hn i ltac:(lia)). split; apply ln_le2; lra. }
  assert (AK : forall up i, (i < List.length (p0 :: ps))%nat -> near_val up (Fin (ln p0)) (Fin y0) (combine (map Fin (map ln ps)) (map Fin ys)) (Fin (ln (nth i (p0 :: ps) 0))) = Fin (nth i (y0 :: ys) 0)).
  { intros up i Hi. pose proof (Hn i Hi) as P. destruct (Nat.eq_dec (S i) (List.length (p0 :: ps))) as [E|E].
    - destruct i as [|i]; [cbn in *; lia|]. pose proof (Hn i ltac:(lia)) as P'. assert (D : nth i (p0 :: ps) 0 < nth (S i) (p0 :: ps) 0) by (apply incr_nth; [exact Hinc|lia|lia]).
      rewrite (AB up i) by (try lia; lra). set (u := nth i (p0 :: ps) 0) in *. set (w := nth (S i) (p0 :: ps) 0) in *. assert (u * w < w * w) by (apply Rmult_lt_compat_r; assumption).
      destruct up; [destruct (Rlt_dec (w * w) (u * w)); [lra|]|destruct (Rle_dec (w * w) (u * w)); [lra|]]; reflexivity.
    - assert (D : nth i (p0 :: ps) 0 < nth (S i) (p0 :: ps) 0) by (apply incr_nth; [exact Hinc|lia|lia]).
      rewrite (AB up i) by (try lia; lra). set (u := nth i (p0 :: ps) 0) in *. set (w := nth (S i) (p0 :: ps) 0) in *. assert (u * u < u * w) by (apply Rmult_lt_compat_l; assumption).
      destruct up; [destruct (Rlt_dec (u * u) (u * w)); [|lra]|destruct (Rle_dec (u * u) (u * w)); [|lra]]; reflexivity. }
  assert (SK : forall k i, (k < List.length (p0 :: ps))%nat -> (i < List.length (p0 :: ps))%nat -> spl k (map Fin (ln p0 :: map ln ps)) (map Fin (y0 :: ys)) (Fin (ln (nth i (p0 :: ps) 0))) = Fin (nth i (y0 :: ys) 0)).
  { intros k i Hkk Hi. rewrite <- NL by exact Hi. apply HS; cbn [List.length] in *; rewrite ?map_length; try lia. exact HI. }
  destruct Hk as [<-|[<-|[<-|[<-|[<-|[<-|[<-|[<-|[<-|[]]]]]]]]]].
  - apply LIN; reflexivity.
  - apply LIN; reflexivity.
  - apply (STEP (fun _ y0 rest => prev_val y0 rest)); [rewrite EX; reflexivity|exact PK|exact PB].
  - apply (STEP (fun _ y0 rest => prev_val y0 rest)); [rewrite EX; reflexivity|exact PK|exact PB].
  - apply (STEP (fun x0 y0 rest => next_val y0 rest x0)); [rewrite EX; reflexivity|exact NK|exact NB].
  - apply (STEP (near_val false)); [rewrite EX; reflexivity|exact (AK false)|intros i t; exact (AB false i t)].
  - apply (STEP (near_val true)); [rewrite EX; reflexivity|exact (AK true)|intros i t; exact (AB true i t)].
  - destruct HE as [HE _]. specialize (HE eq_refl). apply (STEP (fun _ _ _ => spl 2%nat (map Fin (ln p0 :: map ln ps)) (map Fin (y0 :: ys)))); [|intros i Hi; apply SK; [lia|exact Hi]|intros; exact Logic.I].
    rewrite EX. unfold interp1d_kind. cbn [String.eqb Ascii.eqb Bool.eqb]. rewrite map_length. cbn [List.length] in *. rewrite map_length. rewrite (proj2 (Nat.leb_le 3 (S (List.length ps))) HE). reflexivity.
  - destruct HE as [_ HE]. specialize (HE eq_refl). apply (STEP (fun _ _ _ => spl 3%nat (map Fin (ln p0 :: map ln ps)) (map Fin (y0 :: ys)))); [|intros i Hi; apply SK; [lia|exact Hi]|intros; exact Logic.I].
    rewrite EX. unfold interp1d_kind. cbn [String.eqb Ascii.eqb Bool.eqb]. rewrite map_length. cbn [List.length] in *. rewrite map_length. rewrite (proj2 (Nat.leb_le 4 (S (List.length ps))) HE). reflexivity.
Qed.
Print Assumptions C136_kinds.
(** [interp_spec_accels] is the exponential of [interp_ln_spec_accels], for every kind. *)
Theorem C136_accels_are_exponentials : forall spl m ts kind,
  result (g_interp_accels_kind spl m ts kind) = match result (g_interp_ln_kind spl m ts kind) with Ok l => Ok (map fexp l) | Raise e => Raise e end.
Proof. intros. unfold g_interp_accels_kind. rewrite result_bind. destruct (result (g_interp_ln_kind spl m ts kind)); reflexivity. Qed.
Print Assumptions C136_accels_are_exponentials.
(** The default kind is the interpolation of C11. *)
Theorem C136_default_kind : forall spl m ts,
  result (g_interp_ln_kind spl m ts "linear") = result (g_interp_ln m ts) /\ result (g_interp_ln_stds_kind spl m ts "linear") = result (g_interp_ln_stds m ts).
Proof. intros. split; [reflexivity|]. unfold g_interp_ln_stds_kind, g_interp_ln_stds. destruct (g_ln_std m); reflexivity. Qed.
Print Assumptions C136_default_kind.
Theorem C136_unknown_kind : forall spl m run vals ps ys kind ts, interpolator spl m run vals -> tabulated m vals ps ys -> ~ In kind kinds ->
  result (run ts kind) = Raise ENotImpl.
Proof.
  intros spl m run vals ps ys kind ts I (Hp & Hy & _) N.
  assert (E : interp1d_kind spl kind (map flog (map Fin ps)) (map Fin ys) = raise ENotImpl).
  { unfold interp1d_kind, kinds in *. cbn [In] in N.
    repeat match goal with |- context [String.eqb kind ?s] => destruct (String.eqb_spec kind s) as [->|_]; [exfalso; apply N; tauto|] end. reflexivity. }
  destruct I as [[-> ->]|[-> Hs]]; [unfold g_interp_ln_kind|unfold g_interp_ln_stds_kind; rewrite Hs]; unfold g_periods, arr_take; rewrite Hp, Hy; rewrite !bind_ret_l, E; reflexivity.
Qed.
Print Assumptions C136_unknown_kind.
(** Without standard deviations [interp_ln_stds] raises whatever the kind. *)
Theorem C136_no_stds : forall spl m ts kind, g_ln_std m = None -> result (g_interp_ln_stds_kind spl m ts kind) = Raise ENotImpl.
Proof. intros spl m ts kind H. unfold g_interp_ln_stds_kind. rewrite H. reflexivity. Qed.
Print Assumptions C136_no_stds.

(** ** The hypotheses of C11 and C136 hold for the periods of every ground motion model of the library *)
Definition q_ok (l : list Q) : bool :=
  forallb (fun q => negb (Qle_bool q 0)) l && forallb (fun p => negb (Qle_bool (snd p) (fst p))) (combine l (tl l)).
Lemma q_ok_spec l : q_ok l = true -> Forall (fun p => 0 < p) (map Q2R l) /\ incr (map Q2R l).
Proof.
  unfold q_ok. rewrite Bool.andb_true_iff, !forallb_forall. intros [A B]. split.
  - apply Forall_forall. intros x H. apply in_map_iff in H as (q & <- & H). apply A in H. rewrite Bool.negb_true_iff in H.
    replace 0 with (Q2R 0) by (unfold Q2R; cbn; lra). apply Qlt_Rlt. apply Qnot_le_lt. intros C. apply Qle_bool_iff in C. congruence.
  - clear A. induction l as [|a l IH]; [exact Logic.I|]. destruct l as [|b l]; [exact Logic.I|]. cbn [map incr]. split.
    + specialize (B (a, b) (or_introl eq_refl)). rewrite Bool.negb_true_iff in B. apply Qlt_Rlt. apply Qnot_le_lt. intros C. apply Qle_bool_iff in C. cbn in B. congruence.
    + apply IH. intros x H. apply B. cbn [tl combine] in *. right. exact H.
Qed.
Lemma shipped_q l (idx : list nat) qs cls : gc_periods cls = map qf l -> gc_psa cls = idx -> take_idx l idx = Some qs -> q_ok qs = true -> (1 < List.length qs)%nat ->
  exists ps, take_idx (gc_periods cls) (gc_psa cls) = Some (map Fin ps) /\ Forall (fun p => 0 < p) ps /\ incr ps /\ (1 < List.length ps)%nat.
Proof.
  intros -> -> E K L. exists (map Q2R qs). split; [|rewrite map_length; pose proof (q_ok_spec _ K); tauto].
  revert qs E K L. assert (G : forall qs, take_idx l idx = Some qs -> take_idx (map qf l) idx = Some (map Fin (map Q2R qs))).
  { induction idx as [|i idx IH]; intros qs; cbn; [intros E; injection E as <-; reflexivity|].
    rewrite nth_error_map. destruct (nth_error l i) as [a|]; [|discriminate]. destruct (take_idx l idx) as [t|]; [|discriminate]. intros E; injection E as <-. rewrite (IH t eq_refl). reflexivity. }
  intros qs E _ _. apply G, E.
Qed.
Lemma shipped_rows {A} (per : A -> Q) rows cls qs : gc_periods cls = map (fun c => qf (per c)) rows -> take_idx (map per rows) (gc_psa cls) = Some qs -> q_ok qs = true -> (1 < List.length qs)%nat ->
  exists ps, take_idx (gc_periods cls) (gc_psa cls) = Some (map Fin ps) /\ Forall (fun p => 0 < p) ps /\ incr ps /\ (1 < List.length ps)%nat.
Proof. intros E. apply shipped_q; [|reflexivity]. rewrite map_map. exact E. Qed.
Ltac ship per rows := eapply (shipped_rows per rows); [reflexivity|vm_compute; reflexivity|vm_compute; reflexivity|vm_compute; repeat constructor].
Theorem C136_every_model_is_tabulated : forall cls, In cls shipped ->
  exists ps, take_idx (gc_periods cls) (gc_psa cls) = Some (map Fin ps) /\ Forall (fun p => 0 < p) ps /\ incr ps /\ (1 < List.length ps)%nat.
Proof.
  intros cls H. unfold shipped in H.
  destruct H as [<-|[<-|[<-|[<-|[<-|[<-|[<-|[<-|[<-|[<-|[<-|[<-|[<-|[<-|[]]]]]]]]]]]]]]].
  - ship ab06_period ab06_bc_coeff.
  - ship aga16_period aga16_coeff.
  - ship cop14_period cop14_coeff.
  - ship asb14_period asb14_jb_coeff.
  - ship ask14_period ask14_coeff.
  - ship bssa14_period bssa14_coeff.
  - ship c03_period c03_coeff.
  - ship cb14_period cb14_coeff.
  - ship cy14_period cy14_coeff.
  - ship dbc14_period dbc14_coeff.
  - exists [0.01; 0.1; 0.5; 1; 4]. split; [reflexivity|]. split; [repeat constructor; lra|]. split; [cbn; lra|cbn; lia].
  - ship i14_period i14_small_coeff.
  - ship pzt11_period pzt11_coeff.
  - ship tp05_period tp05_coeff.
Qed.
Print Assumptions C136_every_model_is_tabulated.

(** A concrete case: the spline function exists (any function through the points will do), and a
    two-period model has a step at the geometric mean of its periods. *)
Definition ex_spl (k : nat) (xs ys : list flt) (x : flt) : flt := within (fun _ y0 rest => prev_val y0 rest) xs ys x.
Lemma ex_spl_ok : spline_spec ex_spl.
Proof.
  intros k xs ys i Hl Hi Hk Hn. destruct xs as [|x0 xs]; [cbn in Hn; lia|]. destruct ys as [|y0 ys]; [discriminate|]. cbn [List.length] in *. unfold ex_spl.
  assert (B : x0 <= nth i (x0 :: xs) 0 <= last xs x0).
  { split; [destruct i; [cbn; lra|left; apply (incr_hd_nth x0 xs i Hi); lia]|]. rewrite (last_nth x0 xs). destruct (Nat.eq_dec i (List.length xs)) as [->|N]; [lra|].
    left. apply incr_nth; [exact Hi|lia|cbn; lia]. }
  rewrite within_in by (try exact Hi; try lia; apply B). apply (prev_seg xs ys x0); [lia|exact Hi|lia|lra|]. intros H. apply (incr_nth (x0 :: xs) Hi i (S i)); [lia|cbn; lia].
Qed.
Definition ex_gmm2 : gmm :=
  GMM (GClass "EX" [] [Fin 0.1; Fin 1; Fin (-1)] [0%nat; 1%nat] (Some (-1)%Z) None None (Fin 1) (Fin 1))
      (Scen [] []) [Fin (-1); Fin (-2); Fin (-0.5)] None.
Example C136_nonvacuous : exists f, (forall ts, Forall (fun t => 0 <= t) ts -> result (g_interp_ln_kind ex_spl ex_gmm2 (map Fin ts) "nearest") = Ok (map f ts)) /\
  f 0.3 = Fin (-1) /\ f 0.4 = Fin (-2) /\ f 2 = NaN.
Proof.
  destruct (C136_kinds ex_spl ex_gmm2 (g_interp_ln_kind ex_spl ex_gmm2) (g_ln_resp ex_gmm2) [0.1; 1] [-1; -2] "nearest") as (f & R1 & _ & R2 & R3).
  - left. split; reflexivity.
  - split; [reflexivity|]. split; [reflexivity|]. split; [repeat constructor; lra|]. split; [cbn; split; [lra|exact Logic.I]|cbn; lia].
  - exact ex_spl_ok.
  - cbn. tauto.
  - split; discriminate.
  - exists f. split; [exact R1|]. pose proof (R2 0%nat 0.3 ltac:(cbn; lia) ltac:(cbn; lra)) as A. pose proof (R2 0%nat 0.4 ltac:(cbn; lia) ltac:(cbn; lra)) as B.
    unfold between in A, B. cbn [String.eqb Ascii.eqb Bool.eqb nth] in A, B. split; [|split].
    + rewrite A. destruct (Rle_dec _ _); [reflexivity|exfalso; lra].
    + rewrite B. destruct (Rle_dec (0.4 * 0.4) (0.1 * 1)) as [r|r]; [exfalso; clear - r|reflexivity]. revert r. apply Rlt_not_le. lra.
    + apply R3; [lra|right; cbn; lra].
Qed.
