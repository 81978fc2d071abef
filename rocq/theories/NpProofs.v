(** * NpProofs: np.interp on a table is, at each abscissa, a fixed convex
    combination of two rows - the same whatever column is interpolated. *)
From Verif Require Import Np FrameworkProofs.
Open Scope R_scope.

Lemma last_indep {A} (d d' : A) l : forall a, last (a :: l) d = last (a :: l) d'.
Proof. induction l as [|y l IHl]; intros a; [reflexivity|]. exact (IHl y). Qed.
Lemma last_step {A} (l : list A) : forall c1 c0, last (c1 :: l) c0 = last l c1.
Proof. destruct l as [|y l]; intros c1 c0; [reflexivity|]. apply (last_indep c0 c1 l y). Qed.
Lemma last_In {A} (rest : list A) : forall c0, In (last rest c0) (c0 :: rest).
Proof. induction rest as [|c1 rest IH]; intros c0; [left; reflexivity|]. rewrite last_step. right; apply IH. Qed.

Section Rows.
  Context {A : Type} (kx : A -> R).
  Local Notation knot := (fun c => Fin (kx c)).

  Lemma seg_rows : forall rest c0 x, incr (map kx (c0 :: rest)) -> kx c0 <= x -> x <= kx (last rest c0) ->
    exists c1 c2 w, In c1 (c0 :: rest) /\ In c2 (c0 :: rest) /\ 0 <= w <= 1 /\
      forall (f : A -> flt) (g : A -> R), (forall c, In c (c0 :: rest) -> f c = Fin (g c)) ->
      seg_interp (Fin (kx c0)) (f c0) (combine (map knot rest) (map f rest)) (Fin x)
      = Fin (g c1 + w * (g c2 - g c1)).
  Proof.
    induction rest as [|c1 rest IH]; intros c0 x Hinc Hlo Hhi.
    - exists c0, c0, 0. split; [left; reflexivity|]. split; [left; reflexivity|]. split; [lra|].
      intros f g H. cbn. rewrite (H c0) by (left; reflexivity). f_equal; ring.
    - destruct Hinc as [H01 Hinc].
      destruct (Rle_dec x (kx c1)) as [Hx|Hx].
      + exists c0, c1, ((x - kx c0) / (kx c1 - kx c0)).
        split; [left; reflexivity|]. split; [right; left; reflexivity|].
        split.
        { split; [apply Rmult_le_pos; [lra|left; apply Rinv_0_lt_compat; lra]|].
          apply Rmult_le_reg_r with (kx c1 - kx c0); [lra|]. unfold Rdiv. rewrite Rmult_assoc, Rinv_l by lra. lra. }
        intros f g H. cbn [map combine]. rewrite (H c0) by (left; reflexivity).
        rewrite (H c1) by (right; left; reflexivity).
        assert (E : line (Fin (kx c0)) (Fin (g c0)) (Fin (kx c1)) (Fin (g c1)) (Fin x) =
          Fin (g c0 + (x - kx c0) / (kx c1 - kx c0) * (g c1 - g c0))).
        { unfold line. fcbn. rewrite fdiv_fin by lra. fcbn. f_equal. field. lra. }
        destruct rest as [|c2 rest]; cbn [map combine seg_interp]; [exact E|].
        rewrite fleb_fin, Rleb_true by lra. exact E.
      + destruct rest as [|c2 rest]; [cbn in Hhi; lra|].
        destruct (IH c1 x Hinc ltac:(lra)) as (a & b & w & Ha & Hb & Hw & HF).
        { rewrite last_step in Hhi. exact Hhi. }
        exists a, b, w. split; [right; exact Ha|]. split; [right; exact Hb|]. split; [exact Hw|].
        intros f g H. cbn [map combine seg_interp].
        rewrite fleb_fin, Rleb_false by lra.
        apply HF. intros c Hc; apply H; right; exact Hc.
  Qed.

  Lemma last_combine_map (f : A -> flt) : forall rest c0,
    last (combine (map knot rest) (map f rest)) (Fin (kx c0), f c0) = (Fin (kx (last rest c0)), f (last rest c0)).
  Proof.
    induction rest as [|c1 rest IH]; intros c0; [reflexivity|].
    cbn [map combine]. rewrite !last_step. apply IH.
  Qed.
  Lemma np_interp_rows (rows : list A) (x : R) : rows <> [] -> incr (map kx rows) ->
    exists c1 c2 w, In c1 rows /\ In c2 rows /\ 0 <= w <= 1 /\
      forall (f : A -> flt) (g : A -> R), (forall c, In c rows -> f c = Fin (g c)) ->
      np_interp (map knot rows) (map f rows) (Fin x) = Fin (g c1 + w * (g c2 - g c1)).
  Proof.
    destruct rows as [|c0 rest]; intros Hne Hinc; [contradiction|].
    unfold np_interp, np_interp_lr. cbn [map combine].
    destruct (Rlt_dec x (kx c0)) as [Hlo|Hlo].
    { exists c0, c0, 0. split; [left; reflexivity|]. split; [left; reflexivity|]. split; [lra|].
      intros f g H. destruct (last _ _). rewrite fltb_fin, Rltb_true by lra.
      rewrite (H c0) by (left; reflexivity). f_equal; ring. }
    destruct (Rlt_dec (kx (last rest c0)) x) as [Hhi|Hhi].
    { exists (last rest c0), (last rest c0), 0. split; [apply last_In|]. split; [apply last_In|]. split; [lra|].
      intros f g H. rewrite last_combine_map. rewrite !fltb_fin. rewrite Rltb_false by lra. rewrite Rltb_true by lra.
      rewrite (H (last rest c0)) by apply last_In. f_equal; ring. }
    destruct (seg_rows rest c0 x Hinc ltac:(lra) ltac:(lra)) as (c1 & c2 & w & H1 & H2 & Hw & HF).
    exists c1, c2, w. split; [exact H1|]. split; [exact H2|]. split; [exact Hw|].
    intros f g H. rewrite last_combine_map, !fltb_fin. rewrite !Rltb_false by lra. apply HF; exact H.
  Qed.

  (** Exact at the knots. *)
  Lemma np_interp_knot (rows : list A) (c : A) (f : A -> flt) (g : A -> R) : incr (map kx rows) -> In c rows ->
    (forall c, In c rows -> f c = Fin (g c)) ->
    np_interp (map knot rows) (map f rows) (Fin (kx c)) = Fin (g c).
  Proof.
    intros Hinc Hc H. destruct rows as [|c0 rest]; [destruct Hc|].
    assert (Hlo : kx c0 <= kx c).
    { destruct Hc as [->|Hc]; [lra|]. destruct (In_nth _ _ c0 Hc) as (i & Hi & E).
      pose proof (incr_hd_nth (kx c0) (map kx rest) i Hinc) as K. rewrite map_length in K. specialize (K Hi).
      rewrite (nth_indep _ 0 (kx c0)) in K by (rewrite map_length; exact Hi). rewrite map_nth, E in K. lra. }
    assert (S : forall rest c0, incr (map kx (c0 :: rest)) -> In c (c0 :: rest) ->
      (forall c, In c (c0 :: rest) -> f c = Fin (g c)) -> (rest = [] -> c = c0) ->
      kx c <= kx (last rest c0) /\
      seg_interp (Fin (kx c0)) (f c0) (combine (map knot rest) (map f rest)) (Fin (kx c)) = Fin (g c)).
    { clear. induction rest as [|c1 rest IH]; intros c0 Hinc Hc H _.
      - destruct Hc as [->|[]]. split; [cbn; lra|]. cbn. apply H; left; reflexivity.
      - destruct Hinc as [H01 Hinc].
        assert (M : forall rest c1, incr (map kx (c1 :: rest)) -> kx c1 <= kx (last rest c1)).
        { clear. induction rest as [|c2 rest IH]; intros c1 Hi; [cbn; lra|].
          destruct Hi as [Ha Hi]. specialize (IH c2 Hi). rewrite last_step. lra. }
        assert (E : forall y, line (Fin (kx c0)) (Fin (g c0)) (Fin (kx c1)) (Fin (g c1)) (Fin y) =
          Fin (g c0 + (y - kx c0) / (kx c1 - kx c0) * (g c1 - g c0))).
        { intros y. unfold line. fcbn. rewrite fdiv_fin by lra. fcbn. f_equal. field. lra. }
        rewrite last_step.
        pose proof (M rest c1 Hinc) as ML.
        destruct Hc as [<-|Hc].
        + split; [lra|]. cbn [map combine]. rewrite (H c0) by (left; reflexivity). rewrite (H c1) by (right; left; reflexivity).
          destruct rest; cbn [map combine seg_interp]; [|rewrite fleb_fin, Rleb_true by lra]; rewrite E; f_equal; field; lra.
        + destruct (Rle_dec (kx c) (kx c1)) as [Hx|Hx].
          * assert (c = c1 \/ kx c1 < kx c) as [->|?].
            { destruct Hc as [<-|Hc]; [left; reflexivity|right].
              destruct (In_nth _ _ c0 Hc) as (i & Hi & Ei).
              pose proof (incr_hd_nth (kx c1) (map kx rest) i Hinc) as K. rewrite map_length in K. specialize (K Hi).
              rewrite (nth_indep _ 0 (kx c0)) in K by (rewrite map_length; exact Hi). rewrite map_nth, Ei in K. lra. }
            2: lra.
            split; [lra|]. cbn [map combine]. rewrite (H c0) by (left; reflexivity). rewrite (H c1) by (right; left; reflexivity).
            destruct rest; cbn [map combine seg_interp]; [|rewrite fleb_fin, Rleb_true by lra]; rewrite E; f_equal; field; lra.
          * destruct rest as [|c2 rest]; [destruct Hc as [<-|[]]; lra|].
            destruct (IH c1 Hinc Hc) as [I1 I2]; [intros c' Hc'; apply H; right; exact Hc'|discriminate|].
            split; [exact I1|]. cbn [map combine seg_interp]. rewrite fleb_fin, Rleb_false by lra. exact I2. }
    destruct rest as [|c1 rest].
    - destruct Hc as [->|[]]. unfold np_interp, np_interp_lr. cbn. rewrite !Rltb_false by lra. apply H; left; reflexivity.
    - destruct (S (c1 :: rest) c0 Hinc Hc H) as [S1 S2]; [discriminate|].
      unfold np_interp, np_interp_lr. cbn [map combine]. change ((Fin (kx c1), f c1) :: combine (map knot rest) (map f rest)) with (combine (map knot (c1 :: rest)) (map f (c1 :: rest))).
      rewrite last_combine_map, !fltb_fin. rewrite !Rltb_false by lra. exact S2.
  Qed.
End Rows.

(** Decide that rational knots are increasing. *)
Fixpoint incrQ (l : list Q) : bool :=
  match l with
  | x0 :: ((x1 :: _) as t) => negb (Qle_bool x1 x0) && incrQ t
  | _ => true
  end.
Lemma incrQ_incr l : incrQ l = true -> incr (map Q2R l).
Proof.
  induction l as [|x [|y l] IH]; intros H; cbn; auto.
  cbn [incrQ] in H. apply andb_true_iff in H. destruct H as [H1 H2]. split; [|apply IH; exact H2].
  apply Qlt_Rlt. apply negb_true_iff in H1. apply Qnot_le_lt. intros C. apply Qle_bool_iff in C. congruence.
Qed.
