(** * Cont1: continuity of a vector of outputs in one input (specification vocabulary and proof) *)
From Coquelicot Require Import Coquelicot.
From Coq Require Import List Reals Lra.
From Verif Require Export GmmLib.
From Verif Require Import FrameworkProofs Anal Cont.
Open Scope R_scope.
Open Scope list_scope.

(** Two finite numbers at most [e] apart. *)
Definition num_close (e : R) (a b : flt) : Prop := exists x y, a = Fin x /\ b = Fin y /\ Rabs (y - x) <= e.
(** [run x l]: the input value [x] can give the outputs [l].  The outputs depend continuously
    on the input at [x0], distances measured by [close] ([num_close] or [ln_close]). *)
Definition vec_continuous (close : R -> flt -> flt -> Prop) (run : R -> list flt -> Prop) (x0 : R) : Prop :=
  forall eps, 0 < eps -> exists delta, 0 < delta /\
    forall x l0 l, Rabs (x - x0) < delta -> run x0 l0 -> run x l -> Forall2 (close eps) l0 l.
(** One output. *)
Definition val_continuous (close : R -> flt -> flt -> Prop) (run : R -> flt -> Prop) (x0 : R) : Prop :=
  forall eps, 0 < eps -> exists delta, 0 < delta /\
    forall x y0 y, Rabs (x - x0) < delta -> run x0 y0 -> run x y -> close eps y0 y.

Lemma vec_cont_num {A} (rows : list A) (g : R -> A -> R) (run : R -> list flt -> Prop) x0 r : 0 < r ->
  (forall x l, Rabs (x - x0) < r -> run x l -> l = map (fun c => Fin (g x c)) rows) ->
  (forall c, In c rows -> continuous (fun x => g x c) x0) ->
  vec_continuous num_close run x0.
Proof.
  intros Hr Ho Hc eps He. destruct (uniform_delta rows g x0 Hc eps He) as (d & Hd & U).
  exists (Rmin d r). split; [apply Rmin_pos; assumption|].
  intros x l0 l Hx H0 H1.
  assert (X1 : Rabs (x - x0) < d) by (apply Rlt_le_trans with (1 := Hx), Rmin_l).
  assert (X2 : Rabs (x - x0) < r) by (apply Rlt_le_trans with (1 := Hx), Rmin_r).
  assert (X0 : Rabs (x0 - x0) < r) by (rewrite Rminus_eq_0, Rabs_R0; exact Hr).
  rewrite (Ho _ _ X0 H0), (Ho _ _ X2 H1). apply Forall2_map_intro. intros c Hi.
  exists (g x0 c), (g x c). split; [reflexivity|]. split; [reflexivity|]. apply U; assumption.
Qed.
Lemma vec_cont_ln {A} (rows : list A) (g : R -> A -> R) (run : R -> list flt -> Prop) x0 r : 0 < r ->
  (forall x l, Rabs (x - x0) < r -> run x l -> l = map (fun c => Fin (exp (g x c))) rows) ->
  (forall c, In c rows -> continuous (fun x => g x c) x0) ->
  vec_continuous ln_close run x0.
Proof.
  intros Hr Ho Hc eps He. destruct (uniform_delta rows g x0 Hc eps He) as (d & Hd & U).
  exists (Rmin d r). split; [apply Rmin_pos; assumption|].
  intros x l0 l Hx H0 H1.
  assert (X1 : Rabs (x - x0) < d) by (apply Rlt_le_trans with (1 := Hx), Rmin_l).
  assert (X2 : Rabs (x - x0) < r) by (apply Rlt_le_trans with (1 := Hx), Rmin_r).
  assert (X0 : Rabs (x0 - x0) < r) by (rewrite Rminus_eq_0, Rabs_R0; exact Hr).
  rewrite (Ho _ _ X0 H0), (Ho _ _ X2 H1). apply Forall2_map_intro. intros c Hi.
  apply (ln_close_exp eps (g x0 c) (g x c)). apply U; assumption.
Qed.
Lemma val_cont_num (g : R -> R) (run : R -> flt -> Prop) x0 r : 0 < r ->
  (forall x y, Rabs (x - x0) < r -> run x y -> y = Fin (g x)) -> continuous g x0 -> val_continuous num_close run x0.
Proof.
  intros Hr Ho Hc eps He.
  destruct (vec_cont_num [tt] (fun x _ => g x) (fun x l => exists y, l = [y] /\ run x y) x0 r Hr) with (eps := eps) as (d & Hd & U).
  - intros x l Hx (y & -> & Hy). cbn. rewrite (Ho x y Hx Hy). reflexivity.
  - intros c _. exact Hc.
  - exact He.
  - exists d. split; [exact Hd|]. intros x y0 y Hx H0 H1. specialize (U x [y0] [y] Hx (ex_intro _ y0 (conj eq_refl H0)) (ex_intro _ y (conj eq_refl H1))).
    inversion U; assumption.
Qed.
Lemma val_cont_ln (g : R -> R) (run : R -> flt -> Prop) x0 r : 0 < r ->
  (forall x y, Rabs (x - x0) < r -> run x y -> y = Fin (exp (g x))) -> continuous g x0 -> val_continuous ln_close run x0.
Proof.
  intros Hr Ho Hc eps He.
  destruct (vec_cont_ln [tt] (fun x _ => g x) (fun x l => exists y, l = [y] /\ run x y) x0 r Hr) with (eps := eps) as (d & Hd & U).
  - intros x l Hx (y & -> & Hy). cbn. rewrite (Ho x y Hx Hy). reflexivity.
  - intros c _. exact Hc.
  - exact He.
  - exists d. split; [exact Hd|]. intros x y0 y Hx H0 H1. specialize (U x [y0] [y] Hx (ex_intro _ y0 (conj eq_refl H0)) (ex_intro _ y (conj eq_refl H1))).
    inversion U; assumption.
Qed.
