(** * Cont: continuity of the reported values in one scenario input *)
From Coquelicot Require Import Coquelicot.
From Coq Require Import List Reals Lra.
From Verif Require Import GmmLib Outs Anal.
Open Scope R_scope.
Open Scope list_scope.

(** Specification vocabulary.  [run x o]: the model, given the value [x] for the
    input, returns the values [o].  The responses are continuous at [x0]: for every
    tolerance there is a neighbourhood of [x0] where all natural logarithms of the
    responses are within the tolerance of those at [x0]. *)
Definition resp_continuous (run : R -> outs -> Prop) (x0 : R) : Prop :=
  forall eps, 0 < eps -> exists delta, 0 < delta /\
    forall x o0 o, Rabs (x - x0) < delta -> run x0 o0 -> run x o -> resp2 (ln_close eps) o0 o.

(** Real continuity, operator by operator. *)
Section C.
  Context (f g : R -> R) (x : R).
  Lemma cplus : continuous f x -> continuous g x -> continuous (fun t => f t + g t) x.
  Proof. exact (continuous_plus f g x). Qed.
  Lemma cminus : continuous f x -> continuous g x -> continuous (fun t => f t - g t) x.
  Proof. exact (continuous_minus f g x). Qed.
  Lemma cmult : continuous f x -> continuous g x -> continuous (fun t => f t * g t) x.
  Proof. exact (continuous_mult f g x). Qed.
  Lemma copp : continuous f x -> continuous (fun t => - f t) x.
  Proof. exact (continuous_opp f x). Qed.
  Lemma cinv : continuous f x -> f x <> 0 -> continuous (fun t => / f t) x.
  Proof. intros H N. apply (continuous_comp f Rinv); [exact H|]. apply continuous_Rinv; exact N. Qed.
  Lemma cdiv : continuous f x -> continuous g x -> g x <> 0 -> continuous (fun t => f t / g t) x.
  Proof.
    intros H1 H2 N. unfold Rdiv. apply (continuous_mult f (fun t => / g t) x H1).
    apply (continuous_comp g Rinv); [exact H2|]. apply continuous_Rinv; exact N.
  Qed.
  Lemma cexp : continuous f x -> continuous (fun t => exp (f t)) x.
  Proof. intros H. apply (continuous_comp f exp); [exact H|]. apply continuous_exp. Qed.
  Lemma cln : continuous f x -> 0 < f x -> continuous (fun t => ln (f t)) x.
  Proof. intros H P. apply (continuous_comp f ln); [exact H|]. apply (ex_derive_continuous ln). auto_derive. exact P. Qed.
  Lemma csqrt : continuous f x -> continuous (fun t => sqrt (f t)) x.
  Proof. intros H. apply (continuous_comp f sqrt); [exact H|]. apply continuous_sqrt. Qed.
  Lemma cabs : continuous f x -> continuous (fun t => Rabs (f t)) x.
  Proof. intros H. apply (continuous_comp f Rabs); [exact H|]. apply continuous_Rabs. Qed.
  Lemma cconst (k : R) : continuous (fun _ : R => k) x.
  Proof. apply continuous_const. Qed.
  Lemma cid : continuous (fun t : R => t) x.
  Proof. apply continuous_id. Qed.
  Lemma cext : (forall t, f t = g t) -> continuous f x -> continuous g x.
  Proof. intros E H. apply (continuous_ext f g x E H). Qed.
  (** equal in a neighbourhood *)
  Lemma cext_near e : 0 < e -> (forall t, Rabs (t - x) < e -> f t = g t) -> continuous f x -> continuous g x.
  Proof.
    intros P E H. refine (continuous_ext_loc _ _ _ _ H).
    exists (mkposreal e P). intros y Hy. first [apply E | symmetry; apply E]. exact Hy.
  Qed.
End C.
Lemma Rmin_abs a b : Rmin a b = (a + b - Rabs (a - b)) * / 2.
Proof. unfold Rmin. destruct (Rle_dec a b); [rewrite Rabs_left1 by lra|rewrite Rabs_right by lra]; lra. Qed.
Lemma Rmax_abs a b : Rmax a b = (a + b + Rabs (a - b)) * / 2.
Proof. unfold Rmax. destruct (Rle_dec a b); [rewrite Rabs_left1 by lra|rewrite Rabs_right by lra]; lra. Qed.
Lemma cmin (f g : R -> R) x : continuous f x -> continuous g x -> continuous (fun t => Rmin (f t) (g t)) x.
Proof.
  intros H1 H2. apply (cext (fun t => (f t + g t - Rabs (f t - g t)) * / 2)); [intros; symmetry; apply Rmin_abs|].
  apply cmult; [|apply cconst]. apply cminus; [apply cplus; assumption|]. apply cabs, cminus; assumption.
Qed.
Lemma cmax (f g : R -> R) x : continuous f x -> continuous g x -> continuous (fun t => Rmax (f t) (g t)) x.
Proof.
  intros H1 H2. apply (cext (fun t => (f t + g t + Rabs (f t - g t)) * / 2)); [intros; symmetry; apply Rmax_abs|].
  apply cmult; [|apply cconst]. apply cplus; [apply cplus; assumption|]. apply cabs, cminus; assumption.
Qed.
Lemma cpower (f : R -> R) p x : continuous f x -> 0 < f x -> continuous (fun t => Rpower (f t) p) x.
Proof. intros H P. unfold Rpower. apply cexp, cmult; [apply cconst|apply cln; assumption]. Qed.
Ltac cont1 := match goal with
  | |- continuous (fun _ => ?k) _ => exact (cconst _ k)
  | |- continuous (fun t => t) _ => exact (cid _)
  | |- continuous (fun t => @?f t + @?g t) _ => apply (cplus f g)
  | |- continuous (fun t => @?f t - @?g t) _ => apply (cminus f g)
  | |- continuous (fun t => @?f t * @?g t) _ => apply (cmult f g)
  | |- continuous (fun t => @?f t / @?g t) _ => apply (cdiv f g)
  | |- continuous (fun t => - @?f t) _ => apply (copp f)
  | |- continuous (fun t => / @?f t) _ => apply (cinv f)
  | |- continuous (fun t => exp (@?f t)) _ => apply (cexp f)
  | |- continuous (fun t => ln (@?f t)) _ => apply (cln f)
  | |- continuous (fun t => sqrt (@?f t)) _ => apply (csqrt f)
  | |- continuous (fun t => Rabs (@?f t)) _ => apply (cabs f)
  | |- continuous (fun t => Rmin (@?f t) (@?g t)) _ => apply (cmin f g)
  | |- continuous (fun t => Rmax (@?f t) (@?g t)) _ => apply (cmax f g)
  | |- continuous (fun t => Rpower (@?f t) ?p) _ => apply (cpower f p)
  end.
Ltac cont := repeat cont1; cbv beta.

(** One neighbourhood for all rows of a table. *)
Lemma uniform_delta {A} (l : list A) (g : R -> A -> R) x0 :
  (forall c, In c l -> continuous (fun x => g x c) x0) ->
  forall eps, 0 < eps -> exists delta, 0 < delta /\ forall x c, In c l -> Rabs (x - x0) < delta -> Rabs (g x c - g x0 c) <= eps.
Proof.
  intros H eps He. induction l as [|a l IH].
  - exists 1. split; [lra|]. intros x c [].
  - destruct IH as (d & Hd & IH); [intros c Hc; apply H; right; exact Hc|].
    specialize (H a (or_introl eq_refl)).
    destruct (proj1 (filterlim_locally _ _) H (mkposreal eps He)) as (d' & Hd').
    exists (Rmin d d'). split; [apply Rmin_pos; [exact Hd|apply cond_pos]|].
    intros x c [<-|Hc] Hx.
    + left. apply (Hd' x). apply Rlt_le_trans with (1 := Hx). apply Rmin_r.
    + apply IH; [exact Hc|]. apply Rlt_le_trans with (1 := Hx). apply Rmin_l.
Qed.

(** Row-wise models: continuity of each row in a neighbourhood where all rows are finite. *)
Lemma rows_continuous {A} (rows psa : list A) ca cv (f : R -> A -> flt) (h : R -> A -> flt) (g : R -> A -> R) (run : R -> outs -> Prop) x0 r :
  incl psa rows -> In ca rows -> In cv rows -> 0 < r ->
  (forall x o, run x o -> o = row_outs psa ca cv (Fin 1) (f x) (h x)) ->
  (forall x c, In c rows -> Rabs (x - x0) < r -> f x c = Fin (g x c)) ->
  (forall c, In c rows -> continuous (fun x => g x c) x0) ->
  resp_continuous run x0.
Proof.
  intros Hp Ha Hv Hr Ho Hf Hc eps He.
  destruct (uniform_delta rows g x0 Hc eps He) as (d & Hd & U).
  exists (Rmin d r). split; [apply Rmin_pos; assumption|].
  intros x o0 o Hx H0 H1. rewrite (Ho _ _ H0), (Ho _ _ H1).
  assert (X1 : Rabs (x - x0) < d) by (apply Rlt_le_trans with (1 := Hx), Rmin_l).
  assert (X2 : Rabs (x - x0) < r) by (apply Rlt_le_trans with (1 := Hx), Rmin_r).
  assert (X0 : Rabs (x0 - x0) < r) by (rewrite Rminus_eq_0, Rabs_R0; exact Hr).
  assert (K : forall c, In c rows -> ln_close eps (fexp (f x0 c)) (fexp (f x c))).
  { intros c Hi. rewrite (Hf x0 c Hi X0), (Hf x c Hi X2). apply ln_close_exp. apply U; assumption. }
  unfold resp2, row_outs; cbn [o_sa o_pga o_pgv].
  split; [apply Forall2_map_intro; intros c Hi; apply K, Hp, Hi|]. split; [apply K, Ha|].
  destruct (K cv Hv) as (a & b & -> & -> & P1 & P2 & L). exists (a * 1), (b * 1).
  split; [reflexivity|]. split; [reflexivity|]. rewrite !Rmult_1_r. auto.
Qed.
