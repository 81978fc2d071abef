(** * Conditioning on any number of periods above 0.109 s (C121) *)
From Coquelicot Require Import Coquelicot.
From Interval Require Import Tactic.
From Coq Require Import List Arith Lia.
From Verif Require Import M_k17 Anal Spec_cms Spec_cms2 Spec_k17 P_bj08 P_k17 P_k17b P_bjpsd.
Open Scope R_scope.
Open Scope list_scope.

(** ** A positive definite matrix has an inverse *)
Definition S_ (n : nat) (F : nat -> R) : R := Rsum (map F (seq 0 n)).
Lemma S_succ n F : S_ (S n) F = S_ n F + F n.
Proof. unfold S_. rewrite seq_S, map_app, Rsum_app. cbn. ring. Qed.
Lemma S_ext n F G : (forall k, (k < n)%nat -> F k = G k) -> S_ n F = S_ n G.
Proof. intros H. apply Rsum_ext. intros k Hk. apply in_seq in Hk. apply H. lia. Qed.
Lemma S_plus n F G : S_ n (fun k => F k + G k) = S_ n F + S_ n G. Proof. apply Rsum_plus. Qed.
Lemma S_scal n c F : S_ n (fun k => c * F k) = c * S_ n F. Proof. apply Rsum_scal. Qed.
Lemma S_scal_r n c F : S_ n (fun k => F k * c) = S_ n F * c. Proof. apply Rsum_scal_r. Qed.
Lemma S_swap n m F : S_ n (fun i => S_ m (fun j => F i j)) = S_ m (fun j => S_ n (fun i => F i j)). Proof. apply Rsum_swap. Qed.
Lemma S_zero n F : (forall k, (k < n)%nat -> F k = 0) -> S_ n F = 0.
Proof. intros H. apply Rsum_zero. intros k Hk. apply in_seq in Hk. apply H. lia. Qed.
Lemma S_delta n i F : (i < n)%nat -> S_ n (fun k => delta i k * F k) = F i. Proof. apply Rsum_delta. Qed.
Lemma S_delta_r n i F : (i < n)%nat -> S_ n (fun k => F k * delta k i) = F i. Proof. apply Rsum_delta_r. Qed.
Definition form (n : nat) (f : nat -> nat -> R) (w : nat -> R) : R := S_ n (fun i => S_ n (fun j => w i * f i j * w j)).
Definition pos_def (n : nat) (f : nat -> nat -> R) : Prop := forall w, (exists i, (i < n)%nat /\ w i <> 0) -> 0 < form n f w.
Lemma form_succ n f w : form (S n) f w = form n f w + S_ n (fun i => w i * f i n) * w n + w n * S_ n (fun j => f n j * w j) + w n * f n n * w n.
Proof.
  unfold form. rewrite S_succ. rewrite (S_ext n _ (fun i => S_ n (fun j => w i * f i j * w j) + w i * f i n * w n)) by (intros; rewrite S_succ; reflexivity).
  rewrite S_plus, S_succ, S_scal_r. rewrite (S_ext n (fun j => w n * f n j * w j) (fun j => w n * (f n j * w j))) by (intros; ring). rewrite S_scal. ring.
Qed.
Lemma delta_lt i n : (i < n)%nat -> delta i n = 0.
Proof. intros H. unfold delta. destruct (Nat.eqb_spec i n); [lia|reflexivity]. Qed.
Lemma delta_gt i n : (i < n)%nat -> delta n i = 0.
Proof. intros H. unfold delta. destruct (Nat.eqb_spec n i); [lia|reflexivity]. Qed.
Lemma delta_same n : delta n n = 1.
Proof. unfold delta. rewrite Nat.eqb_refl. reflexivity. Qed.
Lemma pd_inverse n f : pos_def n f -> exists g, inverse_of n f g.
Proof.
  induction n as [|n IH]; intros PD; [exists (fun _ _ => 0); intros i j Hi; lia|].
  destruct IH as [g IG].
  { intros w (i & Hi & Z). specialize (PD (fun k => if (k <? n)%nat then w k else 0)). rewrite form_succ in PD. rewrite Nat.ltb_irrefl in PD.
    assert (E : form n f (fun k => if (k <? n)%nat then w k else 0) = form n f w).
    { unfold form. apply S_ext. intros a Ha. apply S_ext. intros b Hb. destruct (Nat.ltb_spec a n); [|lia]. destruct (Nat.ltb_spec b n); [|lia]. reflexivity. }
    rewrite E in PD. enough (0 < form n f w + S_ n (fun i0 => (if (i0 <? n)%nat then w i0 else 0) * f i0 n) * 0 + 0 * S_ n (fun j => f n j * (if (j <? n)%nat then w j else 0)) + 0 * f n n * 0) by lra.
    apply PD. exists i. split; [lia|]. destruct (Nat.ltb_spec i n); [exact Z|lia]. }
  assert (L : forall i j, (i < n)%nat -> (j < n)%nat -> S_ n (fun k => f i k * g k j) = delta i j) by (intros; apply IG; assumption).
  assert (Rr : forall i j, (i < n)%nat -> (j < n)%nat -> S_ n (fun k => g i k * f k j) = delta i j) by (intros; apply IG; assumption).
  set (u := fun i => S_ n (fun k => g i k * f k n)). set (v := fun j => S_ n (fun k => f n k * g k j)).
  set (s := f n n - S_ n (fun k => f n k * u k)).
  assert (FU : forall i, (i < n)%nat -> S_ n (fun k => f i k * u k) = f i n).
  { intros i Hi. transitivity (S_ n (fun k => S_ n (fun l => f i k * (g k l * f l n)))); [apply S_ext; intros k _; symmetry; apply (S_scal n (f i k) (fun l => g k l * f l n))|]. rewrite (S_swap n n (fun k l => f i k * (g k l * f l n))).
    transitivity (S_ n (fun l => delta i l * f l n)); [|apply (S_delta n i (fun l => f l n)); exact Hi]. apply S_ext. intros l Hl. rewrite <- (L i l) by assumption. rewrite <- (S_scal_r n (f l n) (fun k => f i k * g k l)). apply S_ext. intros; ring. }
  assert (VF : forall j, (j < n)%nat -> S_ n (fun k => v k * f k j) = f n j).
  { intros j Hj. transitivity (S_ n (fun k => S_ n (fun l => f n l * g l k * f k j))); [apply S_ext; intros k _; symmetry; apply (S_scal_r n (f k j) (fun l => f n l * g l k))|]. rewrite (S_swap n n (fun k l => f n l * g l k * f k j)).
    transitivity (S_ n (fun l => f n l * delta l j)); [|apply (S_delta_r n j (fun l => f n l)); exact Hj]. apply S_ext. intros l Hl. rewrite <- (Rr l j) by assumption. rewrite <- (S_scal n (f n l) (fun k => g l k * f k j)). apply S_ext. intros; ring. }
  assert (SV : s = f n n - S_ n (fun k => v k * f k n)).
  { unfold s. apply (f_equal (fun z => f n n - z)). transitivity (S_ n (fun k => S_ n (fun l => f n k * (g k l * f l n)))); [apply S_ext; intros k _; symmetry; apply (S_scal n (f n k) (fun l => g k l * f l n))|]. rewrite (S_swap n n (fun k l => f n k * (g k l * f l n))).
    apply S_ext. intros l Hl. unfold v. rewrite <- (S_scal_r n (f l n) (fun k => f n k * g k l)). apply S_ext. intros; ring. }
  assert (SP : 0 < s).
  { specialize (PD (fun k => if (k <? n)%nat then - u k else 1)). rewrite form_succ in PD. rewrite Nat.ltb_irrefl in PD.
    match type of PD with _ -> 0 < ?t => replace s with t end; [apply PD; exists n; split; [lia|rewrite Nat.ltb_irrefl; lra]|].
    assert (E1 : form n f (fun k => if (k <? n)%nat then - u k else 1) = S_ n (fun i => u i * f i n)).
    { unfold form. apply S_ext. intros i Hi. rewrite <- (FU i Hi), <- S_scal. apply S_ext. intros j Hj. destruct (Nat.ltb_spec i n); [|lia]. destruct (Nat.ltb_spec j n); [|lia]. ring. }
    assert (E2 : S_ n (fun i => (if (i <? n)%nat then - u i else 1) * f i n) = - S_ n (fun i => u i * f i n)).
    { rewrite (S_ext n _ (fun i => (-1) * (u i * f i n))); [rewrite S_scal; ring|]. intros i Hi. destruct (Nat.ltb_spec i n); [ring|lia]. }
    assert (E3 : S_ n (fun j => f n j * (if (j <? n)%nat then - u j else 1)) = - S_ n (fun j => f n j * u j)).
    { rewrite (S_ext n _ (fun j => (-1) * (f n j * u j))); [rewrite S_scal; ring|]. intros j Hj. destruct (Nat.ltb_spec j n); [ring|lia]. }
    rewrite E1, E2, E3. unfold s. ring. }
  exists (fun i j => if (i <? n)%nat then (if (j <? n)%nat then g i j + u i * v j / s else - u i / s) else (if (j <? n)%nat then - v j / s else 1 / s)).
  assert (G1 : forall (h : nat -> R) j, (j < n)%nat -> S_ n (fun k => h k * (if (k <? n)%nat then (if (j <? n)%nat then g k j + u k * v j / s else - u k / s) else (if (j <? n)%nat then - v j / s else 1 / s))) =
     S_ n (fun k => h k * g k j) + S_ n (fun k => h k * u k) * (v j / s)).
  { intros h j Hj. rewrite <- S_scal_r, <- S_plus. apply S_ext. intros k Hk. destruct (Nat.ltb_spec k n); [|lia]. destruct (Nat.ltb_spec j n); [|lia]. unfold Rdiv. ring. }
  assert (G2 : forall (h : nat -> R), S_ n (fun k => h k * (if (k <? n)%nat then (if (n <? n)%nat then g k n + u k * v n / s else - u k / s) else (if (n <? n)%nat then - v n / s else 1 / s))) =
     S_ n (fun k => h k * u k) * (- / s)).
  { intros h. rewrite <- S_scal_r. apply S_ext. intros k Hk. destruct (Nat.ltb_spec k n); [|lia]. rewrite Nat.ltb_irrefl. unfold Rdiv. ring. }
  assert (G3 : forall (h : nat -> R) i, (i < n)%nat -> S_ n (fun k => (if (i <? n)%nat then (if (k <? n)%nat then g i k + u i * v k / s else - u i / s) else (if (k <? n)%nat then - v k / s else 1 / s)) * h k) =
     S_ n (fun k => g i k * h k) + S_ n (fun k => v k * h k) * (u i / s)).
  { intros h i Hi. rewrite <- S_scal_r, <- S_plus. apply S_ext. intros k Hk. destruct (Nat.ltb_spec k n); [|lia]. destruct (Nat.ltb_spec i n); [|lia]. unfold Rdiv. ring. }
  assert (G4 : forall (h : nat -> R), S_ n (fun k => (if (n <? n)%nat then (if (k <? n)%nat then g n k + u n * v k / s else - u n / s) else (if (k <? n)%nat then - v k / s else 1 / s)) * h k) =
     S_ n (fun k => v k * h k) * (- / s)).
  { intros h. rewrite <- S_scal_r. apply S_ext. intros k Hk. destruct (Nat.ltb_spec k n); [|lia]. rewrite Nat.ltb_irrefl. unfold Rdiv. ring. }
  intros i j Hi Hj.
  set (G := fun i j => if (i <? n)%nat then (if (j <? n)%nat then g i j + u i * v j / s else - u i / s) else (if (j <? n)%nat then - v j / s else 1 / s)).
  change (S_ (S n) (fun k => f i k * G k j) = delta i j /\ S_ (S n) (fun k => G i k * f k j) = delta i j). rewrite !S_succ. unfold G.
  destruct (Nat.eq_dec i n) as [->|Ni]; destruct (Nat.eq_dec j n) as [->|Nj].
  - rewrite G2, G4, delta_same, Nat.ltb_irrefl. split; [replace (S_ n (fun k => f n k * u k)) with (f n n - s) by (unfold s; ring)|replace (S_ n (fun k => v k * f k n)) with (f n n - s) by (rewrite SV; ring)]; field; lra.
  - assert (J : (j < n)%nat) by lia. rewrite G1, G4, VF, (delta_gt j n) by exact J. fold (v j). rewrite Nat.ltb_irrefl. destruct (Nat.ltb_spec j n); [|lia].
    split; [replace (S_ n (fun k => f n k * u k)) with (f n n - s) by (unfold s; ring); field; lra|field; lra].
  - assert (I : (i < n)%nat) by lia. rewrite G2, G3, FU, (delta_lt i n) by exact I. fold (u i). rewrite Nat.ltb_irrefl. destruct (Nat.ltb_spec i n); [|lia].
    split; [field; lra|replace (S_ n (fun k => v k * f k n)) with (f n n - s) by (rewrite SV; ring); field; lra].
  - assert (I : (i < n)%nat) by lia. assert (J : (j < n)%nat) by lia. rewrite G1, G3, L, Rr, FU, VF by assumption. rewrite Nat.ltb_irrefl. destruct (Nat.ltb_spec j n); [|lia]. destruct (Nat.ltb_spec i n); [|lia].
    split; field; lra.
Qed.

(** ** Quadratic forms of covariances *)
Lemma sumr_Rsum {A} (f : A -> R) l : sumr f l = Rsum (map f l).
Proof. induction l as [|a l IH]; cbn; [reflexivity|]. unfold Rsum in IH. rewrite IH. reflexivity. Qed.
Lemma quad_items {A} (tt ss w : A -> R) L : quad bj_rho (map (fun a => (tt a, ss a * w a)) L) =
  Rsum (map (fun a => Rsum (map (fun b => w a * (ss a * bj_rho (tt a) (tt b) * ss b) * w b) L)) L).
Proof.
  unfold quad. rewrite sumr_Rsum, map_map. apply Rsum_ext. intros a _. rewrite sumr_Rsum, map_map. apply Rsum_ext. intros b _. cbn [fst snd]. ring.
Qed.
Definition qf (L : list (item * R)) : R := Rsum (map (fun a => Rsum (map (fun b => snd a * cov (fst a) (fst b) * snd b) L)) L).
Lemma qf_psd L : mid_periods (map (fun a : item * R => o_t (fst (fst a))) L) -> 0 <= qf L.
Proof.
  intros M. unfold qf, cov. rewrite <- (quad_items (fun a : item * R => o_t (fst (fst a))) (fun a => o_s (fst (fst a))) snd L). apply rho_psd. rewrite map_map. exact M.
Qed.
Lemma qf_pd L : mid_periods (map (fun a : item * R => o_t (fst (fst a))) L) -> NoDup (map (fun a : item * R => o_t (fst (fst a))) L) ->
  (exists a, In a L /\ o_s (fst (fst a)) <> 0 /\ snd a <> 0) -> 0 < qf L.
Proof.
  intros M N (a & Ha & S & Z). unfold qf, cov. rewrite <- (quad_items (fun a : item * R => o_t (fst (fst a))) (fun a => o_s (fst (fst a))) snd L). apply rho_pd; rewrite ?map_map; cbn [fst]; try assumption.
  exists (o_t (fst (fst a)), o_s (fst (fst a)) * snd a). split; [apply (in_map (fun a : item * R => (o_t (fst (fst a)), o_s (fst (fst a)) * snd a))), Ha|]. cbn [snd]. apply Rmult_integral_contrapositive_currified; assumption.
Qed.
Lemma sorted_nodup (L : list item) : sorted (fun x : item => o_t (fst x)) L -> NoDup (map (fun x : item => o_t (fst x)) L).
Proof.
  induction L as [|x L IH]; intros S; cbn [map]; constructor; [|apply IH; eapply sorted_tl; exact S].
  intros H. apply in_map_iff in H. destruct H as (y & E & Hy). pose proof (sorted_hd _ _ _ S y Hy). cbv beta in *. lra.
Qed.
Lemma cond_sorted l : sorted (fun x : item => o_t (fst x)) l -> sorted (fun x : item => o_t (fst x)) (conditioned l).
Proof.
  induction l as [|x l IH]; intros SO; [exact I|]. unfold conditioned. cbn [filter]. pose proof (sorted_hd _ _ _ SO) as HD. specialize (IH (sorted_tl _ _ _ SO)).
  destruct (negb (free x)); [|exact IH]. fold (conditioned l). destruct (conditioned l) as [|u r] eqn:E; [exact I|].
  split; [|exact IH]. apply HD. assert (In u (conditioned l)) as Q by (rewrite E; left; reflexivity). apply cond_In in Q. apply Q.
Qed.
Lemma mid_incl (L1 L2 : list R) : incl L1 L2 -> mid_periods L2 -> mid_periods L1.
Proof. intros H [A B]. split; intros; [apply A, H; assumption|apply B; apply H; assumption]. Qed.
Lemma cond_times l : incl (times (conditioned l)) (times l).
Proof. intros t H. apply in_map_iff in H. destruct H as (x & <- & Hx). apply (in_map (fun x : item => o_t (fst x))), cond_In, Hx. Qed.
Lemma mid_not_singular l : spectrum_ok (map fst l) -> mid_periods (times (conditioned l)) -> (forall x, In x (conditioned l) -> 0 < o_s (fst x)) -> ~ singular l.
Proof.
  intros OK M P Sg. apply Sg. apply pd_inverse. intros w (i & Hi & Z).
  set (K := conditioned l) in *. set (n := List.length K) in *.
  assert (ND : NoDup (map (fun x : item => o_t (fst x)) K)) by (apply sorted_nodup, cond_sorted, spectrum_sorted, OK).
  assert (E : map (fun k => o_t (fst (nth k K d0))) (seq 0 n) = times K) by (apply (map_nth_seq (fun x : item => o_t (fst x)) K d0)).
  assert (Q := rho_pd (map (fun k => (o_t (fst (nth k K d0)), o_s (fst (nth k K d0)) * w k)) (seq 0 n))).
  rewrite map_map in Q. cbn [fst] in Q. rewrite E in Q. rewrite (quad_items (fun k => o_t (fst (nth k K d0))) (fun k => o_s (fst (nth k K d0))) w) in Q. apply Q.
  - exact M.
  - exact ND.
  - exists (o_t (fst (nth i K d0)), o_s (fst (nth i K d0)) * w i). split; [apply (in_map (fun k => (o_t (fst (nth k K d0)), o_s (fst (nth k K d0)) * w k))), in_seq; lia|].
    cbn [snd]. assert (0 < o_s (fst (nth i K d0))) by (apply P, nth_In; exact Hi). nra.
Qed.
(** With [v] solving the normal equations for [x], any weights do no better. *)
Definition weigh (v : R -> R) (L : list item) : list (item * R) := map (fun y => (y, v (o_t (fst y)))) L.
Lemma weigh_times v L : map (fun a : item * R => o_t (fst (fst a))) (weigh v L) = times L.
Proof. unfold weigh, times. rewrite map_map. reflexivity. Qed.
Lemma qf_weigh v L : qf (weigh v L) = Rsum (map (fun a => Rsum (map (fun b => v (o_t (fst a)) * cov a b * v (o_t (fst b))) L)) L).
Proof. unfold qf, weigh. rewrite map_map. apply Rsum_ext. intros a _. rewrite map_map. reflexivity. Qed.
Definition rest (l : list item) (v : R -> R) (x : item) : R := cov x x - 2 * combo l v x + qf (weigh v (conditioned l)).
Lemma combo_form l v x : solves l v (fun z => cov z x) -> qf (weigh v (conditioned l)) = combo l v x.
Proof.
  intros S. rewrite qf_weigh. unfold combo at 1. apply Rsum_ext. intros y Hy.
  rewrite (Rsum_ext _ (fun b => v (o_t (fst y)) * (cov y b * v (o_t (fst b))))) by (intros; ring). rewrite Rsum_scal.
  change (v (o_t (fst y)) * combo l v y = cov x y * v (o_t (fst y))). rewrite (S y Hy), cov_sym. ring.
Qed.
Lemma qf_cons x r L : qf ((x, r) :: L) = r * cov x x * r + 2 * (r * Rsum (map (fun y => cov x (fst y) * snd y) L)) + qf L.
Proof.
  unfold qf. cbn [map fst snd]. rewrite !Rsum_cons.
  rewrite (Rsum_ext (fun b : item * R => r * cov x (fst b) * snd b) (fun b => r * (cov x (fst b) * snd b))) by (intros; ring). rewrite Rsum_scal.
  rewrite (Rsum_ext (fun a : item * R => Rsum (snd a * cov (fst a) x * r :: map (fun b => snd a * cov (fst a) (fst b) * snd b) L))
      (fun a => r * (cov x (fst a) * snd a) + Rsum (map (fun b => snd a * cov (fst a) (fst b) * snd b) L)))
    by (intros y _; rewrite Rsum_cons, (cov_sym (fst y) x); ring).
  rewrite Rsum_plus, Rsum_scal. ring.
Qed.
Lemma rest_form l v x : rest l v x = qf ((x, 1) :: weigh (fun t => - v t) (conditioned l)).
Proof.
  rewrite qf_cons. unfold rest. assert (E : qf (weigh (fun t => - v t) (conditioned l)) = qf (weigh v (conditioned l))).
  { rewrite !qf_weigh. apply Rsum_ext. intros a _. apply Rsum_ext. intros; ring. }
  rewrite E. unfold weigh at 2. rewrite map_map. cbn [fst snd]. rewrite (Rsum_ext _ (fun y => (-1) * (cov x y * v (o_t (fst y))))) by (intros; ring). rewrite Rsum_scal. unfold combo. ring.
Qed.
Lemma rest_solved l v x : solves l v (fun z => cov z x) -> rest l v x = cov x x - combo l v x.
Proof. intros S. unfold rest. rewrite (combo_form l v x S). ring. Qed.
Lemma rest_nonneg l v x : mid_periods (o_t (fst x) :: times (conditioned l)) -> 0 <= rest l v x.
Proof.
  intros M. rewrite rest_form. apply qf_psd. cbn [map fst]. rewrite weigh_times. exact M.
Qed.
Lemma rest_pos l v x : spectrum_ok (map fst l) -> In x l -> free x = true -> o_s (fst x) <> 0 -> mid_periods (o_t (fst x) :: times (conditioned l)) -> 0 < rest l v x.
Proof.
  intros OK Hx F Z M. rewrite rest_form. apply qf_pd.
  - cbn [map fst]. rewrite weigh_times. exact M.
  - cbn [map fst]. rewrite weigh_times. constructor; [|apply sorted_nodup, cond_sorted, spectrum_sorted, OK].
    intros H. apply in_map_iff in H. destruct H as (y & E & Hy). apply cond_In in Hy. destruct Hy as [Hy Fy].
    assert (ND := sorted_nodup l (spectrum_sorted l OK)). enough (x = y) by (subst y; congruence).
    clear - ND Hx Hy E. induction l as [|z l IH]; [destruct Hx|]. cbn [map] in ND. inversion ND as [|? ? NI ND']; subst.
    destruct Hx as [->|Hx], Hy as [->|Hy]; [reflexivity| | |apply IH; assumption]; exfalso; apply NI.
    + rewrite <- E. apply (in_map (fun x : item => o_t (fst x))), Hy.
    + rewrite E. apply (in_map (fun x : item => o_t (fst x))), Hx.
  - exists (x, 1). split; [left; reflexivity|]. split; [exact Z|cbn; lra].
Qed.
Lemma rest_best l v w x : mid_periods (times (conditioned l)) -> solves l v (fun z => cov z x) -> rest l v x <= rest l w x.
Proof.
  intros M S. assert (Q : 0 <= qf (weigh (fun t => w t - v t) (conditioned l))).
  { apply qf_psd. rewrite weigh_times. exact M. }
  enough (E : qf (weigh (fun t => w t - v t) (conditioned l)) = rest l w x - rest l v x) by lra.
  rewrite (rest_solved l v x S). unfold rest. rewrite qf_weigh.
  assert (CW : Rsum (map (fun a => Rsum (map (fun b => w (o_t (fst a)) * cov a b * v (o_t (fst b))) (conditioned l))) (conditioned l)) = combo l w x).
  { unfold combo. apply Rsum_ext. intros y Hy. rewrite (Rsum_ext _ (fun b => w (o_t (fst y)) * (cov y b * v (o_t (fst b))))) by (intros; ring). rewrite Rsum_scal.
    change (w (o_t (fst y)) * combo l v y = cov x y * w (o_t (fst y))). rewrite (S y Hy), cov_sym. ring. }
  assert (CW' : Rsum (map (fun a => Rsum (map (fun b => v (o_t (fst a)) * cov a b * w (o_t (fst b))) (conditioned l))) (conditioned l)) = combo l w x).
  { rewrite <- CW, Rsum_swap. apply Rsum_ext. intros a _. apply Rsum_ext. intros b _. rewrite (cov_sym b a). ring. }
  pose proof (combo_form l v x S) as CV. rewrite qf_weigh in CV.
  rewrite qf_weigh.
  match type of CW with ?A = _ => match type of CW' with ?B = _ => match type of CV with ?C = _ => match goal with |- ?D = cov x x - 2 * combo l w x + ?E - _ =>
    assert (SUM : D + (A + B) = E + C) end end end end.
  { rewrite <- !Rsum_plus. apply Rsum_ext. intros a _. rewrite <- !Rsum_plus. apply Rsum_ext. intros; ring. }
  rewrite CW, CW', CV in SUM. lra.
Qed.

(** ** The theorems *)
Lemma mid_succeeds inv l data : inv_spec inv -> l <> [] -> spectrum_ok (map fst l) -> data_of data l -> mid_periods (times (conditioned l)) ->
  (forall x, In x (conditioned l) -> 0 < o_s (fst x)) ->
  exists means stds, kcall inv l data = Ok (means, stds) /\
    Forall2 (fun y x => mid_periods (o_t (fst x) :: times (conditioned l)) -> exists s, y = Fin s /\ 0 <= s <= o_s (fst x) /\ (free x = true -> 0 < o_s (fst x) -> 0 < s)) stds l.
Proof.
  intros I N OK D M P. destruct (k17_characterised inv l data I N OK D) as [[_ S]|(means & stds & E & _ & _ & _ & F)]; [exfalso; exact (mid_not_singular l OK M P S)|].
  exists means, stds. split; [exact E|].
  assert (O : forall x, In x l -> 0 <= o_s (fst x)).
  { intros x Hx. destruct OK as [_ OK]. rewrite Forall_forall in OK. apply (OK (fst x)), in_map, Hx. }
  clear E. match type of F with Forall2 ?A _ _ => match goal with |- Forall2 ?B _ _ => enough (X : forall ys l0, incl l0 l -> Forall2 A ys l0 -> Forall2 B ys l0) end end.
  { apply X; [apply incl_refl|exact F]. }
  clear F. intros ys l0 G F. induction F as [|y x ys xs [[v V] H] F IH]; constructor.
  - intros MX. specialize (H v V). assert (Hx : In x l) by (apply G; left; reflexivity). pose proof (rest_solved l v x V) as R1. pose proof (rest_nonneg l v x MX) as R2.
    assert (C0 : 0 <= combo l v x).
    { rewrite <- (combo_form l v x V). apply qf_psd. rewrite weigh_times. exact M. }
    exists (sqrt (cov x x - combo l v x)). split; [rewrite H; apply fsqrt_fin; lra|]. split; [split; [apply sqrt_pos|]|].
    + rewrite <- (sqrt_square (o_s (fst x))) by (apply O, Hx). apply sqrt_le_1_alt. rewrite cov_self. lra.
    + intros Fx Px. apply sqrt_lt_R0. rewrite <- R1. apply rest_pos; try assumption. lra.
  - apply IH. intros z Hz. apply G. right. exact Hz.
Qed.
(** More conditions. *)
Lemma sum_sub (g : ordinate -> R) l l' : Forall2 (fun x x' => fst x' = fst x /\ (free x = false -> free x' = false)) l l' ->
  (forall x, In x l -> free x = true -> g (fst x) = 0) ->
  Rsum (map (fun y : item => g (fst y)) (conditioned l')) = Rsum (map (fun y : item => g (fst y)) (conditioned l)).
Proof.
  induction 1 as [|x x' l l' [E F] _ IH]; intros Z; [reflexivity|]. unfold conditioned. cbn [filter]. fold (conditioned l) (conditioned l').
  specialize (IH (fun y Hy => Z y (or_intror Hy))). destruct (free x) eqn:Fx.
  - destruct (free x'); cbn [negb map]; rewrite ?Rsum_cons, IH; [reflexivity|]. rewrite E, (Z x (or_introl eq_refl) Fx). ring.
  - rewrite (F eq_refl). cbn [negb map]. rewrite !Rsum_cons, IH, E. reflexivity.
Qed.
Lemma time_unique l : spectrum_ok (map fst l) -> forall x y : item, In x l -> In y l -> o_t (fst x) = o_t (fst y) -> x = y.
Proof.
  intros OK x y Hx Hy E. assert (ND := sorted_nodup l (spectrum_sorted l OK)). clear OK.
  induction l as [|z l IH]; [destruct Hx|]. cbn [map] in ND. inversion ND as [|? ? NI ND']; subst.
  destruct Hx as [->|Hx], Hy as [->|Hy]; [reflexivity| | |apply IH; assumption]; exfalso; apply NI.
  + rewrite E. apply (in_map (fun x : item => o_t (fst x))), Hy.
  + rewrite <- E. apply (in_map (fun x : item => o_t (fst x))), Hx.
Qed.
Definition covo (c d : ordinate) : R := o_s c * bj_rho (o_t c) (o_t d) * o_s d.
Lemma rest_more l l' v v' x x' : spectrum_ok (map fst l) -> mid_periods (times (conditioned l')) -> Forall2 (fun x x' => fst x' = fst x /\ (free x = false -> free x' = false)) l l' ->
  fst x' = fst x -> solves l v (fun z => cov z x) -> solves l' v' (fun z => cov z x') -> rest l' v' x' <= rest l v x.
Proof.
  intros OK M F E S S'. set (w := fun t => if in_dec Req_EM_T t (times (conditioned l)) then v t else 0).
  eapply Rle_trans; [apply (rest_best l' v' w x' M S')|]. apply Req_le.
  assert (WK : forall y, In y (conditioned l) -> w (o_t (fst y)) = v (o_t (fst y))).
  { intros y Hy. unfold w. destruct (in_dec _ _ _) as [|NI]; [reflexivity|]. exfalso. apply NI, (in_map (fun x : item => o_t (fst x))), Hy. }
  assert (WZ : forall y, In y l -> free y = true -> w (o_t (fst y)) = 0).
  { intros y Hy Fy. unfold w. destruct (in_dec _ _ _) as [HI|]; [|reflexivity]. exfalso. apply in_map_iff in HI. destruct HI as (z & Ez & Hz). apply cond_In in Hz.
    destruct Hz as [Hz Fz]. rewrite (time_unique l OK z y Hz Hy Ez) in Fz. congruence. }
  assert (C : forall c : item, combo l' w c = combo l v c).
  { intros c. unfold combo. transitivity (Rsum (map (fun y : item => covo (fst c) (fst y) * w (o_t (fst y))) (conditioned l))).
    { apply (sum_sub (fun d => covo (fst c) d * w (o_t d)) l l' F). intros y Hy Fy. rewrite (WZ y Hy Fy). ring. } apply Rsum_ext. intros y Hy. rewrite (WK y Hy). reflexivity. }
  assert (Q : qf (weigh w (conditioned l')) = qf (weigh v (conditioned l))).
  { rewrite !qf_weigh. rewrite (Rsum_ext _ (fun a : item => w (o_t (fst a)) * combo l v a)).
    2:{ intros a _. rewrite <- (C a). unfold combo. rewrite <- Rsum_scal. apply Rsum_ext. intros; ring. }
    transitivity (Rsum (map (fun a : item => w (o_t (fst a)) * combo l v a) (conditioned l))).
    { apply (sum_sub (fun d => w (o_t d) * Rsum (map (fun y => covo d (fst y) * v (o_t (fst y))) (conditioned l))) l l' F). intros y Hy Fy. rewrite (WZ y Hy Fy). ring. }
    apply Rsum_ext. intros y Hy. rewrite (WK y Hy). unfold combo. rewrite <- Rsum_scal. apply Rsum_ext. intros z _. ring. }
  unfold rest. rewrite C, Q. unfold combo, cov. rewrite E. reflexivity.
Qed.
Lemma nth_error_Some_lt {A} (l : list A) i x : nth_error l i = Some x -> (i < List.length l)%nat.
Proof. intros H. apply nth_error_Some. congruence. Qed.
Lemma Forall2_nth_error_iff {A B} (Q : A -> B -> Prop) l m : Forall2 Q l m <-> List.length l = List.length m /\ forall i a b, nth_error l i = Some a -> nth_error m i = Some b -> Q a b.
Proof.
  split.
  - induction 1 as [|a b l m H _ [E IH]]; split; cbn; try congruence; intros [|i] x y Hx Hy; cbn in *; try discriminate; [congruence|eapply IH; eassumption].
  - revert m. induction l as [|a l IH]; intros [|b m] [E H]; cbn in E; try discriminate; constructor; [apply (H 0%nat); reflexivity|].
    apply IH. split; [congruence|]. intros i x y. apply (H (S i)).
Qed.
Lemma mid_more inv l l' data data' : inv_spec inv -> l <> [] -> spectrum_ok (map fst l) -> data_of data l -> data_of data' l' -> mid_periods (times (conditioned l')) ->
  Forall2 (fun x x' => fst x' = fst x /\ (free x = false -> free x' = false)) l l' -> (forall x, In x (conditioned l') -> 0 < o_s (fst x)) ->
  exists means stds means' stds', kcall inv l data = Ok (means, stds) /\ kcall inv l' data' = Ok (means', stds') /\
    forall i x y y', nth_error l i = Some x -> mid_periods (o_t (fst x) :: times (conditioned l')) -> nth_error stds i = Some y -> nth_error stds' i = Some y' ->
      exists a b, y = Fin a /\ y' = Fin b /\ b <= a.
Proof.
  intros I N OK D D' M' F P'.
  assert (EF : map fst l' = map fst l) by (clear - F; induction F as [|x x' l l' [E _] _ IH]; cbn; congruence).
  assert (OK' : spectrum_ok (map fst l')) by (rewrite EF; exact OK).
  assert (IC : incl (times (conditioned l)) (times (conditioned l'))).
  { clear - F. induction F as [|x x' l l' [E G] _ IH]; [apply incl_refl|]. unfold conditioned in *. cbn [filter]. destruct (free x) eqn:Fx; cbn [negb].
    - destruct (free x'); cbn [negb]; [exact IH|]. intros t Ht. right. apply IH, Ht.
    - rewrite (G eq_refl). cbn [negb times map]. rewrite E. intros t [<-|Ht]; [left; reflexivity|right; apply IH, Ht]. }
  assert (M : mid_periods (times (conditioned l))) by (eapply mid_incl; [exact IC|exact M']).
  assert (N' : l' <> []) by (intros ->; destruct l; [contradiction|discriminate]).
  assert (P : forall x, In x (conditioned l) -> 0 < o_s (fst x)).
  { clear - F P'. induction F as [|x x' l l' [E G] _ IH]; [intros x []|]. unfold conditioned in *. cbn [filter] in *. intros z Hz. destruct (free x) eqn:Fx; cbn [negb] in Hz.
    - apply IH; [|exact Hz]. intros y Hy. apply P'. destruct (free x'); cbn [negb]; [exact Hy|right; exact Hy].
    - rewrite (G eq_refl) in P'. cbn [negb] in P'. destruct Hz as [<-|Hz]; [rewrite <- E; apply P'; left; reflexivity|]. apply IH; [|exact Hz]. intros y Hy. apply P'. right. exact Hy. }
  destruct (k17_characterised inv l data I N OK D) as [[_ Sg]|(means & stds & E & _ & _ & _ & C)]; [exfalso; exact (mid_not_singular l OK M P Sg)|].
  destruct (k17_characterised inv l' data' I N' OK' D') as [[_ Sg]|(means' & stds' & E' & _ & _ & _ & C')]; [exfalso; exact (mid_not_singular l' OK' M' P' Sg)|].
  exists means, stds, means', stds'. split; [exact E|]. split; [exact E'|]. clear E E'.
  intros i x y y' Hx MX Hy Hy'.
  destruct (proj1 (Forall2_nth_error_iff _ _ _) C) as [_ CC]. destruct (proj1 (Forall2_nth_error_iff _ _ _) C') as [_ CC']. destruct (proj1 (Forall2_nth_error_iff _ _ _) F) as [LF FF].
  destruct (nth_error l' i) as [x'|] eqn:Hx'; [|exfalso; apply nth_error_None in Hx'; apply nth_error_Some_lt in Hx; lia].
  destruct (CC i y x Hy Hx) as [[v V] H]. destruct (CC' i y' x' Hy' Hx') as [[v' V'] H']. destruct (FF i x x' Hx Hx') as [EX GX].
  specialize (H v V). specialize (H' v' V'). pose proof (rest_more l l' v v' x x' OK M' F EX V V') as R1.
  assert (R2 : 0 <= rest l v x).
  { apply rest_nonneg. eapply mid_incl; [|exact MX]. intros t [<-|Ht]; [left; reflexivity|right; apply IC, Ht]. }
  assert (R3 : 0 <= rest l' v' x') by (apply rest_nonneg; rewrite EX; exact MX).
  rewrite (rest_solved l v x V) in R1, R2. rewrite (rest_solved l' v' x' V') in R1, R3.
  eexists. eexists. split; [rewrite H; apply fsqrt_fin; exact R2|]. split; [rewrite H'; apply fsqrt_fin; exact R3|]. apply sqrt_le_1_alt. exact R1.
Qed.

(** ** Correlation matrices of Baker & Jayaram *)
Lemma dot_map {A} (f g : A -> R) l : dot (map f l) (map g l) = Rsum (map (fun a => f a * g a) l).
Proof. unfold dot. induction l as [|a l IH]; cbn; [reflexivity|]. unfold Rsum in IH. rewrite IH. reflexivity. Qed.
Lemma rho_rows ts : (forall t, In t ts -> 0.109 < t) ->
  map (fun t => bj08_correls (map Fin ts) (Fin t)) ts = map (map Fin) (map (fun t => map (fun u => bj_rho u t) ts) ts).
Proof.
  intros H. rewrite map_map. apply map_ext_in. intros t Ht. unfold bj08_correls. rewrite !map_map. apply map_ext_in. intros u Hu.
  apply H in Ht, Hu. apply bj_correl_fin. split; [lra|]. split; [lra|]. unfold Rmax; destruct (Rle_dec u t); lra.
Qed.
Lemma dot_rows (wt : list (R * R)) : dot (map snd wt) (map (dot (map snd wt)) (map (fun t => map (fun u => bj_rho u t) (map fst wt)) (map fst wt))) = quad bj_rho wt.
Proof.
  rewrite !map_map. unfold quad. rewrite dot_map, sumr_Rsum. apply Rsum_ext. intros p _. rewrite map_map, dot_map, sumr_Rsum, <- Rsum_scal. apply Rsum_ext. intros q _.
  rewrite (bj_rho_sym (fst q) (fst p)). ring.
Qed.
