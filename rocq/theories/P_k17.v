(** * Proofs for Kishida (2017) *)
From Coquelicot Require Import Coquelicot.
From Interval Require Import Tactic.
From Coq Require Import List Permutation.
From Verif Require Import M_k17 Anal Spec_cms Spec_k17 P_bj08.
Open Scope R_scope.
Open Scope list_scope.

(** *** Finite sums *)
Lemma Rsum_cons x l : Rsum (x :: l) = x + Rsum l. Proof. reflexivity. Qed.
Lemma Rsum_nil : Rsum [] = 0. Proof. reflexivity. Qed.
Lemma fold_fin l : forall acc, fold_left fadd (map Fin l) (Fin acc) = Fin (acc + Rsum l).
Proof.
  induction l as [|x l IH]; intros acc; cbn [map fold_left fadd]; [rewrite Rsum_nil, Rplus_0_r; reflexivity|].
  rewrite IH, Rsum_cons. apply (f_equal Fin). ring.
Qed.
Lemma fsum_fin l : fsum (map Fin l) = Fin (Rsum l).
Proof. unfold fsum. rewrite fold_fin. apply (f_equal Fin). ring. Qed.
Lemma Rsum_app a b : Rsum (a ++ b) = Rsum a + Rsum b.
Proof. induction a as [|x a IH]; cbn [app]; [rewrite Rsum_nil; ring|]. rewrite !Rsum_cons, IH. ring. Qed.
Lemma Rsum_ext {A} (f g : A -> R) l : (forall x, In x l -> f x = g x) -> Rsum (map f l) = Rsum (map g l).
Proof. intros H. f_equal. apply map_ext_in, H. Qed.
Lemma Rsum_zero {A} (f : A -> R) l : (forall x, In x l -> f x = 0) -> Rsum (map f l) = 0.
Proof.
  induction l as [|x l IH]; intros H; cbn [map]; [reflexivity|]. rewrite Rsum_cons, IH by (intros y Hy; apply H; right; exact Hy).
  rewrite H by (left; reflexivity). ring.
Qed.
Lemma Rsum_scal {A} (k : R) (f : A -> R) l : Rsum (map (fun x => k * f x) l) = k * Rsum (map f l).
Proof. induction l as [|x l IH]; cbn [map]; [rewrite Rsum_nil; ring|]. rewrite !Rsum_cons, IH. ring. Qed.
Lemma Rsum_scal_r {A} (k : R) (f : A -> R) l : Rsum (map (fun x => f x * k) l) = Rsum (map f l) * k.
Proof. induction l as [|x l IH]; cbn [map]; [rewrite Rsum_nil; ring|]. rewrite !Rsum_cons, IH. ring. Qed.
Lemma Rsum_plus {A} (f g : A -> R) l : Rsum (map (fun x => f x + g x) l) = Rsum (map f l) + Rsum (map g l).
Proof. induction l as [|x l IH]; cbn [map]; [rewrite !Rsum_nil; ring|]. rewrite !Rsum_cons, IH. ring. Qed.
Lemma Rsum_swap {A B} (f : A -> B -> R) la lb :
  Rsum (map (fun a => Rsum (map (f a) lb)) la) = Rsum (map (fun b => Rsum (map (fun a => f a b) la)) lb).
Proof.
  induction la as [|a la IH]; cbn [map].
  - symmetry. apply Rsum_zero. reflexivity.
  - rewrite Rsum_cons, IH. symmetry. apply (Rsum_plus (f a) (fun b => Rsum (map (fun a => f a b) la))).
Qed.
Lemma Rsum_delta n i (f : nat -> R) : (i < n)%nat -> Rsum (map (fun k => delta i k * f k) (seq 0 n)) = f i.
Proof.
  intros H. replace n with (i + S (n - i - 1))%nat by lia. rewrite seq_app, map_app, Rsum_app. cbn [seq map Nat.add]. rewrite Rsum_cons.
  rewrite !Rsum_zero.
  - unfold delta. rewrite Nat.eqb_refl. ring.
  - intros k Hk. apply in_seq in Hk. unfold delta. destruct (Nat.eqb_spec i k); [lia|ring].
  - intros k Hk. apply in_seq in Hk. unfold delta. destruct (Nat.eqb_spec i k); [lia|ring].
Qed.
Lemma Rsum_delta_r n i (f : nat -> R) : (i < n)%nat -> Rsum (map (fun k => f k * delta k i) (seq 0 n)) = f i.
Proof.
  intros H. rewrite <- (Rsum_delta n i f H). apply Rsum_ext. intros k _. unfold delta. rewrite (Nat.eqb_sym k i). ring.
Qed.
Lemma map_nth_seq {A B} (g : A -> B) (l : list A) d : map (fun j => g (nth j l d)) (seq 0 (List.length l)) = map g l.
Proof.
  induction l as [|x l IH]; [reflexivity|]. cbn [List.length seq map nth]. f_equal.
  rewrite <- seq_shift, map_map. exact IH.
Qed.

(** *** Sorting back *)
Section Sort.
  Context {A : Type} (key : A -> R).
  Fixpoint sorted (l : list A) : Prop :=
    match l with x :: ((y :: _) as l') => key x < key y /\ sorted l' | _ => True end.
  Lemma sorted_hd x l : sorted (x :: l) -> forall y, In y l -> key x < key y.
  Proof.
    revert x; induction l as [|y l IH]; intros x HS z Hz; [destruct Hz|]. destruct HS as [H1 H2].
    destruct Hz as [<-|Hz]; [exact H1|]. apply Rlt_trans with (key y); [exact H1|]. apply IH; assumption.
  Qed.
  Lemma sorted_tl x l : sorted (x :: l) -> sorted l.
  Proof. destruct l; [exact (fun _ => I)|intros [_ H]; exact H]. Qed.
  Lemma sorted_perm l1 : forall l2, sorted l1 -> sorted l2 -> Permutation l1 l2 -> l1 = l2.
  Proof.
    induction l1 as [|x l1 IH]; intros l2 S1 S2 P; [apply Permutation_nil in P; subst; reflexivity|].
    destruct l2 as [|y l2]; [apply Permutation_sym, Permutation_nil in P; discriminate|].
    assert (x = y) as ->.
    { assert (Hx : In x (y :: l2)) by (eapply Permutation_in; [exact P|left; reflexivity]).
      assert (Hy : In y (x :: l1)) by (eapply Permutation_in; [apply Permutation_sym; exact P|left; reflexivity]).
      destruct Hx as [->|Hx]; [reflexivity|]. destruct Hy as [->|Hy]; [reflexivity|].
      pose proof (sorted_hd _ _ S1 _ Hy). pose proof (sorted_hd _ _ S2 _ Hx). lra. }
    f_equal. apply IH; [eapply sorted_tl; eassumption|eapply sorted_tl; eassumption|]. eapply Permutation_cons_inv; exact P.
  Qed.
End Sort.
Section Argsort.
  Context {A : Type} (key : A -> R).
  Definition keyed (G : list A) : list (flt * nat) := combine (map (fun x => Fin (key x)) G) (seq 0 (List.length G)).
  Fixpoint ksorted (l : list (flt * nat)) : Prop :=
    match l with x :: ((y :: _) as l') => fltb (fst x) (fst y) = true /\ ksorted l' | _ => True end.
  Lemma insert_perm x l : Permutation (x :: l) (insert_key x l).
  Proof.
    induction l as [|y l IH]; cbn; [reflexivity|]. destruct (fltb (fst x) (fst y)); [reflexivity|].
    rewrite perm_swap. constructor. exact IH.
  Qed.
  Lemma isort_perm l : Permutation l (fold_right insert_key [] l).
  Proof. induction l as [|x l IH]; cbn; [reflexivity|]. rewrite <- insert_perm. constructor. exact IH. Qed.
  (** all keys finite and different *)
  Definition kdist (l : list (flt * nat)) : Prop := forall x y, In x l -> In y l -> x <> y -> exists a b, fst x = Fin a /\ fst y = Fin b /\ a <> b.
  Lemma insert_sorted x l : ksorted l -> (forall y, In y l -> exists a b, fst x = Fin a /\ fst y = Fin b /\ a <> b) -> ksorted (insert_key x l).
  Proof.
    induction l as [|y l IH]; intros S D; [exact I|]. cbn [insert_key]. destruct (fltb (fst x) (fst y)) eqn:E.
    - cbn [ksorted]. split; [exact E|exact S].
    - assert (YX : fltb (fst y) (fst x) = true).
      { destruct (D y (or_introl eq_refl)) as (a & b & Ea & Eb & N). rewrite Ea, Eb in *. cbn in *. destruct (Rltb_spec a b); [discriminate|]. apply Rltb_true. lra. }
      destruct l as [|z l]; [cbn; split; [exact YX|exact I]|].
      destruct S as [S1 S2]. specialize (IH S2 (fun w Hw => D w (or_intror Hw))).
      cbn [insert_key] in *. destruct (fltb (fst x) (fst z)); cbn [ksorted]; split; try assumption.
  Qed.
  Lemma isort_sorted l : NoDup l -> kdist l -> ksorted (fold_right insert_key [] l).
  Proof.
    induction l as [|x l IH]; intros N D; [exact I|]. cbn [fold_right]. inversion N; subst.
    apply insert_sorted; [apply IH; [assumption|intros a b Ha Hb; apply D; right; assumption]|].
    intros y Hy. apply D; [left; reflexivity|right; eapply Permutation_in; [apply Permutation_sym, isort_perm|exact Hy]|].
    intros ->. apply H1. eapply Permutation_in; [apply Permutation_sym, isort_perm|exact Hy].
  Qed.
  Lemma take_nth {B} (l : list B) d idx : Forall (fun i => (i < List.length l)%nat) idx -> take_idx l idx = Some (map (fun i => nth i l d) idx).
  Proof.
    induction 1 as [|i idx Hi _ IH]; [reflexivity|]. cbn [take_idx map]. rewrite (nth_error_nth' _ d Hi), IH. reflexivity.
  Qed.
  Lemma keyed_In G x : In x (keyed G) -> exists d, nth_error G (snd x) = Some d /\ fst x = Fin (key d).
  Proof.
    unfold keyed. intros H. destruct (In_nth _ _ (NaN, 0%nat) H) as (i & Hi & E).
    rewrite combine_length, map_length, seq_length, Nat.min_id in Hi.
    rewrite combine_nth in E by (rewrite map_length, seq_length; reflexivity). rewrite seq_nth in E by exact Hi. cbn in E.
    destruct (nth_error G i) as [d|] eqn:F; [|apply nth_error_None in F; lia].
    exists d. subst x. cbn [snd fst]. split; [exact F|].
    apply nth_error_nth. rewrite nth_error_map, F. reflexivity.
  Qed.
  Lemma argsort_restores (G L : list A) {B} (F : A -> B) : Permutation G L -> sorted key L ->
    take_idx (map F G) (argsort (map (fun x => Fin (key x)) G)) = Some (map F L).
  Proof.
    intros P S. destruct G as [|d0 G0] eqn:EG; [apply Permutation_nil in P; subst; reflexivity|]. rewrite <- EG in *. clear EG G0.
    unfold argsort. rewrite map_length. fold (keyed G).
    set (K := fold_right insert_key [] (keyed G)).
    assert (PK : Permutation (keyed G) K) by apply isort_perm.
    assert (PI : Permutation (seq 0 (List.length G)) (map snd K)).
    { rewrite <- PK. unfold keyed. rewrite <- (map_length (fun x => Fin (key x)) G) at 2.
      assert (X : forall (l : list flt) s, map snd (combine l (seq s (List.length l))) = seq s (List.length l)).
      { induction l as [|x l IH]; intros s; cbn; [reflexivity|rewrite IH; reflexivity]. }
      rewrite map_length. pose proof (X (map (fun x => Fin (key x)) G) 0%nat) as Y. rewrite map_length in Y. rewrite Y. reflexivity. }
    assert (FI : Forall (fun i => (i < List.length G)%nat) (map snd K)).
    { apply Forall_forall. intros i Hi. apply Permutation_sym in PI. apply (Permutation_in _ PI) in Hi. apply in_seq in Hi. lia. }
    rewrite take_idx_map, (take_nth G d0) by exact FI. cbn [option_map]. f_equal. f_equal.
    assert (PG : Permutation (map (fun i => nth i G d0) (map snd K)) G).
    { rewrite <- PI. rewrite (map_nth_seq (fun x => x) G d0), map_id. reflexivity. }
    apply (sorted_perm key); [|exact S|rewrite PG; exact P].
    (* sortedness of the rearranged list *)
    assert (SK : ksorted K).
    { assert (ND : NoDup (keyed G)).
      { apply NoDup_map_inv with (f := snd). rewrite (Permutation_map snd PK). rewrite <- PI. apply seq_NoDup. }
      apply isort_sorted; [exact ND|].
      intros x y Hx Hy N. destruct (keyed_In _ _ Hx) as (a & Ha & Ka). destruct (keyed_In _ _ Hy) as (b & Hb & Kb).
      exists (key a), (key b). split; [exact Ka|]. split; [exact Kb|]. intros E. apply N.
      assert (a = b).
      { assert (Ia : In a L) by (apply (Permutation_in _ P); eapply nth_error_In; exact Ha).
        assert (Ib : In b L) by (apply (Permutation_in _ P); eapply nth_error_In; exact Hb).
        clear - S E Ia Ib. induction L as [|z L IH]; [destruct Ia|].
        destruct Ia as [<-|Ia], Ib as [<-|Ib]; [reflexivity| | |].
        - pose proof (sorted_hd key _ _ S _ Ib). lra.
        - pose proof (sorted_hd key _ _ S _ Ia). lra.
        - apply IH; [eapply sorted_tl; exact S|assumption|assumption]. }
      subst b.
      assert (NDL : NoDup L).
      { clear - S. induction L as [|z L IH]; constructor; [|apply IH; eapply sorted_tl; exact S].
        intros H. pose proof (sorted_hd key _ _ S _ H). lra. }
      assert (NDG : NoDup G) by (eapply Permutation_NoDup; [apply Permutation_sym; exact P|exact NDL]).
      assert (snd x = snd y).
      { rewrite NoDup_nth_error in NDG. apply NDG; [apply nth_error_Some; congruence|congruence]. }
      destruct x, y; cbn in *; congruence. }
    assert (KK : forall x, In x K -> fst x = Fin (key (nth (snd x) G d0))).
    { intros x Hx. apply (Permutation_in _ (Permutation_sym PK)) in Hx. destruct (keyed_In _ _ Hx) as (a & Ha & ->).
      rewrite (nth_error_nth _ _ _ Ha). reflexivity. }
    clear - SK KK. induction K as [|x K IH]; [exact I|]. specialize (IH (match K return ksorted (x :: K) -> ksorted K with [] => fun _ => I | _ => fun h => proj2 h end SK)).
    specialize (IH (fun z Hz => KK z (or_intror Hz))).
    destruct K as [|y K]; [exact I|]. cbn [map sorted] in *. split; [|exact IH].
    destruct SK as [S1 _]. rewrite (KK x), (KK y) in S1 by (cbn; auto). cbn in S1. destruct (Rltb_spec (key (nth (snd x) G d0)) (key (nth (snd y) G d0))); [assumption|discriminate].
  Qed.
End Argsort.

(** *** Masks *)
Lemma by_mask_map {A B} (f : A -> bool) (g : A -> B) l : by_mask (map f l) (map g l) = map g (filter f l).
Proof. induction l as [|x l IH]; cbn; [reflexivity|]. destruct (f x); cbn; rewrite IH; reflexivity. Qed.
Lemma by_mask_neg {B} (g : item -> B) l : by_mask (map negb (map free l)) (map g l) = map g (conditioned l).
Proof. rewrite map_map. apply by_mask_map. Qed.
Definition target (x : item) : R := o_m (fst x) + resid x.
Lemma by_mask_data data l : data_of data l -> by_mask (map negb (map free l)) data = map (fun x => Fin (target x)) (conditioned l).
Proof.
  induction 1 as [|d x data l H _ IH]; [reflexivity|]. cbn [map by_mask]. unfold conditioned, free in *. cbn [filter].
  destruct x as [c [t|]]; cbn [snd negb] in *; [|exact IH]. rewrite H, IH. cbn [map]. f_equal.
  unfold target, resid. cbn. apply (f_equal Fin). ring.
Qed.
Lemma filter_len f (l : list item) : List.length (filter (fun b => b) (map f l)) = List.length (filter f l).
Proof. induction l as [|x l IH]; cbn; [reflexivity|]. destruct (f x); cbn; rewrite IH; reflexivity. Qed.
Lemma filter_len_neg (l : list item) : List.length (filter negb (map free l)) = List.length (conditioned l).
Proof. unfold conditioned. induction l as [|x l IH]; cbn; [reflexivity|]. destruct (free x); cbn; rewrite IH; reflexivity. Qed.
Lemma group_perm l : Permutation (filter free l ++ conditioned l) l.
Proof.
  induction l as [|x l IH]; [reflexivity|]. unfold conditioned in *. cbn [filter]. destruct (free x); cbn [negb app].
  - constructor. exact IH.
  - rewrite <- Permutation_middle. constructor. exact IH.
Qed.
Lemma cond_In x l : In x (conditioned l) <-> In x l /\ free x = false.
Proof. unfold conditioned. rewrite filter_In. destruct (free x); cbn; intuition discriminate. Qed.

(** *** Matrices of finite numbers *)
Lemma matmul_fin a b i j (f g : nat -> R) : (forall k, (k < mc a)%nat -> me a i k = Fin (f k)) ->
  (forall k, (k < mc a)%nat -> me b k j = Fin (g k)) ->
  me (matmul a b) i j = Fin (Rsum (map (fun k => f k * g k) (seq 0 (mc a)))).
Proof.
  intros H1 H2. cbn [matmul me]. rewrite <- fsum_fin, map_map. f_equal. apply map_ext_in. intros k Hk. apply in_seq in Hk.
  rewrite H1, H2 by lia. reflexivity.
Qed.

Lemma sorted_nth (Q : list item) : sorted (fun x : item => o_t (fst x)) Q ->
  forall a b, (a < b)%nat -> (b < List.length Q)%nat -> o_t (fst (nth a Q d0)) < o_t (fst (nth b Q d0)).
Proof.
  induction Q as [|x Q IH]; intros SK a b Hab Hb; [cbn in Hb; lia|]. cbn [List.length] in Hb.
  destruct a, b; cbn [nth]; try lia.
  - apply (sorted_hd _ _ _ SK (nth b Q d0)). apply nth_In. lia.
  - apply IH; [eapply sorted_tl; exact SK|lia|lia].
Qed.
Section Solve.
  Variable l : list item.
  Let K := conditioned l.
  Let m := List.length K.
  Let k_ j := nth j K d0.
  Lemma Ksum (f : item -> R) : Rsum (map f K) = Rsum (map (fun j => f (k_ j)) (seq 0 m)).
  Proof. unfold k_, m. rewrite (map_nth_seq f K d0). reflexivity. Qed.
  Lemma gain_eval g w b x : inverse_of m (cond_cov l) g -> solves l w b ->
    Rsum (map (fun k => Rsum (map (fun j => cov x (k_ j) * g j k) (seq 0 m)) * b (k_ k)) (seq 0 m)) = combo l w x.
  Proof.
    intros I S. unfold combo. fold K. rewrite Ksum.
    assert (E : forall k, In k (seq 0 m) -> b (k_ k) = Rsum (map (fun q => cond_cov l k q * w (o_t (fst (k_ q)))) (seq 0 m))).
    { intros k Hk. apply in_seq in Hk. rewrite <- S by (apply nth_In; unfold m, K in Hk; lia). unfold combo. fold K. rewrite Ksum. reflexivity. }
    rewrite (Rsum_ext _ (fun k => Rsum (map (fun j => cov x (k_ j) * g j k * b (k_ k)) (seq 0 m)))).
    2:{ intros k _. rewrite <- Rsum_scal_r. reflexivity. }
    rewrite Rsum_swap. apply Rsum_ext. intros j Hj. apply in_seq in Hj.
    rewrite (Rsum_ext _ (fun k => cov x (k_ j) * (g j k * b (k_ k)))) by (intros; ring). rewrite Rsum_scal. f_equal.
    rewrite (Rsum_ext _ (fun k => Rsum (map (fun q => g j k * (cond_cov l k q * w (o_t (fst (k_ q))))) (seq 0 m)))).
    2:{ intros k Hk. rewrite (E k Hk), <- Rsum_scal. reflexivity. }
    rewrite Rsum_swap.
    rewrite (Rsum_ext _ (fun q => delta j q * w (o_t (fst (k_ q))))).
    2:{ intros q Hq. apply in_seq in Hq. destruct (I j q ltac:(lia) ltac:(lia)) as [_ I2]. rewrite <- I2, <- Rsum_scal_r. apply Rsum_ext. intros; ring. }
    rewrite Rsum_delta by lia. reflexivity.
  Qed.
  Lemma weights_of (v : nat -> R) : sorted (fun x : item => o_t (fst x)) l -> exists w : R -> R, forall j, (j < m)%nat -> w (o_t (fst (k_ j))) = v j.
  Proof.
    intros S. exists (fun t => Rsum (map (fun j => if Req_EM_T t (o_t (fst (k_ j))) then v j else 0) (seq 0 m))).
    intros j Hj. rewrite <- (Rsum_delta m j v Hj). apply Rsum_ext. intros k Hk. apply in_seq in Hk. unfold delta.
    assert (SK : sorted (fun x : item => o_t (fst x)) K).
    { unfold K, conditioned. clear - S. induction l as [|x l' IH]; [exact I|]. cbn [filter].
      assert (S' := sorted_tl _ _ _ S). destruct (negb (free x)); [|apply IH, S'].
      specialize (IH S'). destruct (filter (fun x => negb (free x)) l') as [|y r] eqn:E; [exact I|]. split; [|exact IH].
      apply (sorted_hd _ _ _ S). assert (In y (y :: r)) as Y by (left; reflexivity). rewrite <- E in Y. apply filter_In in Y. apply Y. }
    assert (INJ : forall a b, (a < b)%nat -> (b < m)%nat -> o_t (fst (k_ a)) < o_t (fst (k_ b))).
    { intros a b. apply sorted_nth. exact SK. }
    destruct (Nat.eqb_spec j k) as [->|N].
    - destruct (Req_EM_T _ _); [ring|contradiction].
    - destruct (Req_EM_T _ _) as [E|E]; [|ring]. exfalso.
      destruct (Nat.lt_gt_cases j k) as [X _]. destruct (X N) as [C|C]; [pose proof (INJ j k C ltac:(lia))|pose proof (INJ k j C ltac:(lia))]; lra.
  Qed.
  Lemma solvable g b : sorted (fun x : item => o_t (fst x)) l -> inverse_of m (cond_cov l) g -> exists w, solves l w b.
  Proof.
    intros S I. destruct (weights_of (fun j => Rsum (map (fun k => g j k * b (k_ k)) (seq 0 m))) S) as (w & W).
    exists w. intros y Hy. destruct (In_nth _ _ d0 Hy) as (i & Hi & <-). fold K. fold (k_ i). fold K in Hi. fold m in Hi.
    unfold combo. fold K. rewrite Ksum.
    rewrite (Rsum_ext _ (fun j => Rsum (map (fun k => cond_cov l i j * (g j k * b (k_ k))) (seq 0 m)))).
    2:{ intros j Hj. apply in_seq in Hj. rewrite W by lia. rewrite Rsum_scal. reflexivity. }
    rewrite Rsum_swap.
    rewrite (Rsum_ext _ (fun k => delta i k * b (k_ k))); [apply Rsum_delta; exact Hi|].
    intros k Hk. apply in_seq in Hk. destruct (I i k Hi ltac:(lia)) as [I1 _]. rewrite <- I1, <- Rsum_scal_r. apply Rsum_ext. intros; ring.
  Qed.
End Solve.

(** *** The whole computation *)
Definition kgain (l : list item) (g : nat -> nat -> R) (b : item -> R) (x : item) : R :=
  Rsum (map (fun k => Rsum (map (fun j => cov x (nth j (conditioned l) d0) * g j k) (seq 0 (List.length (conditioned l)))) * b (nth k (conditioned l) d0))
            (seq 0 (List.length (conditioned l)))).
Definition kmean (l : list item) g (x : item) : flt :=
  if free x then Fin (o_m (fst x) + kgain l g resid x) else Fin (target x).
Definition kstd (l : list item) g (x : item) : flt :=
  if free x then fsqrt (Fin (cov x x - kgain l g (fun y => cov y x) x)) else Fin 0.

Lemma diff_pos_incr (l : list item) : all_diff_pos (map it l) = true <-> sorted (fun x : item => o_t (fst x)) l.
Proof.
  induction l as [|x [|y l] IH]; [cbn; tauto|cbn; tauto|].
  cbn [map all_diff_pos sorted] in *. rewrite andb_true_iff, IH. unfold it at 1 2. rewrite fsub_fin, fltb_fin.
  destruct (Rltb_spec 0 (o_t (fst y) - o_t (fst x))); split; intros [H1 H2]; split; try assumption; try discriminate; try lra; reflexivity.
Qed.
Lemma sorted_increasing (l : list item) : sorted (fun x : item => o_t (fst x)) l <-> increasing (map o_t (map fst l)).
Proof. induction l as [|x [|y l] IH]; cbn in *; tauto. Qed.
Lemma nth_map_d {A B} (f : A -> B) l i d d' : (i < List.length l)%nat -> nth i (map f l) d' = f (nth i l d).
Proof. intros H. rewrite (nth_indep _ d' (f d)) by (rewrite map_length; exact H). apply map_nth. Qed.
Lemma diag_entry (G : list item) i k : (i < List.length G)%nat ->
  me (mdiag (map is_ G)) i k = Fin (delta i k * o_s (fst (nth i G d0))).
Proof.
  intros H. cbn [mdiag me]. unfold delta. destruct (Nat.eqb_spec i k) as [->|N].
  - rewrite (nth_map_d is_ G k d0) by exact H. unfold is_. apply (f_equal Fin). ring.
  - apply (f_equal Fin). ring.
Qed.
Lemma covar_entry (G : list item) size :
  (forall x y, In x G -> In y G -> bj_ok (o_t (fst x)) (o_t (fst y))) -> size = List.length G ->
  forall i j, (i < List.length G)%nat -> (j < List.length G)%nat ->
  me (matmul (matmul (mdiag (map is_ G)) (Mat size size (fun i j => bj08_correl (nth i (map it G) NaN) (nth j (map it G) NaN)))) (mdiag (map is_ G))) i j
  = Fin (cov (nth i G d0) (nth j G d0)).
Proof.
  intros OK -> i j Hi Hj.
  assert (C : forall k q, (k < List.length G)%nat -> (q < List.length G)%nat ->
    bj08_correl (nth k (map it G) NaN) (nth q (map it G) NaN) = Fin (bj_rho (o_t (fst (nth k G d0))) (o_t (fst (nth q G d0))))).
  { intros k q Hk Hq. rewrite !(nth_map_d it G _ d0) by assumption. unfold it. apply bj_correl_fin, OK; apply nth_In; assumption. }
  assert (E1 : forall q, (q < List.length G)%nat -> me (matmul (mdiag (map is_ G)) (Mat (List.length G) (List.length G) (fun i j => bj08_correl (nth i (map it G) NaN) (nth j (map it G) NaN)))) i q
     = Fin (o_s (fst (nth i G d0)) * bj_rho (o_t (fst (nth i G d0))) (o_t (fst (nth q G d0))))).
  { intros q Hq. erewrite matmul_fin.
    2:{ intros k Hk. apply diag_entry. exact Hi. }
    2:{ intros k Hk. cbn [me]. apply C; [|exact Hq]. cbn [mdiag mc] in Hk. rewrite map_length in Hk. exact Hk. }
    cbn [mdiag mc]. rewrite map_length. apply (f_equal Fin).
    rewrite (Rsum_ext _ (fun k => delta i k * (o_s (fst (nth i G d0)) * bj_rho (o_t (fst (nth k G d0))) (o_t (fst (nth q G d0)))))) by (intros; ring).
    apply (Rsum_delta _ i (fun k => o_s (fst (nth i G d0)) * bj_rho (o_t (fst (nth k G d0))) (o_t (fst (nth q G d0))))). exact Hi. }
  erewrite matmul_fin.
  2:{ intros k Hk. apply E1. exact Hk. }
  2:{ intros k Hk. rewrite diag_entry by exact Hk. reflexivity. }
  cbn [matmul mc]. apply (f_equal Fin).
  rewrite (Rsum_ext _ (fun k => (o_s (fst (nth i G d0)) * bj_rho (o_t (fst (nth i G d0))) (o_t (fst (nth k G d0))) * o_s (fst (nth k G d0))) * delta k j)) by (intros; ring).
  rewrite (Rsum_delta_r _ j (fun k => o_s (fst (nth i G d0)) * bj_rho (o_t (fst (nth i G d0))) (o_t (fst (nth k G d0))) * o_s (fst (nth k G d0)))) by exact Hj.
  reflexivity.
Qed.
Lemma combine_seq_map {B C} (phi : nat -> B -> C) (h : item -> B) (U : list item) :
  map (fun '(i, a) => phi i a) (combine (seq 0 (List.length U)) (map h U)) = map (fun i => phi i (h (nth i U d0))) (seq 0 (List.length U)).
Proof.
  assert (X : forall U s (phi : nat -> B -> C), map (fun '(i, a) => phi i a) (combine (seq s (List.length U)) (map h U)) = map (fun i => phi (s + i)%nat (h (nth i U d0))) (seq 0 (List.length U))).
  { clear. induction U as [|x U IH]; intros s phi; [reflexivity|]. cbn [List.length seq map combine nth]. rewrite Nat.add_0_r. f_equal.
    rewrite IH. rewrite <- seq_shift, map_map. apply map_ext. intros i. rewrite Nat.add_succ_r. reflexivity. }
  apply X.
Qed.
Lemma spectrum_pairs l : spectrum_ok (map fst l) -> forall x y : item, In x l -> In y l -> bj_ok (o_t (fst x)) (o_t (fst y)).
Proof.
  intros [_ F] x y Hx Hy. rewrite Forall_forall in F.
  destruct (F (fst x) (in_map fst l x Hx)) as [A _]. destruct (F (fst y) (in_map fst l y Hy)) as [B _].
  split; [lra|]. split; [lra|]. unfold Rmax; destruct (Rle_dec (o_t (fst x)) (o_t (fst y))); lra.
Qed.
Lemma k17_run inv l data : inv_spec inv -> l <> [] -> spectrum_ok (map fst l) -> data_of data l ->
  (kcall inv l data = Raise EValue /\ singular l) \/
  (exists g, inverse_of (List.length (conditioned l)) (cond_cov l) g /\ kcall inv l data = Ok (map (kmean l g) l, map (kstd l g) l)).
Proof.
  intros HI N OK D. assert (S : sorted (fun x : item => o_t (fst x)) l) by (apply sorted_increasing, OK).
  unfold kcall, k17_cmsv. rewrite (proj2 (diff_pos_incr l) S). cbn [negb].
  rewrite !map_length, !Nat.eqb_refl. cbn [negb orb].
  assert (Z : (List.length l =? 0)%nat = false) by (destruct l; [contradiction|reflexivity]). rewrite !Z. cbv zeta.
  set (U := filter free l). set (K := conditioned l). set (G := U ++ K).
  rewrite !by_mask_map, !by_mask_neg, (by_mask_data _ _ D), filter_len, filter_len_neg.
  fold U. fold K. rewrite <- !map_app. fold G. rewrite map_length.
  assert (LG : List.length G = (List.length U + List.length K)%nat) by apply app_length.
  assert (PG : Permutation G l) by apply group_perm.
  pose proof (spectrum_pairs l OK) as PR.
  assert (PRG : forall x y, In x G -> In y G -> bj_ok (o_t (fst x)) (o_t (fst y))).
  { intros x y Hx Hy. apply PR; eapply Permutation_in; eassumption. }
  pose proof (covar_entry G (List.length G) PRG eq_refl) as CE.
  set (CV := matmul (matmul (mdiag (map is_ G)) _) (mdiag (map is_ G))) in *.
  replace (List.length G - List.length U)%nat with (List.length K) by lia.
  assert (GU : forall i, (i < List.length U)%nat -> nth i G d0 = nth i U d0) by (intros i Hi; apply app_nth1; exact Hi).
  assert (GK : forall i, nth (List.length U + i) G d0 = nth i K d0) by (intros i; unfold G; rewrite app_nth2_plus; reflexivity).
  specialize (HI (List.length K) (msub (List.length U) (List.length K) (List.length U) (List.length K) CV) (cond_cov l) eq_refl eq_refl).
  destruct (inv _) as [B|].
  2:{ left. split; [reflexivity|]. apply HI. intros i j Hi Hj. cbn [msub me]. rewrite CE by lia. rewrite !GK. reflexivity. }
  destruct HI as (Br & Bc & g & Bg & IV).
  { intros i j Hi Hj. cbn [msub me]. rewrite CE by lia. rewrite !GK. reflexivity. }
  right. exists g. split; [exact IV|].
  assert (GE : forall i k, (i < List.length U)%nat -> (k < List.length K)%nat ->
    me (matmul (msub 0 (List.length U) (List.length U) (List.length K) CV) B) i k
    = Fin (Rsum (map (fun j => cov (nth i U d0) (nth j K d0) * g j k) (seq 0 (List.length K))))).
  { intros i k Hi Hk. rewrite (matmul_fin _ _ i k (fun j => cov (nth i U d0) (nth j K d0)) (fun j => g j k)); [reflexivity| |].
    - intros j Hj. cbn [msub me mc] in *. rewrite CE by lia. rewrite GU, GK by exact Hi. reflexivity.
    - intros j Hj. apply Bg; assumption. }
  assert (KF : forall x, In x K -> free x = false) by (intros x Hx; apply cond_In in Hx; apply Hx).
  assert (UF : forall x, In x U -> free x = true) by (intros x Hx; apply filter_In in Hx; apply Hx).
  assert (EM : (map (fun '(i, a) => (a + me (matmul (matmul (msub 0 (List.length U) (List.length U) (List.length K) CV) B)
       (mcol (map (fun '(a0, b) => (a0 - b)%flt) (combine (map (fun x => Fin (target x)) K) (map im K))))) i 0%nat)%flt)
     (combine (seq 0 (List.length U)) (map im U)) ++ map (fun x => Fin (target x)) K) = map (kmean l g) G).
  { unfold G. rewrite map_app. f_equal.
    2:{ apply map_ext_in. intros x Hx. unfold kmean. rewrite (KF x Hx). reflexivity. }
    rewrite (combine_seq_map (fun i a => (a + me (matmul (matmul (msub 0 (List.length U) (List.length U) (List.length K) CV) B)
       (mcol (map (fun '(a0, b) => (a0 - b)%flt) (combine (map (fun x => Fin (target x)) K) (map im K))))) i 0%nat)%flt)).
    rewrite <- (map_nth_seq (kmean l g) U d0). apply map_ext_in. intros i Hi. apply in_seq in Hi.
    rewrite (matmul_fin _ _ i 0 (fun k => Rsum (map (fun j => cov (nth i U d0) (nth j K d0) * g j k) (seq 0 (List.length K)))) (fun k => resid (nth k K d0))).
    - cbn [matmul mc]. rewrite Bc. unfold kmean. rewrite (UF (nth i U d0)) by (apply nth_In; lia). unfold im. rewrite fadd_fin. reflexivity.
    - intros k Hk. cbn [matmul mc] in Hk. rewrite Bc in Hk. apply GE; lia.
    - intros k Hk. cbn [matmul mc] in Hk. rewrite Bc in Hk. cbn [mcol me]. rewrite combine_map2, map_map.
      rewrite (nth_map_d _ K k d0) by exact Hk. unfold im, target. rewrite fsub_fin. apply (f_equal Fin). ring. }
  assert (ES : (map (fun i => fsqrt (me (msub 0 (List.length U) 0 (List.length U) CV) i i -
       me (matmul (matmul (msub 0 (List.length U) (List.length U) (List.length K) CV) B) (msub (List.length U) (List.length K) 0 (List.length U) CV)) i i)%flt)
     (seq 0 (List.length U)) ++ repeat (Fin 0) (List.length K)) = map (kstd l g) G).
  { unfold G. rewrite map_app. f_equal.
    2:{ rewrite <- (map_nth_seq (kstd l g) K d0). clear - KF. rewrite <- (seq_length (List.length K) 0) at 1.
        assert (Q : forall L, (forall i, In i L -> (i < List.length K)%nat) -> repeat (Fin 0) (List.length L) = map (fun j => kstd l g (nth j K d0)) L).
        { induction L as [|i L IH]; intros H; [reflexivity|]. cbn [List.length repeat map]. unfold kstd at 1.
          rewrite (KF (nth i K d0)) by (apply nth_In, H; left; reflexivity). rewrite <- IH; [reflexivity|]. intros j Hj; apply H; right; exact Hj. }
        apply Q. intros i Hi. apply in_seq in Hi. lia. }
    rewrite <- (map_nth_seq (kstd l g) U d0). apply map_ext_in. intros i Hi. apply in_seq in Hi.
    rewrite (matmul_fin _ _ i i (fun k => Rsum (map (fun j => cov (nth i U d0) (nth j K d0) * g j k) (seq 0 (List.length K)))) (fun k => cov (nth k K d0) (nth i U d0))).
    - cbn [matmul mc]. rewrite Bc. unfold kstd. rewrite (UF (nth i U d0)) by (apply nth_In; lia). cbn [msub me]. rewrite CE by lia.
      rewrite Nat.add_0_l, GU by lia. rewrite fsub_fin. reflexivity.
    - intros k Hk. cbn [matmul mc] in Hk. rewrite Bc in Hk. apply GE; lia.
    - intros k Hk. cbn [matmul mc] in Hk. rewrite Bc in Hk. cbn [msub me]. rewrite CE by lia. rewrite Nat.add_0_l, GK, GU by lia. reflexivity. }
  rewrite EM, ES.
  rewrite (argsort_restores (fun x : item => o_t (fst x)) G l (kmean l g) PG S : take_idx (map (kmean l g) G) (argsort (map it G)) = _).
  rewrite (argsort_restores (fun x : item => o_t (fst x)) G l (kstd l g) PG S : take_idx (map (kstd l g) G) (argsort (map it G)) = _).
  reflexivity.
Qed.

(** *** Consequences *)
Lemma spectrum_sorted l : spectrum_ok (map fst l) -> sorted (fun x : item => o_t (fst x)) l.
Proof. intros [H _]. apply sorted_increasing, H. Qed.
Lemma kmean_any l g w x : In x l -> inverse_of (List.length (conditioned l)) (cond_cov l) g -> solves l w resid ->
  kmean l g x = Fin (o_m (fst x) + combo l w x).
Proof.
  intros Hx I S. unfold kmean. destruct (free x) eqn:F.
  - unfold kgain. rewrite (gain_eval l g w resid x I S). reflexivity.
  - rewrite (S x) by (apply cond_In; split; assumption). reflexivity.
Qed.
Lemma kstd_any l g v x : In x l -> inverse_of (List.length (conditioned l)) (cond_cov l) g -> solves l v (fun y => cov y x) ->
  kstd l g x = fsqrt (Fin (cov x x - combo l v x)).
Proof.
  intros Hx I S. unfold kstd. destruct (free x) eqn:F.
  - unfold kgain. rewrite (gain_eval l g v (fun y => cov y x) x I S). reflexivity.
  - rewrite (S x) by (apply cond_In; split; assumption). rewrite Rminus_eq_0. rewrite fsqrt_fin by lra. rewrite sqrt_0. reflexivity.
Qed.
Lemma k17_characterised inv l data : inv_spec inv -> l <> [] -> spectrum_ok (map fst l) -> data_of data l ->
  (kcall inv l data = Raise EValue /\ singular l) \/
  (exists means stds, kcall inv l data = Ok (means, stds) /\ ~ singular l /\
    (exists w, solves l w resid) /\
    (forall w, solves l w resid -> means = map (fun x => Fin (o_m (fst x) + combo l w x)) l) /\
    Forall2 (fun y x => (exists v, solves l v (fun z => cov z x)) /\
                        (forall v, solves l v (fun z => cov z x) -> y = fsqrt (Fin (cov x x - combo l v x)))) stds l).
Proof.
  intros HI N OK D. destruct (k17_run inv l data HI N OK D) as [H|(g & I & E)]; [left; exact H|right].
  assert (S := spectrum_sorted l OK).
  exists (map (kmean l g) l), (map (kstd l g) l). split; [exact E|]. split; [intros Z; apply Z; exists g; exact I|].
  split; [exact (solvable l g resid S I)|]. split.
  - intros w W. apply map_ext_in. intros x Hx. apply kmean_any; assumption.
  - assert (Q : forall l0, incl l0 l -> Forall2 (fun y x => (exists v, solves l v (fun z => cov z x)) /\
                        (forall v, solves l v (fun z => cov z x) -> y = fsqrt (Fin (cov x x - combo l v x)))) (map (kstd l g) l0) l0).
    { induction l0 as [|x l0 IH]; intros Hi; constructor; [|apply IH; intros y Hy; apply Hi; right; exact Hy].
      split; [exact (solvable l g (fun z => cov z x) S I)|]. intros v V. apply kstd_any; [apply Hi; left; reflexivity|exact I|exact V]. }
    apply Q. apply incl_refl.
Qed.
Lemma k17_targets inv l data j x t : inv_spec inv -> spectrum_ok (map fst l) -> data_of data l ->
  nth_error l j = Some x -> snd x = Some t ->
  kcall inv l data = Raise EValue \/
  exists means stds, kcall inv l data = Ok (means, stds) /\ nth_error means j = Some (Fin t) /\ nth_error stds j = Some (Fin 0).
Proof.
  intros HI OK D Hj T. assert (N : l <> []) by (intros ->; destruct j; discriminate).
  destruct (k17_run inv l data HI N OK D) as [[H _]|(g & I & E)]; [left; exact H|right].
  exists (map (kmean l g) l), (map (kstd l g) l). split; [exact E|]. rewrite !nth_error_map, Hj. cbn [option_map].
  unfold kmean, kstd, free, target, resid. rewrite T. split; [|reflexivity]. f_equal. apply (f_equal Fin). ring.
Qed.
Lemma k17_shapes inv l data means stds : inv_spec inv -> l <> [] -> spectrum_ok (map fst l) -> data_of data l ->
  kcall inv l data = Ok (means, stds) -> List.length means = List.length l /\ List.length stds = List.length l.
Proof.
  intros HI N OK D E. destruct (k17_run inv l data HI N OK D) as [[H _]|(g & I & E')]; [congruence|].
  assert (X : (means, stds) = (map (kmean l g) l, map (kstd l g) l)) by congruence. injection X as -> ->. rewrite !map_length. auto.
Qed.
Lemma k17_not_increasing inv (l : list item) ms ss data mask : ~ increasing (map o_t (map fst l)) ->
  k17_cmsv inv (map it l) ms ss data mask = Raise EValue.
Proof.
  intros H. unfold k17_cmsv. destruct (all_diff_pos (map it l)) eqn:E; [|reflexivity].
  exfalso. apply H, sorted_increasing, diff_pos_incr, E.
Qed.
Lemma k17_no_mask inv ps ms ss data : exists e, k17_cmsv inv ps ms ss data None = Raise e.
Proof. unfold k17_cmsv. destruct (negb _); [eauto|]. destruct (_ =? 1)%nat; eauto. Qed.

Lemma cov_self x : cov x x = o_s (fst x) * o_s (fst x).
Proof. unfold cov. rewrite bj_rho_diag. ring. Qed.
Lemma cov_sym x y : cov x y = cov y x.
Proof. unfold cov. rewrite bj_rho_sym. ring. Qed.

(** No condition: the spectrum is returned. *)
Lemma k17_none inv l data : inv_spec inv -> l <> [] -> spectrum_ok (map fst l) -> data_of data l -> conditioned l = [] ->
  kcall inv l data = Ok (map im l, map is_ l).
Proof.
  intros HI N OK D C. destruct (k17_run inv l data HI N OK D) as [[_ H]|(g & I & E)].
  - exfalso. apply H. rewrite C. exists (fun _ _ => 0). intros i j Hi. cbn in Hi. lia.
  - rewrite E. destruct OK as [_ F]. rewrite Forall_forall in F.
    assert (FR : forall x, In x l -> free x = true).
    { intros x Hx. destruct (free x) eqn:Q; [reflexivity|]. assert (In x (conditioned l)) as Z by (apply cond_In; split; assumption). rewrite C in Z. destruct Z. }
    f_equal. f_equal; apply map_ext_in; intros x Hx; unfold kmean, kstd, kgain; rewrite (FR x Hx), C; cbn [List.length seq map]; rewrite Rsum_nil.
    + unfold im. apply (f_equal Fin). ring.
    + rewrite cov_self, Rminus_0_r. destruct (F (fst x) (in_map fst l x Hx)) as [_ P].
      rewrite fsqrt_fin by (apply Rmult_le_pos; exact P). rewrite sqrt_square by exact P. reflexivity.
Qed.

(** One condition: Baker & Jayaram. *)
Lemma k17_single inv l data k t : inv_spec inv -> spectrum_ok (map fst l) -> data_of data l -> conditioned l = [k] -> snd k = Some t ->
  o_s (fst k) <> 0 ->
  kcall inv l data = bj08_cms (map it l) (map im l) (map is_ l) (it k) (Fin t).
Proof.
  intros HI OK D C T Z. assert (Hk : In k l) by (apply (cond_In k l); rewrite C; left; reflexivity).
  assert (N : l <> []) by (intros ->; destruct Hk).
  destruct (k17_run inv l data HI N OK D) as [[_ H]|(g & I & E)].
  - exfalso. apply H. rewrite C. exists (fun _ _ => / (o_s (fst k) * o_s (fst k))). intros i j Hi Hj. cbn [List.length] in *.
    assert (i = 0%nat) by lia. assert (j = 0%nat) by lia. subst. cbn [seq map]. rewrite !Rsum_cons, Rsum_nil.
    unfold cond_cov. rewrite C. cbn [nth]. rewrite cov_self. unfold delta; cbn [Nat.eqb]. split; field; exact Z.
  - rewrite E. clear E. rewrite C in I. cbn [List.length] in I. destruct (I 0%nat 0%nat ltac:(lia) ltac:(lia)) as [I1 _].
    cbn [seq map] in I1. rewrite Rsum_cons, Rsum_nil in I1. unfold cond_cov in I1. rewrite C in I1. cbn [nth] in I1. rewrite cov_self in I1. unfold delta in I1; cbn [Nat.eqb] in I1.
    assert (G0 : g 0%nat 0%nat = / (o_s (fst k) * o_s (fst k))).
    { apply Rmult_eq_reg_l with (o_s (fst k) * o_s (fst k)); [|nra]. rewrite Rinv_r by nra. lra. }
    replace (map it l) with (col o_t (map fst l)) by (unfold col; rewrite map_map; reflexivity).
    replace (map im l) with (col o_m (map fst l)) by (unfold col; rewrite map_map; reflexivity).
    replace (map is_ l) with (col o_s (map fst l)) by (unfold col; rewrite map_map; reflexivity).
    unfold it at 1. rewrite cms_rows by (intros Q; apply map_eq_nil in Q; contradiction).
    assert (IC : FrameworkProofs.incr (map o_t (map fst l))) by (apply increasing_incr, OK).
    assert (EP : cms_eps (map fst l) (o_t (fst k)) t = Fin ((t - o_m (fst k)) / o_s (fst k))).
    { unfold cms_eps, col. rewrite !(NpProofs.np_interp_knot o_t (map fst l) (fst k) _ _ IC (in_map fst l k Hk) (fun _ _ => eq_refl)).
      fcbn. rewrite fdiv_fin by exact Z. reflexivity. }
    pose proof (spectrum_pairs l OK) as PR.
    assert (RK : resid k = t - o_m (fst k)) by (unfold resid; rewrite T; reflexivity).
    assert (EQ : forall x, free x = false -> In x l -> x = k).
    { intros x F Hx. assert (Y : In x (conditioned l)) by (apply cond_In; split; assumption). rewrite C in Y. destruct Y as [<-|[]]; reflexivity. }
    f_equal. rewrite EP, !map_map. f_equal; apply map_ext_in; intros x Hx; unfold cms_mean, cms_std.
    + rewrite bj_correl_fin by (apply PR; assumption). fcbn. unfold kmean. destruct (free x) eqn:F.
      * unfold kgain. rewrite C. cbn [List.length seq map nth]. rewrite !Rsum_cons, !Rsum_nil, RK, G0. apply (f_equal Fin). unfold cov. field. exact Z.
      * rewrite (EQ x F Hx). rewrite bj_rho_diag. unfold target. rewrite RK. apply (f_equal Fin). field. exact Z.
    + rewrite bj_correl_fin by (apply PR; assumption). fcbn. unfold kstd. destruct (free x) eqn:F.
      * unfold kgain. rewrite C. cbn [List.length seq map nth]. rewrite !Rsum_cons, !Rsum_nil, G0, cov_self. f_equal. apply (f_equal Fin).
        rewrite (cov_sym k x). unfold cov. field. exact Z.
      * rewrite (EQ x F Hx). rewrite bj_rho_diag. rewrite fsqrt_fin by (right; ring). replace (_ * _ * _) with 0 by ring. rewrite sqrt_0. reflexivity.
Qed.

(** Conditions already implied change nothing. *)
Lemma k17_implied inv l ms l' data data' stds means' stds' : inv_spec inv -> spectrum_ok (map fst l) -> data_of data l -> data_of data' l' ->
  kcall inv l data = Ok (map Fin ms, stds) -> adds_implied l ms l' -> kcall inv l' data' = Ok (means', stds') -> means' = map Fin ms.
Proof.
  intros HI OK D D' E A E'.
  assert (FE : map fst l' = map fst l).
  { clear - A. revert ms l' A; induction l as [|x l IH]; intros [|m ms] [|x' l'] A; try (destruct A; fail); [reflexivity|].
    destruct A as (A1 & _ & A3). cbn. rewrite A1, (IH _ _ A3). reflexivity. }
  assert (OK' : spectrum_ok (map fst l')) by (rewrite FE; exact OK).
  assert (N : l <> []) by (intros ->; discriminate E).
  assert (N' : l' <> []) by (intros ->; destruct l; [contradiction|discriminate FE]).
  destruct (k17_run inv l data HI N OK D) as [[H _]|(g & I & K)]; [congruence|].
  destruct (k17_run inv l' data' HI N' OK' D') as [[H _]|(g' & I' & K')]; [congruence|].
  assert (S := spectrum_sorted l OK). destruct (solvable l g resid S I) as (w & W).
  set (w' := fun t => if existsb (fun y : item => Reqb t (o_t (fst y))) (conditioned l) then w t else 0).
  assert (W1 : forall y, In y (conditioned l) -> w' (o_t (fst y)) = w (o_t (fst y))).
  { intros y Hy. unfold w'. replace (existsb _ _) with true; [reflexivity|]. symmetry. apply existsb_exists. exists y. split; [exact Hy|]. apply Reqb_true. reflexivity. }
  assert (W0 : forall y, In y l -> free y = true -> w' (o_t (fst y)) = 0).
  { intros y Hy F. unfold w'. replace (existsb _ _) with false; [reflexivity|]. symmetry. apply not_true_is_false. intros H. apply existsb_exists in H.
    destruct H as (z & Hz & Q). apply cond_In in Hz. destruct Hz as [Hz Fz]. destruct (Reqb_spec (o_t (fst y)) (o_t (fst z))) as [Q'|]; [|discriminate].
    assert (y = z); [|congruence]. clear - S Q' Hy Hz. induction l as [|u l IH]; [destruct Hy|].
    destruct Hy as [<-|Hy], Hz as [<-|Hz]; [reflexivity| | |].
    - pose proof (sorted_hd _ _ _ S _ Hz). cbv beta in *. lra.
    - pose proof (sorted_hd _ _ _ S _ Hy). cbv beta in *. lra.
    - apply IH; [eapply sorted_tl; exact S|assumption|assumption]. }
  assert (CB : forall x x', fst x' = fst x -> combo l' w' x' = combo l w x).
  { intros x x' Ex. unfold combo.
    assert (G : forall l0 ms0 l0', incl l0 l -> adds_implied l0 ms0 l0' -> Rsum (map (fun y => cov x' y * w' (o_t (fst y))) (conditioned l0')) = Rsum (map (fun y => cov x y * w (o_t (fst y))) (conditioned l0))).
    { induction l0 as [|y l0 IH]; intros [|m ms0] [|y' l0'] Hi A0; try (destruct A0; fail); [reflexivity|].
      destruct A0 as (B1 & B2 & B3). specialize (IH ms0 l0' (fun z Hz => Hi z (or_intror Hz)) B3).
      assert (Hy : In y l) by (apply Hi; left; reflexivity).
      assert (CV : cov x' y' = cov x y) by (unfold cov; rewrite Ex, B1; reflexivity).
      unfold conditioned in *. cbn [filter]. destruct B2 as [B2|[B2 B2']].
      - replace (free y') with (free y) by (unfold free; rewrite B2; reflexivity). destruct (free y) eqn:F; cbn [negb]; [exact IH|].
        cbn [map]. rewrite !Rsum_cons, IH, CV, B1. f_equal. rewrite W1; [reflexivity|]. apply filter_In. rewrite F. split; [exact Hy|reflexivity].
      - replace (free y) with true by (unfold free; rewrite B2; reflexivity). replace (free y') with false by (unfold free; rewrite B2'; reflexivity).
        cbn [negb map]. rewrite Rsum_cons, IH, B1. rewrite W0; [ring|exact Hy|unfold free; rewrite B2; reflexivity]. }
    apply (G l ms l'); [apply incl_refl|exact A]. }
  assert (M1 : map Fin ms = map (fun x => Fin (o_m (fst x) + combo l w x)) l).
  { assert (X : map Fin ms = map (kmean l g) l) by congruence. rewrite X. apply map_ext_in. intros x Hx. apply kmean_any; assumption. }
  assert (S' : solves l' w' resid).
  { intros y' Hy'. apply cond_In in Hy'. destruct Hy' as [Hy' F'].
    assert (G : forall l0 ms0 l0', incl l0 l -> adds_implied l0 ms0 l0' -> map Fin ms0 = map (fun x => Fin (o_m (fst x) + combo l w x)) l0 -> In y' l0' -> combo l' w' y' = resid y').
    { induction l0 as [|y l0 IH]; intros [|m ms0] [|z' l0'] Hi A0 M Hy; try (destruct A0; fail); [destruct Hy|].
      destruct A0 as (B1 & B2 & B3). cbn [map] in M. injection M as M1' M2'.
      destruct Hy as [->|Hy]; [|apply (IH ms0 l0'); [intros z Hz; apply Hi; right; exact Hz|exact B3|exact M2'|exact Hy]].
      rewrite (CB y y' B1). destruct B2 as [B2|[B2 B2']].
      - rewrite (W y) by (apply cond_In; split; [apply Hi; left; reflexivity|unfold free in *; rewrite <- B2; exact F']).
        unfold resid. rewrite B2, B1. reflexivity.
      - unfold resid. rewrite B2', B1, M1'. ring. }
    apply (G l ms l'); [apply incl_refl|exact A|exact M1|exact Hy']. }
  assert (X : means' = map (kmean l' g') l') by congruence. rewrite X, M1.
  rewrite (map_ext_in (kmean l' g') (fun x => Fin (o_m (fst x) + combo l' w' x))) by (intros x Hx; apply kmean_any; assumption).
  clear - A CB. revert ms l' A w' CB. 
  assert (G : forall l0 ms0 l0' (f f' : item -> R), adds_implied l0 ms0 l0' -> (forall x x', fst x' = fst x -> f' x' = f x) ->
    map (fun x => Fin (o_m (fst x) + f' x)) l0' = map (fun x => Fin (o_m (fst x) + f x)) l0).
  { induction l0 as [|y l0 IH]; intros [|m ms0] [|z' l0'] f f' A0 Q; try (destruct A0; fail); [reflexivity|].
    destruct A0 as (B1 & _ & B3). cbn [map]. rewrite (IH ms0 l0' f f' B3 Q), (Q y z' B1), B1. reflexivity. }
  intros ms l' A w' CB. apply (G l ms l' (combo l w) (combo l' w') A CB).
Qed.
