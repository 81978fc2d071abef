(** * Proofs about the interpolation kinds *)
From Coq Require Import Reals Lra Lia List String Arith.
From Verif Require Import Framework Np FrameworkProofs FrameworkProps M_interp.
Import ListNotations.
Open Scope R_scope.
Open Scope string_scope.
Open Scope list_scope.

Lemma combine_fin xs ys : combine (map Fin xs) (map Fin ys) = map (fun p => (Fin (fst p), Fin (snd p))) (combine xs ys).
Proof. revert ys; induction xs as [|x xs IH]; intros [|y ys]; cbn; [reflexivity..|]. f_equal. apply IH. Qed.
Lemma incr_tl x l : incr (x :: l) -> incr l.
Proof. destruct l; [trivial|]. intros [_ H]; exact H. Qed.
Lemma prev_seg xs : forall ys x0 y0 i x, List.length xs = List.length ys -> incr (x0 :: xs) -> (i <= List.length xs)%nat ->
  nth i (x0 :: xs) 0 <= x -> ((i < List.length xs)%nat -> x < nth i xs 0) ->
  prev_val (Fin y0) (combine (map Fin xs) (map Fin ys)) (Fin x) = Fin (nth i (y0 :: ys) 0).
Proof.
  induction xs as [|x1 xs IH]; intros [|y1 ys] x0 y0 i x Hl Hi Hn H1 H2; try discriminate.
  - cbn in Hn. assert (i = 0)%nat by lia. subst. reflexivity.
  - cbn [map combine prev_val]. rewrite fleb_fin. destruct i as [|i].
    + rewrite Rleb_false; [reflexivity|]. specialize (H2 ltac:(cbn; lia)). cbn in H2. lra.
    + rewrite Rleb_true.
      * change (nth (S i) (y0 :: y1 :: ys) 0) with (nth i (y1 :: ys) 0). apply (IH ys x1); [cbn in Hl; lia|apply (incr_tl x0), Hi|cbn in Hn; lia|exact H1|].
        intros L. apply H2. cbn; lia.
      * destruct i as [|i]; [exact H1|]. left. eapply Rlt_le_trans; [|exact H1]. apply (incr_hd_nth x1 xs i); [apply (incr_tl x0), Hi|cbn in Hn; lia].
Qed.
Lemma next_seg xs : forall ys x0 y0 i x, List.length xs = List.length ys -> incr (x0 :: xs) -> (i <= List.length xs)%nat ->
  x <= nth i (x0 :: xs) 0 -> (forall j, i = S j -> nth j (x0 :: xs) 0 < x) ->
  next_val (Fin y0) (combine (map Fin xs) (map Fin ys)) (Fin x0) (Fin x) = Fin (nth i (y0 :: ys) 0).
Proof.
  induction xs as [|x1 xs IH]; intros [|y1 ys] x0 y0 i x Hl Hi Hn H1 H2; try discriminate.
  - cbn in Hn. assert (i = 0)%nat by lia. subst. reflexivity.
  - cbn [map combine next_val]. rewrite fleb_fin. destruct i as [|i].
    + rewrite Rleb_true; [reflexivity|exact H1].
    + pose proof (H2 i eq_refl) as H3. rewrite Rleb_false.
      * change (nth (S i) (y0 :: y1 :: ys) 0) with (nth i (y1 :: ys) 0). apply (IH ys x1); [cbn in Hl; lia|apply (incr_tl x0), Hi|cbn in Hn; lia|exact H1|].
        intros j ->. apply H3.
      * destruct i as [|i]; [exact H3|]. eapply Rlt_trans; [|exact H3]. cbn [nth]. apply (incr_hd_nth x0 (x1 :: xs) i); [exact Hi|cbn in *; lia].
Qed.
Lemma half_sum a b : (Fin a / Fin 2 + Fin b / Fin 2)%flt = Fin ((a + b) / 2).
Proof. rewrite !fdiv_fin by lra. cbn. f_equal. lra. Qed.
Lemma near_seg up xs : forall ys x0 y0 i x, List.length xs = List.length ys -> incr (x0 :: xs) -> (i < List.length xs)%nat ->
  nth i (x0 :: xs) 0 <= x <= nth i xs 0 ->
  near_val up (Fin x0) (Fin y0) (combine (map Fin xs) (map Fin ys)) (Fin x) =
  Fin (if (if up then Rltb x ((nth i (x0 :: xs) 0 + nth i xs 0) / 2) else Rleb x ((nth i (x0 :: xs) 0 + nth i xs 0) / 2)) then nth i (y0 :: ys) 0 else nth i ys 0).
Proof.
  induction xs as [|x1 xs IH]; intros [|y1 ys] x0 y0 i x Hl Hi Hn H; try discriminate; [cbn in Hn; lia|].
  cbn [map combine near_val]. rewrite half_sum, fleb_fin, fltb_fin. destruct i as [|i].
  - cbn [nth] in *. set (b := if up then _ else _). destruct b eqn:E; [reflexivity|].
    destruct xs as [|x2 xs]; destruct ys as [|y2 ys]; try discriminate; [reflexivity|]. cbn [map combine near_val]. rewrite half_sum, fleb_fin, fltb_fin.
    assert (x1 < x2) by (destruct Hi as [_ [Hi _]]; exact Hi).
    assert (B : (if up then Rltb x ((x1 + x2) / 2) else Rleb x ((x1 + x2) / 2)) = true) by (destruct up; [apply Rltb_true|apply Rleb_true]; lra).
    rewrite B. reflexivity.
  - assert (x1 <= nth i (x1 :: xs) 0) by (destruct i; [cbn; lra|left; apply (incr_hd_nth x1 xs i); [apply (incr_tl x0), Hi|cbn in Hn; lia]]).
    assert (x0 < x1) by (destruct xs; apply Hi). cbn [nth] in H.
    assert (B : (if up then Rltb x ((x0 + x1) / 2) else Rleb x ((x0 + x1) / 2)) = false).
    { destruct H as [H _]. change (nth i (x1 :: xs) 0 <= x) in H. destruct up; [apply Rltb_false|apply Rleb_false]; lra. }
    rewrite B. rewrite (IH ys x1 y1 i x); [reflexivity|cbn in Hl; lia|apply (incr_tl x0), Hi|cbn in Hn; lia|exact H].
Qed.

(** Inside the knots, [within] applies the rule; outside it is NaN. *)
Lemma within_in f xs ys x0 y0 x : List.length xs = List.length ys -> incr (x0 :: xs) -> x0 <= x -> x <= last xs x0 ->
  within f (map Fin (x0 :: xs)) (map Fin (y0 :: ys)) (Fin x) = f (Fin x0) (Fin y0) (combine (map Fin xs) (map Fin ys)) (Fin x).
Proof.
  intros Hl Hi H1 H2. unfold within. cbn [map combine]. rewrite last_combine_fst by (rewrite !map_length; exact Hl). cbn [fst].
  rewrite last_map_Fin, !fltb_fin. rewrite Rltb_false by lra. rewrite Rltb_false by lra. reflexivity.
Qed.
Lemma within_out f xs ys x0 y0 x : List.length xs = List.length ys -> x = NInf \/ x = PInf \/ (exists r, x = Fin r /\ (r < x0 \/ last xs x0 < r)) ->
  within f (map Fin (x0 :: xs)) (map Fin (y0 :: ys)) x = NaN.
Proof.
  intros Hl H. unfold within. cbn [map combine]. rewrite last_combine_fst by (rewrite !map_length; exact Hl). cbn [fst]. rewrite last_map_Fin.
  destruct H as [->|[->|(r & -> & H)]]; cbn [fltb]; [reflexivity..|]. 
  destruct H as [H|H]; [rewrite Rltb_true by exact H; reflexivity|]. destruct (Rltb r x0); [reflexivity|]. rewrite Rltb_true by exact H. reflexivity.
Qed.
