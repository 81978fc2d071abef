(** * ArgMin: numpy's [np.argmin] *)
From Verif Require Export Np.
From Coq Require Import List.
Open Scope R_scope.
Open Scope list_scope.

(** [np.argmin]: the first minimum, or the first NaN. *)
Definition is_nan (x : flt) : bool := match x with NaN => true | _ => false end.
Fixpoint argmin_from (best : flt) (at_ i : nat) (l : list flt) : nat :=
  match l with
  | [] => at_
  | x :: l' => if is_nan best then at_
               else if is_nan x || (x <? best)%flt then argmin_from x i (S i) l' else argmin_from best at_ (S i) l'
  end.
Definition argmin (l : list flt) : nat := match l with x :: l' => argmin_from x 0 1 l' | [] => 0 end.
(** Specification: the index of the first minimum. *)
Definition first_min (x : list R) (i : nat) : Prop :=
  (i < List.length x)%nat /\ (forall k, (k < List.length x)%nat -> nth i x 0 <= nth k x 0) /\ (forall k, (k < i)%nat -> nth i x 0 < nth k x 0).
Lemma argmin_from_spec (l : list R) : forall (pre : list R) best at_,
  (at_ < List.length pre)%nat -> nth at_ pre 0 = best -> (forall k, (k < List.length pre)%nat -> best <= nth k pre 0) ->
  (forall k, (k < at_)%nat -> best < nth k pre 0) ->
  first_min (pre ++ l) (argmin_from (Fin best) at_ (List.length pre) (map Fin l)).
Proof.
  induction l as [|x l IH]; intros pre best at_ H1 H2 H3 H4.
  - cbn [map argmin_from]. rewrite app_nil_r. split; [exact H1|]. split; rewrite H2; assumption.
  - cbn [map argmin_from is_nan orb]. cbn [fltb].
    assert (List.length (pre ++ [x]) = S (List.length pre)) as L by (rewrite app_length; cbn; lia).
    assert (forall k, (k < List.length pre)%nat -> nth k (pre ++ [x]) 0 = nth k pre 0) as A by (intros; apply app_nth1; assumption).
    assert (nth (List.length pre) (pre ++ [x]) 0 = x) as X by (rewrite app_nth2, Nat.sub_diag by lia; reflexivity).
    replace (pre ++ x :: l) with ((pre ++ [x]) ++ l) by (rewrite <- app_assoc; reflexivity). rewrite <- L.
    destruct (Rltb_spec x best).
    + apply IH; rewrite ?L.
      * lia.
      * exact X.
      * intros k Hk. destruct (Nat.eq_dec k (List.length pre)) as [->|]; [rewrite X; lra|]. rewrite A by lia. specialize (H3 k ltac:(lia)). lra.
      * intros k Hk. rewrite A by lia. specialize (H3 k ltac:(lia)). lra.
    + apply IH; rewrite ?L.
      * lia.
      * rewrite A by lia. exact H2.
      * intros k Hk. destruct (Nat.eq_dec k (List.length pre)) as [->|]; [rewrite X; lra|]. rewrite A by lia. apply H3; lia.
      * intros k Hk. rewrite A by lia. apply H4; lia.
Qed.
Lemma argmin_spec x : x <> [] -> first_min x (argmin (map Fin x)).
Proof.
  destruct x as [|x0 x]; [contradiction|]. intros _. cbn [map argmin].
  change (x0 :: x) with ([x0] ++ x). change 1%nat with (List.length [x0]). apply argmin_from_spec; cbn.
  - lia.
  - reflexivity.
  - intros [|k] Hk; [lra|lia].
  - lia.
Qed.
