(** * Np: the numpy / scipy functions used by pygmm *)

From Verif Require Export Py.
Open Scope R_scope.

(** [a[i]] for a 1-D array and an integer index; negative indices count from the
    end; None stands for IndexError. *)
Definition py_nth {A} (l : list A) (i : Z) : option A :=
  if (i <? 0)%Z then
    (if (Z.of_nat (List.length l) + i <? 0)%Z then None
     else nth_error l (Z.to_nat (Z.of_nat (List.length l) + i)))
  else nth_error l (Z.to_nat i).

(** [a[indices]] with an array of non-negative indices (fancy indexing: a copy). *)
Fixpoint take_idx {A} (l : list A) (idx : list nat) : option (list A) :=
  match idx with
  | [] => Some []
  | i :: idx' =>
      match nth_error l i, take_idx l idx' with
      | Some a, Some t => Some (a :: t)
      | _, _ => None
      end
  end.

(** [np.arange(a, a + n)] *)
Definition arange (a n : nat) : list nat := seq a n.

(** The line through (x0,y0) and (x1,y1) at x (scipy interpolate/_interpolate.py,
    interp1d._call_linear: slope * (x_new - x_lo) + y_lo; np.interp uses the same
    formula). *)
Definition line (x0 y0 x1 y1 x : flt) : flt :=
  ((y1 - y0) / (x1 - x0) * (x - x0) + y0)%flt.

(** Segment search on increasing knots: the first segment whose right end is
    >= x, the last one if there is none (searchsorted + clip). *)
Fixpoint seg_interp (x0 y0 : flt) (rest : list (flt * flt)) (x : flt) : flt :=
  match rest with
  | [] => y0
  | [(x1, y1)] => line x0 y0 x1 y1 x
  | (x1, y1) :: rest' =>
      if (x <=? x1)%flt then line x0 y0 x1 y1 x else seg_interp x1 y1 rest' x
  end.

(** [scipy.interpolate.interp1d(xs, ys, kind="linear", bounds_error=False,
    fill_value=nan)(x)] for increasing [xs] of length >= 2. *)
Definition interp1d_nan (xs ys : list flt) (x : flt) : flt :=
  match combine xs ys with
  | [] => NaN
  | (x0, y0) :: rest =>
      let xlast := fst (last rest (x0, y0)) in
      if (x <? x0)%flt then NaN
      else if (xlast <? x)%flt then NaN
      else seg_interp x0 y0 rest x
  end.

(** [np.interp(x, xs, ys, left, right)] for increasing [xs]; the defaults of
    [left] and [right] are the end values. *)
Definition np_interp_lr (xs ys : list flt) (left right : option flt) (x : flt) : flt :=
  match combine xs ys with
  | [] => NaN
  | (x0, y0) :: rest =>
      let '(xl, yl) := last rest (x0, y0) in
      if (x <? x0)%flt then match left with Some l => l | None => y0 end
      else if (xl <? x)%flt then match right with Some r => r | None => yl end
      else seg_interp x0 y0 rest x
  end.
Definition np_interp (xs ys : list flt) (x : flt) : flt := np_interp_lr xs ys None None x.

(** [np.isclose(a, b)] with the default tolerances: |a - b| <= 1e-8 + 1e-5 |b|.
    Not symmetric in a and b. Two NaNs are not close; equal infinities are. *)
Definition np_isclose (a b : flt) : bool :=
  match a, b with
  | Fin x, Fin y => Rleb (Rabs (x - y)) (1 / 10^8 + 1 / 10^5 * Rabs y)
  | PInf, PInf | NInf, NInf => true
  | _, _ => false
  end.

(** [np.select([c1, ...], [v1, ...], default)] for one element. *)
Fixpoint np_select (l : list (bool * flt)) (default : flt) : flt :=
  match l with
  | [] => default
  | (c, v) :: l' => if c then v else np_select l' default
  end.

(** [np.sum] *)
Definition fsum (l : list flt) : flt := fold_left fadd l (Fin 0).

(** ** Facts *)

Lemma take_idx_length {A} (l : list A) idx t : take_idx l idx = Some t -> List.length t = List.length idx.
Proof.
  revert t; induction idx as [|i idx IH]; intros t; cbn.
  - intros H; injection H as <-; reflexivity.
  - destruct (nth_error l i) as [a|]; [|discriminate].
    destruct (take_idx l idx) as [t'|] eqn:E; [|discriminate].
    intros H; injection H as <-; cbn; f_equal; apply IH; reflexivity.
Qed.

Lemma take_idx_nth {A} (l : list A) idx t : take_idx l idx = Some t ->
  forall j i, nth_error idx j = Some i -> nth_error t j = nth_error l i.
Proof.
  revert t; induction idx as [|i0 idx IH]; intros t; cbn.
  - intros H j i Hj; destruct j; discriminate.
  - destruct (nth_error l i0) as [a|] eqn:E0; [|discriminate].
    destruct (take_idx l idx) as [t'|] eqn:E; [|discriminate].
    intros H; injection H as <-; intros j i Hj. destruct j as [|j]; cbn in *.
    + injection Hj as ->; symmetry; exact E0.
    + eapply IH; eauto.
Qed.

Lemma take_idx_some {A} (l : list A) idx :
  Forall (fun i => (i < List.length l)%nat) idx -> exists t, take_idx l idx = Some t.
Proof.
  induction 1 as [|i idx Hi _ [t IH]]; cbn; [eauto|].
  destruct (nth_error l i) as [a|] eqn:E; [|apply nth_error_None in E; lia].
  rewrite IH; eauto.
Qed.

Lemma take_idx_In {A} (l : list A) idx t x : take_idx l idx = Some t -> In x t -> In x l.
Proof.
  revert t; induction idx as [|i0 idx IH]; intros t; cbn.
  - intros H Hx; injection H as <-; destruct Hx.
  - destruct (nth_error l i0) as [a|] eqn:E0; [|discriminate].
    destruct (take_idx l idx) as [t'|] eqn:E; [|discriminate].
    intros H; injection H as <-; intros [->|Hx]; [eapply nth_error_In; eauto | eauto].
Qed.

Lemma take_idx_map {A B} (f : A -> B) (l : list A) idx :
  take_idx (map f l) idx = option_map (map f) (take_idx l idx).
Proof.
  induction idx as [|i idx IH]; cbn; [reflexivity|].
  rewrite nth_error_map, IH.
  destruct (nth_error l i); cbn; [|reflexivity].
  destruct (take_idx l idx); reflexivity.
Qed.

Lemma py_nth_In {A} (l : list A) i x : py_nth l i = Some x -> In x l.
Proof.
  unfold py_nth. destruct (i <? 0)%Z; [destruct (_ <? 0)%Z; [discriminate|]|]; apply nth_error_In.
Qed.
Lemma py_nth_map {A B} (f : A -> B) l i : py_nth (map f l) i = option_map f (py_nth l i).
Proof.
  unfold py_nth. rewrite map_length.
  destruct (i <? 0)%Z; [destruct (_ <? 0)%Z; [reflexivity|]|]; apply nth_error_map.
Qed.
