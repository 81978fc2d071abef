(** * Kishida (2017): src/pygmm/kishida_2017.py *)

From Verif Require Export M_bj08.
Open Scope R_scope.
Open Scope list_scope.

(** 2-D arrays: shape and entries. *)
Record mat := Mat { mr : nat; mc : nat; me : nat -> nat -> flt }.
(** [A @ B] *)
Definition matmul (a b : mat) : mat :=
  Mat (mr a) (mc b) (fun i j => fsum (map (fun k => fmul (me a i k) (me b k j)) (seq 0 (mc a)))).
(** [np.diag(v)] of a vector *)
Definition mdiag (v : list flt) : mat :=
  Mat (List.length v) (List.length v) (fun i j => if Nat.eqb i j then nth i v NaN else Fin 0).
(** A vector as a column. *)
Definition mcol (v : list flt) : mat := Mat (List.length v) 1 (fun i _ => nth i v NaN).
(** [A[r:r+nr, c:c+nc]] *)
Definition msub (r nr c nc : nat) (a : mat) : mat := Mat nr nc (fun i j => me a (r + i) (c + j)).

(** [l[mask]] for a boolean mask of the same length. *)
Fixpoint by_mask {A} (mask : list bool) (l : list A) : list A :=
  match mask, l with
  | b :: mask', x :: l' => if b then x :: by_mask mask' l' else by_mask mask' l'
  | _, _ => []
  end.

(** [np.all(np.diff(periods) > 0)] *)
Fixpoint all_diff_pos (l : list flt) : bool :=
  match l with
  | x :: ((y :: _) as l') => (Fin 0 <? y - x)%flt && all_diff_pos l'
  | _ => true
  end.

(** [np.argsort]; the keys met here are distinct numbers, for which every sorting
    algorithm gives the same result. *)
Fixpoint insert_key (x : flt * nat) (l : list (flt * nat)) : list (flt * nat) :=
  match l with
  | [] => [x]
  | y :: l' => if (fst x <? fst y)%flt then x :: l else y :: insert_key x l'
  end.
Definition argsort (keys : list flt) : list nat :=
  map snd (fold_right insert_key [] (combine keys (seq 0 (List.length keys)))).

(** kishida_2017.py:9-96, [calc_cond_mean_spectrum_vector].  The masked array [ln_psas_cond] is given
    by its data [cond] and its mask; [None] is the mask of a masked array built without one
    ([np.ma.nomask], a scalar False).  [inv] is [np.linalg.inv]: None stands for LinAlgError, which
    is a ValueError.  With a scalar mask the code indexes arrays by a scalar, which adds an axis; the
    product on line 66 then has mismatched shapes (ValueError), except for one period where the slicing on
    line 69 is applied to a scalar (IndexError). *)
Definition k17_cmsv (inv : mat -> option mat) (periods ln_psas ln_stds cond : list flt) (mask : option (list bool))
  : res (list flt * list flt) :=
  if negb (all_diff_pos periods) then Raise EValue
  else match mask with
  | None => if (List.length periods =? 1)%nat then Raise EIndex else Raise EValue
  | Some mk =>
    if negb (List.length mk =? List.length periods)%nat || negb (List.length ln_psas =? List.length periods)%nat
       || negb (List.length ln_stds =? List.length periods)%nat then Raise EIndex
    else if (List.length periods =? 0)%nat then Raise EValue
    else
      let nmk := map negb mk in
      let periods_grouped := by_mask mk periods ++ by_mask nmk periods in
      let mat_ln_std := mdiag (by_mask mk ln_stds ++ by_mask nmk ln_stds) in
      let size := List.length periods_grouped in
      let mat_correls := Mat size size (fun i j => bj08_correl (nth i periods_grouped NaN) (nth j periods_grouped NaN)) in
      let mat_covar := matmul (matmul mat_ln_std mat_correls) mat_ln_std in
      let n := List.length (filter (fun b => b) mk) in
      let m := (size - n)%nat in
      let mat_covar_11 := msub 0 n 0 n mat_covar in
      let mat_covar_22 := msub n m n m mat_covar in
      let mat_covar_12 := msub 0 n n m mat_covar in
      let mat_covar_21 := msub n m 0 n mat_covar in
      match inv mat_covar_22 with
      | None => Raise EValue
      | Some mat_covar_22_inv =>
          let mat_total_resids := map (fun '(a, b) => fsub a b) (combine (by_mask nmk cond) (by_mask nmk ln_psas)) in
          let gain := matmul mat_covar_12 mat_covar_22_inv in
          let shift := matmul gain (mcol mat_total_resids) in
          let ln_psas_cmsv := map (fun '(i, a) => fadd a (me shift i 0%nat)) (combine (seq 0 n) (by_mask mk ln_psas)) ++ by_mask nmk cond in
          let reduce := matmul gain mat_covar_21 in
          let ln_stds_cmsv := map (fun i => fsqrt (fsub (me mat_covar_11 i i) (me reduce i i))) (seq 0 n)
                              ++ repeat (Fin 0) (List.length (filter negb mk)) in
          let indices := argsort periods_grouped in
          match take_idx ln_psas_cmsv indices, take_idx ln_stds_cmsv indices with
          | Some a, Some b => Ok (a, b)
          | _, _ => Raise EIndex
          end
      end
  end.
