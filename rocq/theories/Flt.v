(** * Flt: the number domain of the model.

    pygmm computes with IEEE binary64 numbers (Python [float], [numpy.float64]).
    The model uses the *extended exact reals*: a value is a finite real number,
    +inf, -inf or NaN.  What is kept: the special values, how they are created
    (log of zero, division by zero, root or fractional power of a negative
    number, interpolation out of range), how they propagate, and the fact that
    every ordered comparison with NaN is false.  What is dropped
    (SIMPLIFICATION, see DESIGN.md): rounding, overflow to inf of a finite
    result, underflow, and the sign of zero.  Numbers are treated as numpy
    scalars: a division by zero yields inf/NaN (a warning in numpy) and not the
    ZeroDivisionError a pure-Python float would raise. *)

From Coq Require Export Reals Lra Psatz QArith Qreals Bool List ZArith.
From Coq Require Export Rpower Ratan.
Export ListNotations.
Open Scope R_scope.

Inductive flt : Type :=
| Fin (r : R)
| PInf
| NInf
| NaN.

Declare Scope flt_scope.
Delimit Scope flt_scope with flt.
Bind Scope flt_scope with flt.

(** Decimal literals: [$8.5] is the finite number 8.5. *)
Notation "'$' x" := (Fin x%R) (at level 1, x at level 0, format "'$' x") : flt_scope.

(** Boolean comparisons on the reals. *)
Definition Rltb (x y : R) : bool := if Rlt_dec x y then true else false.
Definition Rleb (x y : R) : bool := if Rle_dec x y then true else false.
Definition Reqb (x y : R) : bool := if Req_EM_T x y then true else false.

Lemma Rltb_spec x y : BoolSpec (x < y) (y <= x) (Rltb x y).
Proof. unfold Rltb; destruct (Rlt_dec x y); constructor; lra. Qed.
Lemma Rleb_spec x y : BoolSpec (x <= y) (y < x) (Rleb x y).
Proof. unfold Rleb; destruct (Rle_dec x y); constructor; lra. Qed.
Lemma Reqb_spec x y : BoolSpec (x = y) (x <> y) (Reqb x y).
Proof. unfold Reqb; destruct (Req_EM_T x y); constructor; assumption. Qed.

Lemma Rltb_true x y : x < y -> Rltb x y = true.
Proof. destruct (Rltb_spec x y); [reflexivity | lra]. Qed.
Lemma Rltb_false x y : y <= x -> Rltb x y = false.
Proof. destruct (Rltb_spec x y); [lra | reflexivity]. Qed.
Lemma Rleb_true x y : x <= y -> Rleb x y = true.
Proof. destruct (Rleb_spec x y); [reflexivity | lra]. Qed.
Lemma Rleb_false x y : y < x -> Rleb x y = false.
Proof. destruct (Rleb_spec x y); [lra | reflexivity]. Qed.
Lemma Reqb_true x y : x = y -> Reqb x y = true.
Proof. destruct (Reqb_spec x y); [reflexivity | contradiction]. Qed.
Lemma Reqb_false x y : x <> y -> Reqb x y = false.
Proof. destruct (Reqb_spec x y); [contradiction | reflexivity]. Qed.

(** ** Arithmetic *)

Definition fneg (x : flt) : flt :=
  match x with Fin a => Fin (- a) | PInf => NInf | NInf => PInf | NaN => NaN end.

Definition fadd (x y : flt) : flt :=
  match x, y with
  | Fin a, Fin b => Fin (a + b)
  | NaN, _ | _, NaN => NaN
  | PInf, NInf | NInf, PInf => NaN
  | PInf, _ | _, PInf => PInf
  | NInf, _ | _, NInf => NInf
  end.

Definition fsub (x y : flt) : flt :=
  match x, y with
  | Fin a, Fin b => Fin (a - b)
  | NaN, _ | _, NaN => NaN
  | PInf, PInf | NInf, NInf => NaN
  | PInf, _ | _, NInf => PInf
  | NInf, _ | _, PInf => NInf
  end.

(** inf with the sign of the real [a]; NaN for zero (inf * 0). *)
Definition inf_signed (a : R) : flt :=
  if Rltb 0 a then PInf else if Rltb a 0 then NInf else NaN.

Definition fmul (x y : flt) : flt :=
  match x, y with
  | Fin a, Fin b => Fin (a * b)
  | NaN, _ | _, NaN => NaN
  | Fin a, PInf | PInf, Fin a => inf_signed a
  | Fin a, NInf | NInf, Fin a => inf_signed (- a)
  | PInf, PInf | NInf, NInf => PInf
  | PInf, NInf | NInf, PInf => NInf
  end.

(** Division: a/0 is +-inf by the sign of a, 0/0 is NaN (zero is unsigned). *)
Definition fdiv (x y : flt) : flt :=
  match x, y with
  | Fin a, Fin b => if Reqb b 0 then inf_signed a else Fin (a / b)
  | NaN, _ | _, NaN => NaN
  | Fin _, (PInf | NInf) => Fin 0
  | PInf, Fin b => if Rltb b 0 then NInf else PInf
  | NInf, Fin b => if Rltb b 0 then PInf else NInf
  | (PInf | NInf), (PInf | NInf) => NaN
  end.

Definition fabs (x : flt) : flt :=
  match x with Fin a => Fin (Rabs a) | PInf | NInf => PInf | NaN => NaN end.

(** [np.log]: log 0 = -inf, log of a negative number is NaN. *)
Definition flog (x : flt) : flt :=
  match x with
  | Fin a => if Rltb 0 a then Fin (ln a) else if Reqb a 0 then NInf else NaN
  | PInf => PInf
  | NInf | NaN => NaN
  end.

(** [np.log10]. *)
Definition flog10 (x : flt) : flt :=
  match x with
  | Fin a => if Rltb 0 a then Fin (ln a / ln 10) else if Reqb a 0 then NInf else NaN
  | PInf => PInf
  | NInf | NaN => NaN
  end.

Definition fexp (x : flt) : flt :=
  match x with Fin a => Fin (exp a) | PInf => PInf | NInf => Fin 0 | NaN => NaN end.

Definition fsqrt (x : flt) : flt :=
  match x with
  | Fin a => if Rltb a 0 then NaN else Fin (sqrt a)
  | PInf => PInf
  | NInf | NaN => NaN
  end.

(** x ** 2 and x ** 3, exactly the repeated product. *)
Definition fsq (x : flt) : flt := fmul x x.
Definition fcube (x : flt) : flt := fmul x (fmul x x).

(** x ** p for a real, *non-integer* exponent constant [p] (np.power on floats):
    positive base -> exp (p ln x); zero base -> 0 for p>0 and +inf for p<0;
    negative base -> NaN; infinite base by the sign of p. *)
Definition fpow (x : flt) (p : R) : flt :=
  match x with
  | Fin a => if Rltb 0 a then Fin (Rpower a p)
             else if Reqb a 0 then (if Rltb 0 p then Fin 0 else PInf)
             else NaN
  | PInf => if Rltb 0 p then PInf else Fin 0
  | NInf | NaN => NaN
  end.

(** x ** y for a *positive* finite base and any finite exponent; a fractional
    power of a non-positive base is handled as in [fpow]. *)
Definition fpowf (x y : flt) : flt :=
  match y with
  | Fin p => if Reqb p 0 then Fin 1 else fpow x p
  | NaN => NaN
  | _ => NaN  (* infinite exponents never arise in the code *)
  end.

Definition lift1 (f : R -> R) (x : flt) : flt :=
  match x with Fin a => Fin (f a) | _ => NaN end.
Definition fcos := lift1 cos.
Definition fsin := lift1 sin.
(** [np.tan] of the angles met here (dip in degrees): modelled by [tan]. *)
Definition ftan := lift1 tan.
Definition fatan (x : flt) : flt :=
  match x with Fin a => Fin (atan a) | PInf => Fin (PI/2) | NInf => Fin (-(PI/2)) | NaN => NaN end.
Definition ftanh (x : flt) : flt :=
  match x with Fin a => Fin (tanh a) | PInf => Fin 1 | NInf => Fin (-1) | NaN => NaN end.
Definition fcosh (x : flt) : flt :=
  match x with Fin a => Fin (cosh a) | PInf | NInf => PInf | NaN => NaN end.

(** ** Comparisons: every ordered comparison with NaN is false. *)

Definition fltb (x y : flt) : bool :=
  match x, y with
  | Fin a, Fin b => Rltb a b
  | NaN, _ | _, NaN => false
  | Fin _, PInf | NInf, Fin _ | NInf, PInf => true
  | _, _ => false
  end.

Definition feqb (x y : flt) : bool :=
  match x, y with
  | Fin a, Fin b => Reqb a b
  | PInf, PInf | NInf, NInf => true
  | _, _ => false
  end.

Definition fleb (x y : flt) : bool :=
  match x, y with
  | Fin a, Fin b => Rleb a b
  | NaN, _ | _, NaN => false
  | NInf, _ | _, PInf => true
  | _, _ => false
  end.

(** [np.minimum]/[np.maximum] propagate NaN. *)
Definition fmin (x y : flt) : flt :=
  match x, y with
  | Fin a, Fin b => Fin (Rmin a b)
  | NaN, _ | _, NaN => NaN
  | NInf, _ | _, NInf => NInf
  | PInf, z | z, PInf => z
  end.
Definition fmax (x y : flt) : flt :=
  match x, y with
  | Fin a, Fin b => Fin (Rmax a b)
  | NaN, _ | _, NaN => NaN
  | PInf, _ | _, PInf => PInf
  | NInf, z | z, NInf => z
  end.
(** Python built-ins: [min(a, b)] is [b if b < a else a]; [max(a, b)] is
    [b if b > a else a]. *)
Definition pymin (x y : flt) : flt := if fltb y x then y else x.
Definition pymax (x y : flt) : flt := if fltb x y then y else x.
(** [np.clip(x, lo, hi)] = minimum(maximum(x, lo), hi). *)
Definition fclip (x lo hi : flt) : flt := fmin (fmax x lo) hi.

Definition fisnan (x : flt) : bool := match x with NaN => true | _ => false end.

Infix "+" := fadd : flt_scope.
Infix "-" := fsub : flt_scope.
Infix "*" := fmul : flt_scope.
Infix "/" := fdiv : flt_scope.
Notation "- x" := (fneg x) : flt_scope.
Infix "<?" := fltb (at level 70, no associativity) : flt_scope.
Infix "<=?" := fleb (at level 70, no associativity) : flt_scope.
Infix "=?" := feqb (at level 70, no associativity) : flt_scope.
Notation "x >? y" := (fltb y x) (at level 70, only parsing) : flt_scope.
Notation "x >=? y" := (fleb y x) (at level 70, only parsing) : flt_scope.

(** A table coefficient, an exact decimal, as a number. *)
Definition qf (q : Q) : flt := Fin (Q2R q).

(** ** Specification vocabulary *)

Definition finite (x : flt) : Prop := exists r, x = Fin r.
(** [fpos x]: x is a finite, strictly positive number. *)
Definition fpos (x : flt) : Prop := exists r, x = Fin r /\ 0 < r.
Definition fnonneg (x : flt) : Prop := exists r, x = Fin r /\ 0 <= r.
(** Ordered, finite. *)
Definition flt_lt (x y : flt) : Prop := exists a b, x = Fin a /\ y = Fin b /\ a < b.
Definition flt_le (x y : flt) : Prop := exists a b, x = Fin a /\ y = Fin b /\ a <= b.

(** ** Rewriting lemmas: the arithmetic restricted to finite numbers *)

Lemma fdiv_fin a b : b <> 0 -> fdiv (Fin a) (Fin b) = Fin (a / b).
Proof. intros H; cbn; rewrite (Reqb_false _ _ H); reflexivity. Qed.
Lemma flog_fin a : 0 < a -> flog (Fin a) = Fin (ln a).
Proof. intros H; cbn; rewrite (Rltb_true _ _ H); reflexivity. Qed.
Lemma flog10_fin a : 0 < a -> flog10 (Fin a) = Fin (ln a / ln 10).
Proof. intros H; cbn; rewrite (Rltb_true _ _ H); reflexivity. Qed.
Lemma fsqrt_fin a : 0 <= a -> fsqrt (Fin a) = Fin (sqrt a).
Proof. intros H; cbn; rewrite (Rltb_false _ _ H); reflexivity. Qed.
Lemma fpow_fin a p : 0 < a -> fpow (Fin a) p = Fin (Rpower a p).
Proof. intros H; cbn; rewrite (Rltb_true _ _ H); reflexivity. Qed.
Lemma fpow_zero p : 0 < p -> fpow (Fin 0) p = Fin 0.
Proof.
  intros H; cbn. rewrite Rltb_false by lra. rewrite Reqb_true by reflexivity.
  rewrite Rltb_true by lra. reflexivity.
Qed.
Lemma fpow_neg a p : a < 0 -> fpow (Fin a) p = NaN.
Proof.
  intros H; cbn. rewrite Rltb_false by lra. rewrite Reqb_false by lra. reflexivity.
Qed.
Lemma flog_neg a : a < 0 -> flog (Fin a) = NaN.
Proof.
  intros H; cbn. rewrite Rltb_false by lra. rewrite Reqb_false by lra. reflexivity.
Qed.
Lemma flog_zero : flog (Fin 0) = NInf.
Proof.
  cbn. rewrite Rltb_false by lra. rewrite Reqb_true by lra. reflexivity.
Qed.
Lemma fsqrt_neg a : a < 0 -> fsqrt (Fin a) = NaN.
Proof. intros H; cbn. rewrite Rltb_true by lra. reflexivity. Qed.
Lemma fpowf_fin a p : 0 < a -> fpowf (Fin a) (Fin p) = Fin (Rpower a p).
Proof.
  intros H; cbn. rewrite (Rltb_true _ _ H).
  destruct (Reqb_spec p 0) as [->|_]; [rewrite Rpower_O by assumption|]; reflexivity.
Qed.

Lemma fadd_fin a b : fadd (Fin a) (Fin b) = Fin (a + b). Proof. reflexivity. Qed.
Lemma fsub_fin a b : fsub (Fin a) (Fin b) = Fin (a - b). Proof. reflexivity. Qed.
Lemma fmul_fin a b : fmul (Fin a) (Fin b) = Fin (a * b). Proof. reflexivity. Qed.
Lemma fneg_fin a : fneg (Fin a) = Fin (- a). Proof. reflexivity. Qed.
Lemma fexp_fin a : fexp (Fin a) = Fin (exp a). Proof. reflexivity. Qed.
Lemma fmin_fin a b : fmin (Fin a) (Fin b) = Fin (Rmin a b). Proof. reflexivity. Qed.
Lemma fmax_fin a b : fmax (Fin a) (Fin b) = Fin (Rmax a b). Proof. reflexivity. Qed.
Lemma fsq_fin a : fsq (Fin a) = Fin (a * a). Proof. reflexivity. Qed.
Lemma fcube_fin a : fcube (Fin a) = Fin (a * (a * a)). Proof. reflexivity. Qed.
Lemma fltb_fin a b : fltb (Fin a) (Fin b) = Rltb a b. Proof. reflexivity. Qed.
Lemma fleb_fin a b : fleb (Fin a) (Fin b) = Rleb a b. Proof. reflexivity. Qed.
Lemma feqb_fin a b : feqb (Fin a) (Fin b) = Reqb a b. Proof. reflexivity. Qed.
Lemma pymin_fin a b : pymin (Fin a) (Fin b) = Fin (Rmin a b).
Proof.
  unfold pymin; rewrite fltb_fin; unfold Rmin.
  destruct (Rltb_spec b a), (Rle_dec a b); try reflexivity; f_equal; lra.
Qed.
Lemma pymax_fin a b : pymax (Fin a) (Fin b) = Fin (Rmax a b).
Proof.
  unfold pymax; rewrite fltb_fin; unfold Rmax.
  destruct (Rltb_spec a b), (Rle_dec a b); try reflexivity; f_equal; lra.
Qed.
Lemma fclip_fin x lo hi : fclip (Fin x) (Fin lo) (Fin hi) = Fin (Rmin (Rmax x lo) hi).
Proof. reflexivity. Qed.

Lemma nan_fadd_l x : fadd NaN x = NaN. Proof. destruct x; reflexivity. Qed.
Lemma nan_fadd_r x : fadd x NaN = NaN. Proof. destruct x; reflexivity. Qed.
Lemma nan_fsub_l x : fsub NaN x = NaN. Proof. destruct x; reflexivity. Qed.
Lemma nan_fsub_r x : fsub x NaN = NaN. Proof. destruct x; reflexivity. Qed.
Lemma nan_fmul_l x : fmul NaN x = NaN. Proof. destruct x; reflexivity. Qed.
Lemma nan_fmul_r x : fmul x NaN = NaN. Proof. destruct x; reflexivity. Qed.
Lemma nan_fdiv_l x : fdiv NaN x = NaN. Proof. destruct x; reflexivity. Qed.
Lemma nan_fdiv_r x : fdiv x NaN = NaN. Proof. destruct x; reflexivity. Qed.

Arguments fadd !x !y.
Arguments fsub !x !y.
Arguments fmul !x !y.
Arguments fneg !x.
Arguments fabs !x.
Arguments fexp !x.
Arguments fmin !x !y.
Arguments fmax !x !y.
Arguments fsq !x.
Arguments fcube !x.
Arguments fltb !x !y.
Arguments fleb !x !y.
Arguments feqb !x !y.
Arguments lift1 f !x.
Arguments fatan !x.
Arguments ftanh !x.
Arguments fcosh !x.

(** Reduce the operations that need no side condition. *)
Ltac fcbn := cbn [fadd fsub fmul fneg fabs fexp fmin fmax fsq fcube fltb fleb feqb
                  fcos fsin ftan lift1 fatan ftanh fcosh qf].
Ltac fcbn_in H := cbn [fadd fsub fmul fneg fabs fexp fmin fmax fsq fcube fltb fleb feqb
                  fcos fsin ftan lift1 fatan ftanh fcosh qf] in H.

(** Push [Fin] outwards, discharging side conditions with [tac]. *)
Ltac fin_with tac :=
  repeat (fcbn;
    first
      [ rewrite fdiv_fin by tac
      | rewrite flog_fin by tac
      | rewrite flog10_fin by tac
      | rewrite fsqrt_fin by tac
      | rewrite fpow_fin by tac
      | rewrite fpowf_fin by tac
      | rewrite pymin_fin
      | rewrite pymax_fin
      | rewrite fclip_fin ]); fcbn.
Ltac fin := fin_with ltac:(first [assumption | lra]).

Lemma fpos_exp x : finite x -> fpos (fexp x).
Proof. intros [r ->]. exists (exp r); split; [reflexivity | apply exp_pos]. Qed.
Lemma fpos_finite x : fpos x -> finite x.
Proof. intros (r & -> & _); exists r; reflexivity. Qed.
Lemma finite_fin r : finite (Fin r).
Proof. exists r; reflexivity. Qed.
Lemma flt_lt_exp x y : flt_lt x y -> flt_lt (fexp x) (fexp y).
Proof.
  intros (a & b & -> & -> & H). exists (exp a), (exp b); repeat split.
  apply exp_increasing; exact H.
Qed.
Lemma flt_le_exp x y : flt_le x y -> flt_le (fexp x) (fexp y).
Proof.
  intros (a & b & -> & -> & H). exists (exp a), (exp b); repeat split.
  destruct H as [H| ->]; [left; apply exp_increasing; exact H | right; reflexivity].
Qed.
Lemma flt_lt_fin a b : a < b -> flt_lt (Fin a) (Fin b).
Proof. intros H; exists a, b; auto. Qed.
Lemma flt_le_fin a b : a <= b -> flt_le (Fin a) (Fin b).
Proof. intros H; exists a, b; auto. Qed.
Lemma not_finite_nan : ~ finite NaN.
Proof. intros [r H]; discriminate. Qed.
Lemma finite_fadd x y : finite x -> finite y -> finite (x + y)%flt.
Proof. intros [a ->] [b ->]; eexists; reflexivity. Qed.
Lemma finite_fsub x y : finite x -> finite y -> finite (x - y)%flt.
Proof. intros [a ->] [b ->]; eexists; reflexivity. Qed.
Lemma finite_fmul x y : finite x -> finite y -> finite (x * y)%flt.
Proof. intros [a ->] [b ->]; eexists; reflexivity. Qed.
Lemma finite_fneg x : finite x -> finite (- x)%flt.
Proof. intros [a ->]; eexists; reflexivity. Qed.
Lemma finite_qf q : finite (qf q).
Proof. eexists; reflexivity. Qed.
Lemma finite_fexp x : finite x -> finite (fexp x).
Proof. intros [a ->]; eexists; reflexivity. Qed.
Lemma finite_fsq x : finite x -> finite (fsq x).
Proof. intros [a ->]; eexists; reflexivity. Qed.
Lemma finite_fcube x : finite x -> finite (fcube x).
Proof. intros [a ->]; eexists; reflexivity. Qed.
Lemma finite_fmin x y : finite x -> finite y -> finite (fmin x y).
Proof. intros [a ->] [b ->]; eexists; reflexivity. Qed.
Lemma finite_fmax x y : finite x -> finite y -> finite (fmax x y).
Proof. intros [a ->] [b ->]; eexists; reflexivity. Qed.
Lemma finite_flog x : fpos x -> finite (flog x).
Proof. intros (a & -> & H); eexists; apply flog_fin; exact H. Qed.
Lemma finite_fdiv x y : finite x -> finite y -> y <> Fin 0 -> finite (x / y)%flt.
Proof. intros [a ->] [b ->] H; eexists; apply fdiv_fin; congruence. Qed.
