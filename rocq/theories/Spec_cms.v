(** * Specification vocabulary for the conditional spectra

    The published correlation of Baker & Jayaram (2008) over the reals, written from the
    paper; nothing here refers to the modelled code. *)
From Coq Require Import Reals List.
From Verif Require Import Flt.
Open Scope R_scope.
Open Scope list_scope.

(** Increasing list of periods. *)
Fixpoint increasing (l : list R) : Prop :=
  match l with x :: (y :: _) as l' => x < y /\ increasing l' | _ => True end.

(** Baker & Jayaram (2008), equations (5)-(9); [lo <= hi] are the two periods. *)
Definition bj_c1 (lo hi : R) : R := 1 - sin (0.366 * ln (hi / Rmax lo 0.109)).
Definition bj_c2 (lo hi : R) : R :=
  1 - 0.105 * (1 - 1 / (1 + exp (100 * hi - 5))) * ((hi - lo) / (hi - 0.0099)).
Definition bj_c4 (lo hi : R) : R :=
  bj_c1 lo hi + 0.5 * (sqrt (bj_c1 lo hi) - bj_c1 lo hi) * (1 + cos (PI * lo / 0.109)).
Definition bj_rho (t1 t2 : R) : R :=
  let lo := Rmin t1 t2 in let hi := Rmax t1 t2 in
  if Rlt_dec hi 0.109 then bj_c2 lo hi
  else if Rlt_dec 0.109 lo then bj_c1 lo hi
  else if Rlt_dec hi 0.2 then Rmin (bj_c2 lo hi) (bj_c4 lo hi)
  else bj_c4 lo hi.

(** Periods for which the correlation of two of them is defined. *)
Definition bj_ok (t1 t2 : R) : Prop := 0 <= t1 /\ 0 <= t2 /\ Rmax t1 t2 <> 0.0099.

(** One ordinate of a spectrum: period, natural log of the median, logarithmic standard deviation. *)
Record ordinate := Ord { o_t : R; o_m : R; o_s : R }.
Definition col {A} (f : A -> R) (l : list A) : list flt := map (fun c => Fin (f c)) l.

(** [y] is the value at [t] of the polyline through the points [(kx c, ky c)], extended by its end values. *)
Definition linear_at {A} (kx ky : A -> R) (l : list A) (t y : R) : Prop :=
  (exists c, In c l /\ kx c = t /\ y = ky c) \/
  (exists pre c d post, l = pre ++ c :: d :: post /\ kx c < t < kx d /\
     y = ky c + (ky d - ky c) * ((t - kx c) / (kx d - kx c))) \/
  (exists c rest, l = c :: rest /\ t < kx c /\ y = ky c) \/
  (exists pre c, l = pre ++ [c] /\ kx c < t /\ y = ky c).

(** A spectrum usable with the correlation model: periods increasing from 0.01 s to 300 s, non-negative
    standard deviations. *)
Definition spectrum_ok (l : list ordinate) : Prop :=
  increasing (map o_t l) /\ Forall (fun c => 0.01 <= o_t c <= 300 /\ 0 <= o_s c) l.

(** *** Several conditioning periods *)
Definition Rsum (l : list R) : R := fold_right Rplus 0 l.
Definition delta (i j : nat) : R := if Nat.eqb i j then 1 else 0.
(** [g] is the two-sided inverse of the [n] x [n] matrix [f]. *)
Definition inverse_of (n : nat) (f g : nat -> nat -> R) : Prop :=
  forall i j, (i < n)%nat -> (j < n)%nat ->
    Rsum (map (fun k => f i k * g k j) (seq 0 n)) = delta i j /\ Rsum (map (fun k => g i k * f k j) (seq 0 n)) = delta i j.

(** An ordinate and, if it is conditioned on, its target. *)
Notation item := (ordinate * option R)%type (only parsing).
Definition free (x : item) : bool := match snd x with None => true | Some _ => false end.
Definition conditioned (l : list item) : list item := filter (fun x => negb (free x)) l.
(** Target minus median, for a conditioned ordinate. *)
Definition resid (x : item) : R := match snd x with Some t => t - o_m (fst x) | None => 0 end.
(** Covariance of two ordinates by Baker & Jayaram (2008). *)
Definition cov (x y : item) : R := o_s (fst x) * bj_rho (o_t (fst x)) (o_t (fst y)) * o_s (fst y).
(** Linear combination of the covariances with the conditioned ordinates; the weights are indexed by period. *)
Definition combo (l : list item) (w : R -> R) (x : item) : R :=
  Rsum (map (fun y => cov x y * w (o_t (fst y))) (conditioned l)).
(** The weights solve the normal equations with right-hand side [b]. *)
Definition solves (l : list item) (w : R -> R) (b : item -> R) : Prop :=
  forall y, In y (conditioned l) -> combo l w y = b y.

(** The covariances of the conditioned ordinates, as a matrix. *)
Definition d0 : item := (Ord 0 0 0, None).
Definition cond_cov (l : list item) (i j : nat) : R := cov (nth i (conditioned l) d0) (nth j (conditioned l) d0).
Definition singular (l : list item) : Prop := ~ exists g, inverse_of (List.length (conditioned l)) (cond_cov l) g.
(** The data of a masked array that gives the targets; masked entries are arbitrary. *)
Definition data_of (data : list flt) (l : list item) : Prop :=
  Forall2 (fun d x => match snd x with Some t => d = Fin t | None => True end) data l.

(** [l'] adds to [l] conditions at values [ms] already has. *)
Fixpoint adds_implied (l : list item) (ms : list R) (l' : list item) : Prop :=
  match l, ms, l' with
  | [], [], [] => True
  | x :: l1, m :: ms1, x' :: l1' =>
      fst x' = fst x /\ (snd x' = snd x \/ (snd x = None /\ snd x' = Some m)) /\ adds_implied l1 ms1 l1'
  | _, _, _ => False
  end.
