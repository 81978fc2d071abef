(** * Bayless & Abrahamson (2018) correlation: src/pygmm/bayless_abrahamson_2018.py *)

From Verif Require Export Framework Data_ba18.
Open Scope R_scope.
Open Scope string_scope.
Open Scope list_scope.

(** bayless_abrahamson_2018.py:26, [FREQS]. *)
Definition ba18_freqs : list flt := map (fun c => qf (ba18_freq_hz c)) ba18_coeff.
(** Lines 48-50, [do_interp], one element; [left] and [right] are the end values, which is also the default of np.interp. *)
Definition ba18_interp (attr : ba18_row -> Q) (f : flt) : flt :=
  np_interp ba18_freqs (map (fun c => qf (attr c)) ba18_coeff) f.

(** A 2-D array as the list of its rows; [mtab n f] has entry [f i j] in row i, column j. *)
Definition mtab (n : nat) (f : nat -> nat -> flt) : list (list flt) := map (fun i => map (f i) (seq 0 n)) (seq 0 n).

(** Lines 52-56: one entry of [corr] before the diagonal is filled; [row] is the entry of freqs_row, [column] that of freqs_col. *)
Definition ba18_entry (row column : flt) : flt :=
  (let f_r := fabs (flog (row / column)) in
   let f_m := fmin row column in
   ftanh (ba18_interp ba18_A f_m * fexp (ba18_interp ba18_B f_m * f_r)
          + ba18_interp ba18_C f_m * fexp (ba18_interp ba18_D f_m * f_r)))%flt.
(** Lines 28-59, [corr], for a 1-D array of frequencies. *)
Definition ba18_corr (freqs : list flt) : list (list flt) :=
  let at_ i := nth i freqs NaN in
  let filled i j := if Nat.eqb i j then Fin 1 else ba18_entry (at_ j) (at_ i) in
  mtab (List.length freqs) (fun i j => ((filled i j + filled j i) / $2)%flt).

(** The argument [std]: absent (or None), a number, or a 1-D array. *)
Inductive ba18_std := SNone | SNum (x : flt) | SArr (l : list flt).
(** Line 83: [getattr(COEFF, component)]; a name that is no column raises AttributeError.
    SIMPLIFICATION: other attributes of a record array (shape, ...) are not modelled. *)
Definition ba18_column (name : string) : option (ba18_row -> Q) :=
  if String.eqb name "freq_hz" then Some ba18_freq_hz
  else if String.eqb name "A" then Some ba18_A else if String.eqb name "B" then Some ba18_B
  else if String.eqb name "C" then Some ba18_C else if String.eqb name "D" then Some ba18_D
  else if String.eqb name "tau" then Some ba18_tau else if String.eqb name "phi_s2s" then Some ba18_phi_s2s
  else if String.eqb name "phi_s" then Some ba18_phi_s else if String.eqb name "sigma" then Some ba18_sigma
  else None.
(** Line 89: [np.full((n, n), std)]: every row is [std] (a number or an array of length one is repeated). *)
Definition ba18_full (n : nat) (s : ba18_std) : res (nat -> flt) :=
  match s with
  | SNone => Raise EType
  | SNum x => Ok (fun _ => x)
  | SArr l => if (List.length l =? n)%nat then Ok (fun j => nth j l NaN)
              else if (List.length l =? 1)%nat then Ok (fun _ => nth 0 l NaN) else Raise EValue
  end.
(** Lines 61-90, [cov]. *)
Definition ba18_cov (freqs : list flt) (std : ba18_std) (component : option string) : res (list (list flt)) :=
  let corr := ba18_corr freqs in
  let n := List.length freqs in
  let chosen := match std, component with
    | SNone, Some c => match ba18_column c with
                       | Some f => Ok (SArr (map (ba18_interp f) freqs))
                       | None => Raise EAttr
                       end
    | SNone, None => Raise ENotImpl
    | _, _ => Ok std
    end in
  match chosen with
  | Raise e => Raise e
  | Ok s => match ba18_full n s with
            | Raise e => Raise e
            | Ok v => Ok (mtab n (fun i j => (nth j (nth i corr []) NaN * v j * v i)%flt))
            end
  end.
