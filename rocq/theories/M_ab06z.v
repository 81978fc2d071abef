(** * Atkinson & Boore (2006) with plain Python numbers: src/pygmm/atkinson_boore_2006.py

    [M_ab06.ab06] treats the inputs as numpy scalars. [r0 / s.dist_rup] (line 70)
    is evaluated before any array is involved, so with a plain Python number a
    zero distance raises ZeroDivisionError there. *)
From Verif Require Import M_ab06.
Open Scope R_scope.
Open Scope string_scope.

Inductive py_out (A : Type) := Value (a : A) | ZeroDivisionError.
Arguments Value {A} _. Arguments ZeroDivisionError {A}.

(** Python's [x / y] for plain numbers. *)
Definition py_div (x y : flt) : py_out flt := if feqb y (Fin 0) then ZeroDivisionError else Value (fdiv x y).

(** atkinson_boore_2006.py:48-100: the parameter checks, then line 70; the rest as in [ab06]. *)
Definition ab06_py (src : dict) : M (py_out gmm) :=
  (s <- model_init (gc_params ab06_class) src ;;
   dist_rup <- num s "dist_rup" ;;
   match py_div (Fin 10) dist_rup with
   | ZeroDivisionError => ret ZeroDivisionError
   | Value _ => g <- ab06 src ;; ret (Value g)
   end)%py.
