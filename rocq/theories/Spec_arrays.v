(** * Specification: who owns the arrays that models hand out *)
From Coq Require Import List.
From Verif Require Import M_arrays.
Open Scope R_scope.
Open Scope list_scope.

(** The three properties whose result is the model's (or the class's) own array. *)
Definition shares (a : acc) : bool := match a with ln_std | freqs | ln_eas => true | _ => false end.
(** Writes go only into arrays obtained from other properties; [got] lists the properties read so far. *)
Fixpoint writes_own (got : list acc) (ps : list op) : Prop :=
  match ps with
  | [] => True
  | Get _ a :: r => writes_own (got ++ [a]) r
  | Write v _ _ :: r | Scale v _ :: r => (forall a, nth_error got v = Some a -> shares a = false) /\ writes_own got r
  | _ :: r => writes_own got r
  end.
Definition is_write (p : op) : bool := match p with Write _ _ _ | Scale _ _ => true | _ => false end.
Definition without_writes (ps : list op) : list op := filter (fun p => negb (is_write p)) ps.

(** How many reads a program makes: the number of its array variables. *)
Definition reads (ps : list op) : nat := List.length (filter (fun p => match p with Get _ _ => true | _ => false end) ps).
(** What the next read of property [a] of object [o] would give. *)
Definition now (lb : library) (ps : list op) (o : nat) (a : acc) : option (res (list flt)) := nth_error (seen lb (ps ++ [Get o a])) (List.length (seen lb ps)).
(** Object number [o] of the program is a BaylessAbrahamson2019, a GulerceAbrahamson2011. *)
Definition is_ba19 (lb : library) (ps : list op) (o : nat) : Prop := exists s e d, nth_error (w_objs (run lb ps)) o = Some (OBa s e d).
Definition is_ga11 (lb : library) (ps : list op) (o : nat) : Prop := exists s r d, nth_error (w_objs (run lb ps)) o = Some (OGa s r d).
