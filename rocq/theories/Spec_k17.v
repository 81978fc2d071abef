(** * Specification vocabulary for conditioning on several periods *)
From Coq Require Import Reals List.
From Verif Require Import Flt Spec_cms M_k17.
Open Scope R_scope.
Open Scope list_scope.

(** What is assumed of [np.linalg.inv] over the reals: on a square matrix of numbers it returns the inverse
    if there is one, and raises (None) otherwise. *)
Definition inv_spec (inv : mat -> option mat) : Prop :=
  forall n a f, mr a = n -> mc a = n -> (forall i j, (i < n)%nat -> (j < n)%nat -> me a i j = Fin (f i j)) ->
  match inv a with
  | Some b => mr b = n /\ mc b = n /\ exists g, (forall i j, (i < n)%nat -> (j < n)%nat -> me b i j = Fin (g i j)) /\ inverse_of n f g
  | None => ~ exists g, inverse_of n f g
  end.

(** The call a user makes: the columns of the items are the first three arguments; the mask of the targets is True
    where there is no target. *)
Definition it (x : item) : flt := Fin (o_t (fst x)).
Definition im (x : item) : flt := Fin (o_m (fst x)).
Definition is_ (x : item) : flt := Fin (o_s (fst x)).
Definition kcall (inv : mat -> option mat) (l : list item) (data : list flt) : res (list flt * list flt) :=
  k17_cmsv inv (map it l) (map im l) (map is_ l) data (Some (map free l)).
