(** * M_scenops: taking entries out of a scenario (model.py:12, Scenario subclasses collections.UserDict)

    The methods come from UserDict and collections.abc.MutableMapping (CPython 3.11); model.py does not override them.
    [sc_pop] is in M_scen.v. *)
From Verif Require Import Framework M_scen.
Open Scope string_scope.
Open Scope list_scope.
Open Scope py_scope.

(** [s.popitem()], MutableMapping.popitem: the key that comes first in iteration order (a plain dict would take the last).
    On an empty scenario KeyError without a key, here with the empty name. *)
Definition sc_popitem (s : scen) : M ((string * pyval) * scen) :=
  match s_data s with
  | [] => raise (EKey "")
  | (k, _) :: _ => vs <- sc_pop s k ;; ret ((k, fst vs), snd vs)
  end.
(** [s.clear()], MutableMapping.clear: [popitem] until KeyError. [fuel] bounds the turns of the loop. *)
Fixpoint sc_clear (fuel : nat) (s : scen) : scen :=
  match fuel with
  | O => s
  | S fuel' => match result (sc_popitem s) with Ok (_, s') => sc_clear fuel' s' | Raise _ => s end
  end.
(** [s.setdefault(k, v)], MutableMapping.setdefault: no check of the key. *)
Definition sc_setdefault (s : scen) (k : string) (v : pyval) : pyval * scen :=
  match dget (s_data s) k with Some old => (old, s) | None => (v, sc_setitem s k v) end.
