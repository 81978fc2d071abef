(** * Py: the fragment of Python semantics the model needs. *)

From Verif Require Export Flt.
From Coq Require Export String Ascii.
Open Scope list_scope.
Open Scope R_scope.

(** ** Values held by a scenario: None, numbers, strings, booleans. *)
Inductive pyval : Type :=
| PNone
| PNum (x : flt)
| PStr (s : string)
| PBool (b : bool).

(** ** Exceptions *)
Inductive exn : Type :=
| EValue          (* ValueError *)
| EKey (k : string)            (* KeyError *)
| EType           (* TypeError *)
| ENotImpl        (* NotImplementedError *)
| EWarning (k : string)        (* [raise Warning(...)] in Scenario._check_keys *)
| EIndex          (* IndexError *)
| EAttr           (* AttributeError *)
| EAssert.        (* AssertionError *)

Inductive res (A : Type) : Type :=
| Ok (a : A)
| Raise (e : exn).
Arguments Ok {A} _.
Arguments Raise {A} _.

(** A fragment of a warning message: literal text or a formatted value. *)
Inductive frag : Type := FText (s : string) | FVal (v : pyval).
Definition message := list frag.

(** A computation emits warnings (oldest first) and then returns or raises. *)
Definition M (A : Type) : Type := (list message * res A)%type.
Definition ret {A} (a : A) : M A := ([], Ok a).
Definition raise {A} (e : exn) : M A := ([], Raise e).
Definition emit (w : message) : M unit := ([w], Ok tt).
Definition bind {A B} (m : M A) (f : A -> M B) : M B :=
  match snd m with
  | Raise e => (fst m, Raise e)
  | Ok a => let n := f a in ((fst m ++ fst n)%list, snd n)
  end.
Definition warns {A} (m : M A) : list message := fst m.
Definition result {A} (m : M A) : res A := snd m.

Declare Scope py_scope.
Delimit Scope py_scope with py.
Notation "x <- m ;; f" := (bind m (fun x => f)) (at level 61, m at next level, right associativity) : py_scope.
Notation "m ;;; f" := (bind m (fun _ => f)) (at level 61, right associativity) : py_scope.

Lemma bind_ret_l {A B} (a : A) (f : A -> M B) : bind (ret a) f = f a.
Proof. unfold bind, ret; cbn. destruct (f a); reflexivity. Qed.
Lemma bind_raise {A B} e (f : A -> M B) : bind (raise e) f = raise e.
Proof. reflexivity. Qed.
Lemma bind_ret_r {A} (m : M A) : bind m ret = m.
Proof. destruct m as [w [a|e]]; cbn; unfold bind; cbn; rewrite ?app_nil_r; reflexivity. Qed.
Lemma bind_assoc {A B C} (m : M A) (f : A -> M B) (g : B -> M C) :
  bind (bind m f) g = bind m (fun x => bind (f x) g).
Proof.
  destruct m as [w [a|e]]; unfold bind; cbn; [|reflexivity].
  destruct (f a) as [w' [b|e']]; cbn; [|reflexivity].
  destruct (g b) as [w'' r]; cbn. rewrite app_assoc. reflexivity.
Qed.

(** ** Equality (==), identity with None, truth value *)

(** [True == 1], [False == 0]; otherwise values of different types differ. *)
Definition bool_num (b : bool) : flt := if b then Fin 1 else Fin 0.
Definition pyeq (a b : pyval) : bool :=
  match a, b with
  | PNone, PNone => true
  | PNum x, PNum y => feqb x y
  | PStr s, PStr t => String.eqb s t
  | PBool x, PBool y => Bool.eqb x y
  | PBool x, PNum y | PNum y, PBool x => feqb (bool_num x) y
  | _, _ => false
  end.
(** [v in options] *)
Definition pyin (v : pyval) (l : list pyval) : bool := existsb (pyeq v) l.
(** [v == "text"] *)
Definition is_str (v : pyval) (s : string) : bool := pyeq v (PStr s).
Definition is_none (v : pyval) : bool := match v with PNone => true | _ => false end.
(** bool(v) *)
Definition truthy (v : pyval) : bool :=
  match v with
  | PNone => false
  | PNum x => negb (feqb x (Fin 0))
  | PStr s => negb (String.eqb s "")
  | PBool b => b
  end.
(** Use of a value in arithmetic or an ordered comparison: None and strings
    raise TypeError, booleans count as 0/1. *)
Definition as_num (v : pyval) : M flt :=
  match v with
  | PNum x => ret x
  | PBool b => ret (bool_num b)
  | PNone | PStr _ => raise EType
  end.

Lemma is_str_true v s : is_str v s = true <-> v = PStr s.
Proof.
  unfold is_str; destruct v; cbn; split; intro H; try discriminate; try congruence.
  - apply String.eqb_eq in H; congruence.
  - injection H as ->; apply String.eqb_refl.
Qed.

(** ** Dictionaries: association lists in insertion order, unique keys *)
Definition dict := list (string * pyval).

Fixpoint dget (d : dict) (k : string) : option pyval :=
  match d with
  | [] => None
  | (k', v) :: d' => if String.eqb k' k then Some v else dget d' k
  end.
(** [d.get(k, None)] *)
Definition dget_none (d : dict) (k : string) : pyval :=
  match dget d k with Some v => v | None => PNone end.
(** [d[k]] *)
Definition ditem (d : dict) (k : string) : M pyval :=
  match dget d k with Some v => ret v | None => raise (EKey k) end.
(** [d[k] = v] keeps the position of an existing key, else appends. *)
Fixpoint dset (d : dict) (k : string) (v : pyval) : dict :=
  match d with
  | [] => [(k, v)]
  | (k', v') :: d' => if String.eqb k' k then (k', v) :: d' else (k', v') :: dset d' k v
  end.
(** [d.update(e)] *)
Definition dupdate (d e : dict) : dict := fold_left (fun acc kv => dset acc (fst kv) (snd kv)) e d.
Definition dkeys (d : dict) : list string := map fst d.
Definition smem (k : string) (l : list string) : bool := existsb (String.eqb k) l.

Lemma smem_In k l : smem k l = true <-> In k l.
Proof.
  unfold smem; rewrite existsb_exists; split.
  - intros (x & Hx & E). apply String.eqb_eq in E; subst; assumption.
  - intros H; exists k; split; [assumption | apply String.eqb_refl].
Qed.

Lemma dget_dset_same d k v : dget (dset d k v) k = Some v.
Proof.
  induction d as [|[k' v'] d IH]; cbn.
  - rewrite String.eqb_refl; reflexivity.
  - destruct (String.eqb k' k) eqn:E; cbn; rewrite E; [reflexivity | exact IH].
Qed.
Lemma dget_dset_other d k v k2 : k2 <> k -> dget (dset d k v) k2 = dget d k2.
Proof.
  intros Hne; induction d as [|[k' v'] d IH]; cbn.
  - destruct (String.eqb k k2) eqn:E; [apply String.eqb_eq in E; congruence | reflexivity].
  - destruct (String.eqb k' k) eqn:E; cbn.
    + apply String.eqb_eq in E; subst k'.
      destruct (String.eqb k k2) eqn:E2; [apply String.eqb_eq in E2; congruence | reflexivity].
    + destruct (String.eqb k' k2); [reflexivity | exact IH].
Qed.
Lemma dkeys_dset d k v : forall x, In x (dkeys (dset d k v)) <-> x = k \/ In x (dkeys d).
Proof.
  intros x; induction d as [|[k' v'] d IH]; cbn.
  - intuition congruence.
  - destruct (String.eqb k' k) eqn:E; cbn.
    + apply String.eqb_eq in E; subst; intuition congruence.
    + unfold dkeys in IH; rewrite IH; intuition congruence.
Qed.
Lemma dget_In_keys d k v : dget d k = Some v -> In k (dkeys d).
Proof.
  induction d as [|[k' v'] d IH]; cbn; [discriminate|].
  destruct (String.eqb k' k) eqn:E; [apply String.eqb_eq in E; auto | auto].
Qed.
Lemma dget_None_keys d k : dget d k = None <-> ~ In k (dkeys d).
Proof.
  induction d as [|[k' v'] d IH]; cbn; [intuition|].
  destruct (String.eqb k' k) eqn:E.
  - apply String.eqb_eq in E; subst; split; [discriminate | intuition].
  - apply String.eqb_neq in E; rewrite IH; unfold dkeys; intuition.
Qed.
(** lookup after an update: the last binding of the update wins. *)
Lemma dget_dupdate d e k :
  dget (dupdate d e) k = match dget (rev e) k with Some v => Some v | None => dget d k end.
Proof.
  revert d; induction e as [|[k' v'] e IH]; intros d; cbn [dupdate fold_left fst snd].
  - reflexivity.
  - change (fold_left _ e (dset d k' v')) with (dupdate (dset d k' v') e).
    rewrite IH. cbn [rev].
    assert (Happ : forall l, dget (l ++ [(k', v')]) k =
                match dget l k with Some v => Some v | None => if String.eqb k' k then Some v' else None end).
    { clear; induction l as [|[a b] l IHl]; cbn; [reflexivity|].
      destruct (String.eqb a k); [reflexivity | exact IHl]. }
    rewrite Happ. destruct (dget (rev e) k); [reflexivity|].
    destruct (String.eqb k' k) eqn:E.
    + apply String.eqb_eq in E; subst; apply dget_dset_same.
    + apply String.eqb_neq in E; apply dget_dset_other; congruence.
Qed.
