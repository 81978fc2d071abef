(** * M_scen: the object protocol of Scenario beyond item access (model.py:12, 122-133)

    [Scenario] subclasses [collections.UserDict] and adds [__getattr__]
    (model.py:127-129), which Python calls only after the normal lookup on the
    instance and its class has failed. *)
From Verif Require Import Framework.
Open Scope string_scope.
Open Scope list_scope.
Open Scope py_scope.

(** Names found by the normal lookup on any [Scenario] object: those of [object],
    [UserDict] and its bases (CPython 3.11), those defined by model.py:12-144, and
    the instance attribute [data] set by UserDict.__init__. *)
Definition class_names : list string :=
  ["KNOWN_KEYS"; "_MutableMapping__marker"; "__abstractmethods__"; "__class__"; "__class_getitem__"; "__contains__"; "__copy__"; "__delattr__";
   "__delitem__"; "__dict__"; "__dir__"; "__doc__"; "__eq__"; "__format__"; "__ge__"; "__getattr__"; "__getattribute__"; "__getitem__"; "__getstate__";
   "__gt__"; "__hash__"; "__init__"; "__init_subclass__"; "__ior__"; "__iter__"; "__le__"; "__len__"; "__lt__"; "__module__"; "__ne__"; "__new__";
   "__or__"; "__reduce__"; "__reduce_ex__"; "__repr__"; "__reversed__"; "__ror__"; "__setattr__"; "__setitem__"; "__sizeof__"; "__slots__"; "__str__";
   "__subclasshook__"; "__weakref__"; "_abc_impl"; "_check_keys"; "clear"; "copy"; "copy_with"; "data"; "fromkeys"; "get"; "items"; "keys"; "pop";
   "popitem"; "setdefault"; "update"; "values"].

(** What an attribute lookup yields: a member of the class, or a value held by the object. *)
Inductive attr_value := AClass (name : string) | AValue (v : pyval).

(** [s.name], model.py:127-129: instance attributes, class attributes, then
    [__getattr__]. (Instance attributes precede the class's functions, which are
    not data descriptors; assignment to the few data descriptors such as
    [__class__] is not modelled.) *)
Definition sc_getattr (s : scen) (name : string) : M attr_value :=
  match dget (s_attrs s) name with
  | Some v => ret (AValue v)
  | None => if smem name class_names then ret (AClass name)
            else v <- ditem (s_data s) name ;; ret (AValue v)
  end.

(** builtins [getattr(s, name, default)]: only AttributeError is caught. *)
Definition py_getattr_default {A} (lookup : M A) (default : A) : M A :=
  match result lookup with Raise EAttr => ret default | _ => lookup end.
Definition sc_getattr_default (s : scen) (name : string) (default : attr_value) : M attr_value :=
  py_getattr_default (sc_getattr s name) default.

(** builtins [hasattr(s, name)]: only AttributeError is caught. *)
Definition sc_hasattr (s : scen) (name : string) : M bool :=
  match result (sc_getattr s name) with
  | Ok _ => ret true | Raise EAttr => ret false | Raise e => raise e
  end.

(** [copy.deepcopy(s)] (Lib/copy.py): first looks up [__deepcopy__] on the instance
    with default None; if it is not there the object is rebuilt from its state. A
    [__deepcopy__] that the object happens to hold is a value, and calling it is a
    TypeError. *)
Definition sc_deepcopy (s : scen) : M scen :=
  c <- sc_getattr_default s "__deepcopy__" (AValue PNone) ;;
  match c with
  | AValue PNone => ret (Scen (s_data s) (s_attrs s))
  | _ => raise EType
  end.

(** [copy.copy(s)]: UserDict.__copy__ is found on the class. *)
Definition sc_copy_copy (s : scen) : M scen := ret (Scen (s_data s) (s_attrs s)).

(** [s | other] and [other | s] (UserDict.__or__, __ror__): the merged dict is passed as
    a positional argument to the class, whose [__init__] (model.py:122) takes keywords only. *)
Definition scenario_call (args : list dict) (kw : dict) : M scen :=
  match args with [] => sc_new kw | _ :: _ => raise EType end.
Definition sc_or (s : scen) (other : dict) : M scen := scenario_call [dupdate (s_data s) other] [].
Definition sc_ror (s : scen) (other : dict) : M scen := scenario_call [dupdate other (s_data s)] [].
(** [s |= other] and [s.update(other)]: in place, no key check. *)
Definition sc_ior (s : scen) (other : dict) : scen := Scen (dupdate (s_data s) other) (s_attrs s).
(** [del s[k]] / [s.pop(k)] *)
Fixpoint ddel (d : dict) (k : string) : dict :=
  match d with [] => [] | (k', v) :: d' => if String.eqb k' k then d' else (k', v) :: ddel d' k end.
Definition sc_pop (s : scen) (k : string) : M (pyval * scen) :=
  v <- sc_item s k ;; ret (v, Scen (ddel (s_data s) k) (s_attrs s)).

(** ** Unpickling

    [pickle.loads] makes the object with [__new__], without [__init__], so it has no
    instance attribute [data] yet, and then looks up [__setstate__] on it.
    [__getattr__] evaluates [self.data], which is itself missing and calls
    [__getattr__] again. [depth] is the number of calls the interpreter still allows. *)
Inductive deep (A : Type) := Found (a : A) | Missing (k : string) | RecursionError.
Arguments Found {A} _. Arguments Missing {A} _. Arguments RecursionError {A}.

(** The instance dictionary: [i_data] is None when [data] has not been set. *)
Record inst := Inst { i_data : option dict; i_attrs : dict }.
Definition blank : inst := Inst None [].
Definition built (s : scen) : inst := Inst (Some (s_data s)) (s_attrs s).

(** What the lookups give: the data dictionary itself, a member of the class, or a value. *)
Inductive thing := TData (d : dict) | TClass (name : string) | TVal (v : pyval).
Fixpoint inst_getattr (depth : nat) (o : inst) (name : string) : deep thing :=
  match dget (i_attrs o) name with
  | Some v => Found (TVal v)
  | None =>
    match (if String.eqb name "data" then i_data o else None) with
    | Some d => Found (TData d)
    | None =>
      if smem name class_names && negb (String.eqb name "data") then Found (TClass name) else
      match depth with
      | O => RecursionError
      | S depth' =>
        (* __getattr__(name): self.data[name] *)
        match inst_getattr depth' o "data" with
        | Found (TData d) => match dget d name with Some v => Found (TVal v) | None => Missing name end
        | Found _ => Missing name
        | Missing k => Missing k
        | RecursionError => RecursionError
        end
      end
    end
  end.

(** [pickle.loads(pickle.dumps(s))]: dumping is the default protocol (the state is the
    instance dictionary); loading makes a blank object and looks up [__setstate__]
    with a default, which only AttributeError selects. *)
Definition sc_pickle_round_trip (depth : nat) (s : scen) : deep inst :=
  match inst_getattr depth blank "__setstate__" with
  | Found _ => Found (built s)
  | Missing k => Missing k
  | RecursionError => RecursionError
  end.

(** ** Model.__init__ called with any arguments *)
(** model.py:161-164: the mapping the parameters are read from: the positional argument if
    there is exactly one, else a scenario made from the keywords. *)
Definition call_source (args : list dict) (kw : dict) : M dict :=
  match args with
  | [src] => ret src
  | _ => s <- sc_new kw ;; ret (s_data s)
  end.
(** model.py:157-171, [Model.__init__] *)
Definition model_call (ps : list param) (args : list dict) (kw : dict) : M scen :=
  src <- call_source args kw ;; model_init ps src.
