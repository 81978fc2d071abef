(** * What a process shows of the models' warnings

    model.py:456-472 and 510-523 call [warnings.warn(text, UserWarning, stacklevel=2)]; the frame named by stacklevel is always
    [Model._check_inputs], model.py:175, so the module and the line are the same for every model and parameter.
    CPython 3.11, Lib/warnings.py [warn_explicit]: a registry of the module holds the (text, category, line) already shown;
    a change of the filters empties it.
    SIMPLIFICATION: the four usual actions, set for all warnings; two equal numbers are formatted alike (int and float of one value
    are not distinguished), two different texts as fragments are different texts.  Logging calls (BSSA14, CB14, CY14) and the
    warning of PinillaRamos2024.duration_for_energy are not warnings of [Model.__init__] and not part of this file. *)
From Verif Require Export Framework.
From Coq Require Import List.
Open Scope list_scope.

Definition flt_eq_dec (x y : flt) : {x = y} + {x <> y}.
Proof. decide equality. apply Req_EM_T. Defined.
Definition pyval_eq_dec (x y : pyval) : {x = y} + {x <> y}.
Proof. decide equality; [apply flt_eq_dec|apply string_dec|apply Bool.bool_dec]. Defined.
Definition frag_eq_dec (x y : frag) : {x = y} + {x <> y}.
Proof. decide equality; [apply string_dec|apply pyval_eq_dec]. Defined.
Definition message_eq_dec (x y : message) : {x = y} + {x <> y} := list_eq_dec frag_eq_dec x y.

(** The action of the filter in force: the interpreter's "default", "always", "ignore", "error". *)
Inductive action := ADefaultly | AAlways | AIgnore | AError.
(** Lib/warnings.py:341-398, [warn_explicit], for a series of texts: the registry, the texts shown, and the text raised as UserWarning. *)
Fixpoint deliver (a : action) (reg : list message) (ws : list message) : list message * list message * option message :=
  match ws with
  | [] => (reg, [], None)
  | w :: ws' =>
      if in_dec message_eq_dec w reg then deliver a reg ws'
      else match a with
           | AIgnore => deliver a reg ws'
           | AError => (reg, [], Some w)
           | AAlways => let '(r, s, e) := deliver a reg ws' in (r, w :: s, e)
           | ADefaultly => let '(r, s, e) := deliver a (reg ++ [w]) ws' in (r, w :: s, e)
           end
  end.

(** A process: filters are set and models constructed ([Build ps src]: the class with parameters [ps], from the mapping [src]). *)
Inductive event := Filter (a : action) | Build (ps : list param) (src : dict).
(** A construction ends as without filters, or with a UserWarning. *)
Inductive outcome := Ended (r : res scen) | UserWarning (w : message).
Record process := Process { p_action : action; p_registry : list message }.
(** Shown texts and outcome of one event. *)
Definition happen (p : process) (e : event) : process * list message * option outcome :=
  match e with
  | Filter a => (Process a [], [], None)
  | Build ps src =>
      let m := model_init ps src in
      let '(reg, shown, err) := deliver (p_action p) (p_registry p) (warns m) in
      (Process (p_action p) reg, shown, Some (match err with Some w => UserWarning w | None => Ended (result m) end))
  end.
Fixpoint trace (p : process) (es : list event) : list (list message * option outcome) :=
  match es with
  | [] => []
  | e :: es' => let '(p', s, o) := happen p e in (s, o) :: trace p' es'
  end.
(** A fresh interpreter. *)
Definition fresh_process : process := Process ADefaultly [].
Definition session (es : list event) : list (list message * option outcome) := trace fresh_process es.
