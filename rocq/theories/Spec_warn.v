(** * Specification: warnings over a session *)
From Coq Require Import List.
From Verif Require Import M_warn FrameworkProofs FrameworkProps.
Open Scope R_scope.
Open Scope string_scope.
Open Scope list_scope.

(** Texts shown by the whole session; texts the constructions of [es] emit. *)
Definition all_shown (es : list event) : list message := List.concat (map fst (session es)).
Definition emits (e : event) (w : message) : Prop := match e with Build ps src => In w (warns (model_init ps src)) | Filter _ => False end.
Definition only_builds (es : list event) : Prop := forall e, In e es -> match e with Build _ _ => True | Filter _ => False end.
(** The last event of the session: texts shown and outcome. *)
Definition last_event (es : list event) : option (list message * option outcome) := nth_error (session es) (List.length es - 1).

(** The filter in force after [es]. *)
Fixpoint in_force (a : action) (es : list event) : action := match es with [] => a | Filter b :: r => in_force b r | Build _ _ :: r => in_force a r end.

(** A class as the shipped ones are (C13): distinct, recognised parameter names. *)
Definition well_declared (ps : list param) : Prop := NoDup (map p_name ps) /\ known_params ps = true.
(** The mapping gives the number [x] for [n], above the class's upper limit (and not below the lower); below its lower limit. *)
Definition too_large (ps : list param) (src : dict) (n : string) (x : R) : Prop :=
  exists req lo hi def, In (NumP n req lo (Some (Fin hi)) def) ps /\ dget src n = Some (PNum (Fin x)) /\ hi < x /\ forall l, lo = Some l -> fltb (Fin x) l = false.
Definition too_small (ps : list param) (src : dict) (n : string) (x : R) : Prop :=
  exists req lo hi def, In (NumP n req (Some (Fin lo)) hi def) ps /\ dget src n = Some (PNum (Fin x)) /\ x < lo.
(** The mapping gives [n] a value that is none of the options. *)
Definition not_an_option (ps : list param) (src : dict) (n : string) : Prop :=
  exists req opts def v, In (Param n req def (KCat opts)) ps /\ dget src n = Some v /\ v <> PNone /\ pyin v opts = false.
(** Nothing to warn of in the value the parameter takes: within the limits, or one of the options. *)
Definition as_number (v : pyval) : option flt := match v with PNum x => Some x | PBool b => Some (bool_num b) | _ => None end.
Definition unremarkable (p : param) (src : dict) : Prop :=
  let v := dget_none src (p_name p) in let v' := if is_none v then p_default p else v in
  match p_kind p with
  | KNum lo hi => forall x, as_number v' = Some x -> ~ out_of_limits lo hi x
  | KCat opts => pyin v' opts = true
  end.
