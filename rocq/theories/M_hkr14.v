(** * Hermkes, Kuehn & Riggelsen (2014): src/pygmm/hermkes_kuehn_riggelsen_2014.py *)

From Verif Require Export GmmLib.
Open Scope R_scope.
Open Scope string_scope.
Open Scope list_scope.

(** hermkes_kuehn_riggelsen_2014.py:63-80: class attributes. *)
Definition hkr14_class : gclass := {|
  gc_abbrev := "HKR14";
  gc_params := [NumP "depth_hyp" false (Some $0) (Some $40) (PNum $15);
                NumP "dist_jb" false (Some $0) (Some $200) PNone;
                NumP "mag" true (Some $4) (Some $8) PNone;
                NumP "v_s30" true (Some $100) (Some $1200) PNone;
                CatP "mechanism" true ["SS"; "NS"; "RS"] PNone];
  gc_periods := [$(-1); $0.01; $0.1; $0.5; $1; $4];
  gc_psa := arange 1 5;
  gc_pga := Some 1%Z; gc_pgv := Some 0%Z; gc_pgd := None;
  gc_pgv_scale := $1; gc_pgd_scale := $1
|}%flt.

(** The content of the data file: events (7 numbers) with their predictions (12 numbers). *)
Definition hkdata := list (list R * list R).

(** [l[0::2]] and [l[1::2]] *)
Fixpoint evens {A} (l : list A) : list A :=
  match l with x :: _ :: l' => x :: evens l' | [x] => [x] | [] => [] end.
Definition odds {A} (l : list A) : list A := match l with _ :: l' => evens l' | [] => [] end.

Section HKR.
(** [NearestNDInterpolator(events, predictions)(event)] *)
Variable nearest : hkdata -> list flt -> list flt.

(** Lines 86-96: the value of [event]; converting None to a number is a TypeError (raised by the interpolator). *)
Definition hkr14_event (s : scen) : M (list pyval) :=
  (mech <- sc_attr s "mechanism" ;;
   let flag t := PNum (if is_str mech t then $1 else $0)%flt in
   mag <- sc_attr s "mag" ;; depth <- sc_attr s "depth_hyp" ;; dist <- sc_attr s "dist_jb" ;; v_s30 <- sc_attr s "v_s30" ;;
   ret [mag; depth; flag "RS"; flag "SS"; flag "NS"; dist; v_s30])%py.
Fixpoint nums (l : list pyval) : M (list flt) :=
  match l with [] => ret [] | v :: l' => (x <- as_num v ;; xs <- nums l' ;; ret (x :: xs))%py end.
Definition is_finite (x : flt) : bool := match x with Fin _ => true | _ => false end.
(** Lines 104-106, once the interpolator exists.  The k-d tree of the interpolator refuses points with infinite or NaN
    coordinates (ValueError, "'x' must be finite, check for nan or inf values"). *)
Definition hkr14_use (data : hkdata) (s : scen) (event : list pyval) : M gmm :=
  (q <- nums event ;;
   if negb (forallb is_finite q) then raise EValue else
   let prediction := nearest data q in
   ret (GMM hkr14_class s (evens prediction) (Some (map fsqrt (odds prediction)))))%py.

(** Lines 82-106, [__init__], with the module variable INTERPOLATOR before and after ([None], or made from some data).
    [file] is the content of the data file at that moment ([None]: missing or unreadable; np.load raises an OSError,
    represented by EValue).  The module variable is not touched when the parameter check raises. *)
Definition hkr14 (file : option hkdata) (cache : option hkdata) (src : dict) : option hkdata * M gmm :=
  let start := (s <- model_init (gc_params hkr14_class) src ;; e <- hkr14_event s ;; ret (s, e))%py in
  match result start with
  | Raise e => (cache, (warns start, Raise e))
  | Ok (s, e) =>
      match (match cache with Some d => Some d | None => file end) with
      | None => (cache, (warns start, Raise EValue))
      | Some d => (Some d, (_ <- start ;; hkr14_use d s e)%py)
      end
  end.

(** A history of constructions, each with the content of the file at that time. *)
Fixpoint hkr14_history (cache : option hkdata) (h : list (option hkdata * dict)) : option hkdata * list (M gmm) :=
  match h with
  | [] => (cache, [])
  | (file, src) :: h' =>
      let '(c, r) := hkr14 file cache src in
      let '(c', rs) := hkr14_history c h' in (c', r :: rs)
  end.

(** *** Constructions in several threads

    What one construction does to the module variable, in the order of the code; the interpreter switches between threads
    at any of these points.  Each step reads or writes shared state (INTERPOLATOR, the data file) at most once. *)
Inductive hk_pc :=
  | HStart (src : dict)                              (* line 82: nothing done *)
  | HTest (src : dict) (s : scen) (e : list pyval)   (* line 99: about to test "INTERPOLATOR is None" *)
  | HLoad (src : dict) (s : scen) (e : list pyval)   (* line 100: about to read the file *)
  | HStore (d : hkdata) (src : dict) (s : scen) (e : list pyval)  (* line 101: about to assign INTERPOLATOR *)
  | HUse (src : dict) (s : scen) (e : list pyval)    (* line 104: about to read INTERPOLATOR and call it *)
  | HDone (r : M gmm).
Definition hkr14_step (file cache : option hkdata) (pc : hk_pc) : option hkdata * hk_pc :=
  let start src := (s <- model_init (gc_params hkr14_class) src ;; e <- hkr14_event s ;; ret (s, e))%py in
  match pc with
  | HStart src => match result (start src) with
                  | Raise e => (cache, HDone (warns (start src), Raise e))
                  | Ok (s, e) => (cache, HTest src s e)
                  end
  | HTest src s e => (cache, match cache with None => HLoad src s e | Some _ => HUse src s e end)
  | HLoad src s e => (cache, match file with None => HDone (warns (start src), Raise EValue) | Some d => HStore d src s e end)
  | HStore d src s e => (Some d, HUse src s e)
  | HUse src s e => (cache, HDone (match cache with
                                   | Some d => (_ <- start src ;; hkr14_use d s e)%py
                                   | None => (warns (start src), Raise EType)  (* 'NoneType' object is not callable *)
                                   end))
  | HDone r => (cache, HDone r)
  end.
(** The threads, and one step of thread number [i] while the file contains [file]; no effect if there is no such thread. *)
Fixpoint hkr14_sched1 (file cache : option hkdata) (i : nat) (ts : list hk_pc) : option hkdata * list hk_pc :=
  match ts, i with
  | [], _ => (cache, [])
  | t :: ts', O => let '(c, t') := hkr14_step file cache t in (c, t' :: ts')
  | t :: ts', S i' => let '(c, ts'') := hkr14_sched1 file cache i' ts' in (c, t :: ts'')
  end.
(** A schedule: the thread that moves, with the content of the file at that moment. *)
Fixpoint hkr14_sched (cache : option hkdata) (ts : list hk_pc) (sched : list (option hkdata * nat)) : option hkdata * list hk_pc :=
  match sched with
  | [] => (cache, ts)
  | (file, i) :: sched' => let '(c, ts') := hkr14_sched1 file cache i ts in hkr14_sched c ts' sched'
  end.
End HKR.
