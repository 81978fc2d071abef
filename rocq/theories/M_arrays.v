(** * The arrays models hand out: which are the caller's own and which are shared

    model.py:299-367 (properties of GroundMotionModel), gulerce_abrahamson_2011.py:59-118, bayless_abrahamson_2019.py:49-71.
    A heap of numpy float arrays; [x[indices]] with an index array, [np.exp(x)] and the interpolations allocate a new
    array, [return self._x] returns the location of the model's own.  PERIODS and FREQS are class attributes: one array
    for all objects of the class.  Simplifications: the coefficient columns other than PERIODS and FREQS are constants (no
    property returns them, nor PERIODS itself); a constructor is any function of its class's PERIODS and of the scenario;
    the elements are floats, so a write of one element is [a[j] = x] with j a non-negative index. *)
From Verif Require Export M_ga11 M_ba19.
Open Scope R_scope.
Open Scope string_scope.
Open Scope list_scope.

(** ** bayless_abrahamson_2019.py:49-57, [__init__] with the current contents of FREQS, which lines 128-133 read *)
Definition ba19_ln_eas_at (fr : list flt) (mag dist_rup depth_tor : flt) (is_ns : bool) (v_s30 depth_1_0 : flt) : list flt :=
  (let site := ba19_site v_s30 (ba19_ln_eas_ref mag dist_rup depth_tor is_ns) in
   let ln_eas := map (fun '(c, x) => ba19_rock c mag dist_rup depth_tor is_ns v_s30 depth_1_0 + x) (combine ba19_used site) in
   let kappa := fexp ($(-0.4) * flog (v_s30 / $760) - $3.5) in
   let dimin f := fexp (fneg (Fin PI) * kappa * (f - nth ba19_idx_max fr NaN)) in
   ln_eas ++ map (fun f => nth ba19_idx_max ln_eas NaN + flog (dimin f)) (skipn (ba19_idx_max + 1) fr))%flt.
Definition ba19_at (fr : list flt) (src : dict) : M ba19_obj :=
  (s0 <- model_init ba19_params src ;; s <- ba19_prep s0 ;;
   mag <- num s "mag" ;; dist_rup <- num s "dist_rup" ;; depth_tor <- num s "depth_tor" ;;
   mech <- sc_attr s "mechanism" ;; v_s30 <- num s "v_s30" ;; depth_1_0 <- num s "depth_1_0" ;;
   ret (Ba19 s (ba19_ln_eas_at fr mag dist_rup depth_tor (is_str mech "NS") v_s30 depth_1_0)
          (map (fun c => ba19_ln_std c mag) ba19_coeff)))%py.

(** ** Heap *)
Definition fheap := list (list flt).
Definition rd (h : fheap) (l : nat) : list flt := nth l h [].
Fixpoint put {A} (l : list A) (j : nat) (x : A) : list A :=
  match l, j with
  | [], _ => []
  | _ :: t, O => x :: t
  | y :: t, S j => y :: put t j x
  end.

(** ** Objects.  A library: its GroundMotionModel classes, each with a constructor that may read PERIODS. *)
Definition library := list (gclass * (list flt -> dict -> M gmm)).
Inductive obj :=
| OGmm (k : nat) (s : scen) (resp : nat) (std : option nat)   (* class number, scenario, _ln_resp, _ln_std *)
| OGa (s : scen) (ratio std : nat)                            (* GA11: _ln_ratio, _ln_std *)
| OBa (s : scen) (eas std : nat).                             (* BA19: _ln_eas, _ln_std *)
(** Location of BA19.FREQS and of the PERIODS of class [k]. *)
Definition loc_freqs : nat := 0.
Definition loc_periods (k : nat) : nat := S k.
Definition heap0 (lb : library) : fheap := ba19_p_freqs :: map (fun c => gc_periods (fst c)) lb.

(** The properties and methods that return arrays (or a number, seen as an array of one). *)
Inductive acc :=
| periods | spec_accels | ln_stds | pga | pgv | pgd | ln_std_pga | ln_std_pgv | ln_std_pgd
| interp_ln_spec_accels (ps : list flt) | interp_spec_accels (ps : list flt) | interp_ln_stds (ps : list flt)
| ratio | ln_std | interp_ratio (ps : list flt) | interp_ln_std (ps : list flt)
| freqs | ln_eas | eas.
Inductive got := Fresh (v : list flt) | Own (l : nat).
Definition fresh (m : M (list flt)) : res got := match result m with Ok v => Ok (Fresh v) | Raise e => Raise e end.
Definition number (m : M flt) : res got := match result m with Ok x => Ok (Fresh [x]) | Raise e => Raise e end.

Definition with_periods (c : gclass) (p : list flt) : gclass :=
  GClass (gc_abbrev c) (gc_params c) p (gc_psa c) (gc_pga c) (gc_pgv c) (gc_pgd c) (gc_pgv_scale c) (gc_pgd_scale c).
Definition access (lb : library) (h : fheap) (o : obj) (a : acc) : res got :=
  match o with
  | OGmm k s resp std =>
      match nth_error lb k with
      | None => Raise EAttr
      | Some (c, _) =>
          let m := GMM (with_periods c (rd h (loc_periods k))) s (rd h resp) (option_map (rd h) std) in
          match a with
          | periods => fresh (g_periods m) | spec_accels => fresh (g_spec_accels m) | ln_stds => fresh (g_ln_stds m)
          | pga => number (g_pga m) | pgv => number (g_pgv m) | pgd => number (g_pgd m)
          | ln_std_pga => number (g_ln_std_pga m) | ln_std_pgv => number (g_ln_std_pgv m) | ln_std_pgd => number (g_ln_std_pgd m)
          | interp_ln_spec_accels ps => fresh (g_interp_ln m ps)
          | interp_spec_accels ps => fresh (g_interp_accels m ps)
          | interp_ln_stds ps => fresh (g_interp_ln_stds m ps)
          | _ => Raise EAttr
          end
      end
  | OGa s ra sd =>
      let m := Ga11 s (rd h ra) (rd h sd) in
      match a with
      | ratio => Ok (Fresh (ga11_ratio m)) | ln_std => Ok (Own sd)
      | interp_ratio ps => fresh (ga11_interp_ratio m ps) | interp_ln_std ps => fresh (ga11_interp_ln_std m ps)
      | _ => Raise EAttr
      end
  | OBa s ea sd =>
      match a with
      | freqs => Ok (Own loc_freqs) | ln_eas => Ok (Own ea) | ln_std => Ok (Own sd)
      | eas => Ok (Fresh (map fexp (rd h ea)))
      | _ => Raise EAttr
      end
  end.

(** ** Programs: constructing, reading properties, writing into arrays obtained before *)
Inductive op :=
| New (k : nat) (src : dict) | NewGA11 (src : dict) | NewBA19 (src : dict)
| Get (o : nat) (a : acc)                 (* the next array variable := object[o].a *)
| Write (v j : nat) (x : flt)             (* variable[v][j] = x *)
| Scale (v : nat) (k : flt).              (* variable[v] *= k *)
(** Arrays, objects, what each variable refers to (nothing if the read raised), and everything seen so far. *)
Record world := World { w_heap : fheap; w_objs : list obj; w_vars : list (option nat); w_seen : list (res (list flt)) }.
Definition start (lb : library) : world := World (heap0 lb) [] [] [].

Definition made (w : world) (o : obj) (new : fheap) : world :=
  World (w_heap w ++ new) (w_objs w ++ [o]) (w_vars w) (w_seen w ++ [Ok []]).
Definition failed (w : world) (e : exn) : world := World (w_heap w) (w_objs w) (w_vars w) (w_seen w ++ [Raise e]).
Definition update (w : world) (v : nat) (f : list flt -> list flt) : world :=
  match nth_error (w_vars w) v with
  | Some (Some l) => World (put (w_heap w) l (f (rd (w_heap w) l))) (w_objs w) (w_vars w) (w_seen w)
  | _ => w
  end.
Definition step (lb : library) (w : world) (p : op) : world :=
  let h := w_heap w in let n := List.length h in
  match p with
  | New k src =>
      match nth_error lb k with
      | None => failed w EAttr
      | Some (_, make) =>
          match result (make (rd h (loc_periods k)) src) with
          | Raise e => failed w e
          | Ok g => match g_ln_std g with
                    | None => made w (OGmm k (g_scen g) n None) [g_ln_resp g]
                    | Some sd => made w (OGmm k (g_scen g) n (Some (S n))) [g_ln_resp g; sd]
                    end
          end
      end
  | NewGA11 src => match result (ga11 src) with
                   | Raise e => failed w e
                   | Ok m => made w (OGa (ga_scen m) n (S n)) [ga_ln_ratio m; ga_ln_std m]
                   end
  | NewBA19 src => match result (ba19_at (rd h loc_freqs) src) with
                   | Raise e => failed w e
                   | Ok m => made w (OBa (ba19_scen m) n (S n)) [ba19_eas_ln m; ba19_std_ln m]
                   end
  | Get o a =>
      match nth_error (w_objs w) o with
      | None => World h (w_objs w) (w_vars w ++ [None]) (w_seen w ++ [Raise EAttr])
      | Some ob =>
          match access lb h ob a with
          | Raise e => World h (w_objs w) (w_vars w ++ [None]) (w_seen w ++ [Raise e])
          | Ok (Fresh v) => World (h ++ [v]) (w_objs w) (w_vars w ++ [Some n]) (w_seen w ++ [Ok v])
          | Ok (Own l) => World h (w_objs w) (w_vars w ++ [Some l]) (w_seen w ++ [Ok (rd h l)])
          end
      end
  | Write v j x => update w v (fun a => put a j x)
  | Scale v k => update w v (map (fun x => fmul x k))
  end.
Definition run (lb : library) (ps : list op) : world := fold_left (step lb) ps (start lb).
(** Everything the program saw: the outcome of every construction and the value of every property read. *)
Definition seen (lb : library) (ps : list op) : list (res (list flt)) := w_seen (run lb ps).
