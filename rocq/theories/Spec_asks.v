(** * Specification: what a model asks of a scenario (C144)

    A line per parameter: its name, whether it must be given, the recommended limits or the options, and the value
    used when it is left out. Nothing here refers to the classes of the code. *)
From Coq Require Import Reals List String.
From Verif Require Import Py.
Open Scope R_scope.
Open Scope string_scope.
Open Scope list_scope.

Inductive ask :=
| Number (n : string) (needed : bool) (lo hi : option R) (default : option R)
| Choice (n : string) (needed : bool) (options : list string) (default : option string)
| Flag (n : string) (default : bool).
Definition ask_name (a : ask) : string := match a with Number n _ _ _ _ => n | Choice n _ _ _ => n | Flag n _ => n end.
Definition ask_needed (a : ask) : bool := match a with Number _ b _ _ _ => b | Choice _ b _ _ => b | Flag _ _ => false end.
Definition ask_default (a : ask) : option pyval :=
  match a with
  | Number _ _ _ _ (Some d) => Some (PNum (Fin d))
  | Choice _ _ _ (Some d) => Some (PStr d)
  | Flag _ d => Some (PBool d)
  | _ => None
  end.

(** The texts of the warnings (the limit itself is not printed, C08). *)
Definition too_small_text (n : string) (x : R) : message :=
  [FText n; FText " ("; FVal (PNum (Fin x)); FText ") is less than the recommended limit ({self.min})."].
Definition too_large_text (n : string) (x : R) : message :=
  [FText n; FText " ("; FVal (PNum (Fin x)); FText ") is greater than the recommended limit ({self.max})."].
Definition default_used_text (n : string) : message := [FText "Using default value for "; FText n].

(** A constructor follows a line of the table. *)
Definition follows {A} (ctor : dict -> M A) (a : ask) : Prop :=
  (* without a needed value nothing is constructed *)
  (ask_needed a = true -> forall src, dget src (ask_name a) = None \/ dget src (ask_name a) = Some PNone ->
     exists e, result (ctor src) = Raise e) /\
  (* leaving an optional value out (or giving None) is giving its default *)
  (ask_needed a = false -> forall d src, ask_default a = Some d -> dget src (ask_name a) = None \/ dget src (ask_name a) = Some PNone ->
     ctor src = ctor (dset src (ask_name a) d)) /\
  match a with
  | Number n _ lo hi _ => forall src x m, dget src n = Some (PNum (Fin x)) -> result (ctor src) = Ok m ->
      (In (too_small_text n x) (warns (ctor src)) <-> exists l, lo = Some l /\ x < l) /\
      (In (too_large_text n x) (warns (ctor src)) <-> (exists h, hi = Some h /\ h < x) /\ (forall l, lo = Some l -> l <= x))
  | Choice n _ options default => forall src t, dget src n = Some (PStr t) ->
      (forall m, result (ctor src) = Ok m -> (In (default_used_text n) (warns (ctor src)) <-> ~ In t options)) /\
      (* a text that is no option counts as the default *)
      (forall d, ~ In t options -> default = Some d -> In d options -> result (ctor src) = result (ctor (dset src n (PStr d))))
  | Flag n _ => forall src b m, dget src n = Some (PBool b) -> result (ctor src) = Ok m -> ~ In (default_used_text n) (warns (ctor src))
  end.
(** A constructor asks what the table says: it follows every line and looks at nothing else in the mapping. *)
Definition asks {A} (ctor : dict -> M A) (t : list ask) : Prop :=
  (forall a, In a t -> follows ctor a) /\
  (forall src src', (forall a, In a t -> dget src (ask_name a) = dget src' (ask_name a)) -> ctor src = ctor src').

(** ** The tables, transcribed from the PARAMS lists in /repo/src/pygmm (and not from the model files) *)
Definition c03_asks : list ask :=
  [Number "mag" true (Some 5) (Some 8.2) None;
   Number "dist_rup" true None (Some 1000) None].
Definition tp05_asks : list ask :=
  [Number "dist_rup" true None (Some 1000) None;
   Number "mag" true (Some 5) (Some 8.2) None].
Definition pzt11_asks : list ask :=
  [Number "mag" true (Some 5) (Some 8) None;
   Number "dist_rup" true None (Some 1000) None].
Definition ab06_asks : list ask :=
  [Number "mag" true None None None;
   Number "dist_rup" true None None None;
   Number "v_s30" true None None None].
Definition i14_asks : list ask :=
  [Number "dist_rup" true None (Some 150) None;
   Number "mag" true (Some 5) None None;
   Number "v_s30" true (Some 450) (Some 1200) None;
   Choice "mechanism" true ["SS"; "RS"] (Some "SS")].
Definition asb14_asks : list ask :=
  [Number "dist_jb" false (Some 0) (Some 200) None;
   Number "dist_epi" false (Some 0) (Some 200) None;
   Number "dist_hyp" false (Some 0) (Some 200) None;
   Number "mag" true (Some 4) (Some 8) None;
   Number "v_s30" true (Some 150) (Some 1200) None;
   Choice "mechanism" true ["SS"; "NS"; "RS"] None].
Definition dbc14_asks : list ask :=
  [Number "dist_jb" true (Some 5) (Some 200) None;
   Number "mag" true (Some 4) (Some 7) None;
   Number "v_s30" true (Some 200) (Some 800) None;
   Number "depth_hyp" true (Some 0) (Some 25) None;
   Choice "mechanism" true ["SS"; "NS"; "RS"] None].
Definition aga16_asks : list ask :=
  [Number "mag" true (Some 3) (Some 8.5) None;
   Number "dist_rup" false None None None;
   Number "dist_hyp" false None None None;
   Number "depth_hyp" false None None None;
   Number "v_s30" true (Some 150) (Some 1500) None;
   Choice "event_type" true ["interface"; "intraslab"] None;
   Choice "tectonic_region" false ["forearc"; "backarc"; "unknown"] (Some "unknown")].
Definition cop14_asks : list ask :=
  [Number "mag" true (Some 3) (Some 8.5) None;
   Number "dist_rup" false None None None;
   Number "v_s30" true (Some 150) (Some 1500) None;
   Choice "event_type" true ["interface"; "intraslab"] None].
Definition bssa14_asks : list ask :=
  [Number "mag" true (Some 3) (Some 8.5) None;
   Number "depth_1_0" false None None None;
   Number "dist_jb" true None (Some 300) None;
   Number "v_s30" true (Some 150) (Some 1500) None;
   Choice "mechanism" false ["U"; "SS"; "NS"; "RS"] (Some "U");
   Choice "region" false ["global"; "california"; "china"; "italy"; "japan"; "new_zealand"; "taiwan"; "turkey"] (Some "global")].
Definition cy14_asks : list ask :=
  [Number "dist_rup" true (Some 0) (Some 300) None;
   Number "dist_x" true None None None;
   Number "dist_jb" true None None None;
   Number "mag" true (Some 3.5) (Some 8.5) None;
   Number "v_s30" true (Some 180) (Some 1500) None;
   Number "depth_tor" false (Some 0) (Some 20) None;
   Number "depth_1_0" false None None None;
   Number "dpp_centered" false None None (Some 0);
   Number "dip" true None None None;
   Choice "mechanism" false ["U"; "SS"; "NS"; "RS"] (Some "U");
   Flag "on_hanging_wall" false;
   Choice "region" false ["california"; "china"; "italy"; "japan"] (Some "california");
   Choice "vs_source" false ["measured"; "inferred"] (Some "measured")].
Definition cb14_asks : list ask :=
  [Number "depth_1_0" false None None None;
   Number "depth_2_5" false (Some 0) (Some 10) None;
   Number "depth_bor" false None None None;
   Number "depth_bot" false None None (Some 15);
   Number "depth_hyp" false (Some 0) (Some 20) None;
   Number "depth_tor" false (Some 0) (Some 20) None;
   Number "dip" true (Some 15) (Some 90) None;
   Number "dist_jb" true None None None;
   Number "dist_rup" true None (Some 300) None;
   Number "dist_x" true None None None;
   Number "mag" true (Some 3.3) (Some 8.5) None;
   Number "v_s30" true (Some 150) (Some 1500) None;
   Number "width" false None None None;
   Choice "region" false ["global"; "california"; "japan"; "italy"; "china"] (Some "global");
   Choice "mechanism" true ["SS"; "NS"; "RS"] None].
Definition ask14_asks : list ask :=
  [Number "dist_rup" true None (Some 300) None;
   Number "dist_jb" true None None None;
   Number "mag" true (Some 3) (Some 8.5) None;
   Number "v_s30" true (Some 180) (Some 1000) None;
   Number "depth_1_0" false None None None;
   Number "depth_tor" false None None None;
   Number "dip" true None None None;
   Number "dist_crjb" false None None (Some 15);
   Number "dist_x" false None None None;
   Number "dist_y0" false None None None;
   Number "width" false None None None;
   Choice "mechanism" true ["SS"; "NS"; "RS"] None;
   Choice "region" false ["global"; "california"; "china"; "italy"; "japan"; "taiwan"] (Some "global");
   Choice "vs_source" false ["measured"; "inferred"] (Some "measured");
   Flag "is_aftershock" false;
   Flag "on_hanging_wall" false].
Definition hkr14_asks : list ask :=
  [Number "depth_hyp" false (Some 0) (Some 40) (Some 15);
   Number "dist_jb" false (Some 0) (Some 200) None;
   Number "mag" true (Some 4) (Some 8) None;
   Number "v_s30" true (Some 100) (Some 1200) None;
   Choice "mechanism" true ["SS"; "NS"; "RS"] None].
Definition as96_asks : list ask :=
  [Number "mag" true (Some 4) (Some 7.5) None;
   Number "dist_rup" true (Some 0) (Some 250) None;
   Choice "site_cond" true ["soil"; "rock"] None].
Definition as16_asks : list ask :=
  [Number "mag" true (Some 3) (Some 7.9) None;
   Number "dist_rup" true (Some 0) (Some 200) None;
   Number "v_s30" true (Some 200) (Some 1000) None;
   Choice "mechanism" true ["SS"; "NS"; "RS"] None;
   Number "depth_1_0" false None None None].
Definition ks06_asks : list ask :=
  [Number "mag" true (Some 5) (Some 7.6) None;
   Number "dist_rup" true (Some 0) (Some 200) None;
   Number "v_s30" true (Some 200) (Some 1000) None].
Definition pr23_asks : list ask :=
  [Number "mag" true (Some 4) (Some 8) None;
   Number "dist_rup" true (Some 0) (Some 300) None;
   Number "v_s30" true (Some 150) (Some 2000) None].
Definition pr24_asks : list ask :=
  [Number "mag" true (Some 4.5) (Some 8.5) None;
   Number "dist_rup" true (Some 0) (Some 300) None;
   Number "v_s30" true (Some 150) (Some 2000) None;
   Choice "event_type" true ["interface"; "slab"] None;
   Choice "region" true ["Japan"; "New Zealand"; "South America"; "Taiwan"] None].
Definition ba19_asks : list ask :=
  [Number "dist_rup" true (Some 0) (Some 300) None;
   Number "mag" true (Some 3) (Some 8) None;
   Number "v_s30" true (Some 180) (Some 1500) None;
   Number "depth_tor" true (Some 0) (Some 20) None;
   Number "depth_1_0" false None None None;
   Choice "mechanism" false ["SS"; "NS"; "RS"] (Some "SS")].
Definition ga11_asks : list ask :=
  [Number "dist_rup" true None (Some 200) None;
   Number "mag" true (Some 5) (Some 8.5) None;
   Number "v_s30" true (Some 450) (Some 1200) None;
   Number "pga_ref" true (Some 0.001) (Some 10) None;
   Choice "mechanism" true ["SS"; "NS"; "RS"] None].
