(** * Outs1: specification vocabulary for models with PGA but without PGV *)
From Coquelicot Require Import Coquelicot.
From Coq Require Import List Reals Lra.
From Verif Require Export GmmLib.
From Verif Require Import FrameworkProofs Anal Cont.
Open Scope R_scope.
Open Scope list_scope.

(** What the accessors [spec_accels], [pga], [ln_stds] and [ln_std_pga] return. *)
Record outs1 := Outs1 { q_sa : list flt; q_pga : flt; q_sd : list flt; q_sd_pga : flt }.

(** Construction succeeds, the accessors return [o], and there is no PGV. *)
Definition gmm_out1 (r : M gmm) (o : outs1) : Prop :=
  exists g, result r = Ok g /\
    result (g_spec_accels g) = Ok (q_sa o) /\ result (g_pga g) = Ok (q_pga o) /\
    result (g_ln_stds g) = Ok (q_sd o) /\ result (g_ln_std_pga g) = Ok (q_sd_pga o) /\
    result (g_pgv g) = Raise ENotImpl /\ result (g_ln_std_pgv g) = Raise ENotImpl.
Lemma gmm_out1_fun r o1 o2 : gmm_out1 r o1 -> gmm_out1 r o2 -> o1 = o2.
Proof.
  intros (g & G & H1 & H2 & H3 & H4 & _) (g' & G' & K1 & K2 & K3 & K4 & _).
  assert (g = g') by congruence; subst g'. destruct o1, o2; cbn in *. congruence.
Qed.
(** A property of all responses, of all standard deviations; two sets of responses compared one by one. *)
Definition all_resp1 (P : flt -> Prop) (o : outs1) : Prop := Forall P (q_sa o) /\ P (q_pga o).
Definition all_std1 (P : flt -> Prop) (o : outs1) : Prop := Forall P (q_sd o) /\ P (q_sd_pga o).
Definition resp21 (R : flt -> flt -> Prop) (o1 o2 : outs1) : Prop := Forall2 R (q_sa o1) (q_sa o2) /\ R (q_pga o1) (q_pga o2).
Definition std21 (R : flt -> flt -> Prop) (o1 o2 : outs1) : Prop := Forall2 R (q_sd o1) (q_sd o2) /\ R (q_sd_pga o1) (q_sd_pga o2).
(** Continuity of all responses at [x0], as in [resp_continuous]. *)
Definition resp_continuous1 (run : R -> outs1 -> Prop) (x0 : R) : Prop :=
  forall eps, 0 < eps -> exists delta, 0 < delta /\
    forall x o0 o, Rabs (x - x0) < delta -> run x0 o0 -> run x o -> resp21 (ln_close eps) o0 o.

(** Models computed row by row. *)
Definition row_outs1 {A} (psa : list A) (ca : A) (f h : A -> flt) : outs1 :=
  Outs1 (map (fun c => fexp (f c)) psa) (fexp (f ca)) (map h psa) (h ca).
Lemma gmm_out1_rows {A} (r : M gmm) cls s (f h : A -> flt) rows psa i ca :
  result r = Ok (GMM cls s (map f rows) (Some (map h rows))) ->
  take_idx rows (gc_psa cls) = Some psa ->
  gc_pga cls = Some i -> py_nth rows i = Some ca -> gc_pgv cls = None ->
  gmm_out1 r (row_outs1 psa ca f h).
Proof.
  intros H Hp Hi Ha Hv. eexists. split; [exact H|]. unfold row_outs1; cbn [q_sa q_pga q_sd q_sd_pga].
  split; [apply spec_accels_map with (rows := rows); exact Hp|].
  split; [apply (pga_map cls s f rows _ i); assumption|].
  split; [apply ln_stds_map with (rows := rows); exact Hp|].
  unfold g_ln_std_pga, g_ln_std_pgv, g_ln_std_at, g_pgv, arr_get; cbn [g_class g_ln_std].
  rewrite Hi, Hv, !py_nth_map, Ha. repeat split; reflexivity.
Qed.
Lemma row_outs1_resp {A} (rows psa : list A) ca f h (P : flt -> Prop) :
  incl psa rows -> In ca rows -> (forall c, In c rows -> P (fexp (f c))) -> all_resp1 P (row_outs1 psa ca f h).
Proof. intros Hp Ha H. split; cbn [row_outs1 q_sa q_pga]; [apply Forall_map_intro; auto|auto]. Qed.
Lemma row_outs1_std {A} (rows psa : list A) ca f h (P : flt -> Prop) :
  incl psa rows -> In ca rows -> (forall c, In c rows -> P (h c)) -> all_std1 P (row_outs1 psa ca f h).
Proof. intros Hp Ha H. split; cbn [row_outs1 q_sd q_sd_pga]; [apply Forall_map_intro; auto|auto]. Qed.
Lemma row_outs1_resp2 {A} (rows psa : list A) ca f1 h1 f2 h2 (Q : flt -> flt -> Prop) :
  incl psa rows -> In ca rows -> (forall c, In c rows -> Q (fexp (f1 c)) (fexp (f2 c))) ->
  resp21 Q (row_outs1 psa ca f1 h1) (row_outs1 psa ca f2 h2).
Proof. intros Hp Ha H. split; cbn [row_outs1 q_sa q_pga]; [apply Forall2_map_intro; auto|auto]. Qed.
Lemma row_outs1_std2 {A} (rows psa : list A) ca f1 h1 f2 h2 (Q : flt -> flt -> Prop) :
  incl psa rows -> In ca rows -> (forall c, In c rows -> Q (h1 c) (h2 c)) ->
  std21 Q (row_outs1 psa ca f1 h1) (row_outs1 psa ca f2 h2).
Proof. intros Hp Ha H. split; cbn [row_outs1 q_sd q_sd_pga]; [apply Forall2_map_intro; auto|auto]. Qed.
Lemma row_outs1_ext {A} (rows psa : list A) ca f1 h1 f2 h2 :
  incl psa rows -> In ca rows ->
  (forall c, In c rows -> f1 c = f2 c) -> (forall c, In c rows -> h1 c = h2 c) ->
  row_outs1 psa ca f1 h1 = row_outs1 psa ca f2 h2.
Proof.
  intros Hp Ha Hf Hh. unfold row_outs1. rewrite (Hf ca Ha), (Hh ca Ha).
  f_equal; apply map_ext_in; intros c Hc; [rewrite (Hf c (Hp c Hc))|rewrite (Hh c (Hp c Hc))]; reflexivity.
Qed.
Lemma rows_continuous1 {A} (rows psa : list A) ca (f : R -> A -> flt) (h : R -> A -> flt) (g : R -> A -> R) (run : R -> outs1 -> Prop) x0 r :
  incl psa rows -> In ca rows -> 0 < r ->
  (forall x o, run x o -> o = row_outs1 psa ca (f x) (h x)) ->
  (forall x c, In c rows -> Rabs (x - x0) < r -> f x c = Fin (g x c)) ->
  (forall c, In c rows -> continuous (fun x => g x c) x0) ->
  resp_continuous1 run x0.
Proof.
  intros Hp Ha Hr Ho Hf Hc eps He.
  destruct (uniform_delta rows g x0 Hc eps He) as (d & Hd & U).
  exists (Rmin d r). split; [apply Rmin_pos; assumption|].
  intros x o0 o Hx H0 H1. rewrite (Ho _ _ H0), (Ho _ _ H1).
  assert (X1 : Rabs (x - x0) < d) by (apply Rlt_le_trans with (1 := Hx), Rmin_l).
  assert (X2 : Rabs (x - x0) < r) by (apply Rlt_le_trans with (1 := Hx), Rmin_r).
  assert (X0 : Rabs (x0 - x0) < r) by (rewrite Rminus_eq_0, Rabs_R0; exact Hr).
  apply (row_outs1_resp2 rows); [exact Hp|exact Ha|].
  intros c Hi. rewrite (Hf x0 c Hi X0), (Hf x c Hi X2). apply ln_close_exp. apply U; assumption.
Qed.
