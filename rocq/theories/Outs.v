(** * Outs: specification vocabulary for models with PGA and PGV *)
From Verif Require Export GmmLib.
From Verif Require Import FrameworkProofs.
Open Scope R_scope.
Open Scope list_scope.

(** Everything the accessors [spec_accels], [pga], [pgv], [ln_stds], [ln_std_pga]
    and [ln_std_pgv] return. *)
Record outs := Outs {
  o_sa : list flt; o_pga : flt; o_pgv : flt;
  o_sd : list flt; o_sd_pga : flt; o_sd_pgv : flt }.

(** Construction succeeds and the accessors return [o]. *)
Definition gmm_out (r : M gmm) (o : outs) : Prop :=
  exists g, result r = Ok g /\
    result (g_spec_accels g) = Ok (o_sa o) /\ result (g_pga g) = Ok (o_pga o) /\ result (g_pgv g) = Ok (o_pgv o) /\
    result (g_ln_stds g) = Ok (o_sd o) /\ result (g_ln_std_pga g) = Ok (o_sd_pga o) /\ result (g_ln_std_pgv g) = Ok (o_sd_pgv o).
(** ... so [o] is determined by the construction. *)
Lemma gmm_out_fun r o1 o2 : gmm_out r o1 -> gmm_out r o2 -> o1 = o2.
Proof.
  intros (g & G & H1 & H2 & H3 & H4 & H5 & H6) (g' & G' & K1 & K2 & K3 & K4 & K5 & K6).
  assert (g = g') by congruence; subst g'. destruct o1, o2; cbn in *. congruence.
Qed.

(** A property of all responses (spectral accelerations, PGA, PGV). *)
Definition all_resp (P : flt -> Prop) (o : outs) : Prop := Forall P (o_sa o) /\ P (o_pga o) /\ P (o_pgv o).
Definition all_std (P : flt -> Prop) (o : outs) : Prop := Forall P (o_sd o) /\ P (o_sd_pga o) /\ P (o_sd_pgv o).
(** The responses of two constructions compared one by one. *)
Definition resp2 (R : flt -> flt -> Prop) (o1 o2 : outs) : Prop :=
  Forall2 R (o_sa o1) (o_sa o2) /\ R (o_pga o1) (o_pga o2) /\ R (o_pgv o1) (o_pgv o2).
Definition std2 (R : flt -> flt -> Prop) (o1 o2 : outs) : Prop :=
  Forall2 R (o_sd o1) (o_sd o2) /\ R (o_sd_pga o1) (o_sd_pga o2) /\ R (o_sd_pgv o1) (o_sd_pgv o2).

(** Models whose response and sigma are computed row by row. *)
Definition row_outs {A} (psa : list A) (ca cv : A) (scale : flt) (f h : A -> flt) : outs :=
  Outs (map (fun c => fexp (f c)) psa) (fexp (f ca)) (fmul (fexp (f cv)) scale) (map h psa) (h ca) (h cv).

Lemma gmm_out_rows {A} (r : M gmm) cls s (f h : A -> flt) rows psa i j ca cv :
  result r = Ok (GMM cls s (map f rows) (Some (map h rows))) ->
  take_idx rows (gc_psa cls) = Some psa ->
  gc_pga cls = Some i -> py_nth rows i = Some ca ->
  gc_pgv cls = Some j -> py_nth rows j = Some cv ->
  gmm_out r (row_outs psa ca cv (gc_pgv_scale cls) f h).
Proof.
  intros H Hp Hi Ha Hj Hv. eexists. split; [exact H|]. unfold row_outs; cbn [o_sa o_pga o_pgv o_sd o_sd_pga o_sd_pgv].
  split; [apply spec_accels_map with (rows := rows); exact Hp|].
  split; [apply (pga_map cls s f rows _ i); assumption|].
  split; [apply (pgv_map cls s f rows _ j); assumption|].
  split; [apply ln_stds_map with (rows := rows); exact Hp|].
  unfold g_ln_std_pga, g_ln_std_pgv, g_ln_std_at, arr_get; cbn [g_class g_ln_std].
  rewrite Hi, Hj, !py_nth_map, Ha, Hv. split; reflexivity.
Qed.

Lemma row_outs_fpos {A} (rows psa : list A) ca cv f h :
  incl psa rows -> In ca rows -> In cv rows -> (forall c, In c rows -> finite (f c)) ->
  (forall c, In c rows -> fpos (h c)) ->
  all_resp fpos (row_outs psa ca cv (Fin 1) f h) /\ all_std fpos (row_outs psa ca cv (Fin 1) f h).
Proof.
  intros Hp Ha Hv Hf Hh. unfold all_resp, all_std, row_outs; cbn [o_sa o_pga o_pgv o_sd o_sd_pga o_sd_pgv].
  split; (split; [apply Forall_map_intro; intros c Hc | split]); auto.
  - apply fpos_exp, Hf, Hp, Hc.
  - apply fpos_exp, Hf, Ha.
  - destruct (fpos_exp (f cv) (Hf cv Hv)) as (x & -> & Hx). exists (x * 1). split; [reflexivity|lra].
Qed.
Lemma row_resp_lt {A} (rows psa : list A) ca cv f1 h1 f2 h2 :
  incl psa rows -> In ca rows -> In cv rows ->
  (forall c, In c rows -> flt_lt (f1 c) (f2 c)) ->
  resp2 flt_lt (row_outs psa ca cv (Fin 1) f1 h1) (row_outs psa ca cv (Fin 1) f2 h2).
Proof.
  intros Hp Ha Hv H. unfold resp2, row_outs; cbn [o_sa o_pga o_pgv o_sd o_sd_pga o_sd_pgv].
  split; [apply Forall2_map_intro; intros c Hc | split].
  - apply flt_lt_exp, H, Hp, Hc.
  - apply flt_lt_exp, H, Ha.
  - destruct (H cv Hv) as (a & b & -> & -> & L). pose proof (exp_increasing a b L).
    exists (exp a * 1), (exp b * 1). repeat split. lra.
Qed.
Lemma row_outs_ext {A} (rows psa : list A) ca cv k f1 h1 f2 h2 :
  incl psa rows -> In ca rows -> In cv rows ->
  (forall c, In c rows -> f1 c = f2 c) -> (forall c, In c rows -> h1 c = h2 c) ->
  row_outs psa ca cv k f1 h1 = row_outs psa ca cv k f2 h2.
Proof.
  intros Hp Ha Hv Hf Hh. unfold row_outs.
  rewrite (Hf ca Ha), (Hf cv Hv), (Hh ca Ha), (Hh cv Hv).
  f_equal; apply map_ext_in; intros c Hc; [rewrite (Hf c (Hp c Hc))|rewrite (Hh c (Hp c Hc))]; reflexivity.
Qed.
