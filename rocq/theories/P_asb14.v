(** * Proofs for Akkar, Sandikkaya & Bommer (2014) *)
From Coquelicot Require Import Coquelicot.
From Interval Require Import Tactic.
From Coq Require Import List.
From Verif Require Import M_asb14 FrameworkProofs Anal Nga Outs Cont Spec_asb14.
Open Scope R_scope.
Open Scope string_scope.
Open Scope list_scope.

Lemma asb_src_gives a : asb_gives (asb_src a) a.
Proof. repeat split. Qed.

Definition asb_mech (a : asb) : pyval := choice ["SS"; "NS"; "RS"] PNone (Some (a_mech a)).
Definition asb_scen (a : asb) : scen :=
  Scen [("dist_jb", onum (a_jb a)); ("dist_epi", onum (a_epi a)); ("dist_hyp", onum (a_hyp a));
        ("mag", PNum (Fin (a_m a))); ("v_s30", PNum (Fin (a_v a))); ("mechanism", asb_mech a)] [].

(** The row at index 0 of each table. *)
Definition asb_row (a : asb) (d : R) (pga : flt) (c : asb14_row) : flt :=
  (asb14_ln_ref c (Fin (a_m a)) (Fin d) (asb_mech a) + asb14_site c pga (Fin (a_v a)))%flt.
Definition asb_pga (a : asb) (d : R) (c0 : asb14_row) : flt := fexp (asb14_ln_ref c0 (Fin (a_m a)) (Fin d) (asb_mech a)).

Lemma asb14_construct src a : asb_gives src a ->
  result (asb14 src) =
  match asb_choice a with
  | None => Raise ENotImpl
  | Some (d, []) => Raise EIndex
  | Some (d, c0 :: l) => Ok (GMM asb14_class (asb_scen a) (map (asb_row a d (asb_pga a d c0)) (c0 :: l))
       (Some (map (fun c => qf (asb14_sd_total c)) (c0 :: l))))
  end.
Proof.
  intros (G1 & G2 & G3 & G4 & G5 & G6). unfold asb14.
  rewrite gmm_make_result by reflexivity.
  let x := eval cbv [gc_params asb14_class NumP CatP CatBoolP map] in (gc_params asb14_class) in change (gc_params asb14_class) with x.
  unfold has_num, has_str, gives_num in *.
  cbn [checks p_name]. rewrite G1, G2, G3, G4, G5, G6.
  repeat (rewrite ?chk_num, ?chk_onum_none; cbn [checks p_name]).
  change [PStr "SS"; PStr "NS"; PStr "RS"] with (map PStr ["SS"; "NS"; "RS"]).
  rewrite chk_str_req. cbn [checks p_name]. fold (asb_mech a).
  unfold asb_choice, asb_scen.
  destruct (a_jb a) as [d|]; [|destruct (a_hyp a) as [d|]; [|destruct (a_epi a) as [d|]]]; cbn -[asb14_jb_coeff asb14_hyp_coeff asb14_epi_coeff asb_mech asb14_ln_ref asb14_site]; reflexivity.
Qed.

(** All three tables have 64 rows with PGA first and PGV second. *)
Definition asb_tables : list (list asb14_row) := [asb14_jb_coeff; asb14_hyp_coeff; asb14_epi_coeff].
Definition asb_all : list asb14_row := asb14_jb_coeff ++ asb14_hyp_coeff ++ asb14_epi_coeff.
Lemma asb_choice_in a d t : asb_choice a = Some (d, t) -> In t asb_tables.
Proof.
  unfold asb_choice, asb_tables. destruct (a_jb a), (a_hyp a), (a_epi a); intros H; try discriminate H; injection H as <- <-; cbn [In]; auto.
Qed.
Lemma asb_shape t : In t asb_tables -> exists c0 c1 l, t = c0 :: c1 :: l /\ List.length l = 62%nat /\
   take_idx t (gc_psa asb14_class) = Some l.
Proof. intros [<-|[<-|[<-|[]]]]; do 3 eexists; (split; [reflexivity|]; split; reflexivity). Qed.
Lemma asb_in t c : In t asb_tables -> In c t -> In c asb_all.
Proof. intros [<-|[<-|[<-|[]]]] H; unfold asb_all; rewrite !in_app_iff; auto. Qed.

Definition asb_outs (a : asb) (d : R) (t : list asb14_row) : outs :=
  match t with
  | c0 :: c1 :: l => row_outs l c0 c1 (Fin 1) (asb_row a d (asb_pga a d c0)) (fun c => qf (asb14_sd_total c))
  | _ => Outs [] NaN NaN [] NaN NaN
  end.
Lemma asb14_out src a d t : asb_gives src a -> asb_choice a = Some (d, t) -> gmm_out (asb14 src) (asb_outs a d t).
Proof.
  intros G C. pose proof (asb14_construct src a G) as K. rewrite C in K.
  destruct (asb_shape t (asb_choice_in _ _ _ C)) as (c0 & c1 & l & -> & L & T).
  cbn [asb_outs]. eapply (gmm_out_rows (asb14 src) asb14_class _ _ _ (c0 :: c1 :: l) l 0%Z 1%Z c0 c1);
    [exact K|exact T|reflexivity|reflexivity|reflexivity|reflexivity].
Qed.

(** *** C33 *)
Lemma asb14_none src a : asb_gives src a -> a_jb a = None -> a_hyp a = None -> a_epi a = None ->
  result (asb14 src) = Raise ENotImpl.
Proof. intros G H1 H2 H3. rewrite (asb14_construct src a G). unfold asb_choice. rewrite H1, H2, H3. reflexivity. Qed.
Lemma asb14_some src a : asb_gives src a -> a_jb a <> None \/ a_hyp a <> None \/ a_epi a <> None ->
  exists o, gmm_out (asb14 src) o.
Proof.
  intros G H. destruct (asb_choice a) as [[d t]|] eqn:E; [eexists; eapply asb14_out; eassumption|].
  exfalso. unfold asb_choice in E. destruct (a_jb a), (a_hyp a), (a_epi a); try discriminate; intuition.
Qed.
Lemma asb_outs_same a1 a2 d t : a_m a1 = a_m a2 -> a_v a1 = a_v a2 -> a_mech a1 = a_mech a2 -> asb_outs a1 d t = asb_outs a2 d t.
Proof. intros E1 E2 E3. unfold asb_outs, asb_row, asb_pga, asb_mech. rewrite E1, E2, E3. reflexivity. Qed.
Lemma asb14_precedence src1 src2 a1 a2 : asb_gives src1 a1 -> asb_gives src2 a2 ->
  a_m a1 = a_m a2 -> a_v a1 = a_v a2 -> a_mech a1 = a_mech a2 ->
  (exists d, a_jb a1 = Some d /\ a_jb a2 = Some d) \/
  (a_jb a1 = None /\ a_jb a2 = None /\ exists d, a_hyp a1 = Some d /\ a_hyp a2 = Some d) ->
  exists o, gmm_out (asb14 src1) o /\ gmm_out (asb14 src2) o.
Proof.
  intros G1 G2 E1 E2 E3 H.
  assert (exists d t, asb_choice a1 = Some (d, t) /\ asb_choice a2 = Some (d, t)) as (d & t & C1 & C2).
  { unfold asb_choice. destruct H as [(d & H1 & H2)|(H1 & H2 & d & H3 & H4)].
    - rewrite H1, H2. eauto.
    - rewrite H1, H2, H3, H4. eauto. }
  exists (asb_outs a1 d t). split; [apply asb14_out; assumption|].
  rewrite (asb_outs_same a1 a2) by assumption. apply asb14_out; assumption.
Qed.

(** *** Real values *)
Lemma asb_ref_fin c a d : In c asb_all ->
  asb14_ln_ref c (Fin (a_m a)) (Fin d) (asb_mech a) = Fin (asb_ref_val c (a_mech a) (a_m a) d).
Proof.
  intros Hc. row_pos Hc (fun c => asb14_a_6 c) as A6.
  assert (P : 0 < d * d + Q2R (asb14_a_6 c) * Q2R (asb14_a_6 c)).
  { apply sq2_pos; lra. }
  assert (S : 0 < sqrt (d * d + Q2R (asb14_a_6 c) * Q2R (asb14_a_6 c))) by (apply sqrt_lt_R0; exact P).
  unfold asb14_ln_ref, asb_ref_val, qf. fcbn. rewrite fsqrt_fin by lra. rewrite flog_fin by exact S. fcbn.
  set (L := ln _). set (m := a_m a) in *.
  assert (M : is_str (asb_mech a) "NS" = String.eqb (a_mech a) "NS" /\ is_str (asb_mech a) "RS" = String.eqb (a_mech a) "RS").
  { unfold asb_mech, choice. cbn [existsb]. destruct (String.eqb_spec (a_mech a) "SS") as [E|E]; [rewrite E; split; reflexivity|].
    destruct (String.eqb_spec (a_mech a) "NS") as [E2|E2]; [rewrite E2; split; reflexivity|].
    destruct (String.eqb_spec (a_mech a) "RS") as [E3|E3]; [rewrite E3; split; reflexivity|]. split; reflexivity. }
  destruct M as [-> ->].
  destruct (Rleb_spec m (Q2R (asb14_c_1 c))) as [H|H].
  - rewrite (Rmin_left (m - _) 0) by lra. rewrite (Rmax_right (m - _) 0) by lra.
    destruct (String.eqb (a_mech a) "NS"); [|destruct (String.eqb (a_mech a) "RS")]; fcbn; f_equal; ring.
  - rewrite (Rmin_right (m - _) 0) by lra. rewrite (Rmax_left (m - _) 0) by lra.
    destruct (String.eqb (a_mech a) "NS"); [|destruct (String.eqb (a_mech a) "RS")]; fcbn; f_equal; ring.
Qed.
Lemma asb_site_fin c p v : In c asb_all -> 0 < p -> 0 < v ->
  asb14_site c (Fin p) (Fin v) = Fin (asb_site_val c p v).
Proof.
  intros Hc Hp Hv. row_pos Hc (fun c => asb14_c c) as AC. row_pos Hc (fun c => asb14_v_con c) as AV.
  assert (AC' : 0 < Q2R (asb14_c c)) by lra. assert (AV' : 0 < Q2R (asb14_v_con c)) by lra.
  assert (R0 : 0 < v / 750) by (apply Rdiv_lt_0_compat; lra).
  unfold asb14_site, asb_site_val, qf. fcbn. unfold Rleb. destruct (Rle_dec v 750).
  - rewrite fdiv_fin by (apply Rgt_not_eq; lra). rewrite flog_fin by exact R0. rewrite fpow_fin by exact R0. fcbn.
    set (u := Rpower _ _). assert (U : 0 < u) by apply exp_pos.
    assert (Q1 : 0 < (p + Q2R (asb14_c c)) * u) by (apply Rmult_lt_0_compat; lra).
    assert (Q2 : 0 < p + Q2R (asb14_c c) * u) by (pose proof (Rmult_lt_0_compat _ _ AC' U); lra).
    rewrite fdiv_fin by (apply Rgt_not_eq; lra). rewrite flog_fin by (apply Rdiv_lt_0_compat; assumption). reflexivity.
  - rewrite fdiv_fin by (apply Rgt_not_eq; lra). rewrite flog_fin; [reflexivity|].
    apply Rdiv_lt_0_compat; [apply Rmin_pos; lra|lra].
Qed.
Lemma asb_row_fin a d c0 c : In c0 asb_all -> In c asb_all -> 0 < a_v a ->
  asb_row a d (asb_pga a d c0) c = Fin (asb_val a d c0 c).
Proof.
  intros H0 Hc Hv. unfold asb_row, asb_pga. rewrite (asb_ref_fin c0 a d H0), (asb_ref_fin c a d Hc).
  cbn [fexp]. rewrite asb_site_fin by (auto using exp_pos). reflexivity.
Qed.
(** Everything finite and positive. *)
Lemma asb_incl t : In t asb_tables -> incl t asb_all.
Proof. intros H c Hc. eapply asb_in; eassumption. Qed.
Lemma asb14_positive src a : asb_gives src a -> a_jb a <> None \/ a_hyp a <> None \/ a_epi a <> None -> 0 < a_v a ->
  exists o, gmm_out (asb14 src) o /\ List.length (o_sa o) = 62%nat /\ List.length (o_sd o) = 62%nat /\
   all_resp fpos o /\ all_std (fun s => exists x, s = Fin x /\ 0.68 <= x <= 0.84) o.
Proof.
  intros G H Hv. destruct (asb_choice a) as [[d t]|] eqn:E.
  2:{ exfalso. unfold asb_choice in E. destruct (a_jb a), (a_hyp a), (a_epi a); try discriminate; intuition. }
  exists (asb_outs a d t). split; [apply asb14_out; assumption|].
  pose proof (asb_choice_in _ _ _ E) as T. destruct (asb_shape t T) as (c0 & c1 & l & -> & L & _).
  assert (I : incl (c0 :: c1 :: l) asb_all) by (apply asb_incl; exact T).
  cbn [asb_outs]. unfold row_outs, all_resp, all_std; cbn [o_sa o_pga o_pgv o_sd o_sd_pga o_sd_pgv]. rewrite !map_length.
  split; [exact L|]. split; [exact L|].
  assert (I0 : In c0 asb_all) by (apply I; left; reflexivity).
  assert (I1 : In c1 asb_all) by (apply I; right; left; reflexivity).
  assert (Il : forall c, In c l -> In c asb_all) by (intros c Hc; apply I; right; right; exact Hc).
  assert (F : forall c, In c asb_all -> fpos (fexp (asb_row a d (asb_pga a d c0) c))).
  { intros c Hc. rewrite asb_row_fin by assumption. apply fpos_exp, finite_fin. }
  assert (Sd : forall c, In c asb_all -> exists x, qf (asb14_sd_total c) = Fin x /\ 0.68 <= x <= 0.84).
  { intros c Hc. row_ge Hc (68#100)%Q (fun c => asb14_sd_total c) as S1. row_upto Hc (fun c => asb14_sd_total c) (84#100)%Q as S2.
    eexists; split; [reflexivity|]. lra. }
  split; [split; [apply Forall_map_intro; auto|split; [auto|]]|split; [apply Forall_map_intro; auto|split; auto]].
  destruct (F c1 I1) as (x & -> & X). exists (x * 1). split; [reflexivity|lra].
Qed.

(** *** C34 *)
(** At the reference velocity the response is the published reference relation. *)
Lemma asb_site_ref c p : 0 < p -> In c asb_all -> asb_site_val c p 750 = 0.
Proof.
  intros Hp Hc. row_pos Hc (fun c => asb14_c c) as AC. assert (AC' : 0 < Q2R (asb14_c c)) by lra.
  unfold asb_site_val. destruct (Rle_dec 750 750); [|lra]. replace (750 / 750) with 1 by lra.
  rewrite ln_1. replace (Rpower 1 (Q2R (asb14_n c))) with 1 by (unfold Rpower; rewrite ln_1, Rmult_0_r, exp_0; reflexivity).
  rewrite !Rmult_1_r. unfold Rdiv. rewrite Rinv_r by (apply Rgt_not_eq; lra). rewrite ln_1. ring.
Qed.
Lemma asb14_median src a d t c0 : asb_gives src a -> asb_choice a = Some (d, t) -> nth_error t 0 = Some c0 -> 0 < a_v a ->
  exists o, gmm_out (asb14 src) o /\
    Forall2 (fun c s => s = Fin (exp (asb_val a d c0 c))) (skipn 2 t) (o_sa o) /\
    (forall c, nth_error t 0 = Some c -> o_pga o = Fin (exp (asb_val a d c0 c))) /\
    (forall c, nth_error t 1 = Some c -> o_pgv o = Fin (exp (asb_val a d c0 c))).
Proof.
  intros G E E0 Hv. exists (asb_outs a d t). split; [apply asb14_out; assumption|].
  pose proof (asb_choice_in _ _ _ E) as T. destruct (asb_shape t T) as (c0' & c1 & l & -> & L & _).
  injection E0 as ->.
  assert (I : incl (c0 :: c1 :: l) asb_all) by (apply asb_incl; exact T).
  assert (I0 : In c0 asb_all) by (apply I; left; reflexivity).
  assert (I1 : In c1 asb_all) by (apply I; right; left; reflexivity).
  assert (Il : forall c, In c l -> In c asb_all) by (intros c Hc; apply I; right; right; exact Hc).
  assert (F : forall c, In c asb_all -> fexp (asb_row a d (asb_pga a d c0) c) = Fin (exp (asb_val a d c0 c))).
  { intros c Hc. rewrite asb_row_fin by (auto; lra). reflexivity. }
  split.
  { clear L. assert (Forall2 (fun c s => s = Fin (exp (asb_val a d c0 c))) (map (fun x => x) l) (map (fun c => fexp (asb_row a d (asb_pga a d c0) c)) l)).
    { apply Forall2_map_intro. intros c Hc. apply F, Il, Hc. } rewrite map_id in H. exact H. }
  split; intros c Hc; injection Hc as <-.
  - apply F; exact I0.
  - change (o_pgv (asb_outs a d (c0 :: c1 :: l))) with (fmul (fexp (asb_row a d (asb_pga a d c0) c1)) (Fin 1)).
    rewrite (F c1 I1). cbn. rewrite Rmult_1_r. reflexivity.
Qed.
Lemma asb14_reference src a d t : asb_gives src a -> asb_choice a = Some (d, t) -> a_v a = 750 ->
  exists o, gmm_out (asb14 src) o /\
    Forall2 (fun c s => s = Fin (exp (asb_ref_val c (a_mech a) (a_m a) d))) (skipn 2 t) (o_sa o) /\
    (forall c, nth_error t 0 = Some c -> o_pga o = Fin (exp (asb_ref_val c (a_mech a) (a_m a) d))) /\
    (forall c, nth_error t 1 = Some c -> o_pgv o = Fin (exp (asb_ref_val c (a_mech a) (a_m a) d))).
Proof.
  intros G E Hv. pose proof (asb_choice_in _ _ _ E) as T. destruct (asb_shape t T) as (c0 & c1 & l & -> & L & _).
  assert (I : incl (c0 :: c1 :: l) asb_all) by (apply asb_incl; exact T).
  destruct (asb14_median src a d _ c0 G E eq_refl) as (o & O & S1 & S2 & S3); [lra|].
  assert (F : forall c, In c (c0 :: c1 :: l) -> asb_val a d c0 c = asb_ref_val c (a_mech a) (a_m a) d).
  { intros c Hc. unfold asb_val. rewrite Hv, asb_site_ref by (auto using exp_pos). apply Rplus_0_r. }
  exists o. split; [exact O|]. split; [|split].
  - cbn [skipn] in *. assert (Q : forall k, incl k (c0 :: c1 :: l) -> forall z, Forall2 (fun c s => s = Fin (exp (asb_val a d c0 c))) k z -> Forall2 (fun c s => s = Fin (exp (asb_ref_val c (a_mech a) (a_m a) d))) k z).
    { induction 2 as [|x y k z E1 E2 IH]; [constructor|]. constructor.
      - rewrite E1, F; [reflexivity|apply H; left; reflexivity].
      - apply IH. intros q Hq. apply H; right; exact Hq. }
    apply Q; [intros q Hq; right; right; exact Hq|exact S1].
  - intros c Hc. rewrite (S2 c Hc), F; [reflexivity|]. injection Hc as <-. left; reflexivity.
  - intros c Hc. rewrite (S3 c Hc), F; [reflexivity|]. injection Hc as <-. right; left; reflexivity.
Qed.

(** Continuity in magnitude, everywhere (in particular at the hinge). *)
Lemma asb_ref_cont c mech d m0 : continuous (fun m => asb_ref_val c mech m d) m0.
Proof. unfold asb_ref_val. cont. Qed.
Lemma asb14_cont_mag a m0 : 0 < a_v a ->
  resp_continuous (fun m o => exists src, asb_gives src (asb_with_m a m) /\ gmm_out (asb14 src) o) m0.
Proof.
  intros Hv. destruct (asb_choice a) as [[d t]|] eqn:E.
  - pose proof (asb_choice_in _ _ _ E) as T. destruct (asb_shape t T) as (c0 & c1 & l & -> & L & _).
    assert (I : incl (c0 :: c1 :: l) asb_all) by (apply asb_incl; exact T).
    assert (I0 : In c0 asb_all) by (apply I; left; reflexivity).
    apply (rows_continuous (c0 :: c1 :: l) l c0 c1 (fun m => asb_row (asb_with_m a m) d (asb_pga (asb_with_m a m) d c0))
             (fun m c => qf (asb14_sd_total c)) (fun m => asb_val (asb_with_m a m) d c0)) with (r := 1);
      [intros c Hc; right; right; exact Hc|left; reflexivity|right; left; reflexivity|lra| | |].
    + intros m o (src & G & O).
      apply (gmm_out_fun (asb14 src)); [exact O|].
      apply (asb14_out src (asb_with_m a m) d (c0 :: c1 :: l) G). exact E.
    + intros m c Hc _. apply asb_row_fin; auto.
    + intros c Hc. specialize (I c Hc). unfold asb_val, asb_with_m; cbn [a_mech a_m a_v].
      row_pos I (fun c => asb14_c c) as AC. assert (AC' : 0 < Q2R (asb14_c c)) by lra.
      apply cplus; [apply asb_ref_cont|]. unfold asb_site_val. destruct (Rle_dec (a_v a) 750); [|cont].
      set (u := Rpower _ _). assert (U : 0 < u) by apply exp_pos.
      assert (Q0 : 0 < exp (asb_ref_val c0 (a_mech a) m0 d)) by apply exp_pos.
      assert (Q1 : 0 < (exp (asb_ref_val c0 (a_mech a) m0 d) + Q2R (asb14_c c)) * u) by (apply Rmult_lt_0_compat; lra).
      assert (Q2 : 0 < exp (asb_ref_val c0 (a_mech a) m0 d) + Q2R (asb14_c c) * u) by (pose proof (Rmult_lt_0_compat _ _ AC' U); lra).
      assert (CE : continuous (fun m => exp (asb_ref_val c0 (a_mech a) m d)) m0) by (apply cexp, asb_ref_cont).
      apply cplus; [apply cconst|]. apply cmult; [apply cconst|]. apply cln.
      * apply cdiv; [apply cplus; [exact CE|apply cconst]|apply cmult; [apply cplus; [exact CE|apply cconst]|apply cconst]|apply Rgt_not_eq; lra].
      * apply Rdiv_lt_0_compat; assumption.
  - intros eps He. exists 1. split; [lra|]. intros m o0 o _ (src & G & (g & Hg & _)).
    rewrite (asb14_construct src _ G) in Hg. change (asb_choice (asb_with_m a m0)) with (asb_choice a) in Hg. rewrite E in Hg. discriminate.
Qed.

(** Continuity in v_s30 at the reference velocity and everywhere. *)
Lemma asb_site_as_min c p v : In c asb_all -> 0 < p -> 0 < v ->
  asb_site_val c p v = Q2R (asb14_b_1 c) * ln (Rmin v (Q2R (asb14_v_con c)) / 750)
    + Q2R (asb14_b_2 c) * ln ((p + Q2R (asb14_c c) * Rpower (Rmin v 750 / 750) (Q2R (asb14_n c))) / ((p + Q2R (asb14_c c)) * Rpower (Rmin v 750 / 750) (Q2R (asb14_n c)))).
Proof.
  intros Hc Hp Hv. row_is Hc (fun c => asb14_v_con c) (1000#1)%Q as V. row_pos Hc (fun c => asb14_c c) as AC.
  unfold asb_site_val. destruct (Rle_dec v 750).
  - rewrite (Rmin_left v 750) by lra. rewrite (Rmin_left v (Q2R _)) by lra. reflexivity.
  - rewrite (Rmin_right v 750) by lra. replace (750 / 750) with 1 by lra.
    replace (Rpower 1 (Q2R (asb14_n c))) with 1 by (unfold Rpower; rewrite ln_1, Rmult_0_r, exp_0; reflexivity).
    rewrite !Rmult_1_r. unfold Rdiv at 3. rewrite (Rinv_r (p + _)) by (apply Rgt_not_eq; lra). rewrite ln_1. ring.
Qed.
Lemma asb14_cont_vs a v0 : 0 < v0 ->
  resp_continuous (fun v o => exists src, asb_gives src (asb_with_v a v) /\ gmm_out (asb14 src) o) v0.
Proof.
  intros Hv. destruct (asb_choice a) as [[d t]|] eqn:E.
  - pose proof (asb_choice_in _ _ _ E) as T. destruct (asb_shape t T) as (c0 & c1 & l & -> & L & _).
    assert (I : incl (c0 :: c1 :: l) asb_all) by (apply asb_incl; exact T).
    assert (I0 : In c0 asb_all) by (apply I; left; reflexivity).
    apply (rows_continuous (c0 :: c1 :: l) l c0 c1 (fun v => asb_row (asb_with_v a v) d (asb_pga (asb_with_v a v) d c0))
             (fun v c => qf (asb14_sd_total c)) (fun v => asb_val (asb_with_v a v) d c0)) with (r := v0);
      [intros c Hc; right; right; exact Hc|left; reflexivity|right; left; reflexivity|lra| | |].
    + intros m o (src & G & O).
      apply (gmm_out_fun (asb14 src)); [exact O|].
      apply (asb14_out src (asb_with_v a m) d (c0 :: c1 :: l) G). exact E.
    + intros v c Hc Hn. apply asb_row_fin; auto. cbn. apply Rabs_def2 in Hn. lra.
    + intros c Hc. specialize (I c Hc). unfold asb_val, asb_with_v; cbn [a_mech a_m a_v].
      row_pos I (fun c => asb14_c c) as AC. assert (AC' : 0 < Q2R (asb14_c c)) by lra.
      row_pos I (fun c => asb14_v_con c) as AV. assert (AV' : 0 < Q2R (asb14_v_con c)) by lra.
      set (p := exp _). assert (P : 0 < p) by apply exp_pos.
      apply cplus; [apply cconst|].
      apply (cext_near (fun v => Q2R (asb14_b_1 c) * ln (Rmin v (Q2R (asb14_v_con c)) / 750)
    + Q2R (asb14_b_2 c) * ln ((p + Q2R (asb14_c c) * Rpower (Rmin v 750 / 750) (Q2R (asb14_n c))) / ((p + Q2R (asb14_c c)) * Rpower (Rmin v 750 / 750) (Q2R (asb14_n c))))) _ v0 v0); [exact Hv| |].
      { intros v Hn. symmetry. apply asb_site_as_min; auto. apply Rabs_def2 in Hn. lra. }
      assert (0 < Rmin v0 750) by (apply Rmin_pos; lra). assert (0 < Rmin v0 (Q2R (asb14_v_con c))) by (apply Rmin_pos; lra).
      assert (U : 0 < Rpower (Rmin v0 750 / 750) (Q2R (asb14_n c))) by apply exp_pos.
      pose proof (Rmult_lt_0_compat _ _ AC' U).
      assert (0 < (p + Q2R (asb14_c c)) * Rpower (Rmin v0 750 / 750) (Q2R (asb14_n c))) by (apply Rmult_lt_0_compat; lra).
      cont; try (apply Rdiv_lt_0_compat; lra); try (apply Rgt_not_eq; lra).
  - intros eps He. exists 1. split; [lra|]. intros m o0 o _ (src & G & (g & Hg & _)).
    rewrite (asb14_construct src _ G) in Hg. change (asb_choice (asb_with_v a v0)) with (asb_choice a) in Hg. rewrite E in Hg. discriminate.
Qed.

(** Decay with distance on rock. *)
Lemma asb_ref_decr c mech m d1 d2 : In c asb_all -> 4 <= m <= 8 -> 0 <= d1 -> d1 < d2 ->
  asb_ref_val c mech m d2 < asb_ref_val c mech m d1.
Proof.
  intros Hc Hm H1 H2. row_pos Hc (fun c => asb14_a_6 c) as A6.
  row_lt Hc (fun c => asb14_a_4 c + asb14_a_5 c * ((8#1) - asb14_c_1 c))%Q (fun _ : asb14_row => (0#1)%Q) as B2.
  row_pos Hc (fun c => asb14_a_5 c) as A5.
  assert (K : Q2R (asb14_a_4 c) + Q2R (asb14_a_5 c) * (m - Q2R (asb14_c_1 c)) < 0).
  { assert (Q2R (asb14_a_5 c) * (m - Q2R (asb14_c_1 c)) <= Q2R (asb14_a_5 c) * (8 - Q2R (asb14_c_1 c))) by (apply Rmult_le_compat_l; lra).
    lra. }
  assert (L : ln (sqrt (d1 * d1 + Q2R (asb14_a_6 c) * Q2R (asb14_a_6 c))) < ln (sqrt (d2 * d2 + Q2R (asb14_a_6 c) * Q2R (asb14_a_6 c)))).
  { assert (0 < Q2R (asb14_a_6 c) * Q2R (asb14_a_6 c)) by (apply Rmult_lt_0_compat; lra).
    assert (d1 * d1 < d2 * d2) by nra. assert (0 <= d1 * d1) by (apply Rle_0_sqr).
    apply ln_increasing; [apply sqrt_lt_R0; lra|apply sqrt_lt_1; lra]. }
  unfold asb_ref_val. pose proof (Rmult_lt_gt_compat_neg_l _ _ _ K L) as M. lra.
Qed.
(** PGA on any site: the site term falls less than the reference rises. *)
Lemma asb_site_mono c x1 x2 v : In c asb_all -> 0 < v -> x1 < x2 ->
  x1 + asb_site_val c (exp x1) v < x2 + asb_site_val c (exp x2) v.
Proof.
  intros Hc Hv H. unfold asb_site_val. destruct (Rle_dec v 750); [|lra].
  row_pos Hc (fun c => asb14_c c) as AC. assert (AC' : 0 < Q2R (asb14_c c)) by lra.
  row_lt Hc (fun _ : asb14_row => (-1#1)%Q) (fun c => asb14_b_2 c) as B1. row_lt Hc (fun c => asb14_b_2 c) (fun _ : asb14_row => (0#1)%Q) as B2.
  set (u := Rpower _ _). set (k := Q2R (asb14_c c)) in *. set (b := Q2R (asb14_b_2 c)) in *.
  assert (U : 0 < u) by apply exp_pos.
  assert (E : forall x, ln ((exp x + k * u) / ((exp x + k) * u)) = ln (exp x + k * u) - ln (exp x + k) - ln u).
  { intros x. pose proof (exp_pos x). pose proof (Rmult_lt_0_compat _ _ AC' U).
    unfold Rdiv. rewrite ln_mult; [|lra|apply Rinv_0_lt_compat, Rmult_lt_0_compat; lra].
    rewrite ln_Rinv by (apply Rmult_lt_0_compat; lra). rewrite ln_mult by lra. ring. }
  rewrite !E.
  assert (M : x1 + b * (ln (exp x1 + k * u) - ln (exp x1 + k)) < x2 + b * (ln (exp x2 + k * u) - ln (exp x2 + k))).
  { apply (incr_by_derive (fun x => x + b * (ln (exp x + k * u) - ln (exp x + k)))
      (fun x => 1 + b * (exp x / (exp x + k * u) - exp x / (exp x + k)))); [exact H| |].
    - intros x _. pose proof (exp_pos x). pose proof (Rmult_lt_0_compat _ _ AC' U). auto_derive; [repeat split; lra|]. field. split; lra.
    - intros x _. pose proof (exp_pos x) as X. pose proof (Rmult_lt_0_compat _ _ AC' U).
      set (p := exp x / (exp x + k * u)). set (q := exp x / (exp x + k)).
      assert (P : 0 < p <= 1).
      { unfold p; split; [apply Rdiv_lt_0_compat; lra|]. apply (Rdiv_le_1 (exp x)); lra. }
      assert (Q : 0 < q).
      { unfold q; apply Rdiv_lt_0_compat; lra. }
      assert (b * (p - q) >= b * 1) by (apply Rmult_le_ge_compat_neg_l; lra). lra. }
  lra.
Qed.
Lemma asb_dist_choice a d : exists t, asb_choice (asb_dist a d) = Some (d, t) /\ forall d', asb_choice (asb_dist a d') = Some (d', t).
Proof. unfold asb_dist, asb_choice. destruct (a_jb a); [|destruct (a_hyp a)]; cbn [a_jb a_hyp a_epi]; eexists; split; reflexivity. Qed.
Lemma asb_dist_fields a d : a_m (asb_dist a d) = a_m a /\ a_v (asb_dist a d) = a_v a /\ a_mech (asb_dist a d) = a_mech a.
Proof. unfold asb_dist. destruct (a_jb a); [auto|destruct (a_hyp a); auto]. Qed.
Lemma asb_site_rock c p1 p2 v : 750 <= v -> 0 < p1 -> 0 < p2 -> In c asb_all -> asb_site_val c p1 v = asb_site_val c p2 v.
Proof.
  intros Hv P1 P2 Hc. destruct (Req_dec v 750) as [->|N]; [rewrite (asb_site_ref c p1), (asb_site_ref c p2) by assumption; reflexivity|].
  unfold asb_site_val. destruct (Rle_dec v 750); [lra|reflexivity].
Qed.
Lemma asb14_decay src1 src2 a d1 d2 : asb_gives src1 (asb_dist a d1) -> asb_gives src2 (asb_dist a d2) ->
  4 <= a_m a <= 8 -> 0 < a_v a -> 0 <= d1 -> d1 < d2 ->
  exists o1 o2, gmm_out (asb14 src1) o1 /\ gmm_out (asb14 src2) o2 /\ flt_lt (o_pga o2) (o_pga o1) /\ (750 <= a_v a -> resp2 flt_lt o2 o1).
Proof.
  intros G1 G2 Hm Hv H1 H2. destruct (asb_dist_choice a d1) as (t & E1 & E). specialize (E d2).
  exists (asb_outs (asb_dist a d1) d1 t), (asb_outs (asb_dist a d2) d2 t).
  split; [apply asb14_out; assumption|]. split; [apply asb14_out; assumption|].
  pose proof (asb_choice_in _ _ _ E) as T. destruct (asb_shape t T) as (c0 & c1 & l & -> & L & _).
  assert (I : incl (c0 :: c1 :: l) asb_all) by (apply asb_incl; exact T).
  assert (I0 : In c0 asb_all) by (apply I; left; reflexivity).
  destruct (asb_dist_fields a d1) as (A1 & A2 & A3). destruct (asb_dist_fields a d2) as (B1 & B2 & B3).
  cbn [asb_outs]. split.
  - unfold row_outs; cbn [o_pga]. apply flt_lt_exp. rewrite !asb_row_fin by (auto; lra). apply flt_lt_fin.
    unfold asb_val. rewrite A1, A2, A3, B1, B2, B3. apply asb_site_mono; auto. apply asb_ref_decr; assumption.
  - intros Hr. apply (row_resp_lt (c0 :: c1 :: l)); [intros c Hc; right; right; exact Hc|left; reflexivity|right; left; reflexivity|].
    intros c Hc. specialize (I c Hc). rewrite !asb_row_fin by (auto; lra). apply flt_lt_fin.
    unfold asb_val. rewrite A1, A2, A3, B1, B2, B3.
    rewrite (asb_site_rock c _ (exp (asb_ref_val c0 (a_mech a) (a_m a) d1)) (a_v a)) by (auto using exp_pos).
    pose proof (asb_ref_decr c (a_mech a) (a_m a) d1 d2 I Hm H1 H2). lra.
Qed.

(** The reported sigmas are the sd_total column of the table in use. *)
Lemma asb14_sigma src a d t : asb_gives src a -> asb_choice a = Some (d, t) ->
  exists o, gmm_out (asb14 src) o /\
    o_sd o = map (fun c => Fin (Q2R (asb14_sd_total c))) (skipn 2 t) /\
    (forall c, nth_error t 0 = Some c -> o_sd_pga o = Fin (Q2R (asb14_sd_total c))) /\
    (forall c, nth_error t 1 = Some c -> o_sd_pgv o = Fin (Q2R (asb14_sd_total c))).
Proof.
  intros G C. exists (asb_outs a d t). split; [apply asb14_out; assumption|].
  destruct (asb_shape t (asb_choice_in _ _ _ C)) as (c0 & c1 & l & -> & L & T).
  cbn [asb_outs row_outs o_sd o_sd_pga o_sd_pgv skipn]. split; [reflexivity|].
  split; intros c E; injection E as <-; reflexivity.
Qed.
