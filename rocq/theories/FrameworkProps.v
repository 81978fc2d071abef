(** * Proofs of the framework properties stated in Properties_Framework.v *)

From Verif Require Import Framework FrameworkProofs Heap.
Open Scope R_scope.
Open Scope list_scope.

Lemma dget_rev_nodup d k : NoDup (dkeys d) -> dget (rev d) k = dget d k.
Proof.
  induction d as [|[a b] d IH]; [reflexivity|]. cbn [dkeys map rev]. intros ND.
  inversion ND as [|? ? Hnin ND']; subst.
  assert (Happ : forall l, dget (l ++ [(a, b)]) k =
     match dget l k with Some v => Some v | None => if String.eqb a k then Some b else None end).
  { clear; induction l as [|[x y] l IHl]; cbn; [reflexivity|]. destruct (String.eqb x k); [reflexivity|exact IHl]. }
  rewrite Happ, IH by exact ND'. cbn [dget fst].
  destruct (String.eqb a k) eqn:E.
  - apply String.eqb_eq in E; subst a.
    destruct (dget d k) as [v|] eqn:G; [|reflexivity].
    apply dget_In_keys in G. contradiction.
  - destruct (dget d k); reflexivity.
Qed.

Lemma scenario_new_ok kw : NoDup (dkeys kw) ->
  (forall k, In k (dkeys kw) -> In k KNOWN_KEYS) -> sc_new kw = ret (Scen kw []).
Proof.
  intros ND H. unfold sc_new. rewrite dupdate_nil by exact ND.
  pose proof (check_keys_ok (dkeys kw)) as [_ Hok]. specialize (Hok H).
  pose proof (check_keys_warns (dkeys kw)) as Hw.
  destruct (check_keys (dkeys kw)) as [w r]. cbn in Hok, Hw; subst. reflexivity.
Qed.

Lemma find_first_unknown pre k post :
  (forall k', In k' pre -> In k' KNOWN_KEYS) -> ~ In k KNOWN_KEYS ->
  find (fun k => negb (smem k KNOWN_KEYS)) (pre ++ k :: post) = Some k.
Proof.
  induction pre as [|x pre IH]; intros Hpre Hk.
  - cbn [app find]. destruct (smem k KNOWN_KEYS) eqn:E; [apply smem_In in E; contradiction | reflexivity].
  - cbn [app find]. assert (Hx : In x KNOWN_KEYS) by (apply Hpre; left; reflexivity).
    apply smem_In in Hx. rewrite Hx. cbv [negb]. apply IH; [|exact Hk].
    intros k' Hk'; apply Hpre; right; exact Hk'.
Qed.

Lemma scenario_new_unknown pre k v post : NoDup (dkeys (pre ++ (k, v) :: post)) ->
  (forall k', In k' (dkeys pre) -> In k' KNOWN_KEYS) -> ~ In k KNOWN_KEYS ->
  sc_new (pre ++ (k, v) :: post) = raise (EWarning k).
Proof.
  intros ND Hpre Hk. unfold sc_new. rewrite dupdate_nil by exact ND.
  rewrite check_keys_spec.
  replace (dkeys (pre ++ (k, v) :: post)) with (dkeys pre ++ k :: dkeys post)
    by (unfold dkeys; rewrite map_app; reflexivity).
  rewrite find_first_unknown by assumption. reflexivity.
Qed.

Lemma copy_with_unknown s kw k : In k (dkeys kw) -> ~ In k KNOWN_KEYS ->
  exists k', In k' (dkeys kw) /\ ~ In k' KNOWN_KEYS /\ sc_copy_with s kw = raise (EWarning k').
Proof.
  intros Hin Hk. unfold sc_copy_with. rewrite check_keys_spec.
  destruct (find _ (dkeys kw)) as [k'|] eqn:E.
  - apply find_some in E as [H1 H2]. exists k'; split; [exact H1|]. split; [|reflexivity].
    intros H. apply smem_In in H. rewrite H in H2; discriminate.
  - pose proof (find_none _ _ E k Hin) as H. cbv beta in H.
    destruct (smem k KNOWN_KEYS) eqn:F; [apply smem_In in F; contradiction | discriminate].
Qed.

Lemma copy_with_ok s kw : NoDup (dkeys (s_data s)) -> NoDup (dkeys kw) ->
  (forall k, In k (dkeys kw) -> In k KNOWN_KEYS) ->
  exists s', sc_copy_with s kw = ret s' /\
    (forall k, dget (s_data s') k = match dget kw k with Some v => Some v | None => dget (s_data s) k end).
Proof.
  intros NDs NDk H. unfold sc_copy_with.
  pose proof (check_keys_ok (dkeys kw)) as [_ Hok]. specialize (Hok H).
  pose proof (check_keys_warns (dkeys kw)) as Hw.
  destruct (check_keys (dkeys kw)) as [w r]. cbn in Hok, Hw; subst.
  eexists; split; [reflexivity|]. intros k. cbn [s_data sc_copy].
  rewrite (dupdate_nil _ NDs), dget_dupdate, dget_rev_nodup by exact NDk. reflexivity.
Qed.

(** C04 *)
Lemma pick_ext ps d1 d2 :
  (forall p, In p ps -> dget_none d1 (p_name p) = dget_none d2 (p_name p)) -> pick ps d1 = pick ps d2.
Proof.
  intros H; unfold pick; apply map_ext_in. intros p Hp; rewrite (H p Hp); reflexivity.
Qed.
Lemma model_init_ext ps d1 d2 :
  (forall p, In p ps -> dget_none d1 (p_name p) = dget_none d2 (p_name p)) ->
  model_init ps d1 = model_init ps d2.
Proof. intros H; unfold model_init; rewrite (pick_ext ps d1 d2 H); reflexivity. Qed.

(** C05 *)
(** A value (or default) a numeric parameter can be compared with. *)
Definition numeric_or_none (v : pyval) : Prop := forall t, v <> PStr t.
Definition typed (p : param) (v : pyval) : Prop :=
  match p_kind p with
  | KNum _ _ => numeric_or_none v /\ numeric_or_none (p_default p)
  | KCat _ => True
  end.

Lemma check_num_ok n lo hi v : numeric_or_none v -> result (check_num n lo hi v) = Ok v.
Proof.
  intros H. unfold check_num. destruct v as [|x|t|b]; [reflexivity| | |]; cbn [is_none].
  - apply check_num_result.
  - destruct (H t eq_refl).
  - destruct lo as [m|]; cbn; [destruct (fltb (bool_num b) m)|];
    cbn; try reflexivity; destruct hi as [m'|]; cbn; try reflexivity; destruct (fltb m' (bool_num b)); reflexivity.
Qed.

Lemma check_required p v : typed p v ->
  result (check p v) = Raise EValue /\ p_required p = true /\ v = PNone \/
  (exists w, result (check p v) = Ok w) /\ ~ (p_required p = true /\ v = PNone).
Proof.
  intros HT. unfold check. rewrite result_bind. unfold check_base.
  destruct (is_none v) eqn:En; cbn [andb].
  - assert (v = PNone) by (destruct v; try discriminate; reflexivity). subst v.
    destruct (p_required p) eqn:Er.
    + left; auto.
    + right. split; [|intros [C _]; discriminate]. cbn [result snd ret].
      unfold typed in HT. destruct (p_kind p) as [lo hi|opts].
      * destruct HT as [_ HT]. rewrite check_num_ok by exact HT. eauto.
      * rewrite check_cat_result; eauto.
  - right. split.
    + cbn [result snd ret].
      unfold typed in HT. destruct (p_kind p) as [lo hi|opts].
      * destruct HT as [HT _]. rewrite check_num_ok by exact HT. eauto.
      * rewrite check_cat_result; eauto.
    + intros [_ ->]; discriminate.
Qed.

Lemma checks_required ps src :
  (forall p, In p ps -> typed p (dget_none src (p_name p))) ->
  (checks ps src = Raise EValue /\ exists p, In p ps /\ p_required p = true /\ dget_none src (p_name p) = PNone) \/
  ((exists d, checks ps src = Ok d /\ map fst d = map p_name ps) /\
   forall p, In p ps -> ~ (p_required p = true /\ dget_none src (p_name p) = PNone)).
Proof.
  induction ps as [|p ps IH]; intros HT; cbn [checks].
  - right; split; [exists []; auto | intros p []].
  - destruct (check_required p (dget_none src (p_name p)) (HT p (or_introl eq_refl))) as [(E & H1 & H2)|[[w E] H]].
    + rewrite E. left; split; [reflexivity|]. exists p; cbn; auto.
    + rewrite E. destruct IH as [[E2 (q & Hq & H1 & H2)]|[(d & E2 & Hm) H2]].
      * intros q Hq; apply HT; right; exact Hq.
      * rewrite E2; left; split; [reflexivity|]. exists q; cbn; auto.
      * rewrite E2; right; split.
        -- eexists; split; [reflexivity|]. cbn; rewrite Hm; reflexivity.
        -- intros q [<-|Hq]; [exact H | apply H2; exact Hq].
Qed.

Lemma required_iff ps src :
  NoDup (map p_name ps) -> (forall p, In p ps -> In (p_name p) KNOWN_KEYS) ->
  (forall p, In p ps -> typed p (dget_none src (p_name p))) ->
  (result (model_init ps src) = Raise EValue <->
     exists p, In p ps /\ p_required p = true /\ dget_none src (p_name p) = PNone) /\
  (result (model_init ps src) <> Raise EValue ->
     exists s, result (model_init ps src) = Ok s /\ dkeys (s_data s) = map p_name ps).
Proof.
  intros ND HK HT.
  assert (HKb : known_params ps = true).
  { unfold known_params; rewrite forallb_forall. intros p Hp; apply smem_In; apply HK; exact Hp. }
  rewrite model_init_result by assumption.
  destruct (checks_required ps src HT) as [[E Hex]|[(d & E & Hm) Hno]]; rewrite E.
  - split; [split; [intros _; exact Hex | intros _; reflexivity]|]. intros C; congruence.
  - split.
    + split; [discriminate|]. intros (p & Hp & H1 & H2). exfalso; eapply Hno; eauto.
    + intros _. eexists; split; [reflexivity|]. exact Hm.
Qed.

(** C06 *)
Definition out_of_limits (lo hi : option flt) (x : flt) : Prop :=
  (exists m, lo = Some m /\ fltb x m = true) \/ (exists m, hi = Some m /\ fltb m x = true).

Lemma check_num_warns n req lo hi def x :
  let c := check (NumP n req lo hi def) (PNum x) in
  result c = Ok (PNum x) /\
  (out_of_limits lo hi x -> List.length (warns c) = 1%nat) /\
  (~ out_of_limits lo hi x -> warns c = []).
Proof.
  intro c. split; [apply check_num_param|].
  unfold c, check, out_of_limits. cbn.
  destruct lo as [m|]; cbn.
  - destruct (fltb x m) eqn:E; cbn.
    + split; [reflexivity|]. intros H; exfalso; apply H; left; eauto.
    + destruct hi as [m'|]; cbn.
      * destruct (fltb m' x) eqn:E'; cbn.
        -- split; [reflexivity|]. intros H; exfalso; apply H; right; eauto.
        -- split; [|reflexivity]. intros [(a & H & H1)|(a & H & H1)]; injection H as <-; congruence.
      * split; [|reflexivity]. intros [(a & H & H1)|(a & H & H1)]; [injection H as <-; congruence | discriminate].
  - destruct hi as [m'|]; cbn.
    + destruct (fltb m' x) eqn:E'; cbn.
      * split; [reflexivity|]. intros H; exfalso; apply H; right; eauto.
      * split; [|reflexivity]. intros [(a & H & H1)|(a & H & H1)]; [discriminate | injection H as <-; congruence].
    + split; [|reflexivity]. intros [(a & H & H1)|(a & H & H1)]; discriminate.
Qed.
Lemma nan_silent n req lo hi def : check (NumP n req lo hi def) (PNum NaN) = ret (PNum NaN).
Proof.
  unfold check; cbn. destruct lo as [m|]; cbn; [destruct m; cbn|]; destruct hi as [m'|]; cbn; try destruct m'; reflexivity.
Qed.

(** C07 *)
Lemma check_cat_spec n req opts def v : ~ (req = true /\ v = PNone) ->
  let c := check (Param n req def (KCat opts)) v in
  let v' := if is_none v then def else v in
  (pyin v' opts = true -> result c = Ok v' /\ warns c = []) /\
  (pyin v' opts = false -> result c = Ok def /\ List.length (warns c) = 2%nat).
Proof.
  intros H c v'. unfold c, check, check_base. cbn [p_required p_default p_kind p_name].
  destruct (is_none v && req) eqn:E.
  - exfalso; apply andb_prop in E as [E1 E2]. apply H; split; [exact E2|]. destruct v; try discriminate; reflexivity.
  - rewrite bind_ret_l. fold v'. unfold check_cat.
    split; intros ->; split; reflexivity.
Qed.

(** C08 *)
Lemma warning_hides_limit n req lo1 lo2 hi1 hi2 def x :
  fltb x lo1 = true -> fltb x lo2 = true ->
  warns (check (NumP n req (Some lo1) hi1 def) (PNum x)) =
  warns (check (NumP n req (Some lo2) hi2 def) (PNum x)).
Proof. intros H1 H2. unfold check; cbn. rewrite H1, H2. reflexivity. Qed.
Lemma warning_hides_limit_max n req hi1 hi2 def x :
  fltb hi1 x = true -> fltb hi2 x = true ->
  warns (check (NumP n req None (Some hi1) def) (PNum x)) =
  warns (check (NumP n req None (Some hi2) def) (PNum x)).
Proof. intros H1 H2. unfold check; cbn. rewrite H1, H2. reflexivity. Qed.

(** C09 *)
Lemma arr_get_result l i : result (arr_get l i) = match py_nth l i with Some x => Ok x | None => Raise EIndex end.
Proof. unfold arr_get; destruct (py_nth l i); reflexivity. Qed.

Lemma peaks m :
  (result (g_pga m) = Raise ENotImpl <-> gc_pga (g_class m) = None) /\
  (result (g_pgv m) = Raise ENotImpl <-> gc_pgv (g_class m) = None) /\
  (result (g_pgd m) = Raise ENotImpl <-> gc_pgd (g_class m) = None) /\
  (forall i x, gc_pga (g_class m) = Some i -> py_nth (g_ln_resp m) i = Some x -> result (g_pga m) = Ok (fexp x)) /\
  (forall i x, gc_pgv (g_class m) = Some i -> py_nth (g_ln_resp m) i = Some x ->
     result (g_pgv m) = Ok (fmul (fexp x) (gc_pgv_scale (g_class m)))) /\
  (forall i x, gc_pgd (g_class m) = Some i -> py_nth (g_ln_resp m) i = Some x ->
     result (g_pgd m) = Ok (fmul (fexp x) (gc_pgd_scale (g_class m)))) /\
  (forall i x l, g_ln_std m = Some l -> gc_pga (g_class m) = Some i -> py_nth l i = Some x ->
     result (g_ln_std_pga m) = Ok x) /\
  (forall i x l, g_ln_std m = Some l -> gc_pgv (g_class m) = Some i -> py_nth l i = Some x ->
     result (g_ln_std_pgv m) = Ok x).
Proof.
  unfold g_pga, g_pgv, g_pgd, g_ln_std_pga, g_ln_std_pgv, g_ln_std_at, g_resp, arr_get.
  destruct (gc_pga (g_class m)) as [a|]; destruct (gc_pgv (g_class m)) as [b|]; destruct (gc_pgd (g_class m)) as [d|];
  repeat match goal with |- context [py_nth ?l ?i] =>
     match i with _ => is_var i; lazymatch l with context [g_ln_resp] => destruct (py_nth l i) eqn:? end end end;
  repeat split; intros; cbn in *; try discriminate; try congruence;
  repeat match goal with
         | H : Some _ = Some _ |- _ => injection H as H; subst
         | H : ?x = Some _ |- context [?x] => rewrite H
         end; cbn; try congruence; try reflexivity.
Qed.

(** C10 *)
Lemma spectral m : Forall (fun i => (i < List.length (g_ln_resp m))%nat) (gc_psa (g_class m)) ->
  exists sa, result (g_spec_accels m) = Ok sa /\ List.length sa = List.length (gc_psa (g_class m)) /\
   forall j i, nth_error (gc_psa (g_class m)) j = Some i ->
     exists x, nth_error (g_ln_resp m) i = Some x /\ nth_error sa j = Some (fexp x).
Proof.
  intros H. destruct (take_idx_some _ _ H) as [t Ht].
  unfold g_spec_accels, arr_take. rewrite Ht. exists (map fexp t).
  split; [reflexivity|]. split; [rewrite map_length; eapply take_idx_length; eauto|].
  intros j i Hj. rewrite nth_error_map, (take_idx_nth _ _ _ Ht j i Hj).
  rewrite Forall_forall in H. apply nth_error_In in Hj. apply H in Hj.
  destruct (nth_error (g_ln_resp m) i) as [x|] eqn:E; [|apply nth_error_None in E; lia].
  exists x; split; [reflexivity|]. reflexivity.
Qed.
Lemma ln_stds_spec m :
  (result (g_ln_stds m) = Raise ENotImpl <-> g_ln_std m = None) /\
  (forall l, g_ln_std m = Some l -> Forall (fun i => (i < List.length l)%nat) (gc_psa (g_class m)) ->
    exists sd, result (g_ln_stds m) = Ok sd /\ List.length sd = List.length (gc_psa (g_class m)) /\
    forall j i, nth_error (gc_psa (g_class m)) j = Some i -> nth_error sd j = nth_error l i).
Proof.
  unfold g_ln_stds, arr_take. destruct (g_ln_std m) as [l0|]; split.
  - destruct (take_idx _ _); split; discriminate.
  - intros l E H; injection E as <-. destruct (take_idx_some _ _ H) as [t Ht]. rewrite Ht.
    exists t; split; [reflexivity|]. split; [eapply take_idx_length; eauto|].
    intros; eapply take_idx_nth; eauto.
  - split; [reflexivity|reflexivity].
  - intros l E; discriminate.
Qed.

(** C11 *)
Lemma incr_map_ln ps : Forall (fun p => 0 < p) ps -> incr ps -> incr (map ln ps).
Proof.
  intros HF; revert HF; induction ps as [|p ps IH]; intros HF H; [exact I|].
  destruct ps as [|q ps]; [exact I|]. inversion HF as [|? ? Hp HF']; subst. inversion HF' as [|? ? Hq _]; subst.
  destruct H as [H1 H2]. split; [apply ln_increasing; assumption | apply IH; assumption].
Qed.
Lemma nth_map_ln ps i : (i < List.length ps)%nat -> nth i (map ln ps) 0 = ln (nth i ps 0).
Proof. intros H. rewrite (nth_indep _ 0 (ln 0)) by (rewrite map_length; exact H). apply map_nth. Qed.
Lemma map_flog_fin ps : Forall (fun p => 0 < p) ps -> map flog (map Fin ps) = map Fin (map ln ps).
Proof.
  induction 1 as [|p ps Hp _ IH]; cbn [map]; [reflexivity|]. rewrite flog_fin by exact Hp. f_equal; exact IH.
Qed.

Section Interp.
  (** Model periods [ps] (positive, increasing) and finite values [ys]. *)
  Variables (ps ys : list R).
  Hypothesis (Hpos : Forall (fun p => 0 < p) ps) (Hinc : incr ps) (Hlen : List.length ps = List.length ys)
             (Htwo : (1 < List.length ps)%nat).

  Lemma interp_seg_spec i t : (S i < List.length ps)%nat -> nth i ps 0 <= t <= nth (S i) ps 0 ->
    exists y, interp1d_nan (map flog (map Fin ps)) (map Fin ys) (flog (Fin t)) = Fin y /\
      y = nth i ys 0 + (nth (S i) ys 0 - nth i ys 0) * ((ln t - ln (nth i ps 0)) / (ln (nth (S i) ps 0) - ln (nth i ps 0))) /\
      Rmin (nth i ys 0) (nth (S i) ys 0) <= y <= Rmax (nth i ys 0) (nth (S i) ys 0).
  Proof.
    intros Hi Ht.
    assert (Hp0 : 0 < nth i ps 0) by (rewrite Forall_forall in Hpos; apply Hpos, nth_In; lia).
    assert (Hlt : nth i ps 0 < nth (S i) ps 0) by (apply incr_nth; [exact Hinc|lia|lia]).
    assert (Hln : ln (nth i ps 0) < ln (nth (S i) ps 0)) by (apply ln_increasing; assumption).
    assert (Hlnt : ln (nth i ps 0) <= ln t <= ln (nth (S i) ps 0)).
    { split; [destruct (Req_dec (nth i ps 0) t) as [->|]; [lra|left; apply ln_increasing; lra]
             |destruct (Req_dec t (nth (S i) ps 0)) as [->|]; [lra|left; apply ln_increasing; lra]]. }
    rewrite map_flog_fin by exact Hpos. rewrite flog_fin by lra.
    rewrite (interp1d_segment (map ln ps) ys i (ln t)).
    - rewrite !nth_map_ln by lia. eexists; split; [reflexivity|]. split.
      + unfold seglin; field; lra.
      + apply seglin_between; assumption.
    - rewrite map_length; exact Hlen.
    - apply incr_map_ln; assumption.
    - rewrite map_length; exact Hi.
    - rewrite !nth_map_ln by lia. exact Hlnt.
  Qed.

  Lemma interp_knot i : (i < List.length ps)%nat ->
    interp1d_nan (map flog (map Fin ps)) (map Fin ys) (flog (Fin (nth i ps 0))) = Fin (nth i ys 0).
  Proof.
    intros Hi. destruct (Nat.eq_dec (S i) (List.length ps)) as [E|E].
    - destruct i as [|i]; [lia|].
      assert (Hlt : nth i ps 0 < nth (S i) ps 0) by (apply incr_nth; [exact Hinc|lia|lia]).
      assert (Hp0 : 0 < nth i ps 0) by (rewrite Forall_forall in Hpos; apply Hpos, nth_In; lia).
      destruct (interp_seg_spec i (nth (S i) ps 0)) as (y & -> & -> & _); [lia|lra|].
      f_equal. assert (ln (nth i ps 0) < ln (nth (S i) ps 0)) by (apply ln_increasing; assumption). field; lra.
    - assert (Hlt : nth i ps 0 < nth (S i) ps 0) by (apply incr_nth; [exact Hinc|lia|lia]).
      assert (Hp0 : 0 < nth i ps 0) by (rewrite Forall_forall in Hpos; apply Hpos, nth_In; lia).
      destruct (interp_seg_spec i (nth i ps 0)) as (y & -> & -> & _); [lia|lra|].
      f_equal. assert (ln (nth i ps 0) < ln (nth (S i) ps 0)) by (apply ln_increasing; assumption). field; lra.
  Qed.

  Lemma interp_outside x : (fltb x (Fin (nth 0 ps 0)) = true \/ fltb (Fin (last ps 0)) x = true \/ x = NaN) ->
    interp1d_nan (map flog (map Fin ps)) (map Fin ys) (flog x) = NaN.
  Proof.
    intros H.
    assert (Hp0 : 0 < nth 0 ps 0) by (rewrite Forall_forall in Hpos; apply Hpos, nth_In; lia).
    assert (Hl : last ps 0 = nth (List.length ps - 1) ps 0).
    { rewrite last_nth. destruct (List.length ps) as [|n] eqn:EL; [lia|].
      cbn [nth]. rewrite Nat.sub_succ, Nat.sub_0_r. reflexivity. }
    assert (Hpl : 0 < last ps 0) by (rewrite Hl; rewrite Forall_forall in Hpos; apply Hpos, nth_In; lia).
    assert (HlenL : List.length (map ln ps) = List.length ys) by (rewrite map_length; exact Hlen).
    assert (Hfirst : nth 0 (map ln ps) 0 = ln (nth 0 ps 0)) by (apply nth_map_ln; lia).
    assert (Hlast : last (map ln ps) 0 = ln (last ps 0)).
    { rewrite Hl, last_nth, map_length. destruct (List.length ps) as [|n] eqn:EL; [lia|].
      cbn [nth]. rewrite Nat.sub_succ, Nat.sub_0_r. apply nth_map_ln; lia. }
    assert (Hnan : interp1d_nan (map flog (map Fin ps)) (map Fin ys) NaN = NaN).
    { apply interp1d_nan_arg; rewrite !map_length; [exact Hlen | exact Htwo]. }
    rewrite map_flog_fin in * by exact Hpos.
    destruct x as [x| | |].
    - rewrite !fltb_fin in H. destruct (Rlt_dec 0 x) as [Hx|Hx].
      + rewrite flog_fin by exact Hx. destruct H as [H|[H|H]]; [| |discriminate].
        * apply interp1d_below; [exact HlenL | rewrite map_length; lia |].
          rewrite Hfirst. destruct (Rltb_spec x (nth 0 ps 0)); [|discriminate]. apply ln_increasing; assumption.
        * apply interp1d_above; [exact HlenL | rewrite map_length; lia | apply incr_map_ln; assumption |].
          rewrite Hlast. destruct (Rltb_spec (last ps 0) x); [|discriminate]. apply ln_increasing; assumption.
      + destruct (Req_dec x 0) as [->|Hx0].
        * rewrite flog_zero. destruct ps as [|p0 ps']; [cbn in Htwo; lia|]. destruct ys; [discriminate|]. reflexivity.
        * rewrite flog_neg by lra. exact Hnan.
    - cbn [flog]. destruct ps as [|p0 ps']; [cbn in Htwo; lia|]. destruct ys as [|y0 ys']; [discriminate|].
      unfold interp1d_nan. cbn [map combine fltb].
      rewrite last_combine_fst by (rewrite !map_length; cbn in Hlen; lia). cbn [fst].
      rewrite last_map_Fin. reflexivity.
    - cbn [flog]. exact Hnan.
    - cbn [flog]. exact Hnan.
  Qed.
End Interp.

(** C12 *)
Lemma attr_item_agree os l s k : forallb no_setattr os = true ->
  nth_error (run [] os) l = Some s -> sc_attr s k = sc_item s k.
Proof.
  intros H Hs. pose proof (run_attrs os [] H (Forall_nil _)) as HA.
  unfold attrs_empty in HA; rewrite Forall_forall in HA.
  unfold sc_attr, sc_item. rewrite (HA s) by (eapply nth_error_In; eauto). reflexivity.
Qed.
Lemma attr_shadow s k v w : NoDup (dkeys (s_data s)) -> In k KNOWN_KEYS ->
  let s1 := sc_setattr s k v in
  sc_attr s1 k = ret v /\ sc_item s1 k = sc_item s k /\
  exists s2, sc_copy_with s1 [(k, w)] = ret s2 /\ sc_attr s2 k = ret v /\ sc_item s2 k = ret w.
Proof.
  intros ND Hk s1. unfold s1, sc_attr, sc_item; cbn [s_data s_attrs sc_setattr].
  rewrite dget_dset_same. split; [reflexivity|]. split; [reflexivity|].
  unfold sc_copy_with. cbn [dkeys map fst check_keys].
  apply smem_In in Hk. rewrite Hk, bind_ret_l. eexists; split; [reflexivity|].
  cbn [s_attrs s_data sc_copy sc_setattr]. rewrite dget_dset_same. split; [reflexivity|].
  unfold ditem. cbn [dupdate fold_left fst snd]. rewrite dget_dset_same. reflexivity.
Qed.

(** C11 at the accessor level. *)
Lemma interp_accessor m ps ys :
  take_idx (gc_periods (g_class m)) (gc_psa (g_class m)) = Some (map Fin ps) ->
  take_idx (g_ln_resp m) (gc_psa (g_class m)) = Some (map Fin ys) ->
  Forall (fun p => 0 < p) ps -> incr ps -> (1 < List.length ps)%nat ->
  exists f : flt -> flt,
    (forall ts, result (g_interp_ln m ts) = Ok (map f ts) /\
                result (g_interp_accels m ts) = Ok (map (fun t => fexp (f t)) ts)) /\
    (forall i, (i < List.length ps)%nat -> f (Fin (nth i ps 0)) = Fin (nth i ys 0)) /\
    (forall i t, (S i < List.length ps)%nat -> nth i ps 0 <= t <= nth (S i) ps 0 ->
       exists y, f (Fin t) = Fin y /\
         y = nth i ys 0 + (nth (S i) ys 0 - nth i ys 0) *
             ((ln t - ln (nth i ps 0)) / (ln (nth (S i) ps 0) - ln (nth i ps 0))) /\
         Rmin (nth i ys 0) (nth (S i) ys 0) <= y <= Rmax (nth i ys 0) (nth (S i) ys 0)) /\
    (forall t, fltb t (Fin (nth 0 ps 0)) = true \/ fltb (Fin (last ps 0)) t = true \/ t = NaN -> f t = NaN).
Proof.
  intros Hp Hy Hpos Hinc Htwo.
  assert (Hlen : List.length ps = List.length ys).
  { apply take_idx_length in Hp, Hy. rewrite map_length in *. congruence. }
  exists (fun t => interp1d_nan (map flog (map Fin ps)) (map Fin ys) (flog t)).
  split; [|split; [|split]].
  - intros ts. unfold g_interp_accels, g_interp_ln, g_periods, arr_take. rewrite Hp, Hy.
    split; [reflexivity|]. cbn. rewrite map_map. reflexivity.
  - intros i Hi. apply interp_knot; assumption.
  - intros i t Hi Ht. apply interp_seg_spec; assumption.
  - intros t Ht. apply interp_outside; assumption.
Qed.
Lemma interp_stds_accessor m ps std ys :
  g_ln_std m = Some std ->
  take_idx (gc_periods (g_class m)) (gc_psa (g_class m)) = Some (map Fin ps) ->
  take_idx std (gc_psa (g_class m)) = Some (map Fin ys) ->
  Forall (fun p => 0 < p) ps -> incr ps -> (1 < List.length ps)%nat ->
  exists f : flt -> flt,
    (forall ts, result (g_interp_ln_stds m ts) = Ok (map f ts)) /\
    (forall i, (i < List.length ps)%nat -> f (Fin (nth i ps 0)) = Fin (nth i ys 0)) /\
    (forall i t, (S i < List.length ps)%nat -> nth i ps 0 <= t <= nth (S i) ps 0 ->
       exists y, f (Fin t) = Fin y /\ Rmin (nth i ys 0) (nth (S i) ys 0) <= y <= Rmax (nth i ys 0) (nth (S i) ys 0)) /\
    (forall t, fltb t (Fin (nth 0 ps 0)) = true \/ fltb (Fin (last ps 0)) t = true \/ t = NaN -> f t = NaN).
Proof.
  intros Hs Hp Hy Hpos Hinc Htwo.
  assert (Hlen : List.length ps = List.length ys).
  { apply take_idx_length in Hp, Hy. rewrite map_length in *. congruence. }
  exists (fun t => interp1d_nan (map flog (map Fin ps)) (map Fin ys) (flog t)).
  split; [|split; [|split]].
  - intros ts. unfold g_interp_ln_stds, g_periods, arr_take. rewrite Hs, Hp, Hy. reflexivity.
  - intros i Hi. apply interp_knot; assumption.
  - intros i t Hi Ht. destruct (interp_seg_spec ps ys Hpos Hinc Hlen Htwo i t Hi Ht) as (y & E & _ & B); eauto.
  - intros t Ht. apply interp_outside; assumption.
Qed.

(** C03 *)
Lemma model_scenario_isolated h ps l s s' os :
  nth_error h l = Some s -> result (model_init ps (s_data s)) = Ok s' ->
  forallb (fun o => negb (updates o (List.length h))) os = true ->
  nth_error (run (fst (step h (OConstruct ps l))) os) (List.length h) = Some s'.
Proof.
  intros Hs Hm Hos. pose proof (construct_refines h ps l s Hs) as H. rewrite Hm in H.
  destruct H as (h' & E & Hn). rewrite E. cbn [fst].
  rewrite run_frame; [exact Hn | apply nth_error_Some; congruence | exact Hos].
Qed.
