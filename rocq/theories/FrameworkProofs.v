(** * Proofs about the framework model *)

From Verif Require Import Framework.
From Coq Require Import Lia Sorting.Sorted.
Open Scope R_scope.
Open Scope list_scope.

(** ** Monad *)
Lemma result_bind {A B} (m : M A) (f : A -> M B) :
  result (bind m f) = match result m with Ok a => result (f a) | Raise e => Raise e end.
Proof. destruct m as [w [a|e]]; reflexivity. Qed.
Lemma result_ret {A} (a : A) : result (ret a) = Ok a. Proof. reflexivity. Qed.
Lemma result_raise {A} e : result (@raise A e) = Raise e. Proof. reflexivity. Qed.
Lemma warns_bind {A B} (m : M A) (f : A -> M B) :
  warns (bind m f) = match result m with Ok a => warns m ++ warns (f a) | Raise e => warns m end.
Proof. destruct m as [w [a|e]]; reflexivity. Qed.

(** ** Keys *)
Lemma check_keys_spec ks :
  check_keys ks = match find (fun k => negb (smem k KNOWN_KEYS)) ks with
                  | None => ret tt
                  | Some k => raise (EWarning k) end.
Proof.
  induction ks as [|k ks IH]; cbn [check_keys find]; [reflexivity|].
  destruct (smem k KNOWN_KEYS); cbn; [exact IH | reflexivity].
Qed.

Lemma check_keys_ok ks : result (check_keys ks) = Ok tt <-> forall k, In k ks -> In k KNOWN_KEYS.
Proof.
  rewrite check_keys_spec. destruct (find _ ks) as [k|] eqn:E; cbn [result snd raise ret].
  - apply find_some in E as [Hin Hn]. split; [discriminate|]. intros H.
    apply H in Hin. apply smem_In in Hin. rewrite Hin in Hn; discriminate.
  - split; [|reflexivity]. intros _ k Hk. apply smem_In.
    pose proof (find_none _ _ E k Hk) as H. cbv beta in H. destruct (smem k KNOWN_KEYS); [reflexivity|discriminate].
Qed.

Lemma check_keys_warns ks : warns (check_keys ks) = [].
Proof. rewrite check_keys_spec; destruct (find _ ks); reflexivity. Qed.

Lemma dkeys_dupdate d e x : In x (dkeys (dupdate d e)) <-> In x (dkeys d) \/ In x (dkeys e).
Proof.
  revert d; induction e as [|[k v] e IH]; intros d; cbn.
  - intuition.
  - change (fold_left _ e (dset d k v)) with (dupdate (dset d k v) e).
    rewrite IH, dkeys_dset. unfold dkeys; intuition.
Qed.

Lemma dset_app_new d k v : ~ In k (dkeys d) -> dset d k v = d ++ [(k, v)].
Proof.
  induction d as [|[k' v'] d IH]; cbn; [reflexivity|]. intros H.
  destruct (String.eqb k' k) eqn:E; [apply String.eqb_eq in E; subst; intuition|].
  rewrite IH; [reflexivity | intuition].
Qed.
Lemma dupdate_app d e : NoDup (dkeys e) -> (forall k, In k (dkeys e) -> ~ In k (dkeys d)) ->
  dupdate d e = d ++ e.
Proof.
  revert d; induction e as [|[k v] e IH]; intros d ND Hd; cbn.
  - rewrite app_nil_r; reflexivity.
  - cbn in ND. inversion ND as [|? ? Hnin ND']; subst.
    change (fold_left _ e (dset d k v)) with (dupdate (dset d k v) e).
    rewrite dset_app_new by (apply Hd; left; reflexivity).
    rewrite IH.
    + rewrite <- app_assoc; reflexivity.
    + exact ND'.
    + intros k' Hk'. unfold dkeys. rewrite map_app, in_app_iff; cbn.
      intros [H|[H|[]]]; [eapply Hd; [right; exact Hk' | exact H]|].
      subst; contradiction.
Qed.
Lemma dupdate_nil e : NoDup (dkeys e) -> dupdate [] e = e.
Proof. intros H; rewrite dupdate_app; [reflexivity | exact H | intros k _ []]. Qed.

(** ** Parameter checks *)
Lemma check_num_result n lo hi x : result (check_num n lo hi (PNum x)) = Ok (PNum x).
Proof.
  unfold check_num; cbn. destruct lo as [m|]; cbn; [destruct (fltb x m)|];
  cbn; try reflexivity; destruct hi as [m'|]; cbn; try reflexivity; destruct (fltb m' x); reflexivity.
Qed.
Lemma check_num_param n req lo hi def x :
  result (check (NumP n req lo hi def) (PNum x)) = Ok (PNum x).
Proof. unfold check; rewrite result_bind; cbn; apply check_num_result. Qed.
Lemma check_num_param_none n lo hi : result (check (NumP n false lo hi PNone) PNone) = Ok PNone.
Proof. reflexivity. Qed.
Lemma check_num_param_default n lo hi x :
  result (check (NumP n false lo hi (PNum x)) PNone) = Ok (PNum x).
Proof. unfold check; rewrite result_bind; cbn; apply check_num_result. Qed.
Lemma check_required_none n lo hi def : result (check (NumP n true lo hi def) PNone) = Raise EValue.
Proof. reflexivity. Qed.
Lemma check_cat_result n opts def v :
  result (check_cat n opts def v) = Ok (if pyin v opts then v else def).
Proof. unfold check_cat; destruct (pyin v opts); reflexivity. Qed.
Lemma check_cat_param n req opts def v : v <> PNone ->
  result (check (Param n req def (KCat opts)) v) = Ok (if pyin v opts then v else def).
Proof.
  intros H; unfold check; rewrite result_bind; cbn.
  destruct v; [congruence| | |]; cbn; apply check_cat_result.
Qed.
Lemma check_cat_param_none n opts def :
  result (check (Param n false def (KCat opts)) PNone) = Ok def.
Proof.
  unfold check; rewrite result_bind; cbn. rewrite check_cat_result.
  destruct (pyin def opts); reflexivity.
Qed.

(** ** Model initialisation as a sequence of checks *)
Fixpoint checks (ps : list param) (src : dict) : res dict :=
  match ps with
  | [] => Ok []
  | p :: ps' =>
      match result (check p (dget_none src (p_name p))) with
      | Raise e => Raise e
      | Ok v => match checks ps' src with Raise e => Raise e | Ok d => Ok ((p_name p, v) :: d) end
      end
  end.

Lemma dset_app_keep d1 d2 k v w :
  ~ In k (dkeys d1) -> dset (d1 ++ (k, v) :: d2) k w = d1 ++ (k, w) :: d2.
Proof.
  induction d1 as [|[k' v'] d1 IH]; cbn.
  - rewrite String.eqb_refl; reflexivity.
  - intros H. destruct (String.eqb k' k) eqn:E; [apply String.eqb_eq in E; subst; intuition|].
    rewrite IH; [reflexivity|intuition].
Qed.
Lemma dget_app_r d1 d2 k : ~ In k (dkeys d1) -> dget (d1 ++ d2) k = dget d2 k.
Proof.
  induction d1 as [|[k' v'] d1 IH]; cbn; [reflexivity|]. intros H.
  destruct (String.eqb k' k) eqn:E; [apply String.eqb_eq in E; subst; intuition|].
  apply IH; intuition.
Qed.

Lemma check_inputs_result ps src pre :
  NoDup (map p_name ps) -> (forall p, In p ps -> ~ In (p_name p) (dkeys pre)) ->
  result (check_inputs ps (Scen (pre ++ pick ps src) [])) =
  match checks ps src with Raise e => Raise e | Ok d => Ok (Scen (pre ++ d) []) end.
Proof.
  revert pre; induction ps as [|p ps IH]; intros pre ND Hpre.
  - cbn. reflexivity.
  - cbn [map] in ND. inversion ND as [|? ? Hnin ND']; subst.
    cbn [check_inputs checks]. rewrite result_bind.
    unfold sc_item, ditem; cbn [s_data].
    rewrite dget_app_r by (apply Hpre; left; reflexivity).
    unfold pick; cbn [map dget fst snd]. rewrite String.eqb_refl. cbn [result snd ret].
    rewrite result_bind.
    destruct (result (check p (dget_none src (p_name p)))) as [w|e]; [|reflexivity].
    unfold sc_setitem; cbn [s_data s_attrs].
    rewrite dset_app_keep by (apply Hpre; left; reflexivity).
    change (map (fun p0 => (p_name p0, dget_none src (p_name p0))) ps) with (pick ps src).
    replace (pre ++ (p_name p, w) :: pick ps src)
      with ((pre ++ [(p_name p, w)]) ++ pick ps src) by (rewrite <- app_assoc; reflexivity).
    rewrite IH.
    + destruct (checks ps src); [rewrite <- app_assoc|]; reflexivity.
    + exact ND'.
    + intros q Hq. unfold dkeys. rewrite map_app, in_app_iff; cbn.
      intros [H|[H|[]]].
      * eapply Hpre; [right; exact Hq | exact H].
      * apply Hnin. rewrite H. apply in_map; exact Hq.
Qed.

Definition known_params (ps : list param) : bool := forallb (fun p => smem (p_name p) KNOWN_KEYS) ps.

Lemma dkeys_pick ps src : dkeys (pick ps src) = map p_name ps.
Proof. unfold dkeys, pick; rewrite map_map; reflexivity. Qed.

Lemma sc_new_pick ps src :
  NoDup (map p_name ps) -> known_params ps = true ->
  sc_new (pick ps src) = ret (Scen (pick ps src) []).
Proof.
  intros ND HK. unfold sc_new.
  rewrite dupdate_nil by (rewrite dkeys_pick; exact ND).
  rewrite check_keys_spec.
  destruct (find _ (dkeys (pick ps src))) as [k|] eqn:E; [|rewrite bind_ret_l; reflexivity].
  apply find_some in E as [Hin Hn]. rewrite dkeys_pick in Hin.
  apply in_map_iff in Hin as (p & <- & Hp).
  unfold known_params in HK; rewrite forallb_forall in HK.
  rewrite (HK p Hp) in Hn; discriminate.
Qed.

Lemma model_init_result ps src :
  NoDup (map p_name ps) -> known_params ps = true ->
  result (model_init ps src) =
  match checks ps src with Raise e => Raise e | Ok d => Ok (Scen d []) end.
Proof.
  intros ND HK. unfold model_init. rewrite sc_new_pick by assumption. rewrite bind_ret_l.
  apply (check_inputs_result ps src []); [exact ND | intros p _ []].
Qed.

(** Decide [NoDup] of literal names. *)
Fixpoint nodupb (l : list string) : bool :=
  match l with [] => true | x :: t => negb (smem x t) && nodupb t end.
Lemma nodupb_NoDup l : nodupb l = true -> NoDup l.
Proof.
  induction l as [|x t IH]; cbn; [constructor|].
  intros H; apply andb_prop in H as [H1 H2]. constructor; [|auto].
  intros Hin; apply smem_In in Hin; rewrite Hin in H1; discriminate.
Qed.

Lemma model_init_result' ps src :
  nodupb (map p_name ps) = true -> known_params ps = true ->
  result (model_init ps src) =
  match checks ps src with Raise e => Raise e | Ok d => Ok (Scen d []) end.
Proof. intros; apply model_init_result; [apply nodupb_NoDup|]; assumption. Qed.

(** ** Interpolation *)
Definition seglin (x0 y0 x1 y1 x : R) : R := (y1 - y0) / (x1 - x0) * (x - x0) + y0.

Lemma line_fin x0 y0 x1 y1 x : x0 < x1 ->
  line (Fin x0) (Fin y0) (Fin x1) (Fin y1) (Fin x) = Fin (seglin x0 y0 x1 y1 x).
Proof. intros H; unfold line, seglin; fin. reflexivity. Qed.

Fixpoint incr (l : list R) : Prop :=
  match l with
  | x0 :: ((x1 :: _) as t) => x0 < x1 /\ incr t
  | _ => True
  end.

Lemma incr_hd_nth x l i : incr (x :: l) -> (i < List.length l)%nat -> x < nth i l 0.
Proof.
  revert x i; induction l as [|y l IH]; intros x i H Hi; [cbn in Hi; lia|].
  destruct H as [Hxy H]. destruct i as [|i]; [exact Hxy|].
  cbn in Hi; assert (i < List.length l)%nat by lia.
  cbn [nth]. specialize (IH y i H). lra || (pose proof (IH H0); lra).
Qed.
Lemma incr_nth l : incr l -> forall i j, (i < j)%nat -> (j < List.length l)%nat -> nth i l 0 < nth j l 0.
Proof.
  induction l as [|x l IH]; intros H i j Hij Hj; [cbn in Hj; lia|].
  destruct j as [|j]; [lia|]. cbn in Hj. destruct i as [|i]; cbn [nth].
  - apply (incr_hd_nth x l j); [exact H | lia].
  - apply IH; [destruct l; [exact I | apply H] | lia | lia].
Qed.

Lemma seg_interp_fin x0 y0 xs ys i x :
  List.length xs = List.length ys -> incr (x0 :: xs) -> (i < List.length xs)%nat ->
  nth i (x0 :: xs) 0 <= x <= nth i xs 0 ->
  seg_interp (Fin x0) (Fin y0) (combine (map Fin xs) (map Fin ys)) (Fin x) =
  Fin (seglin (nth i (x0 :: xs) 0) (nth i (y0 :: ys) 0) (nth i xs 0) (nth i ys 0) x).
Proof.
  revert x0 y0 ys i; induction xs as [|x1 xs IH]; intros x0 y0 ys i Hlen Hinc Hi Hx; [cbn in Hi; lia|].
  destruct ys as [|y1 ys]; [discriminate|]. cbn in Hlen; injection Hlen as Hlen.
  destruct Hinc as [H01 Hinc].
  destruct xs as [|x2 xs].
  - cbn in Hi. replace i with 0%nat in * by lia. destruct ys; [|discriminate].
    cbn [map combine seg_interp nth] in *. apply line_fin; exact H01.
  - destruct ys as [|y2 ys]; [discriminate|].
    assert (Hunf : seg_interp (Fin x0) (Fin y0) (combine (map Fin (x1 :: x2 :: xs)) (map Fin (y1 :: y2 :: ys))) (Fin x)
      = if fleb (Fin x) (Fin x1) then line (Fin x0) (Fin y0) (Fin x1) (Fin y1) (Fin x)
        else seg_interp (Fin x1) (Fin y1) (combine (map Fin (x2 :: xs)) (map Fin (y2 :: ys))) (Fin x))
      by reflexivity.
    rewrite Hunf; clear Hunf. rewrite fleb_fin.
    destruct i as [|i].
    + cbn [nth] in *. rewrite Rleb_true by lra. apply line_fin; exact H01.
    + cbn [List.length] in Hi.
      assert (Hlo : x1 <= x).
      { destruct i as [|i]; [cbn [nth] in Hx; lra|].
        pose proof (incr_hd_nth x1 (x2 :: xs) i Hinc) as Hn. cbn [List.length] in Hn.
        assert (x1 < nth i (x2 :: xs) 0) by (apply Hn; lia).
        change (nth (S (S i)) (x0 :: x1 :: x2 :: xs) 0) with (nth i (x2 :: xs) 0) in Hx. lra. }
      destruct (Rleb_spec x x1) as [Hle|Hgt].
      * (* x = x1: both segments agree at the knot *)
        assert (x = x1) by lra; subst x.
        destruct i as [|i].
        -- cbn [nth] in *. rewrite line_fin by lra. f_equal. unfold seglin.
           assert (x1 < x2) by (apply Hinc).
           replace ((y1 - y0) / (x1 - x0) * (x1 - x0)) with (y1 - y0) by (field; lra).
           replace (x1 - x1) with 0 by lra. rewrite Rmult_0_r. lra.
        -- exfalso. pose proof (incr_hd_nth x1 (x2 :: xs) i Hinc) as Hn. cbn [List.length] in Hn.
           assert (x1 < nth i (x2 :: xs) 0) by (apply Hn; lia).
           change (nth (S (S i)) (x0 :: x1 :: x2 :: xs) 0) with (nth i (x2 :: xs) 0) in Hx. lra.
      * rewrite (IH x1 y1 (y2 :: ys) i); [reflexivity | exact Hlen | exact Hinc | cbn [List.length]; lia |].
        exact Hx.
Qed.

Lemma last_combine_fst (x0 y0 : flt) xs ys : List.length xs = List.length ys ->
  last (combine xs ys) (x0, y0) = (last xs x0, last ys y0).
Proof.
  revert x0 y0 ys; induction xs as [|x xs IH]; intros x0 y0 [|y ys] H; try discriminate; [reflexivity|].
  cbn in H; injection H as H. destruct xs as [|x' xs], ys as [|y' ys]; try discriminate; [reflexivity|].
  exact (IH x0 y0 (y' :: ys) H).
Qed.
Lemma last_map_Fin x0 xs : last (map Fin xs) (Fin x0) = Fin (last xs x0).
Proof.
  revert x0; induction xs as [|x xs IH]; intros x0; [reflexivity|].
  destruct xs as [|x' xs]; [reflexivity|]. exact (IH x0).
Qed.
Lemma last_nth (x0 : R) xs : last xs x0 = nth (List.length xs) (x0 :: xs) 0.
Proof.
  revert x0; induction xs as [|x xs IH]; intros x0; [reflexivity|].
  destruct xs as [|x' xs]; [reflexivity|].
  change (last (x :: x' :: xs) x0) with (last (x' :: xs) x0).
  rewrite (IH x0). reflexivity.
Qed.

Lemma interp1d_segment xs ys i x :
  List.length xs = List.length ys -> incr xs -> (S i < List.length xs)%nat ->
  nth i xs 0 <= x <= nth (S i) xs 0 ->
  interp1d_nan (map Fin xs) (map Fin ys) (Fin x) =
  Fin (seglin (nth i xs 0) (nth i ys 0) (nth (S i) xs 0) (nth (S i) ys 0) x).
Proof.
  intros Hlen Hinc Hi Hx. destruct xs as [|x0 xs]; [cbn in Hi; lia|].
  destruct ys as [|y0 ys]; [discriminate|]. cbn [List.length] in *. injection Hlen as Hlen.
  unfold interp1d_nan. cbn [map combine].
  rewrite last_combine_fst by (rewrite !map_length; exact Hlen). cbn [fst].
  rewrite last_map_Fin, !fltb_fin.
  assert (H0 : x0 <= x).
  { destruct i as [|i]; [cbn in Hx; lra|].
    assert (x0 < nth i xs 0) by (apply (incr_hd_nth x0 xs i Hinc); lia). cbn [nth] in Hx; lra. }
  rewrite Rltb_false by exact H0.
  assert (Hl : x <= last xs x0).
  { rewrite last_nth. destruct (Nat.eq_dec (S i) (List.length xs)) as [E|E].
    - rewrite <- E. lra.
    - assert (nth (S i) (x0 :: xs) 0 < nth (List.length xs) (x0 :: xs) 0)
        by (apply incr_nth; [exact Hinc | lia | cbn; lia]). lra. }
  rewrite Rltb_false by exact Hl.
  rewrite (seg_interp_fin x0 y0 xs ys i x Hlen Hinc); [reflexivity | lia | exact Hx].
Qed.

Lemma interp1d_below xs ys x : List.length xs = List.length ys -> (0 < List.length xs)%nat ->
  x < nth 0 xs 0 -> interp1d_nan (map Fin xs) (map Fin ys) (Fin x) = NaN.
Proof.
  intros Hlen Hpos Hx. destruct xs as [|x0 xs]; [cbn in Hpos; lia|].
  destruct ys as [|y0 ys]; [discriminate|].
  unfold interp1d_nan; cbn [map combine]. cbn in Hx. rewrite fltb_fin, Rltb_true by exact Hx. reflexivity.
Qed.
Lemma interp1d_above xs ys x : List.length xs = List.length ys -> (0 < List.length xs)%nat ->
  incr xs -> last xs 0 < x -> interp1d_nan (map Fin xs) (map Fin ys) (Fin x) = NaN.
Proof.
  intros Hlen Hpos Hinc Hx. destruct xs as [|x0 xs]; [cbn in Hpos; lia|].
  destruct ys as [|y0 ys]; [discriminate|]. injection Hlen as Hlen.
  unfold interp1d_nan; cbn [map combine].
  rewrite last_combine_fst by (rewrite !map_length; exact Hlen). cbn [fst].
  rewrite last_map_Fin, !fltb_fin.
  destruct (Rltb_spec x x0); [reflexivity|].
  rewrite Rltb_true; [reflexivity|].
  rewrite last_nth. rewrite last_nth in Hx. exact Hx.
Qed.
Lemma seg_interp_nan x0 y0 p rest : seg_interp x0 y0 (p :: rest) NaN = NaN.
Proof.
  revert x0 y0 p; induction rest as [|[x2 y2] rest IH]; intros x0 y0 [x1 y1].
  - cbn. unfold line. rewrite nan_fsub_l, nan_fmul_r, nan_fadd_l; reflexivity.
  - change (seg_interp x0 y0 ((x1, y1) :: (x2, y2) :: rest) NaN)
      with (if fleb NaN x1 then line x0 y0 x1 y1 NaN else seg_interp x1 y1 ((x2, y2) :: rest) NaN).
    cbn [fleb]. apply IH.
Qed.
Lemma interp1d_nan_arg xs ys : List.length xs = List.length ys -> (1 < List.length xs)%nat ->
  interp1d_nan xs ys NaN = NaN.
Proof.
  intros Hlen Hl. destruct xs as [|x0 [|x1 xs]]; cbn in Hl; try lia.
  destruct ys as [|y0 [|y1 ys]]; try discriminate.
  unfold interp1d_nan. change (combine (x0 :: x1 :: xs) (y0 :: y1 :: ys)) with ((x0, y0) :: (x1, y1) :: combine xs ys).
  cbv iota beta. replace (fltb NaN x0) with false by (destruct x0; reflexivity).
  set (l := fst (last _ _)). replace (fltb l NaN) with false by (destruct l; reflexivity).
  apply seg_interp_nan.
Qed.

Lemma seglin_knot_l x0 y0 x1 y1 : x0 < x1 -> seglin x0 y0 x1 y1 x0 = y0.
Proof. intros; unfold seglin; field; lra. Qed.
Lemma seglin_knot_r x0 y0 x1 y1 : x0 < x1 -> seglin x0 y0 x1 y1 x1 = y1.
Proof. intros; unfold seglin; field; lra. Qed.
Lemma seglin_between x0 y0 x1 y1 x : x0 < x1 -> x0 <= x <= x1 ->
  Rmin y0 y1 <= seglin x0 y0 x1 y1 x <= Rmax y0 y1.
Proof.
  intros H Hx. unfold seglin.
  set (t := (x - x0) / (x1 - x0)).
  assert (Ht : 0 <= t <= 1).
  { unfold t; split.
    - apply Rmult_le_pos; [lra|]. left; apply Rinv_0_lt_compat; lra.
    - apply Rmult_le_reg_r with (x1 - x0); [lra|]. unfold Rdiv. rewrite Rmult_assoc, Rinv_l by lra. lra. }
  replace ((y1 - y0) / (x1 - x0) * (x - x0) + y0) with (y0 + t * (y1 - y0)) by (unfold t; field; lra).
  unfold Rmin, Rmax; destruct (Rle_dec y0 y1); split; nra.
Qed.
