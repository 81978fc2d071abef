(** * Proofs for Hermkes, Kuehn & Riggelsen (2014) and Abrahamson & Bhasin (2020) *)
From Coquelicot Require Import Coquelicot.
From Coq Require Import List ClassicalEpsilon.
From Verif Require Import M_hkr14 M_ab20 FrameworkProofs Anal Nga Outs Spec_hkr14.
Open Scope R_scope.
Open Scope string_scope.
Open Scope list_scope.

(** *** Abrahamson & Bhasin *)
Definition raises {A} (m : M A) : Prop := exists e, result m = Raise e.
Lemma raises_bind {A B} (m : M A) (f : A -> M B) : (forall a, result m = Ok a -> raises (f a)) -> raises (bind m f).
Proof. intros H. unfold raises. rewrite result_bind. destruct (result m) as [a|e] eqn:E; [apply H; reflexivity|exists e; reflexivity]. Qed.
Lemma raises_raise {A} e : raises (@raise A e). Proof. exists e. reflexivity. Qed.
Lemma ab20_fails src psa pga psa_1s : raises (ab20 src psa pga psa_1s).
Proof.
  unfold ab20. apply raises_bind. intros _ _. apply raises_bind. intros [C l] HC.
  assert (C = ab20_pga \/ C = ab20_psa1) as HC'.
  { destruct psa; try discriminate. destruct pga as [| |x]; cbn in HC; try discriminate.
    - destruct psa_1s; try discriminate. injection HC; auto.
    - injection HC; auto. }
  cbn [fst snd]. do 9 (apply raises_bind; intros ? _).
  apply raises_bind. intros v Hv. destruct HC' as [-> | ->]; discriminate Hv.
Qed.
Lemma ab20_scenario src m r v : has_num src "mag" m -> has_num src "dist_rup" r -> has_num src "v_s30" v ->
  exists s, result (model_init ab20_params src) = Ok s.
Proof.
  intros H1 H2 H3. rewrite model_init_result' by reflexivity. unfold has_num in *.
  let x := eval cbv [ab20_params NumP] in ab20_params in change ab20_params with x.
  run_checks. eexists. reflexivity.
Qed.
Lemma ab20_default src m r v pga psa_1s : has_num src "mag" m -> has_num src "dist_rup" r -> has_num src "v_s30" v ->
  result (ab20 src ADefault pga psa_1s) = Raise ENotImpl.
Proof. intros H1 H2 H3. destruct (ab20_scenario src m r v H1 H2 H3) as (s & E). unfold ab20. rewrite result_bind, E. reflexivity. Qed.
Lemma num_src src k x : has_num src k x -> num (Scen src []) k = ret (Fin x).
Proof.
  unfold has_num, dget_none. intros H. apply num_hit. destruct (dget src k); [rewrite H; reflexivity|discriminate].
Qed.
Lemma ab20_pga_fails src m r v x psa_1s : has_num src "mag" m -> has_num src "dist_rup" r -> has_num src "v_s30" v ->
  result (ab20 src ANone (ANum (Fin x)) psa_1s) = Raise (EKey "v_s30").
Proof.
  intros H1 H2 H3. destruct (ab20_scenario src m r v H1 H2 H3) as (s & E). unfold ab20. rewrite result_bind, E.
  cbn [ab20_log]. rewrite !bind_ret_l. cbn [fst snd]. rewrite (num_src src "mag" m H1), (num_src src "dist_rup" r H2), !bind_ret_l.
  destruct (Fin m <? Fin 5)%flt; [|destruct (Fin m >? Fin 7.5)%flt]; reflexivity.
Qed.
Lemma ab20_others src m r v x a : has_num src "mag" m -> has_num src "dist_rup" r -> has_num src "v_s30" v ->
  result (ab20 src ANone ANone (ANum (Fin x))) = Raise (EKey "v_s30") /\ result (ab20 src ANone ADefault a) = Raise EType /\
  result (ab20 src ANone ANone ADefault) = Raise EType /\ result (ab20 src ANone ANone ANone) = Raise EType.
Proof.
  intros H1 H2 H3. destruct (ab20_scenario src m r v H1 H2 H3) as (s & E). unfold ab20.
  split; [|split; [|split]]; rewrite result_bind, E; [|reflexivity..].
  cbn [ab20_log]. rewrite !bind_ret_l. cbn [fst snd]. rewrite (num_src src "mag" m H1), (num_src src "dist_rup" r H2), !bind_ret_l.
  destruct (Fin m <? Fin 5)%flt; [|destruct (Fin m >? Fin 7.5)%flt]; reflexivity.
Qed.

(** *** HKR14 *)
Section H.
  Variable nearest : hkdata -> list flt -> list flt.
  Lemma hk_cached file file' d src : hkr14 nearest file (Some d) src = hkr14 nearest file' (Some d) src.
  Proof. reflexivity. Qed.
  Lemma hk_keeps file d src : fst (hkr14 nearest file (Some d) src) = Some d.
  Proof. unfold hkr14. destruct (result _) as [[s e]|e]; reflexivity. Qed.
  Lemma hk_fills file src : fst (hkr14 nearest file None src) = None \/ fst (hkr14 nearest file None src) = file.
  Proof. unfold hkr14. destruct (result _) as [[s e]|e]; [|left; reflexivity]. destruct file; [right|left]; reflexivity. Qed.
  Lemma hk_same d src : snd (hkr14 nearest (Some d) None src) = snd (hkr14 nearest (Some d) (Some d) src).
  Proof. unfold hkr14. destruct (result _) as [[s e]|e]; reflexivity. Qed.
  Lemma hk_once d h : hkr14_history nearest (Some d) h = (Some d, map (fun x => snd (hkr14 nearest (Some d) None (snd x))) h).
  Proof.
    induction h as [|[file src] h IH]; [reflexivity|]. cbn [hkr14_history map snd]. rewrite (hk_cached file (Some d)).
    pose proof (hk_keeps (Some d) d src) as K. rewrite hk_same. destruct (hkr14 nearest (Some d) (Some d) src) as [c r]. cbn [fst snd] in *. subst c.
    rewrite IH. reflexivity.
  Qed.
  Lemma hk_history d h : Forall (fun x => fst x = Some d) h ->
    snd (hkr14_history nearest None h) = map (fun x => snd (hkr14 nearest (Some d) None (snd x))) h.
  Proof.
    induction 1 as [|[file src] h E H IH]; [reflexivity|]. cbn [fst] in E. subst file. cbn [hkr14_history map snd].
    destruct (hk_fills (Some d) src) as [F|F]; destruct (hkr14 nearest (Some d) None src) as [c r]; cbn [fst snd] in *; subst c.
    - destruct (hkr14_history nearest None h) as [c' rs]. cbn [snd] in *. rewrite IH. reflexivity.
    - rewrite hk_once. reflexivity.
  Qed.
End H.

Definition hk_depth (a : hk) : R := match hk_z a with Some z => z | None => 15 end.
Definition hk_mechv (a : hk) : pyval := choice ["SS"; "NS"; "RS"] PNone (Some (hk_mech a)).
Definition hk_scen (a : hk) : scen :=
  Scen [("depth_hyp", PNum (Fin (hk_depth a))); ("dist_jb", PNum (Fin (hk_jb a))); ("mag", PNum (Fin (hk_m a)));
        ("v_s30", PNum (Fin (hk_v a))); ("mechanism", hk_mechv a)] [].
Lemma hk_start src a : hk_gives src a -> result (model_init (gc_params hkr14_class) src) = Ok (hk_scen a).
Proof.
  intros (G1 & G2 & G3 & G4 & G5). rewrite model_init_result' by reflexivity.
  let x := eval cbv [gc_params hkr14_class NumP CatP CatBoolP map] in (gc_params hkr14_class) in change (gc_params hkr14_class) with x.
  unfold has_num, has_str in *. cbn [checks p_name]. unfold opt_num, absent, has_num in G2. unfold hk_scen, hk_depth.
  rewrite G1, G3, G4, G5. destruct (hk_z a) as [z|]; rewrite G2;
  repeat (rewrite ?chk_num, ?chk_num_default; cbn [checks p_name]);
  change [PStr "SS"; PStr "NS"; PStr "RS"] with (map PStr ["SS"; "NS"; "RS"]);
  rewrite chk_str_req; reflexivity.
Qed.
Lemma hk_mechv_is a t : In t ["SS"; "NS"; "RS"] -> is_str (hk_mechv a) t = String.eqb (hk_mech a) t.
Proof.
  intros Ht. unfold hk_mechv, choice. cbn [existsb].
  destruct (String.eqb_spec (hk_mech a) "SS") as [E|E]; [rewrite E; reflexivity|].
  destruct (String.eqb_spec (hk_mech a) "NS") as [E2|E2]; [rewrite E2; reflexivity|].
  destruct (String.eqb_spec (hk_mech a) "RS") as [E3|E3]; [rewrite E3; reflexivity|].
  cbn [orb]. destruct Ht as [<-|[<-|[<-|[]]]]; symmetry; apply String.eqb_neq; assumption.
Qed.
Lemma hk_event a : result (bind (hkr14_event (hk_scen a)) nums) = Ok (map Fin (hk_point a)).
Proof.
  unfold hkr14_event, hk_scen.
  rewrite attr_hit with (v := hk_mechv a) by reflexivity. rewrite bind_ret_l.
  rewrite attr_hit with (v := PNum (Fin (hk_m a))) by reflexivity. rewrite bind_ret_l.
  rewrite attr_hit with (v := PNum (Fin (hk_depth a))) by reflexivity. rewrite bind_ret_l.
  rewrite attr_hit with (v := PNum (Fin (hk_jb a))) by reflexivity. rewrite bind_ret_l.
  rewrite attr_hit with (v := PNum (Fin (hk_v a))) by reflexivity. rewrite bind_ret_l.
  rewrite bind_ret_l. rewrite !hk_mechv_is by (cbn; auto). unfold hk_point, hk_flag, hk_depth.
  destruct (String.eqb (hk_mech a) "RS"), (String.eqb (hk_mech a) "SS"), (String.eqb (hk_mech a) "NS"); reflexivity.
Qed.
Lemma hk_run nearest file cache d src a : (match cache with Some d => Some d | None => file end) = Some d -> hk_gives src a ->
  result (snd (hkr14 nearest file cache src)) =
    Ok (GMM hkr14_class (hk_scen a) (evens (nearest d (map Fin (hk_point a)))) (Some (map fsqrt (odds (nearest d (map Fin (hk_point a))))))).
Proof.
  intros C G. unfold hkr14. pose proof (hk_event a) as EV. rewrite result_bind in EV.
  destruct (result (hkr14_event (hk_scen a))) as [e|] eqn:E; [|discriminate].
  assert (S : result (bind (model_init (gc_params hkr14_class) src) (fun s => bind (hkr14_event s) (fun e => ret (s, e)))) = Ok (hk_scen a, e)).
  { rewrite result_bind, (hk_start src a G), result_bind, E. reflexivity. }
  rewrite S, C. cbn [snd]. rewrite result_bind, S. unfold hkr14_use. rewrite result_bind, EV. reflexivity.
Qed.
Lemma hk_nearest nearest d src a : nearest_spec nearest -> d <> [] -> Forall (fun ep => List.length (snd ep) = 12%nat) d -> hk_gives src a ->
  exists e p, In (e, p) d /\ (forall e' p', In (e', p') d -> dist2 e (hk_point a) <= dist2 e' (hk_point a)) /\
    gmm_out (snd (hkr14 nearest (Some d) None src)) (hk_outs p).
Proof.
  intros N Hd F G. destruct (N d (hk_point a) Hd) as (e & p & I & E & Mn). exists e, p. split; [exact I|]. split; [exact Mn|].
  rewrite Forall_forall in F. specialize (F _ I). cbn [snd] in F.
  do 12 (destruct p as [|? p]; [discriminate F|]). destruct p as [|? p]; [|discriminate F].
  eexists. split; [apply (hk_run nearest (Some d) None d src a eq_refl G)|]. rewrite E. cbn [map evens odds]. repeat split; try reflexivity. cbn. apply (f_equal Ok), (f_equal Fin). ring.
Qed.
Lemma dist2_self p : dist2 p p = 0.
Proof. induction p as [|x p IH]; cbn [dist2]; [reflexivity|rewrite IH; ring]. Qed.
Lemma dist2_pos p : forall q, 0 <= dist2 p q.
Proof. induction p as [|x p IH]; intros [|y q]; cbn [dist2]; try lra. specialize (IH q). pose proof (pow2_ge_0 (x - y)). lra. Qed.
Lemma dist2_zero p : forall q, List.length p = List.length q -> dist2 p q <= 0 -> p = q.
Proof.
  induction p as [|x p IH]; intros [|y q] L H; try discriminate; [reflexivity|]. cbn [dist2] in H. pose proof (dist2_pos p q). pose proof (pow2_ge_0 (x - y)).
  f_equal; [|apply IH; [injection L; auto|lra]]. assert (Z : (x - y) ^ 2 = 0) by lra. rewrite <- Rsqr_pow2 in Z. apply Rsqr_0_uniq in Z. lra.
Qed.
Lemma hk_exact nearest d src a p : nearest_spec nearest -> Forall (fun ep => List.length (fst ep) = 7%nat /\ List.length (snd ep) = 12%nat) d -> NoDup (map fst d) ->
  hk_gives src a -> In (hk_point a, p) d -> gmm_out (snd (hkr14 nearest (Some d) None src)) (hk_outs p).
Proof.
  intros N F ND G I. assert (Hd : d <> []) by (intros ->; destruct I).
  assert (F2 : Forall (fun ep => List.length (snd ep) = 12%nat) d) by (eapply Forall_impl; [|exact F]; cbv beta; intros ep H; apply H).
  destruct (hk_nearest nearest d src a N Hd F2 G) as (e & p' & I' & Mn & O).
  specialize (Mn _ _ I). rewrite dist2_self in Mn. rewrite Forall_forall in F. pose proof (F _ I') as [L _]. cbn [fst] in L.
  apply dist2_zero in Mn; [|rewrite L; reflexivity]. subst e.
  assert (p = p'); [|subst; exact O]. clear - ND I I'. induction d as [|[e0 p0] d IH]; [destruct I|].
  inversion ND as [|? ? NI ND' E]; subst. cbn [map fst] in NI. destruct I as [E1|I1], I' as [E2|I2].
  - congruence.
  - exfalso. apply NI. injection E1 as -> ->. apply (in_map fst) in I2. exact I2.
  - exfalso. apply NI. injection E2 as -> ->. apply (in_map fst) in I1. exact I1.
  - apply IH; assumption.
Qed.
(** A missing distance. *)
Lemma hk_missing nearest d src m v t : has_num src "mag" m -> has_num src "v_s30" v -> has_str src "mechanism" t -> absent src "dist_jb" -> absent src "depth_hyp" ->
  result (snd (hkr14 nearest (Some d) None src)) = Raise EType.
Proof.
  intros G1 G4 G5 GA GZ. unfold hkr14.
  assert (S : result (model_init (gc_params hkr14_class) src) = Ok (Scen [("depth_hyp", PNum (Fin 15)); ("dist_jb", PNone); ("mag", PNum (Fin m));
        ("v_s30", PNum (Fin v)); ("mechanism", choice ["SS"; "NS"; "RS"] PNone (Some t))] [])).
  { rewrite model_init_result' by reflexivity.
    let x := eval cbv [gc_params hkr14_class NumP CatP CatBoolP map] in (gc_params hkr14_class) in change (gc_params hkr14_class) with x.
    unfold has_num, has_str, absent in *. cbn [checks p_name]. rewrite G1, G4, G5, GA, GZ.
    repeat (rewrite ?chk_num, ?chk_num_default, ?chk_num_none; cbn [checks p_name]).
    change [PStr "SS"; PStr "NS"; PStr "RS"] with (map PStr ["SS"; "NS"; "RS"]). rewrite chk_str_req. reflexivity. }
  set (st := bind _ _). assert (E : exists e, result st = Ok e /\ result (hkr14_use nearest d (fst e) (snd e)) = Raise EType).
  { unfold st. rewrite result_bind, S. eexists. split; [reflexivity|]. reflexivity. }
  destruct E as ((s & e) & E1 & E2). rewrite E1. cbn [snd]. rewrite result_bind, E1. exact E2.
Qed.
(** A function as assumed exists. *)
Lemma nearest_exists : exists nearest, nearest_spec nearest.
Proof.
  assert (MIN : forall (data : hkdata) q, data <> [] -> exists e p, In (e, p) data /\ forall e' p', In (e', p') data -> dist2 e q <= dist2 e' q).
  { induction data as [|[e p] data IH]; intros q H; [contradiction|]. destruct data as [|ep data'] eqn:D.
    - exists e, p. split; [left; reflexivity|]. intros e' p' [X|[]]. injection X as <- <-. lra.
    - rewrite <- D in *. destruct (IH q) as (e1 & p1 & I & M1); [rewrite D; discriminate|].
      destruct (Rle_dec (dist2 e q) (dist2 e1 q)) as [L|L].
      + exists e, p. split; [left; reflexivity|]. intros e' p' [X|X]; [injection X as <- <-; lra|]. specialize (M1 _ _ X). lra.
      + exists e1, p1. split; [right; exact I|]. intros e' p' [X|X]; [injection X as <- <-; lra|exact (M1 _ _ X)]. }
  assert (Q : forall (data : hkdata) (x : list flt), exists y, data <> [] -> forall q, x = map Fin q -> exists e p, In (e, p) data /\ y = map Fin p /\
     forall e' p', In (e', p') data -> dist2 e q <= dist2 e' q).
  { intros data x. destruct (classic (data <> [] /\ exists q, x = map Fin q)) as [[H (q & ->)]|N].
    - destruct (MIN data q H) as (e & p & I & M1). exists (map Fin p). intros _ q' E. exists e, p. split; [exact I|]. split; [reflexivity|].
      assert (q' = q); [|subst; exact M1]. clear - E. revert q' E; induction q as [|a q IH]; intros [|b q'] E; try discriminate; [reflexivity|]. cbn [map] in E.
      injection E as -> E. f_equal. apply IH, E.
    - exists []. intros H q E. exfalso. apply N. split; [exact H|exists q; exact E]. }
  exists (fun data x => proj1_sig (constructive_indefinite_description _ (Q data x))).
  intros data q H. destruct (constructive_indefinite_description _ (Q data (map Fin q))) as [y Y]. cbn [proj1_sig].
  destruct (Y H q eq_refl) as (e & p & I & -> & M1). exists e, p. auto.
Qed.
Lemma dist2_nth p q k : (k < List.length p)%nat -> (k < List.length q)%nat -> (nth k p 0 - nth k q 0) ^ 2 <= dist2 p q.
Proof.
  revert q k; induction p as [|x p IH]; intros [|y q] k Hp Hq; cbn [List.length] in *; try lia.
  destruct k as [|k]; cbn [nth dist2].
  - pose proof (dist2_pos p q). lra.
  - specialize (IH q k ltac:(lia) ltac:(lia)). pose proof (pow2_ge_0 (x - y)). lra.
Qed.
Lemma hk_velocity nearest d src a e p : nearest_spec nearest -> Forall (fun ep => List.length (snd ep) = 12%nat) d ->
  hk_gives src a -> In (hk_point (Hk (hk_m a - 4) (hk_z a) (hk_jb a) (hk_v a) (hk_mech a)), p) d ->
  gmm_out (snd (hkr14 nearest (Some d) None src)) (hk_outs e) ->
  exists pt p', In (pt, p') d /\ hk_outs p' = hk_outs e /\ Rabs (nth 6 pt (hk_v a) - hk_v a) <= 4.
Proof.
  intros N F G I O. assert (Hd : d <> []) by (intros ->; destruct I).
  destruct (hk_nearest nearest d src a N Hd F G) as (pt & p' & I' & Mn & O'). exists pt, p'. split; [exact I'|].
  split; [exact (gmm_out_fun _ _ _ O' O)|].
  destruct (le_lt_dec (List.length pt) 6) as [L|L]; [rewrite nth_overflow by exact L; rewrite Rminus_eq_0, Rabs_R0; lra|].
  specialize (Mn _ _ I). pose proof (dist2_nth pt (hk_point a) 6 L ltac:(cbn; lia)) as B. cbn [hk_point nth] in B.
  assert (D : dist2 (hk_point (Hk (hk_m a - 4) (hk_z a) (hk_jb a) (hk_v a) (hk_mech a))) (hk_point a) = 16).
  { unfold hk_point, hk_flag. cbn [dist2 hk_m hk_z hk_jb hk_v hk_mech]. ring. }
  rewrite D in Mn. rewrite (nth_indep pt (hk_v a) 0 L). apply Rabs_le. nra.
Qed.
Lemma hk_app nearest h1 : forall c h2, hkr14_history nearest c (h1 ++ h2) =
  (fst (hkr14_history nearest (fst (hkr14_history nearest c h1)) h2),
   snd (hkr14_history nearest c h1) ++ snd (hkr14_history nearest (fst (hkr14_history nearest c h1)) h2)).
Proof.
  induction h1 as [|[file src] h1 IH]; intros c h2; cbn [app hkr14_history fst snd]; [destruct (hkr14_history nearest c h2); reflexivity|].
  destruct (hkr14 nearest file c src) as [c1 r]. rewrite IH. destruct (hkr14_history nearest c1 h1) as [c2 rs]. reflexivity.
Qed.
Lemma hk_loaded nearest h1 h2 data : fst (hkr14_history nearest None h1) = Some data ->
  hkr14_history nearest None (h1 ++ h2) =
    (Some data, snd (hkr14_history nearest None h1) ++ map (fun x => snd (hkr14 nearest (Some data) None (snd x))) h2).
Proof. intros H. rewrite hk_app, H, hk_once. reflexivity. Qed.
Lemma hk_from_file nearest h data : fst (hkr14_history nearest None h) = Some data -> In (Some data) (map fst h).
Proof.
  induction h as [|[file src] h IH]; cbn [hkr14_history]; [discriminate|]. destruct (hk_fills nearest file src) as [F|F];
    destruct (hkr14 nearest file None src) as [c r]; cbn [fst] in F; subst c.
  - destruct (hkr14_history nearest None h) as [c rs]. cbn [fst] in *. intros ->. right. apply IH. reflexivity.
  - destruct file as [d|].
    + rewrite hk_once. cbn [fst]. intros H. injection H as ->. left. reflexivity.
    + destruct (hkr14_history nearest None h) as [c rs]. cbn [fst] in *. intros ->. right. apply IH. reflexivity.
Qed.
