(** * Property C131, C132: HKR14 in several threads, and with infinite or NaN inputs *)
From Coq Require Import List String Lia Lra.
From Verif Require Import M_hkr14 FrameworkProofs Anal Nga Outs Spec_hkr14 P_hkr14 P_hkr14b.
Import ListNotations.
Open Scope R_scope.
Open Scope string_scope.
Open Scope list_scope.

(** ** C131: constructing HKR14 models from several threads.
    [sched] is any interleaving: the thread that moves next, with the content of the data file at that moment. *)
(** With an unchanging file every thread that finishes has exactly the result of a lone construction. *)
Theorem C131_any_interleaving : forall nearest data srcs sched i r, Forall (fun x => fst x = Some data) sched ->
  nth_error (snd (hkr14_sched nearest None (map HStart srcs) sched)) i = Some (HDone r) ->
  exists src, nth_error srcs i = Some src /\ r = snd (hkr14 nearest (Some data) None src).
Proof.
  intros nearest data srcs sched i r Fd H. destruct (hk_any_schedule _ _ _ _ _ _ H) as (src & f & E & [I|[_ N]] & R); [|congruence].
  exists src. split; [exact E|]. apply in_map_iff in I. destruct I as (x & <- & I). rewrite Forall_forall in Fd. rewrite (Fd x I) in R. exact R.
Qed.
Print Assumptions C131_any_interleaving.
(** Once loaded, the same whatever happens to the file. *)
Theorem C131_any_interleaving_once_loaded : forall nearest data srcs sched i r,
  nth_error (snd (hkr14_sched nearest (Some data) (map HStart srcs) sched)) i = Some (HDone r) ->
  exists src, nth_error srcs i = Some src /\ r = snd (hkr14 nearest (Some data) None src).
Proof.
  intros nearest data srcs sched i r H.
  assert (K : forall sched c ts, c = Some data -> Forall (fun pc => match pc with HLoad _ _ _ | HStore _ _ _ _ => False | _ => True end) ts ->
     fst (hkr14_sched nearest c ts sched) = Some data /\ hkr14_sched nearest c ts sched = hkr14_sched nearest c ts (map (fun x => (Some data, snd x)) sched)).
  { induction sched0 as [|[file j] sched0 IH]; intros c ts -> Ft; cbn [hkr14_sched map snd]; [split; reflexivity|].
    assert (S : forall j ts, Forall (fun pc => match pc with HLoad _ _ _ | HStore _ _ _ _ => False | _ => True end) ts ->
       hkr14_sched1 nearest file (Some data) j ts = hkr14_sched1 nearest (Some data) (Some data) j ts /\ fst (hkr14_sched1 nearest file (Some data) j ts) = Some data /\
       Forall (fun pc => match pc with HLoad _ _ _ | HStore _ _ _ _ => False | _ => True end) (snd (hkr14_sched1 nearest file (Some data) j ts))).
    { clear. induction j as [|j IH]; intros ts Ft; destruct Ft as [|t ts Pt Ft]; cbn [hkr14_sched1]; try (repeat split; constructor).
      - destruct t as [src| | | | |]; try contradiction; cbn [hkr14_step fst snd]; try (repeat split; constructor; tauto).
        destruct (result _) as [[s e]|e]; cbn [fst snd]; repeat split; constructor; tauto.
      - destruct (IH ts Ft) as (I1 & I2 & I3). destruct (hkr14_sched1 nearest file (Some data) j ts) as [c' ts'].
        rewrite <- I1. cbn in *. repeat split; [exact I2|]. constructor; assumption. }
    destruct (S j ts Ft) as (S1 & S2 & S3). rewrite <- S1. destruct (hkr14_sched1 nearest file (Some data) j ts) as [c1 ts1]. cbn [fst snd] in *. apply IH; assumption. }
  destruct (K sched (Some data) (map HStart srcs) eq_refl) as [_ E]. { clear. induction srcs; constructor; [exact I|assumption]. }
  rewrite E in H. destruct (hk_any_schedule _ _ _ _ _ _ H) as (src & f & E' & D & R). exists src. split; [exact E'|].
  destruct D as [D|[-> _]]; [|exact R]. rewrite map_map in D. apply in_map_iff in D. destruct D as (x & <- & _). exact R.
Qed.
Print Assumptions C131_any_interleaving_once_loaded.
(** No thread waits for another: five steps of its own and it has finished. *)
Theorem C131_every_thread_finishes : forall nearest c0 srcs sched i src, nth_error srcs i = Some src ->
  (5 <= List.length (filter (fun x => Nat.eqb (snd x) i) sched))%nat ->
  exists r, nth_error (snd (hkr14_sched nearest c0 (map HStart srcs) sched)) i = Some (HDone r).
Proof.
  intros nearest c0 srcs sched i src E L. apply (hk_finishes nearest i sched c0 (map HStart srcs) (HStart src)); [|exact L].
  rewrite nth_error_map, E. reflexivity.
Qed.
Print Assumptions C131_every_thread_finishes.
(** If the file is replaced meanwhile, two threads can end up with different data sets (one construction after the other would
    always use the first one, C36): both see that nothing is loaded, each loads its own. *)
Theorem C131_race_when_file_changes : forall nearest d1 d2 src1 src2 a1 a2, hk_gives src1 a1 -> hk_gives src2 a2 ->
  exists sched, (forall x, In x sched -> fst x = Some d1 \/ fst x = Some d2) /\
    hkr14_sched nearest None (map HStart [src1; src2]) sched =
      (Some d2, [HDone (snd (hkr14 nearest (Some d1) None src1)); HDone (snd (hkr14 nearest (Some d2) None src2))]).
Proof.
  intros nearest d1 d2 src1 src2 a1 a2 G1 G2.
  exists [(Some d1, 0%nat); (Some d1, 1%nat); (Some d1, 0%nat); (Some d1, 1%nat); (Some d1, 0%nat); (Some d1, 0%nat); (Some d1, 0%nat); (Some d2, 1%nat); (Some d2, 1%nat); (Some d2, 1%nat)].
  split; [intros x I; repeat (destruct I as [<-|I]; [auto|]); destruct I|].
  assert (S : forall src a, hk_gives src a -> exists s e, result (bind (model_init (gc_params hkr14_class) src) (fun s => bind (hkr14_event s) (fun e => ret (s, e)))) = Ok (s, e)).
  { intros src a G. pose proof (hk_event a) as EV. rewrite result_bind in EV. destruct (result (hkr14_event (hk_scen a))) as [e|] eqn:E; [|discriminate].
    exists (hk_scen a), e. rewrite result_bind, (hk_start src a G), result_bind, E. reflexivity. }
  destruct (S src1 a1 G1) as (s1 & e1 & E1). destruct (S src2 a2 G2) as (s2 & e2 & E2). clear S.
  unfold hkr14. rewrite E1, E2. cbn [map hkr14_sched hkr14_sched1 hkr14_step snd fst]. rewrite E1. cbn [hkr14_sched hkr14_sched1 hkr14_step]. rewrite E2. reflexivity.
Qed.
Print Assumptions C131_race_when_file_changes.
Definition ex_thr_src : dict := [("mag", PNum (Fin 6)); ("dist_jb", PNum (Fin 30)); ("v_s30", PNum (Fin 500)); ("mechanism", PStr "RS")].
Lemma ex_thr_gives : hk_gives ex_thr_src (Hk 6 None 30 500 "RS"). Proof. repeat split. Qed.
Definition ex_thr_data : hkdata := [([6; 15; 1; 0; 0; 30; 500], [1; 2; 3; 4; 5; 6; 7; 8; 9; 10; 11; 12])].
(** Two threads strictly alternating: both find nothing loaded, both load, both finish with the same result. *)
Example C131_nonvacuous : forall nearest, exists r c,
  hkr14_sched nearest None (map HStart [ex_thr_src; ex_thr_src])
    (List.concat (repeat [(Some ex_thr_data, 0%nat); (Some ex_thr_data, 1%nat)] 5)) = (c, [HDone r; HDone r]) /\ exists g, result r = Ok g.
Proof.
  intros nearest. set (sched := List.concat _).
  assert (Fd : Forall (fun x => fst x = Some ex_thr_data) sched) by (repeat constructor).
  pose proof (fun i r => C131_any_interleaving nearest ex_thr_data [ex_thr_src; ex_thr_src] sched i r Fd) as A.
  pose proof (fun i => C131_every_thread_finishes nearest None [ex_thr_src; ex_thr_src] sched i ex_thr_src) as P.
  assert (L : List.length (snd (hkr14_sched nearest None (map HStart [ex_thr_src; ex_thr_src]) sched)) = 2%nat).
  { assert (Q : forall sched c ts, List.length (snd (hkr14_sched nearest c ts sched)) = List.length ts).
    { assert (Q1 : forall f i c ts, List.length (snd (hkr14_sched1 nearest f c i ts)) = List.length ts).
      { clear. induction i as [|i IH]; intros c [|t ts]; cbn [hkr14_sched1]; try reflexivity; [destruct (hkr14_step nearest f c t); reflexivity|].
        specialize (IH c ts). destruct (hkr14_sched1 nearest f c i ts). cbn in *. congruence. }
      clear - Q1. induction sched as [|[f i] sched IH]; intros c ts; cbn [hkr14_sched]; [reflexivity|]. specialize (Q1 f i c ts). destruct (hkr14_sched1 nearest f c i ts). rewrite IH. exact Q1. }
    apply Q. }
  destruct (P 0%nat eq_refl) as (r0 & R0); [cbn; lia|]. destruct (P 1%nat eq_refl) as (r1 & R1); [cbn; lia|].
  destruct (A _ _ R0) as (s0 & E0 & T0). destruct (A _ _ R1) as (s1 & E1 & T1). cbn in E0, E1. injection E0 as <-. injection E1 as <-.
  destruct (hkr14_sched nearest None (map HStart [ex_thr_src; ex_thr_src]) sched) as [c ts]. cbn [snd] in *.
  destruct ts as [|x [|y [|z ts]]]; try discriminate L. cbn in R0, R1. injection R0 as ->. injection R1 as ->. subst r1.
  exists r0, c. split; [rewrite <- T0; reflexivity|]. rewrite T0, (hk_run nearest (Some ex_thr_data) None ex_thr_data ex_thr_src _ eq_refl ex_thr_gives). eexists. reflexivity.
Qed.

(** ** C132: HKR14 refuses infinite and NaN inputs *)
Theorem C132_nonfinite_refused : forall nearest d src m z r v t,
  dget_none src "mag" = PNum m -> dget_none src "depth_hyp" = PNum z -> dget_none src "dist_jb" = PNum r -> dget_none src "v_s30" = PNum v ->
  dget_none src "mechanism" = PStr t ->
  (result (snd (hkr14 nearest (Some d) None src)) = Raise EValue <-> ~ (finite m /\ finite z /\ finite r /\ finite v)) /\
  (* the data file has been loaded all the same *)
  fst (hkr14 nearest (Some d) None src) = Some d.
Proof. intros nearest d src m z r v t. apply hk_nonfinite. reflexivity. Qed.
Print Assumptions C132_nonfinite_refused.
Example C132_nonvacuous : forall nearest, result (snd (hkr14 nearest (Some ex_thr_data) None
  [("mag", PNum NaN); ("depth_hyp", PNum (Fin 10)); ("dist_jb", PNum (Fin 30)); ("v_s30", PNum (Fin 500)); ("mechanism", PStr "RS")])) = Raise EValue.
Proof. intros nearest. apply (C132_nonfinite_refused nearest ex_thr_data _ NaN (Fin 10) (Fin 30) (Fin 500) "RS"); try reflexivity. intros ([x E] & _). discriminate. Qed.
