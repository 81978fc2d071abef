(** * Proofs about HKR14 constructed in several threads, and with infinite or NaN inputs *)
From Coq Require Import List String Lia.
From Verif Require Import M_hkr14 FrameworkProofs Anal Nga Outs Spec_hkr14 P_hkr14.
Open Scope R_scope.
Open Scope string_scope.
Open Scope list_scope.

Section T.
  Variable nearest : hkdata -> list flt -> list flt.
  Variable F : option hkdata -> Prop.
  Let start src := bind (model_init (gc_params hkr14_class) src) (fun s => bind (hkr14_event s) (fun e => ret (s, e))).
  Definition hk_good (cache : option hkdata) (src : dict) (pc : hk_pc) : Prop :=
    match pc with
    | HStart s' => s' = src
    | HTest s' s e | HLoad s' s e => s' = src /\ result (start src) = Ok (s, e)
    | HStore d s' s e => F (Some d) /\ s' = src /\ result (start src) = Ok (s, e)
    | HUse s' s e => cache <> None /\ s' = src /\ result (start src) = Ok (s, e)
    | HDone r => exists f, F f /\ r = snd (hkr14 nearest f None src)
    end.
  Definition hk_cache_ok (c : option hkdata) : Prop := c = None \/ F c.
  Lemma hk_good_mono c c' src pc : (c <> None -> c' <> None) -> hk_good c src pc -> hk_good c' src pc.
  Proof. intros M. destruct pc; cbn; tauto. Qed.
  Lemma hk_step_good file c src pc : F file -> hk_cache_ok c -> hk_good c src pc ->
    let '(c', pc') := hkr14_step nearest file c pc in hk_cache_ok c' /\ (c <> None -> c' <> None) /\ hk_good c' src pc'.
  Proof.
    intros Ff Fc G. destruct pc as [s'|s' s e|s' s e|d s' s e|s' s e|r]; cbn [hkr14_step hk_good] in *.
    - subst s'. fold (start src). destruct (result (start src)) as [[s e]|e] eqn:E.
      + split; [exact Fc|]. split; [tauto|]. cbn. split; [reflexivity|exact E].
      + split; [exact Fc|]. split; [tauto|]. cbn. exists file. split; [exact Ff|]. unfold hkr14. fold (start src). rewrite E. reflexivity.
    - destruct G as [-> E]. split; [exact Fc|]. split; [tauto|]. destruct c; cbn; repeat split; try exact E; discriminate.
    - destruct G as [-> E]. split; [exact Fc|]. split; [tauto|]. destruct file as [d|]; cbn; [repeat split; assumption|].
      exists None. split; [exact Ff|]. unfold hkr14. fold (start src). rewrite E. reflexivity.
    - destruct G as (Fd & -> & E). split; [right; exact Fd|]. split; [discriminate|]. cbn. repeat split; [discriminate|exact E].
    - destruct G as (N & -> & E). split; [exact Fc|]. split; [tauto|]. destruct c as [d|]; [|congruence]. cbn [hk_good].
      exists (Some d). destruct Fc as [Fc|Fc]; [discriminate|]. split; [exact Fc|]. unfold hkr14. fold (start src). rewrite E. reflexivity.
    - split; [exact Fc|]. split; [tauto|exact G].
  Qed.
  Lemma hk_sched1_good file : forall i c srcs ts, F file -> hk_cache_ok c -> Forall2 (hk_good c) srcs ts ->
    let '(c', ts') := hkr14_sched1 nearest file c i ts in hk_cache_ok c' /\ (c <> None -> c' <> None) /\ Forall2 (hk_good c') srcs ts'.
  Proof.
    induction i as [|i IH]; intros c srcs ts Ff Fc G; destruct G as [|src pc srcs ts P G]; cbn [hkr14_sched1]; try (repeat split; [exact Fc|tauto|constructor]).
    - pose proof (hk_step_good file c src pc Ff Fc P) as S. destruct (hkr14_step nearest file c pc) as [c' pc']. destruct S as (S1 & S2 & S3).
      split; [exact S1|]. split; [exact S2|]. constructor; [exact S3|]. clear - S2 G. induction G; constructor; [eapply hk_good_mono; eassumption|assumption].
    - specialize (IH c srcs ts Ff Fc G). destruct (hkr14_sched1 nearest file c i ts) as [c' ts']. destruct IH as (S1 & S2 & S3).
      split; [exact S1|]. split; [exact S2|]. constructor; [eapply hk_good_mono; eassumption|exact S3].
  Qed.
  Lemma hk_sched_good srcs : forall sched c ts, (forall f, In f (map fst sched) -> F f) -> hk_cache_ok c -> Forall2 (hk_good c) srcs ts ->
    let '(c', ts') := hkr14_sched nearest c ts sched in hk_cache_ok c' /\ (c <> None -> c' <> None) /\ Forall2 (hk_good c') srcs ts'.
  Proof.
    induction sched as [|[file i] sched IH]; intros c ts Ff Fc G; cbn [hkr14_sched]; [repeat split; tauto|].
    pose proof (hk_sched1_good file i c srcs ts (Ff _ (or_introl eq_refl)) Fc G) as S. destruct (hkr14_sched1 nearest file c i ts) as [c1 ts1].
    destruct S as (S1 & S2 & S3). specialize (IH c1 ts1 (fun f H => Ff f (or_intror H)) S1 S3). destruct (hkr14_sched nearest c1 ts1 sched) as [c' ts'].
    destruct IH as (I1 & I2 & I3). repeat split; tauto.
  Qed.
End T.
Lemma hk_good_start F nearest c srcs : Forall2 (hk_good nearest F c) srcs (map HStart srcs).
Proof. induction srcs; constructor; [reflexivity|assumption]. Qed.
Lemma Forall2_nth {A B} (P : A -> B -> Prop) l1 l2 i b : Forall2 P l1 l2 -> nth_error l2 i = Some b -> exists a, nth_error l1 i = Some a /\ P a b.
Proof. intros H. revert i. induction H as [|x y l1 l2 p H IH]; intros [|i]; cbn; try discriminate; [injection 1 as <-; exists x; auto|apply IH]. Qed.
(** The result of a finished thread is that of a lone construction, with a content the file had. *)
Lemma hk_any_schedule nearest c0 srcs sched i r :
  nth_error (snd (hkr14_sched nearest c0 (map HStart srcs) sched)) i = Some (HDone r) ->
  exists src f, nth_error srcs i = Some src /\ (In f (map fst sched) \/ (f = c0 /\ c0 <> None)) /\ r = snd (hkr14 nearest f None src).
Proof.
  intros H. pose proof (hk_sched_good nearest (fun f => In f (map fst sched) \/ (f = c0 /\ c0 <> None)) srcs sched c0 (map HStart srcs)
    (fun f I => or_introl I)) as G.
  destruct (hkr14_sched nearest c0 (map HStart srcs) sched) as [c' ts']. cbn [snd] in H.
  destruct G as (_ & _ & G); [|apply hk_good_start|].
  - destruct c0 as [d|]; [right; right; split; [reflexivity|discriminate]|left; reflexivity].
  - destruct (Forall2_nth _ _ _ _ _ G H) as (src & E & f & I & R). exists src, f. auto.
Qed.

(** Progress: five steps of its own finish a thread, whatever the others do. *)
Definition hk_left (pc : hk_pc) : nat := match pc with HStart _ => 5 | HTest _ _ _ => 4 | HLoad _ _ _ => 3 | HStore _ _ _ _ => 2 | HUse _ _ _ => 1 | HDone _ => 0 end.
Lemma hk_step_left nearest file c pc : (hk_left (snd (hkr14_step nearest file c pc)) <= pred (hk_left pc))%nat.
Proof.
  destruct pc as [src| | | | |]; cbn [hkr14_step snd hk_left]; try lia.
  - destruct (result _) as [[s e]|e]; cbn [snd hk_left]; lia.
  - destruct c; cbn; lia.
  - destruct file; cbn; lia.
Qed.
Lemma hk_sched1_nth nearest file : forall i c ts j, nth_error (snd (hkr14_sched1 nearest file c i ts)) j =
  match nth_error ts j with Some pc => Some (if Nat.eqb i j then snd (hkr14_step nearest file c pc) else pc) | None => None end.
Proof.
  induction i as [|i IH]; intros c [|t ts] j; cbn [hkr14_sched1].
  - destruct j; reflexivity.
  - destruct (hkr14_step nearest file c t) as [c' t'] eqn:E. destruct j as [|j]; cbn; [rewrite E; reflexivity|destruct (nth_error ts j); reflexivity].
  - destruct j; reflexivity.
  - specialize (IH c ts). destruct (hkr14_sched1 nearest file c i ts) as [c' ts']. destruct j as [|j]; cbn in *; [reflexivity|apply IH].
Qed.
Definition hk_turns (j : nat) (sched : list (option hkdata * nat)) : nat := List.length (filter (fun x => Nat.eqb (snd x) j) sched).
Lemma hk_finishes nearest j : forall sched c ts pc, nth_error ts j = Some pc -> (hk_left pc <= hk_turns j sched)%nat ->
  exists r, nth_error (snd (hkr14_sched nearest c ts sched)) j = Some (HDone r).
Proof.
  unfold hk_turns. induction sched as [|[file i] sched IH]; intros c ts pc E L; cbn [hkr14_sched filter snd] in *.
  - destruct pc; cbn in L; try lia. eexists. exact E.
  - pose proof (hk_sched1_nth nearest file i c ts j) as N. rewrite E in N. destruct (hkr14_sched1 nearest file c i ts) as [c1 ts1]. cbn [snd] in N.
    apply (IH c1 ts1 _ N). pose proof (hk_step_left nearest file c pc). destruct (Nat.eqb i j); cbn [List.length] in L; lia.
Qed.

(** Infinite and NaN inputs. *)
Lemma hk_nonfinite nearest d file cache src m z r v t : (match cache with Some d => Some d | None => file end) = Some d ->
  dget_none src "mag" = PNum m -> dget_none src "depth_hyp" = PNum z -> dget_none src "dist_jb" = PNum r -> dget_none src "v_s30" = PNum v ->
  dget_none src "mechanism" = PStr t ->
  (result (snd (hkr14 nearest file cache src)) = Raise EValue <-> ~ (finite m /\ finite z /\ finite r /\ finite v)) /\
  fst (hkr14 nearest file cache src) = Some d.
Proof.
  intros C H1 H2 H3 H4 H5. unfold hkr14.
  set (mv := choice ["SS"; "NS"; "RS"] PNone (Some t)).
  assert (S : result (model_init (gc_params hkr14_class) src) =
    Ok (Scen [("depth_hyp", PNum z); ("dist_jb", PNum r); ("mag", PNum m); ("v_s30", PNum v); ("mechanism", mv)] [])).
  { rewrite model_init_result' by reflexivity.
    let x := eval cbv [gc_params hkr14_class NumP CatP CatBoolP map] in (gc_params hkr14_class) in change (gc_params hkr14_class) with x.
    cbn [checks p_name]. rewrite H1, H2, H3, H4, H5.
    repeat (rewrite ?chk_num, ?chk_num_default; cbn [checks p_name]).
    change [PStr "SS"; PStr "NS"; PStr "RS"] with (map PStr ["SS"; "NS"; "RS"]). rewrite chk_str_req. reflexivity. }
  set (s := Scen _ _) in S.
  assert (E : exists f1 f2 f3, hkr14_event s = ret [PNum m; PNum z; PNum (Fin f1); PNum (Fin f2); PNum (Fin f3); PNum r; PNum v]).
  { unfold hkr14_event, s.
    rewrite attr_hit with (v := mv) by reflexivity. rewrite bind_ret_l.
    rewrite attr_hit with (v := PNum m) by reflexivity. rewrite bind_ret_l.
    rewrite attr_hit with (v := PNum z) by reflexivity. rewrite bind_ret_l.
    rewrite attr_hit with (v := PNum r) by reflexivity. rewrite bind_ret_l.
    rewrite attr_hit with (v := PNum v) by reflexivity. rewrite bind_ret_l.
    destruct (is_str mv "RS"), (is_str mv "SS"), (is_str mv "NS"); do 3 eexists; reflexivity. }
  destruct E as (f1 & f2 & f3 & E).
  assert (T : result (bind (model_init (gc_params hkr14_class) src) (fun s => bind (hkr14_event s) (fun e => ret (s, e)))) =
    Ok (s, [PNum m; PNum z; PNum (Fin f1); PNum (Fin f2); PNum (Fin f3); PNum r; PNum v])).
  { rewrite result_bind, S, E. reflexivity. }
  rewrite T, C. cbn [fst snd]. split; [|reflexivity]. rewrite result_bind, T.
  destruct m, z, r, v; cbn; split; intros H; try discriminate; try reflexivity; try (exfalso; apply H; unfold finite; eauto 9);
    intros (A & B & D & G); try (destruct A; discriminate); try (destruct B; discriminate); try (destruct D; discriminate); try (destruct G; discriminate).
Qed.
