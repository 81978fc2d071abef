(** * C138: writing into the arrays models hand out *)
From Coquelicot Require Import Coquelicot.
From Coq Require Import List Lia.
From Verif Require Import ArgMin M_arrays M_bssa14 FrameworkProofs Spec_arrays Spec_ba19 P_ba19 P_arrays Spec_ga11 P_ga11 Properties_Fas Properties_VH.
Open Scope R_scope.
Open Scope string_scope.
Open Scope list_scope.

(** Whatever a program constructs and reads, writes into arrays that did not come from [freqs], [ln_eas] or [ln_std] change
    nothing it ever sees: removing them leaves every outcome and every value the same. *)
Theorem C138_writes_invisible : forall lb ps, writes_own [] ps -> seen lb ps = seen lb (without_writes ps).
Proof. exact writes_invisible. Qed.
Print Assumptions C138_writes_invisible.
(** Without writes into FREQS the constructor is the one of the other theorems. *)
Theorem C138_constructor : forall src, ba19_at ba19_p_freqs src = ba19 src.
Proof. exact ba19_at_freqs. Qed.
Print Assumptions C138_constructor.
(** [freqs] is one array for all BaylessAbrahamson2019 objects. *)
Theorem C138_freqs_shared : forall lb ps o1 o2 j x, is_ba19 lb ps o1 -> is_ba19 lb ps o2 ->
  exists f, now lb ps o2 freqs = Some (Ok f) /\ now lb (ps ++ [Get o1 freqs; Write (reads ps) j x]) o2 freqs = Some (Ok (put f j x)).
Proof. exact freqs_shared. Qed.
Print Assumptions C138_freqs_shared.
(** [ln_std] and [ln_eas] are the model's own arrays. *)
Theorem C138_own_arrays : forall lb ps o a j x, (is_ga11 lb ps o /\ a = ln_std) \/ (is_ba19 lb ps o /\ (a = ln_std \/ a = ln_eas)) ->
  exists f, now lb ps o a = Some (Ok f) /\ now lb (ps ++ [Get o a; Write (reads ps) j x]) o a = Some (Ok (put f j x)).
Proof. exact own_written. Qed.
Print Assumptions C138_own_arrays.
Theorem C138_eas_follows : forall lb ps o j x, is_ba19 lb ps o ->
  exists f, now lb ps o ln_eas = Some (Ok f) /\ now lb ps o eas = Some (Ok (map fexp f)) /\
    now lb (ps ++ [Get o ln_eas; Write (reads ps) j x]) o eas = Some (Ok (map fexp (put f j x))).
Proof. exact eas_written. Qed.
Print Assumptions C138_eas_follows.
(** [f = m.freqs; f *= k] (say [k] = 2 pi) lowers what every later model predicts above 24 Hz, and only that. *)
Theorem C138_later_models : forall lb src1 src2 a1 a2 k, eq19_gives src1 a1 -> eq19_ok a1 -> eq19_gives src2 a2 -> eq19_ok a2 -> 1 < k ->
  exists xs ys, now lb [NewBA19 src2] 0 ln_eas = Some (Ok (map Fin xs)) /\
    now lb [NewBA19 src1; Get 0 freqs; Scale 0 (Fin k); NewBA19 src2] 1 ln_eas = Some (Ok (map Fin ys)) /\
    List.length xs = 301%nat /\ List.length ys = 301%nat /\
    forall i, (i < 301)%nat -> ((i < 239)%nat -> nth i ys 0 = nth i xs 0) /\ ((239 <= i)%nat -> nth i ys 0 < nth i xs 0).
Proof. exact later_models. Qed.
Print Assumptions C138_later_models.

(** ** Concrete cases *)
(** A library with BSSA14, of which a constructor that reads PERIODS would be any other function. *)
Definition lib_ex : library := [(bssa14_class, fun _ => bssa14)].
Definition bssa_ex : dict := [("mag", PNum (Fin 6)); ("dist_jb", PNum (Fin 20)); ("v_s30", PNum (Fin 500)); ("mechanism", PStr "SS")].
Definition prog_ex : list op := [New 0 bssa_ex; Get 0 periods; Scale 0 (Fin 2); Get 0 spec_accels; Write 1 3 (Fin 7); Get 0 periods; NewBA19 ex19_src; Get 1 eas; Write 3 0 (Fin 1); Get 1 eas].
Example C138_writes_invisible_nonvacuous : writes_own [] prog_ex /\ List.length (without_writes prog_ex) = 7%nat /\ seen lib_ex prog_ex = seen lib_ex (without_writes prog_ex).
Proof.
  assert (W : writes_own [] prog_ex) by (cbn; repeat split; intros a [= <-]; reflexivity).
  split; [exact W|]. split; [reflexivity|]. apply C138_writes_invisible, W.
Qed.
Lemma ex_is_ba19 lb : is_ba19 lb [NewBA19 ex19_src; NewBA19 ex19_src] 0 /\ is_ba19 lb [NewBA19 ex19_src; NewBA19 ex19_src] 1.
Proof.
  pose proof (ba19_make _ _ ex19_gives ex19_ok) as M. rewrite <- C138_constructor in M.
  unfold is_ba19, run. cbn [fold_left]. unfold step at 2 4. change (rd (w_heap (start lb)) loc_freqs) with ba19_p_freqs. rewrite M.
  unfold step. match goal with |- context [rd (w_heap (made ?w ?o ?n)) loc_freqs] => change (rd (w_heap (made w o n)) loc_freqs) with ba19_p_freqs end. rewrite M.
  split; do 3 eexists; reflexivity.
Qed.
Example C138_freqs_shared_nonvacuous : exists f, now [] [NewBA19 ex19_src; NewBA19 ex19_src] 1 freqs = Some (Ok f) /\
  now [] [NewBA19 ex19_src; NewBA19 ex19_src; Get 0 freqs; Write 0 4 (Fin 9)] 1 freqs = Some (Ok (put f 4 (Fin 9))).
Proof. destruct (ex_is_ba19 []) as [H0 H1]. apply (C138_freqs_shared [] [NewBA19 ex19_src; NewBA19 ex19_src] 0 1 4 (Fin 9) H0 H1). Qed.
Example C138_own_arrays_nonvacuous : exists f, now [] [NewBA19 ex19_src; NewBA19 ex19_src] 1 ln_std = Some (Ok f) /\
  now [] [NewBA19 ex19_src; NewBA19 ex19_src; Get 1 ln_std; Write 0 4 (Fin 9)] 1 ln_std = Some (Ok (put f 4 (Fin 9))).
Proof. destruct (ex_is_ba19 []) as [H0 H1]. apply (C138_own_arrays [] [NewBA19 ex19_src; NewBA19 ex19_src] 1 ln_std 4 (Fin 9)). right. split; [exact H1|left; reflexivity]. Qed.
Example C138_ga11_nonvacuous : exists f, now [] [NewGA11 (vh_src ex_vh)] 0 ln_std = Some (Ok f) /\
  now [] [NewGA11 (vh_src ex_vh); Get 0 ln_std; Write 0 4 (Fin 9)] 0 ln_std = Some (Ok (put f 4 (Fin 9))).
Proof.
  apply (C138_own_arrays [] [NewGA11 (vh_src ex_vh)] 0 ln_std 4 (Fin 9)). left. split; [|reflexivity]. unfold is_ga11, run. cbn [fold_left step].
  rewrite (ga11_construct _ _ (vh_src_gives ex_vh)). do 3 eexists. reflexivity.
Qed.
Example C138_later_models_nonvacuous : exists xs ys, now [] [NewBA19 ex19_src] 0 ln_eas = Some (Ok (map Fin xs)) /\
    now [] [NewBA19 ex19_src; Get 0 freqs; Scale 0 (Fin (2 * PI)); NewBA19 ex19_src] 1 ln_eas = Some (Ok (map Fin ys)) /\ nth 300 ys 0 < nth 300 xs 0.
Proof.
  destruct (C138_later_models [] ex19_src ex19_src ex19 ex19 (2 * PI) ex19_gives ex19_ok ex19_gives ex19_ok) as (xs & ys & H1 & H2 & _ & _ & H); [pose proof PI2_1; lra|].
  exists xs, ys. split; [exact H1|]. split; [exact H2|]. apply (H 300%nat); lia.
Qed.
