(** * C142: what each ground motion model offers does not depend on the scenario *)

From Coq Require Import List Lia ZArith.
From Verif Require Import GmmLib M_c03 M_tp05 M_pzt11 M_i14 M_ab06 M_cy14 M_bssa14 M_cb14 M_ask14 M_asb14 M_aga16 M_dbc14 M_hkr14.
From Verif Require Import FrameworkProofs Properties_NGAMag.
Import ListNotations.
Open Scope string_scope.

(** A measure is offered: its value and its standard deviation can be read; or it is not offered and reading
    either of them raises NotImplementedError. *)
Definition offered (yes : bool) (value std : M flt) : Prop :=
  if yes then (exists x, result value = Ok x) /\ (exists y, result std = Ok y)
  else result value = Raise ENotImpl /\ result std = Raise ENotImpl.
(** Whenever the construction succeeds, the instance reports one and the same list of [n] periods, [n] spectral
    accelerations and [n] standard deviations, and offers (or not) the peak acceleration, velocity and displacement. *)
Definition always {A} (build : A -> M gmm) (n : nat) (pga pgv pgd : bool) : Prop :=
  exists ps, List.length ps = n /\
  forall a g, result (build a) = Ok g ->
    result (g_periods g) = Ok ps /\
    (exists sa, result (g_spec_accels g) = Ok sa /\ List.length sa = n) /\
    (exists sd, result (g_ln_stds g) = Ok sd /\ List.length sd = n) /\
    offered pga (g_pga g) (g_ln_std_pga g) /\
    offered pgv (g_pgv g) (g_ln_std_pgv g) /\
    offered pgd (g_pgd g) (g_ln_std_pgd g).

(** ** Lemmas *)
Definition index_ok (yes : bool) (i : option Z) (N : nat) : bool :=
  match i with
  | None => negb yes
  | Some z => yes && (Z.leb (- Z.of_nat N) z && Z.ltb z (Z.of_nat N))
  end.
Definition class_ok (c : gclass) (N n : nat) (a v d : bool) : bool :=
  (Nat.eqb (List.length (gc_psa c)) n && forallb (fun i => Nat.ltb i N) (gc_psa c) && Nat.eqb (List.length (gc_periods c)) N
  && index_ok a (gc_pga c) N && index_ok v (gc_pgv c) N && index_ok d (gc_pgd c) N)%bool.
Lemma take_all {A} (l : list A) idx : forallb (fun i => Nat.ltb i (List.length l)) idx = true ->
  exists t, take_idx l idx = Some t /\ List.length t = List.length idx.
Proof.
  induction idx as [|i idx IH]; cbn; [exists []; split; reflexivity|].
  intros H. apply andb_prop in H as [H1 H2]. apply Nat.ltb_lt in H1. destruct (IH H2) as (t & -> & Ht).
  destruct (nth_error l i) eqn:E; [|apply nth_error_None in E; lia].
  exists (a :: t). split; [reflexivity|cbn; congruence].
Qed.
Lemma py_nth_in {A} (l : list A) z : (Z.leb (- Z.of_nat (List.length l)) z && Z.ltb z (Z.of_nat (List.length l)))%bool = true ->
  exists x, py_nth l z = Some x.
Proof.
  intros H. apply andb_prop in H as [H1 H2]. apply Z.leb_le in H1. apply Z.ltb_lt in H2. unfold py_nth.
  assert (N : forall k, (k < List.length l)%nat -> exists x, nth_error l k = Some x).
  { intros k Hk. destruct (nth_error l k) eqn:E; [eexists; reflexivity|apply nth_error_None in E; lia]. }
  destruct (z <? 0)%Z eqn:B; [apply Z.ltb_lt in B|apply Z.ltb_ge in B].
  - destruct (_ <? 0)%Z eqn:C; [apply Z.ltb_lt in C; lia|apply Z.ltb_ge in C]. apply N. lia.
  - apply N. lia.
Qed.

Lemma offered_ok c s resp std N yes i (scale : flt) : List.length resp = N -> List.length std = N -> index_ok yes i N = true ->
  let g := GMM c s resp (Some std) in
  offered yes (match i with None => raise ENotImpl | Some i => g_resp g i end) (g_ln_std_at g i) /\
  offered yes (match i with None => raise ENotImpl | Some i => bind (g_resp g i) (fun x => ret (fmul x scale)) end) (g_ln_std_at g i).
Proof.
  intros H1 H2 H g. unfold index_ok in H. destruct i as [z|].
  - apply andb_prop in H as [-> H]. cbn [offered]. unfold g_ln_std_at, g_resp, arr_get. cbn [g g_ln_resp g_ln_std].
    pose proof H as H'. rewrite <- H1 in H. rewrite <- H2 in H'. destruct (py_nth_in resp z H) as [x ->]. destruct (py_nth_in std z H') as [y ->].
    split; (split; [eexists; reflexivity|eexists; reflexivity]).
  - destruct yes; [discriminate|]. cbn. repeat split.
Qed.
Lemma always_ok {A} (build : A -> M gmm) cls N n a v d : class_ok cls N n a v d = true ->
  (forall x g, result (build x) = Ok g -> exists s resp std, g = GMM cls s resp (Some std) /\ List.length resp = N /\ List.length std = N) ->
  always build n a v d.
Proof.
  intros H K. unfold class_ok in H. repeat (apply andb_prop in H as [H ?]).
  apply Nat.eqb_eq in H. match goal with E : Nat.eqb _ _ = true |- _ => apply Nat.eqb_eq in E; rename E into Hp end.
  match goal with E : forallb _ _ = true |- _ => rename E into Hi end.
  pose proof Hi as Hi'. rewrite <- Hp in Hi'. destruct (take_all _ _ Hi') as (ps & Ep & Lp). exists ps. split; [congruence|].
  intros x g R. destruct (K x g R) as (s & resp & std & -> & L1 & L2).
  split; [unfold g_periods, arr_take; cbn [g_class]; rewrite Ep; reflexivity|].
  split. { rewrite <- L1 in Hi. destruct (take_all _ _ Hi) as (t & Et & Lt). exists (map fexp t). unfold g_spec_accels, arr_take; cbn [g_class g_ln_resp]. rewrite Et. split; [reflexivity|rewrite map_length; congruence]. }
  split. { rewrite <- L2 in Hi. destruct (take_all _ _ Hi) as (t & Et & Lt). exists t. unfold g_ln_stds, arr_take; cbn [g_class g_ln_std]. rewrite Et. split; [reflexivity|congruence]. }
  unfold g_pga, g_pgv, g_pgd, g_ln_std_pga, g_ln_std_pgv, g_ln_std_pgd; cbn [g_class].
  split; [|split].
  - eapply (fun H => proj1 (offered_ok cls s resp std N _ _ (gc_pgv_scale cls) L1 L2 H)). assumption.
  - eapply (fun H => proj2 (offered_ok cls s resp std N _ _ (gc_pgv_scale cls) L1 L2 H)). assumption.
  - eapply (fun H => proj2 (offered_ok cls s resp std N _ _ (gc_pgd_scale cls) L1 L2 H)). assumption.
Qed.
Lemma made cls src calc g N : result (gmm_make cls src calc) = Ok g ->
  (forall s r, result (calc s) = Ok r -> List.length (fst r) = N /\ exists l, snd r = Some l /\ List.length l = N) ->
  exists s resp std, g = GMM cls s resp (Some std) /\ List.length resp = N /\ List.length std = N.
Proof.
  intros H K. unfold gmm_make in H. rewrite result_bind in H. destruct (result (model_init _ _)) as [s|]; [|discriminate].
  rewrite result_bind in H. destruct (result (calc s)) as [r|] eqn:E; [|discriminate]. injection H as <-.
  destruct (K s r E) as (L1 & l & -> & L2). exists s, (fst r), l. auto.
Qed.
Lemma made_prep cls src prep calc g N : result (gmm_make_prep cls src prep calc) = Ok g ->
  (forall s r, result (calc s) = Ok r -> List.length (fst r) = N /\ exists l, snd r = Some l /\ List.length l = N) ->
  exists s resp std, g = GMM cls s resp (Some std) /\ List.length resp = N /\ List.length std = N.
Proof.
  intros H K. unfold gmm_make_prep in H. rewrite result_bind in H. destruct (result (model_init _ _)) as [s0|]; [|discriminate].
  rewrite result_bind in H. destruct (result (prep s0)) as [s|]; [|discriminate].
  rewrite result_bind in H. destruct (result (calc s)) as [r|] eqn:E; [|discriminate]. injection H as <-.
  destruct (K s r E) as (L1 & l & -> & L2). exists s, (fst r), l. auto.
Qed.
Ltac peel E := repeat (rewrite result_bind in E; let E1 := fresh "E1" in
  match type of E with match ?m with _ => _ end = _ => destruct m eqn:E1; [|discriminate E] end).
Lemma ret_inv {A} (x r : A) : result (ret x) = Ok r -> x = r.
Proof. intros H. unfold result, ret in H. cbn in H. congruence. Qed.
Ltac done1 E := apply ret_inv in E; subst.
Ltac lens E := done1 E; cbn [fst snd]; split; [rewrite map_length; reflexivity|eexists; split; [reflexivity|rewrite map_length; reflexivity]].

Lemma rows_bind {A B} (m : M A) (f : A -> M B) r : result (bind m f) = Ok r -> exists x, result m = Ok x /\ result (f x) = Ok r.
Proof. rewrite result_bind. destruct (result m) as [x|]; [|discriminate]. intros H; exists x; auto. Qed.
Ltac unb E := let x := fresh "x" in let Hx := fresh "Hx" in apply rows_bind in E as (x & Hx & E).

Lemma o_c03 : always c03 16 false false false.
Proof. apply (always_ok _ c03_class 16); [vm_compute; reflexivity|]. intros x g H. eapply made; [exact H|]. intros s r E. cbv beta in E. do 2 unb E. lens E. Qed.
Lemma o_tp05 : always tp05 13 true false false.
Proof. apply (always_ok _ tp05_class 14); [vm_compute; reflexivity|]. intros x g H. eapply made; [exact H|]. intros s r E. cbv beta in E. do 2 unb E. lens E. Qed.
Lemma o_pzt11 : always pzt11 22 true false false.
Proof. apply (always_ok _ pzt11_class 23); [vm_compute; reflexivity|]. intros x g H. eapply made; [exact H|]. intros s r E. cbv beta in E. do 2 unb E. lens E. Qed.
Lemma o_i14 : always i14 22 true false false.
Proof.
  apply (always_ok _ i14_class 22); [vm_compute; reflexivity|]. intros x g H. eapply made; [exact H|]. intros s r E. cbv beta in E. do 4 unb E.
  done1 E; cbn [fst snd]. split; [rewrite map_length; unfold i14_table; destruct (x0 <=? $6.75)%flt; reflexivity|eexists; split; [reflexivity|rewrite map_length; reflexivity]].
Qed.
Lemma o_ab06 : always ab06 24 true true true.
Proof.
  apply (always_ok _ ab06_class 27); [vm_compute; reflexivity|]. intros x g H. eapply made; [exact H|]. intros s r E. cbv beta in E. do 4 unb E.
  done1 E; cbn [fst snd]. split; [|eexists; split; [reflexivity|rewrite map_length; reflexivity]].
  unfold ab06_ln_resp in *. cbv zeta in *. match goal with H : result (bind _ _) = Ok _ |- _ => rename H into E end.
  unb E. done1 E. rewrite map_length, combine_length, map_length, combine_length.
  destruct (M_ab06.nonzero x2); [unb Hx2|]; done1 Hx2; rewrite map_length; reflexivity.
Qed.
Lemma o_cy14 : always cy14 24 true true false.
Proof. apply (always_ok _ cy14_class 26); [vm_compute; reflexivity|]. intros x g H. eapply made_prep; [exact H|]. intros s r E. cbv beta in E. unb E. lens E. Qed.
Lemma o_bssa14 : always bssa14 105 true true false.
Proof. apply (always_ok _ bssa14_class 107); [vm_compute; reflexivity|]. intros x g H. eapply made_prep; [exact H|]. intros s r E. cbv beta in E. do 2 unb E. cbv zeta in E. lens E. Qed.
Lemma o_cb14 : always cb14 21 true true false.
Proof. apply (always_ok _ cb14_class 23); [vm_compute; reflexivity|]. intros x g H. eapply made_prep; [exact H|]. intros s r E. cbv beta in E. do 2 unb E. cbv zeta in E. unb E. lens E. Qed.
Lemma o_ask14 : always ask14 22 true true false.
Proof. apply (always_ok _ ask14_class 24); [vm_compute; reflexivity|]. intros x g H. eapply made_prep; [exact H|]. intros s r E. cbv beta in E. unb E. lens E. Qed.
Lemma asb14_pick s r : result (asb14_select asb14_tables s) = Ok r -> List.length (snd r) = 64%nat.
Proof.
  assert (G : forall tabs, Forall (fun kc => List.length (snd kc) = 64%nat) tabs -> result (asb14_select tabs s) = Ok r -> List.length (snd r) = 64%nat).
  { induction 1 as [|[k c] tabs L _ IH]; cbn [asb14_select]; [discriminate|]. intros E. unb E. destruct (is_none x); [apply IH, E|]. unb E. done1 E. exact L. }
  apply G. repeat constructor.
Qed.
Lemma o_asb14 : always asb14 62 true true false.
Proof.
  apply (always_ok _ asb14_class 64); [vm_compute; reflexivity|]. intros x g H. eapply made; [exact H|]. intros s r E. cbv beta in E. do 4 unb E.
  destruct x0 as [dist c]. pose proof (asb14_pick _ _ Hx) as L. cbn [snd] in L. unb E. cbv zeta in E. done1 E. cbn [fst snd].
  split; [rewrite map_length; exact L|eexists; split; [reflexivity|rewrite map_length; exact L]].
Qed.
Lemma mapM_length {A B} (f : A -> M B) l r : result (mapM f l) = Ok r -> List.length r = List.length l.
Proof. revert r. induction l as [|a l IH]; intros r E; cbn [mapM] in E; [done1 E; reflexivity|]. do 2 unb E. done1 E. cbn. f_equal. apply IH. assumption. Qed.
Lemma broadcast_length n l r : result (broadcast n l) = Ok r -> List.length r = n.
Proof.
  unfold broadcast. assert (K : result (if Nat.eqb (List.length l) n then ret l else raise EValue) = Ok r -> List.length r = n).
  { destruct (Nat.eqb (List.length l) n) eqn:B; [|discriminate]. intros E; done1 E. apply Nat.eqb_eq, B. }
  destruct l as [|x [|]]; try exact K. intros E; done1 E. apply repeat_length.
Qed.
Lemma o_aga16 : always (fun x : dict * adjust * flt => aga16 (fst (fst x)) (snd (fst x)) (snd x)) 22 true false false.
Proof.
  apply (always_ok _ aga16_class 23); [vm_compute; reflexivity|]. intros x g H. eapply made; [exact H|]. intros s r E. cbv beta in E. unb E. cbv zeta in E. do 3 unb E.
  done1 E; cbn [fst snd]. split; [|eexists; split; [reflexivity|rewrite map_length; reflexivity]].
  clear - Hx2. unfold aga16_ln_resp in Hx2. do 6 unb Hx2. cbv zeta in Hx2. unb Hx2.
  apply broadcast_length in Hx4. apply mapM_length in Hx6. rewrite combine_length, Hx4, Nat.min_id in Hx6.
  destruct (is_str _ _); [unb Hx2|]; done1 Hx2; [rewrite map_length, combine_length, Hx6; reflexivity|rewrite Hx6; reflexivity].
Qed.
Lemma o_cop14 : always (fun x : dict * flt => cop14 (fst x) (snd x)) 14 true false false.
Proof.
  apply (always_ok _ cop14_class 14); [vm_compute; reflexivity|]. intros x g H. eapply made; [exact H|]. intros s r E. cbv beta in E. do 4 unb E. cbv zeta in E. unb E.
  done1 E; cbn [fst snd]. split; [rewrite !map_length; reflexivity|eexists; split; [reflexivity|rewrite map_length; reflexivity]].
Qed.
Lemma o_dbc14 : always dbc14 62 true true false.
Proof.
  apply (always_ok _ dbc14_class 64); [vm_compute; reflexivity|]. intros x g H. eapply made; [exact H|]. intros s r E. cbv beta in E. do 6 unb E. cbv zeta in E.
  done1 E; cbn [fst snd]. split; [rewrite map_length, combine_length, seq_length, Nat.min_id; reflexivity|eexists; split; [reflexivity|rewrite map_length; reflexivity]].
Qed.

(** ** Theorems *)

(** C142: thirteen of the fourteen ground motion models, for every scenario, valid or not (and for the two models with
    a constructor option, every value of it): the periods and the measures offered are those of the class. *)
Theorem C142_offers :
  always c03 16 false false false /\
  always tp05 13 true false false /\
  always pzt11 22 true false false /\
  always i14 22 true false false /\
  always ab06 24 true true true /\
  always cy14 24 true true false /\
  always bssa14 105 true true false /\
  always cb14 21 true true false /\
  always ask14 22 true true false /\
  always asb14 62 true true false /\
  always (fun x : dict * adjust * flt => aga16 (fst (fst x)) (snd (fst x)) (snd x)) 22 true false false /\
  always (fun x : dict * flt => cop14 (fst x) (snd x)) 14 true false false /\
  always dbc14 62 true true false.
Proof.
  exact (conj o_c03 (conj o_tp05 (conj o_pzt11 (conj o_i14 (conj o_ab06 (conj o_cy14 (conj o_bssa14 (conj o_cb14 (conj o_ask14
    (conj o_asb14 (conj o_aga16 (conj o_cop14 o_dbc14)))))))))))).
Qed.
Print Assumptions C142_offers.

(** The peak acceleration of two of them is the first entry of the spectrum, not a separate measure. *)
Theorem C142_pga_is_first_spectral_value :
  (forall src g, result (i14 src) = Ok g -> exists x sa, result (g_pga g) = Ok x /\ result (g_spec_accels g) = Ok (x :: sa)) /\
  (forall src scale g, result (cop14 src scale) = Ok g -> exists x sa, result (g_pga g) = Ok x /\ result (g_spec_accels g) = Ok (x :: sa)).
Proof.
  assert (G : forall cls N g, gc_pga cls = Some 0%Z -> gc_psa cls = arange 0 (S N) ->
    (exists s resp std, g = GMM cls s resp (Some std) /\ List.length resp = S N /\ List.length std = S N) ->
    exists x sa, result (g_pga g) = Ok x /\ result (g_spec_accels g) = Ok (x :: sa)).
  { intros cls N g E1 E2 (s & resp & std & -> & L & _). destruct resp as [|y resp]; [discriminate|].
    unfold g_pga, g_resp, arr_get, g_spec_accels, arr_take; cbn [g_class g_ln_resp]. rewrite E1, E2. unfold arange. cbn [seq].
    destruct (take_all (y :: resp) (seq 1 N)) as (t & Et & _).
    { apply forallb_forall. intros i Hi. apply in_seq in Hi. apply Nat.ltb_lt. rewrite L. lia. }
    exists (fexp y), (map fexp t). split; [reflexivity|]. cbn [take_idx nth_error]. rewrite Et. reflexivity. }
  split.
  - intros src g H. apply (G i14_class 21%nat); [reflexivity|reflexivity|]. eapply made; [exact H|]. intros s r E. cbv beta in E. do 4 unb E.
    done1 E; cbn [fst snd]. split; [rewrite map_length; unfold i14_table; destruct (x <=? $6.75)%flt; reflexivity|eexists; split; [reflexivity|rewrite map_length; reflexivity]].
  - intros src scale g H. apply (G cop14_class 13%nat); [reflexivity|reflexivity|]. eapply made; [exact H|]. intros s r E. cbv beta in E. do 4 unb E. cbv zeta in E. unb E.
    done1 E; cbn [fst snd]. split; [rewrite !map_length; reflexivity|eexists; split; [reflexivity|rewrite map_length; reflexivity]].
Qed.
Print Assumptions C142_pga_is_first_spectral_value.

(** The abbreviation identifies the model, except that the Campbell & Bozorgnia (2014) and the Coppersmith & Bommer
    (2014) models are both called CB14. *)
Definition all_classes : list gclass := [ab06_class; aga16_class; cop14_class; asb14_class; ask14_class; bssa14_class; c03_class; cb14_class;
  cy14_class; dbc14_class; hkr14_class; i14_class; pzt11_class; tp05_class].
Theorem C142_abbreviations_clash :
  gc_abbrev cb14_class = gc_abbrev cop14_class /\ gc_periods cb14_class <> gc_periods cop14_class /\
  forall i j ci cj, nth_error all_classes i = Some ci -> nth_error all_classes j = Some cj -> i <> j -> gc_abbrev ci = gc_abbrev cj ->
    gc_abbrev ci = "CB14".
Proof.
  split; [reflexivity|]. split. { intros H. apply (f_equal (@List.length _)) in H. vm_compute in H. discriminate. }
  intros i j ci cj Hi Hj N E. set (names := map gc_abbrev all_classes).
  assert (Ai : nth_error names i = Some (gc_abbrev ci)) by (apply map_nth_error; exact Hi).
  assert (Aj : nth_error names j = Some (gc_abbrev ci)) by (rewrite E; apply map_nth_error; exact Hj).
  generalize dependent (gc_abbrev ci). intros a _ Ai Aj. unfold names in *. cbn in Ai, Aj. clear - N Ai Aj.
  do 14 (destruct i as [|i]; [cbn in Ai; injection Ai as <-; try reflexivity;
    do 14 (destruct j as [|j]; [cbn in Aj; first [discriminate Aj|exfalso; apply N; reflexivity]|]); destruct j; discriminate Aj|]).
  destruct i; discriminate Ai.
Qed.
Print Assumptions C142_abbreviations_clash.

(** Some instance of each exists, e.g. *)
Example C142_nonvacuous : exists g, result (c03 [("mag", PNum (Fin 6)); ("dist_rup", PNum (Fin 20))]) = Ok g.
Proof.
  set (src := [("mag", PNum (Fin 6)); ("dist_rup", PNum (Fin 20))]). assert (E1 : has_num src "mag" 6) by reflexivity. assert (E2 : has_num src "dist_rup" 20) by reflexivity.
  clearbody src. unfold c03. construct c03_class. read_nums. eexists. reflexivity.
Qed.
