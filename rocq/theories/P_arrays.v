(** * Writing into arrays obtained from models: proofs *)
From Coquelicot Require Import Coquelicot.
From Coq Require Import List Lia FunctionalExtensionality.
From Verif Require Import ArgMin M_arrays FrameworkProofs Anal Nga NpProofs Spec_hkr14 Spec_cms P_k17 Spec_arrays Spec_ba19 P_ba19.
Open Scope R_scope.
Open Scope string_scope.
Open Scope list_scope.

(** ** put and rd *)
Lemma put_length {A} (l : list A) j x : List.length (put l j x) = List.length l.
Proof. revert j. induction l as [|y l IH]; intros [|j]; cbn; [reflexivity..|]. rewrite IH. reflexivity. Qed.
Lemma nth_put_other {A} (l : list A) j x i d : i <> j -> nth i (put l j x) d = nth i l d.
Proof. revert i j. induction l as [|y l IH]; intros [|i] [|j] H; cbn; try reflexivity; try congruence. apply IH. congruence. Qed.
Lemma nth_put_same {A} (l : list A) j x d : (j < List.length l)%nat -> nth j (put l j x) d = x.
Proof. revert j. induction l as [|y l IH]; intros [|j] H; cbn in *; try lia; [reflexivity|]. apply IH. lia. Qed.
Lemma rd_app_l h h' l : (l < List.length h)%nat -> rd (h ++ h') l = rd h l.
Proof. intros H. unfold rd. apply app_nth1, H. Qed.

Definition locs (o : obj) : list nat := match o with OGmm _ _ r None => [r] | OGmm _ _ r (Some s) => [r; s] | OGa _ r s => [r; s] | OBa _ r s => [r; s] end.
Definition owned (lb : library) (os : list obj) (l : nat) : Prop := (l <= List.length lb)%nat \/ exists o, In o os /\ In l (locs o).
Definition inv (lb : library) (w : world) (got : list acc) : Prop :=
  List.length (w_vars w) = List.length got /\
  (forall l, owned lb (w_objs w) l -> (l < List.length (w_heap w))%nat) /\
  (forall v l, nth_error (w_vars w) v = Some (Some l) -> (l < List.length (w_heap w))%nat) /\
  (forall v l a, nth_error (w_vars w) v = Some (Some l) -> nth_error got v = Some a -> shares a = false -> ~ owned lb (w_objs w) l).
Definition sim (lb : library) (w w' : world) : Prop :=
  w_objs w = w_objs w' /\ w_vars w = w_vars w' /\ w_seen w = w_seen w' /\ List.length (w_heap w) = List.length (w_heap w') /\
  (forall l, owned lb (w_objs w) l -> rd (w_heap w) l = rd (w_heap w') l).

Lemma access_ext lb h h' os o a : (forall l, owned lb os l -> rd h l = rd h' l) -> In o os -> access lb h o a = access lb h' o a.
Proof.
  intros H Ho. assert (K : forall l, In l (locs o) -> rd h l = rd h' l) by (intros l Hl; apply H; right; exists o; split; assumption).
  destruct o as [k s r sd|s r sd|s r sd]; cbn [access locs] in *.
  - destruct (nth_error lb k) as [[c mk]|] eqn:E; [|reflexivity].
    assert (L : (k < List.length lb)%nat) by (apply nth_error_Some; congruence).
    rewrite (H (loc_periods k)) by (left; unfold loc_periods; lia).
    rewrite (K r) by (destruct sd; left; reflexivity). replace (option_map (rd h) sd) with (option_map (rd h') sd); [reflexivity|].
    destruct sd as [x|]; [|reflexivity]. cbn. rewrite (K x) by (right; left; reflexivity). reflexivity.
  - rewrite (K r) by (left; reflexivity). rewrite (K sd) by (right; left; reflexivity). reflexivity.
  - rewrite (K r) by (left; reflexivity). reflexivity.
Qed.
Lemma access_own lb h os o a l : In o os -> access lb h o a = Ok (Own l) -> shares a = true /\ owned lb os l.
Proof.
  intros Ho E. destruct o as [k s r sd|s r sd|s r sd]; cbn [access] in E.
  - destruct (nth_error lb k) as [[c mk]|]; [|discriminate]. destruct a; cbn in E; unfold fresh, number in E; try discriminate; destruct (result _); discriminate.
  - destruct a; cbn in E; unfold fresh in E; try discriminate; try (destruct (result _); discriminate). injection E as <-. split; [reflexivity|]. right. eexists. split; [exact Ho|]. right. left. reflexivity.
  - destruct a; cbn in E; try discriminate; injection E as <-; (split; [reflexivity|]); [right|left|right]; try (unfold loc_freqs; lia); eexists; (split; [exact Ho|]); cbn; auto.
Qed.
Lemma owned_more lb os o l : owned lb os l -> owned lb (os ++ [o]) l.
Proof. intros [H|(x & H1 & H2)]; [left; exact H|right; exists x; split; [apply in_or_app; left; exact H1|exact H2]]. Qed.
Lemma owned_split lb os o l : owned lb (os ++ [o]) l -> owned lb os l \/ In l (locs o).
Proof.
  intros [H|(x & H1 & H2)]; [left; left; exact H|]. apply in_app_or in H1 as [H1|[<-|[]]]; [left; right; exists x; split; assumption|right; exact H2].
Qed.

Lemma made_inv lb w got o new : inv lb w got -> (forall l, In l (locs o) -> (List.length (w_heap w) <= l < List.length (w_heap w) + List.length new)%nat) -> inv lb (made w o new) got.
Proof.
  intros (I1 & I2 & I3 & I4) Hl. unfold inv, made; cbn [w_heap w_objs w_vars]. rewrite app_length. repeat split.
  - exact I1.
  - intros l H. apply owned_split in H as [H|H]; [specialize (I2 l H)|specialize (Hl l H)]; lia.
  - intros v l H. specialize (I3 v l H). lia.
  - intros v l a H1 H2 H3 H. apply owned_split in H as [H|H]; [exact (I4 v l a H1 H2 H3 H)|]. specialize (Hl l H). specialize (I3 v l H1). lia.
Qed.
Lemma made_sim lb w w' got o new : inv lb w got -> sim lb w w' -> (forall l, In l (locs o) -> (List.length (w_heap w) <= l)%nat) -> sim lb (made w o new) (made w' o new).
Proof.
  intros (I1 & I2 & I3 & I4) (S1 & S2 & S3 & S4 & S5) Hl. unfold sim, made; cbn [w_heap w_objs w_vars w_seen]. rewrite !app_length, S1, S2, S3, S4. repeat split.
  intros l H. rewrite <- S1 in H. apply owned_split in H as [H|H].
  - rewrite !rd_app_l; [apply S5, H|rewrite <- S4; apply I2, H|apply I2, H].
  - specialize (Hl l H). unfold rd. rewrite !app_nth2 by lia. rewrite S4. reflexivity.
Qed.
Lemma failed_inv lb w got e : inv lb w got -> inv lb (failed w e) got. Proof. intros H. exact H. Qed.
Lemma failed_sim lb w w' e : sim lb w w' -> sim lb (failed w e) (failed w' e).
Proof. intros (S1 & S2 & S3 & S4 & S5). unfold sim, failed; cbn. rewrite S3. repeat split; assumption. Qed.

Lemma nth_error_snoc {A} (l : list A) x v y : nth_error (l ++ [x]) v = Some y -> nth_error l v = Some y \/ (v = List.length l /\ x = y).
Proof.
  intros H. destruct (lt_dec v (List.length l)) as [L|L].
  - rewrite nth_error_app1 in H by exact L. left; exact H.
  - rewrite nth_error_app2 in H by lia. right. destruct (v - List.length l)%nat eqn:E; cbn in H; [split; [lia|congruence]|destruct n; discriminate].
Qed.
Lemma get_none_inv lb w got a s : inv lb w got -> inv lb (World (w_heap w) (w_objs w) (w_vars w ++ [None]) s) (got ++ [a]).
Proof.
  intros (I1 & I2 & I3 & I4). unfold inv; cbn [w_heap w_objs w_vars]. rewrite !app_length, I1. repeat split.
  - exact I2.
  - intros v l H. apply nth_error_snoc in H as [H|[_ H]]; [exact (I3 v l H)|discriminate].
  - intros v l b H1 H2 H3. apply nth_error_snoc in H1 as [H1|[_ H1]]; [|discriminate].
    apply nth_error_snoc in H2 as [H2|[-> _]]; [exact (I4 v l b H1 H2 H3)|]. rewrite <- I1 in H1. assert (List.length (w_vars w) < List.length (w_vars w))%nat by (apply nth_error_Some; congruence). lia.
Qed.
Lemma step_inv lb w got p r : inv lb w got -> writes_own got (p :: r) ->
  inv lb (step lb w p) (match p with Get _ a => got ++ [a] | _ => got end) /\ writes_own (match p with Get _ a => got ++ [a] | _ => got end) r.
Proof.
  intros I W. destruct p as [k src|src|src|o a|v j x|v k]; cbn [step writes_own] in *.
  - split; [|exact W]. destruct (nth_error lb k) as [[c mk]|]; [|exact I]. destruct (result _) as [g|e]; [|exact I]. destruct (g_ln_std g) as [sd|]; apply made_inv; try exact I; cbn; intros l [<-|H]; try lia; destruct H as [<-|[]]; lia.
  - split; [|exact W]. destruct (result _) as [m|e]; [|exact I]. apply made_inv; [exact I|]. cbn. intros l [<-|[<-|[]]]; lia.
  - split; [|exact W]. destruct (result _) as [m|e]; [|exact I]. apply made_inv; [exact I|]. cbn. intros l [<-|[<-|[]]]; lia.
  - split; [|exact W]. destruct (nth_error (w_objs w) o) as [ob|] eqn:Eo; [|apply get_none_inv, I].
    apply nth_error_In in Eo. destruct (access _ _ _ _) as [[v|l0]|e] eqn:E; [| |apply get_none_inv, I].
    + destruct I as (I1 & I2 & I3 & I4). unfold inv; cbn [w_heap w_objs w_vars]. rewrite !app_length, I1. cbn [List.length]. repeat split.
      * intros l H. specialize (I2 l H). lia.
      * intros u l H. apply nth_error_snoc in H as [H|[_ H]]; [specialize (I3 u l H); lia|]. injection H as <-. lia.
      * intros u l b H1 H2 H3 H4. pose proof (I2 l H4). apply nth_error_snoc in H1 as [H1|[-> H1]]; [|injection H1 as <-; lia].
        apply nth_error_snoc in H2 as [H2|[-> _]]; [exact (I4 u l b H1 H2 H3 H4)|].
        assert (List.length got < List.length (w_vars w))%nat by (apply nth_error_Some; congruence). lia.
    + destruct (access_own lb _ (w_objs w) _ _ _ Eo E) as [Sh Ow]. destruct I as (I1 & I2 & I3 & I4). unfold inv; cbn [w_heap w_objs w_vars]. rewrite !app_length, I1. cbn [List.length]. repeat split.
      * exact I2.
      * intros u l H. apply nth_error_snoc in H as [H|[_ H]]; [exact (I3 u l H)|]. injection H as <-. exact (I2 _ Ow).
      * intros u l b H1 H2 H3. apply nth_error_snoc in H2 as [H2|[-> ->]]; [|congruence]. apply nth_error_snoc in H1 as [H1|[-> _]]; [exact (I4 u l b H1 H2 H3)|].
        assert (List.length (w_vars w) < List.length got)%nat by (apply nth_error_Some; congruence). lia.
  - destruct W as [W1 W2]. split; [|exact W2]. unfold update. destruct (nth_error (w_vars w) v) as [[l|]|]; try exact I.
    destruct I as (I1 & I2 & I3 & I4). unfold inv; cbn [w_heap w_objs w_vars]. rewrite put_length. auto.
  - destruct W as [W1 W2]. split; [|exact W2]. unfold update. destruct (nth_error (w_vars w) v) as [[l|]|]; try exact I.
    destruct I as (I1 & I2 & I3 & I4). unfold inv; cbn [w_heap w_objs w_vars]. rewrite put_length. auto.
Qed.
Lemma step_sim lb w w' got p : inv lb w got -> sim lb w w' -> is_write p = false -> sim lb (step lb w p) (step lb w' p).
Proof.
  intros I S Hp. pose proof I as (I1 & I2 & I3 & I4). pose proof S as (S1 & S2 & S3 & S4 & S5).
  destruct p as [k src|src|src|o a|v j x|v k]; cbn [step is_write] in *; try discriminate.
  - destruct (nth_error lb k) as [[c mk]|] eqn:E; [|apply failed_sim, S]. assert (L : (k < List.length lb)%nat) by (apply nth_error_Some; congruence).
    rewrite <- (S5 (loc_periods k)) by (left; unfold loc_periods; lia). rewrite <- S4.
    destruct (result _) as [g|e]; [|apply failed_sim, S]. destruct (g_ln_std g) as [sd|]; (eapply made_sim; [exact I|exact S|]); cbn; intros l [<-|H]; try lia; destruct H as [<-|[]]; lia.
  - rewrite <- S4. destruct (result _) as [m|e]; [|apply failed_sim, S]. eapply made_sim; [exact I|exact S|]. cbn. intros l [<-|[<-|[]]]; lia.
  - rewrite <- (S5 loc_freqs) by (left; unfold loc_freqs; lia). rewrite <- S4. destruct (result _) as [m|e]; [|apply failed_sim, S]. eapply made_sim; [exact I|exact S|]. cbn. intros l [<-|[<-|[]]]; lia.
  - rewrite <- S1, <- S2, <- S3, <- S4. destruct (nth_error (w_objs w) o) as [ob|] eqn:Eo; [|repeat split; cbn [w_heap w_objs w_vars w_seen]; auto].
    apply nth_error_In in Eo. rewrite <- (access_ext lb _ _ (w_objs w) ob a S5 Eo).
    destruct (access _ _ _ _) as [[v|l0]|e] eqn:E; [| |repeat split; cbn [w_heap w_objs w_vars w_seen]; auto].
    + repeat split; cbn [w_heap w_objs w_vars w_seen]; auto; [rewrite !app_length, S4; reflexivity|]. intros l H. rewrite !rd_app_l; [apply S5, H|rewrite <- S4; apply I2, H|apply I2, H].
    + destruct (access_own lb _ (w_objs w) _ _ _ Eo E) as [_ Ow]. rewrite (S5 _ Ow). repeat split; cbn [w_heap w_objs w_vars w_seen]; auto.
Qed.
Lemma update_sim lb w w' got v f : inv lb w got -> sim lb w w' -> (forall a, nth_error got v = Some a -> shares a = false) -> sim lb (update w v f) w'.
Proof.
  intros (I1 & I2 & I3 & I4) (S1 & S2 & S3 & S4 & S5) H. unfold update. destruct (nth_error (w_vars w) v) as [[l|]|] eqn:E; try (repeat split; assumption).
  repeat split; cbn [w_heap w_objs w_vars w_seen]; try assumption; [rewrite put_length; exact S4|]. intros l' Ow. rewrite <- S5 by exact Ow.
  unfold rd. apply nth_put_other. intros ->.
  assert (L : (v < List.length got)%nat) by (rewrite <- I1; apply nth_error_Some; congruence).
  destruct (nth_error got v) as [a|] eqn:G; [|apply nth_error_None in G; lia]. exact (I4 v l a E G (H a eq_refl) Ow).
Qed.
Lemma run_sim lb ps : forall w w' got, inv lb w got -> sim lb w w' -> writes_own got ps ->
  w_seen (fold_left (step lb) ps w) = w_seen (fold_left (step lb) (without_writes ps) w').
Proof.
  induction ps as [|p ps IH]; intros w w' got I S W; [cbn; apply S|].
  destruct (step_inv lb w got p ps I W) as [I' W']. cbn [fold_left without_writes filter].
  destruct (is_write p) eqn:E; cbn [negb].
  - eapply IH; [exact I'| |exact W']. destruct p; try discriminate; cbn [step] in *; eapply update_sim; try exact I; try exact S; apply W.
  - cbn [fold_left]. eapply IH; [exact I'| |exact W']. eapply step_sim; eassumption.
Qed.
Lemma start_inv lb : inv lb (start lb) [].
Proof.
  unfold inv, start, heap0; cbn [w_heap w_objs w_vars]. split; [reflexivity|]. cbn [List.length]. rewrite map_length. repeat split.
  - intros l [H|(o & [] & _)]; lia.
  - intros [|v] l H; discriminate.
  - intros [|v] l a H; discriminate.
Qed.
Lemma writes_invisible lb ps : writes_own [] ps -> seen lb ps = seen lb (without_writes ps).
Proof. intros H. unfold seen, run. eapply run_sim; [apply start_inv|repeat split|exact H]. Qed.

(** ** Shared arrays *)
Lemma run_snoc lb ps p : run lb (ps ++ [p]) = step lb (run lb ps) p.
Proof. unfold run. rewrite fold_left_app. reflexivity. Qed.
Lemma vars_len lb ps : List.length (w_vars (run lb ps)) = reads ps.
Proof.
  induction ps as [|p ps IH] using rev_ind; [reflexivity|]. rewrite run_snoc. unfold reads in *. rewrite filter_app, app_length, <- IH.
  destruct p as [k src|src|src|o a|v j x|v k]; cbn [step filter List.length]; rewrite ?Nat.add_0_r.
  - destruct (nth_error lb k) as [[c mk]|]; [|reflexivity]. destruct (result _) as [g|e]; [|reflexivity]. destruct (g_ln_std g) as [sd|]; reflexivity.
  - destruct (result _); reflexivity.
  - destruct (result _); reflexivity.
  - destruct (nth_error _ o) as [ob|]; [destruct (access _ _ _ _) as [[x|l]|e]|]; cbn; rewrite app_length; reflexivity.
  - unfold update. destruct (nth_error _ v) as [[l|]|]; reflexivity.
  - unfold update. destruct (nth_error _ v) as [[l|]|]; reflexivity.
Qed.
(** Locations held by objects exist; every run. *)
Definition alloc (lb : library) (w : world) : Prop := forall l, owned lb (w_objs w) l -> (l < List.length (w_heap w))%nat.
Lemma run_alloc lb ps : alloc lb (run lb ps).
Proof.
  induction ps as [|p ps IH] using rev_ind; [exact (proj1 (proj2 (start_inv lb)))|]. rewrite run_snoc.
  assert (MD : forall w o new, alloc lb w -> (forall l, In l (locs o) -> (List.length (w_heap w) <= l < List.length (w_heap w) + List.length new)%nat) -> alloc lb (made w o new)).
  { intros w o new I Hl l H. unfold made in *; cbn [w_heap w_objs] in *. rewrite app_length. apply owned_split in H as [H|H]; [specialize (I l H)|specialize (Hl l H)]; lia. }
  destruct p as [k src|src|src|o a|v j x|v k]; cbn [step].
  - destruct (nth_error lb k) as [[c mk]|]; [|exact IH]. destruct (result _) as [g|e]; [|exact IH]. destruct (g_ln_std g) as [sd|]; apply MD; try exact IH; cbn; intros l [<-|H]; try lia; destruct H as [<-|[]]; lia.
  - destruct (result _) as [m|e]; [|exact IH]. apply MD; [exact IH|]. cbn. intros l [<-|[<-|[]]]; lia.
  - destruct (result _) as [m|e]; [|exact IH]. apply MD; [exact IH|]. cbn. intros l [<-|[<-|[]]]; lia.
  - destruct (nth_error _ o) as [ob|]; [destruct (access _ _ _ _) as [[x|l]|e]|]; unfold alloc in *; cbn [w_heap w_objs]; intros l0 H; specialize (IH l0 H); rewrite ?app_length; lia.
  - unfold update. destruct (nth_error _ v) as [[l|]|]; try exact IH. intros l0 H. cbn [w_heap w_objs] in *. rewrite put_length. apply IH, H.
  - unfold update. destruct (nth_error _ v) as [[l|]|]; try exact IH. intros l0 H. cbn [w_heap w_objs] in *. rewrite put_length. apply IH, H.
Qed.
Lemma now_eq lb ps o a ob : nth_error (w_objs (run lb ps)) o = Some ob ->
  now lb ps o a = Some (match access lb (w_heap (run lb ps)) ob a with Ok (Fresh v) => Ok v | Ok (Own l) => Ok (rd (w_heap (run lb ps)) l) | Raise e => Raise e end).
Proof.
  intros H. unfold now, seen. rewrite run_snoc. cbn [step]. rewrite H. destruct (access _ _ _ _) as [[v|l]|e]; cbn [w_seen]; rewrite nth_error_app2, Nat.sub_diag by lia; reflexivity.
Qed.
Lemma shared_write lb ps o a l ob j x : nth_error (w_objs (run lb ps)) o = Some ob -> (forall h, access lb h ob a = Ok (Own l)) ->
  let qs := ps ++ [Get o a; Write (reads ps) j x] in
  w_objs (run lb qs) = w_objs (run lb ps) /\ w_heap (run lb qs) = put (w_heap (run lb ps)) l (put (rd (w_heap (run lb ps)) l) j x).
Proof.
  intros Ho Ha qs. unfold qs. change (ps ++ [Get o a; Write (reads ps) j x]) with (ps ++ ([Get o a] ++ [Write (reads ps) j x])). rewrite app_assoc, run_snoc, run_snoc. cbn [step]. rewrite Ho, Ha. unfold update. cbn [w_vars w_heap w_objs].
  rewrite nth_error_app2 by (rewrite vars_len; lia). rewrite vars_len, Nat.sub_diag. cbn [nth_error w_heap w_objs]. split; reflexivity.
Qed.

Lemma freqs_shared lb ps o1 o2 j x : is_ba19 lb ps o1 -> is_ba19 lb ps o2 ->
  exists f, now lb ps o2 freqs = Some (Ok f) /\ now lb (ps ++ [Get o1 freqs; Write (reads ps) j x]) o2 freqs = Some (Ok (put f j x)).
Proof.
  intros (s1 & e1 & d1 & H1) (s2 & e2 & d2 & H2). exists (rd (w_heap (run lb ps)) loc_freqs). rewrite (now_eq _ _ _ _ _ H2). split; [reflexivity|].
  destruct (shared_write lb ps o1 freqs loc_freqs _ j x H1 ltac:(reflexivity)) as [E1 E2]. erewrite now_eq by (rewrite E1; exact H2). cbn [access]. rewrite E2.
  unfold rd at 1. rewrite nth_put_same; [reflexivity|]. apply run_alloc. left. unfold loc_freqs. lia.
Qed.
Lemma own_written lb ps o a j x : (is_ga11 lb ps o /\ a = ln_std) \/ (is_ba19 lb ps o /\ (a = ln_std \/ a = ln_eas)) ->
  exists f, now lb ps o a = Some (Ok f) /\ now lb (ps ++ [Get o a; Write (reads ps) j x]) o a = Some (Ok (put f j x)).
Proof.
  intros H.
  assert (K : exists ob l, nth_error (w_objs (run lb ps)) o = Some ob /\ In l (locs ob) /\ forall h, access lb h ob a = Ok (Own l)).
  { destruct H as [[(s & r & d & H) ->]|[(s & r & d & H) [->| ->]]]; do 2 eexists; (split; [exact H|]); (split; [|intros h; reflexivity]); cbn; auto. }
  destruct K as (ob & l & Ho & Hl & Ha). exists (rd (w_heap (run lb ps)) l). rewrite (now_eq _ _ _ _ _ Ho), Ha. split; [reflexivity|].
  destruct (shared_write lb ps o a l ob j x Ho Ha) as [E1 E2]. erewrite now_eq by (rewrite E1; exact Ho). rewrite Ha, E2.
  unfold rd at 1. rewrite nth_put_same; [reflexivity|]. apply run_alloc. right. exists ob. split; [eapply nth_error_In, Ho|exact Hl].
Qed.
Lemma eas_written lb ps o j x : is_ba19 lb ps o ->
  exists f, now lb ps o ln_eas = Some (Ok f) /\ now lb ps o eas = Some (Ok (map fexp f)) /\
    now lb (ps ++ [Get o ln_eas; Write (reads ps) j x]) o eas = Some (Ok (map fexp (put f j x))).
Proof.
  intros (s & r & d & H). exists (rd (w_heap (run lb ps)) r). rewrite !(now_eq _ _ _ _ _ H). split; [reflexivity|]. split; [reflexivity|].
  destruct (shared_write lb ps o ln_eas r _ j x H ltac:(reflexivity)) as [E1 E2]. erewrite now_eq by (rewrite E1; exact H). cbn [access]. rewrite E2.
  unfold rd at 1. rewrite nth_put_same; [reflexivity|]. apply run_alloc. right. eexists. split; [eapply nth_error_In, H|]. left. reflexivity.
Qed.

(** ** BA19 constructed with other frequencies *)
Transparent ba19_coeff.
Lemma coeff_len : List.length ba19_coeff = 301%nat. Proof. vm_compute. reflexivity. Qed.
Lemma high_above c : In c high_rows -> Q2R (ba19_freq_hz last_low) < Q2R (ba19_freq_hz c).
Proof. intros H. apply Qltb_R. revert c H. apply forallb_forall. vm_compute. reflexivity. Qed.
Opaque ba19_coeff.
Lemma ba19_at_freqs src : ba19_at ba19_p_freqs src = ba19 src.
Proof.
  assert (E : ba19_ln_eas_at ba19_p_freqs = ba19_ln_eas).
  { do 6 (apply functional_extensionality; intro). unfold ba19_ln_eas_at, ba19_ln_eas. cbv zeta. apply f_equal. unfold ba19_p_freqs. rewrite skipn_map, map_map. apply map_ext. intros c. apply f_equal. match goal with |- context [nth ?i ?l NaN] => assert (Q : nth i l NaN = ba19_freq_max) end.
    { unfold ba19_freq_max. rewrite (nth_indep _ NaN (qf (ba19_freq_hz ba19_ref_row))) by (rewrite map_length, coeff_len; unfold ba19_idx_max; lia). rewrite (map_nth (fun c0 => qf (ba19_freq_hz c0))). reflexivity. }
    rewrite Q. reflexivity. }
  unfold ba19_at, ba19. rewrite E. reflexivity.
Qed.
Definition highs_at (g : ba19_row -> R) (a : eq19) : list R := map (fun c => nth 238 (lows a) 0 - PI * kappa_of (e_v a) * (g c - g last_low)) high_rows.
Lemma app_eq_len {A} (l l' r r' : list A) : l ++ r = l' ++ r' -> List.length l = List.length l' -> l = l' /\ r = r'.
Proof. revert l'. induction l as [|x l IH]; intros [|y l'] E H; cbn in *; try discriminate; [auto|]. injection E as -> E. injection H as H. destruct (IH l' E H) as [-> ->]. auto. Qed.
Lemma eas_at_fin g a : eq19_ok a ->
  ba19_ln_eas_at (map (fun c => Fin (g c)) ba19_coeff) (Fin (e_m a)) (Fin (e_r a)) (Fin (e_z a)) (e_ns a) (Fin (e_v a)) (Fin (d_of a)) = map Fin (lows a ++ highs_at g a).
Proof.
  intros K. pose proof (eas_fin a K) as E. unfold ba19_ln_eas in E. unfold ba19_ln_eas_at. cbv zeta in *.
  set (X := map _ (combine ba19_used _)) in *. clearbody X. rewrite !map_app in *.
  assert (L : List.length X = List.length (map Fin (lows a))).
  { apply (f_equal (@List.length flt)) in E. rewrite !app_length, !map_length in E. rewrite map_length. unfold highs in E. rewrite map_length, <- skip_high in E. lia. }
  apply app_eq_len in E as [-> _]; [|exact L]. f_equal. unfold highs_at. rewrite map_map, skipn_map, map_map, skip_high. apply map_ext. intros c.
  destruct K as (Hr & Hv & Hd). change ba19_idx_max with 238%nat. rewrite nth_Fin by (rewrite lows_len; lia). rewrite fdiv_fin by lra. rewrite flog_fin by (apply Rdiv_lt_0_compat; lra).
  rewrite (nth_indep _ NaN (Fin (g last_low))) by (rewrite map_length, coeff_len; lia). rewrite (map_nth (fun c => Fin (g c))).
  replace (nth 238 ba19_coeff last_low) with last_low by (unfold last_low at 2; apply nth_indep; rewrite coeff_len; lia).
  fcbn. rewrite flog_fin by apply exp_pos. fcbn. rewrite ln_exp. apply (f_equal Fin). unfold kappa_of. lra.
Qed.
Lemma ba19_at_make g src a : eq19_gives src a -> eq19_ok a -> exists m, result (ba19_at (map (fun c => Fin (g c)) ba19_coeff) src) = Ok m /\ ba19_eas_ln m = map Fin (lows a ++ highs_at g a).
Proof.
  intros G K. unfold ba19_at. rewrite result_bind, (ba19_init src a G). rewrite result_bind, ba19_prep_ok. unfold ba19_start at 1 2 3 4 5 6.
  rewrite (num_hit _ "mag" (Fin (e_m a))), bind_ret_l by reflexivity. rewrite (num_hit _ "dist_rup" (Fin (e_r a))), bind_ret_l by reflexivity.
  rewrite (num_hit _ "depth_tor" (Fin (e_z a))), bind_ret_l by reflexivity. rewrite (attr_hit _ "mechanism" (ba19_mechv a)), bind_ret_l by reflexivity.
  rewrite (num_hit _ "v_s30" (Fin (e_v a))), bind_ret_l by reflexivity. rewrite (num_hit _ "depth_1_0" (Fin (d_of a))), bind_ret_l by reflexivity.
  eexists. split; [reflexivity|]. cbn [ba19_eas_ln]. rewrite mech_is. apply eas_at_fin, K.
Qed.

(** ** Later models *)
Lemma freqs_scaled k : map (fun x => (x * Fin k)%flt) ba19_p_freqs = map (fun c => Fin (Q2R (ba19_freq_hz c) * k)) ba19_coeff.
Proof. unfold ba19_p_freqs. rewrite map_map. apply map_ext. intros c. reflexivity. Qed.
Lemma new_ba19_seen lb ps src g a : eq19_gives src a -> eq19_ok a -> rd (w_heap (run lb ps)) loc_freqs = map (fun c => Fin (g c)) ba19_coeff ->
  now lb (ps ++ [NewBA19 src]) (List.length (w_objs (run lb ps))) ln_eas = Some (Ok (map Fin (lows a ++ highs_at g a))).
Proof.
  intros G K E. destruct (ba19_at_make g src a G K) as (m & R1 & R2).
  set (w := run lb ps) in *.
  assert (Q : run lb (ps ++ [NewBA19 src]) = made w (OBa (ba19_scen m) (List.length (w_heap w)) (S (List.length (w_heap w)))) [ba19_eas_ln m; ba19_std_ln m]).
  { rewrite run_snoc. fold w. cbn [step]. rewrite E, R1. reflexivity. }
  erewrite now_eq; [|rewrite Q; unfold made; cbn [w_objs]; rewrite nth_error_app2, Nat.sub_diag by lia; reflexivity].
  cbn [access]. rewrite Q. unfold made; cbn [w_heap]. unfold rd. rewrite app_nth2, Nat.sub_diag by lia. cbn [nth]. rewrite R2. reflexivity.
Qed.
Lemma later_models lb src1 src2 a1 a2 k : eq19_gives src1 a1 -> eq19_ok a1 -> eq19_gives src2 a2 -> eq19_ok a2 -> 1 < k ->
  exists xs ys, now lb [NewBA19 src2] 0 ln_eas = Some (Ok (map Fin xs)) /\
    now lb [NewBA19 src1; Get 0 freqs; Scale 0 (Fin k); NewBA19 src2] 1 ln_eas = Some (Ok (map Fin ys)) /\
    List.length xs = 301%nat /\ List.length ys = 301%nat /\
    forall i, (i < 301)%nat -> ((i < 239)%nat -> nth i ys 0 = nth i xs 0) /\ ((239 <= i)%nat -> nth i ys 0 < nth i xs 0).
Proof.
  intros G1 K1 G2 K2 Hk. exists (lows a2 ++ highs_at (fun c => Q2R (ba19_freq_hz c)) a2), (lows a2 ++ highs_at (fun c => Q2R (ba19_freq_hz c) * k) a2).
  split; [|split; [|split; [|split]]].
  - apply (new_ba19_seen lb [] src2 _ a2 G2 K2). reflexivity.
  - destruct (ba19_at_make (fun c => Q2R (ba19_freq_hz c)) src1 a1 G1 K1) as (m & R1 & R2).
    assert (Q : run lb [NewBA19 src1] = made (start lb) (OBa (ba19_scen m) (S (List.length lb)) (S (S (List.length lb)))) [ba19_eas_ln m; ba19_std_ln m]).
    { unfold run. cbn [fold_left]. unfold step. change (rd (w_heap (start lb)) loc_freqs) with (map (fun c => Fin (Q2R (ba19_freq_hz c))) ba19_coeff). rewrite R1.
      change (w_heap (start lb)) with (heap0 lb). unfold heap0. cbn [List.length]. rewrite map_length. reflexivity. }
    assert (Q2 : w_objs (run lb [NewBA19 src1; Get 0 freqs; Scale 0 (Fin k)]) = w_objs (run lb [NewBA19 src1]) /\
      rd (w_heap (run lb [NewBA19 src1; Get 0 freqs; Scale 0 (Fin k)])) loc_freqs = map (fun c => Fin (Q2R (ba19_freq_hz c) * k)) ba19_coeff).
    { change [NewBA19 src1; Get 0 freqs; Scale 0 (Fin k)] with (([NewBA19 src1] ++ [Get 0 freqs]) ++ [Scale 0 (Fin k)]). rewrite !run_snoc, Q. rewrite <- freqs_scaled. split; reflexivity. }
    destruct Q2 as [Q2 Q3]. change [NewBA19 src1; Get 0 freqs; Scale 0 (Fin k); NewBA19 src2] with ([NewBA19 src1; Get 0 freqs; Scale 0 (Fin k)] ++ [NewBA19 src2]).
    rewrite <- (new_ba19_seen lb _ src2 _ a2 G2 K2 Q3), Q2, Q. reflexivity.
  - rewrite app_length, lows_len. unfold highs_at. rewrite map_length, high_len. reflexivity.
  - rewrite app_length, lows_len. unfold highs_at. rewrite map_length, high_len. reflexivity.
  - intros i Hi. split; intros H.
    + rewrite !app_nth1 by (rewrite lows_len; lia). reflexivity.
    + rewrite !app_nth2 by (rewrite lows_len; lia). rewrite lows_len. unfold highs_at.
      assert (L : (i - 239 < List.length high_rows)%nat) by (rewrite high_len; lia).
      set (F := fun c => nth 238 (lows a2) 0 - PI * kappa_of (e_v a2) * (Q2R (ba19_freq_hz c) * k - Q2R (ba19_freq_hz last_low) * k)).
      set (F' := fun c => nth 238 (lows a2) 0 - PI * kappa_of (e_v a2) * (Q2R (ba19_freq_hz c) - Q2R (ba19_freq_hz last_low))).
      rewrite (nth_indep _ 0 (F last_low)) by (rewrite map_length; exact L). rewrite (nth_indep (map F' _) 0 (F' last_low)) by (rewrite map_length; exact L). rewrite !map_nth.
      pose proof (high_above _ (nth_In high_rows last_low L)) as B. set (c := nth (i - 239) high_rows last_low) in *. unfold F, F'.
      assert (P : 0 < PI * kappa_of (e_v a2)) by (apply Rmult_lt_0_compat; [apply PI_RGT_0|apply exp_pos]).
      set (p := PI * _) in *. clearbody p. set (x := Q2R (ba19_freq_hz c)) in *. set (y := Q2R (ba19_freq_hz last_low)) in *. clearbody x y.
      assert (0 < p * ((x - y) * (k - 1))) by (apply Rmult_lt_0_compat; [exact P|apply Rmult_lt_0_compat; lra]). nra.
Qed.
