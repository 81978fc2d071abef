(** * Warnings over a session: proofs *)
From Coq Require Import List Lia.
From Verif Require Import M_warn FrameworkProofs FrameworkProps Spec_warn.
Open Scope R_scope.
Open Scope string_scope.
Open Scope list_scope.

Fixpoint after (p : process) (es : list event) : process := match es with [] => p | e :: es' => after (fst (fst (happen p e))) es' end.
Lemma trace_app p es fs : trace p (es ++ fs) = trace p es ++ trace (after p es) fs.
Proof. revert p. induction es as [|e es IH]; intros p; [reflexivity|]. cbn [app trace after]. destruct (happen p e) as [[p' s] o]. cbn [fst]. rewrite IH. reflexivity. Qed.
Lemma after_app p es fs : after p (es ++ fs) = after (after p es) fs.
Proof. revert p. induction es as [|e es IH]; intros p; [reflexivity|]. cbn [app after]. apply IH. Qed.
Lemma trace_len p es : List.length (trace p es) = List.length es.
Proof. revert p. induction es as [|e es IH]; intros p; [reflexivity|]. cbn [trace]. destruct (happen p e) as [[p' s] o]. cbn. rewrite IH. reflexivity. Qed.
Lemma last_of es e : last_event (es ++ [e]) = Some (let '(_, s, o) := happen (after fresh_process es) e in (s, o)).
Proof.
  unfold last_event, session. rewrite trace_app, app_length. cbn [List.length trace]. rewrite nth_error_app2 by (rewrite trace_len; lia). rewrite trace_len.
  replace (_ - _ - _)%nat with 0%nat by lia. destruct (happen _ e) as [[p' s] o]. reflexivity.
Qed.

Lemma NoDup_app_iff_snoc {A} (l : list A) x : NoDup l -> ~ In x l -> NoDup (l ++ [x]).
Proof. intros H N. apply (NoDup_Add (a := x) (l := l)); [rewrite <- (app_nil_r l) at 1; apply Add_app|]. split; assumption. Qed.
Lemma deliver_default reg ws : let '(r, s, e) := deliver ADefaultly reg ws in
  r = reg ++ s /\ e = None /\ (NoDup reg -> NoDup r) /\ forall w, In w r <-> In w reg \/ In w ws.
Proof.
  revert reg. induction ws as [|w ws IH]; intros reg; cbn [deliver].
  - rewrite app_nil_r. repeat split; auto. intros [H|[]]; exact H.
  - destruct (in_dec message_eq_dec w reg) as [I|N].
    + specialize (IH reg). destruct (deliver _ _ _) as [[r s] e]. destruct IH as (-> & -> & H1 & H2). repeat split; auto; intros H.
      * apply H2 in H as [H|H]; [left|right; right]; exact H.
      * apply H2. destruct H as [H|[<-|H]]; auto.
    + specialize (IH (reg ++ [w])). destruct (deliver _ _ _) as [[r s] e]. destruct IH as (-> & -> & H1 & H2). rewrite <- app_assoc. cbn [app]. repeat split.
      * intros H. rewrite <- app_assoc in H1. apply H1. apply NoDup_app_iff_snoc; assumption.
      * intros H. rewrite <- app_assoc in H2. apply H2 in H as [H|H]; [apply in_app_iff in H as [H|[<-|[]]]|]; cbn; auto.
      * intros H. rewrite <- app_assoc in H2. apply H2. rewrite in_app_iff. cbn. destruct H as [H|[<-|H]]; auto.
Qed.

Lemma default_state es : only_builds es -> exists reg, after fresh_process es = Process ADefaultly reg /\ reg = all_shown es /\ NoDup reg /\
  forall w, In w reg <-> exists e, In e es /\ emits e w.
Proof.
  induction es as [|e es IH] using rev_ind; intros OB.
  - exists []. repeat split; try constructor. intros []. intros (e & [] & _).
  - destruct IH as (reg & E & S & ND & I); [intros x H; apply OB, in_or_app; left; exact H|].
    assert (OBe := OB e ltac:(apply in_or_app; right; left; reflexivity)). clear OB. rename OBe into OB. destruct e as [a|ps src]; [destruct OB|].
    rewrite after_app, E. cbn [after happen p_action p_registry]. pose proof (deliver_default reg (warns (model_init ps src))) as D.
    assert (A : all_shown (es ++ [Build ps src]) = reg ++ (let '(_, s, _) := deliver ADefaultly reg (warns (model_init ps src)) in s)).
    { unfold all_shown, session. rewrite trace_app, map_app, concat_app. fold (session es). fold (all_shown es). rewrite <- S, E. cbn [trace happen p_action p_registry].
      destruct (deliver _ _ _) as [[r s] x]. cbn. rewrite app_nil_r. reflexivity. }
    rewrite A. destruct (deliver _ _ _) as [[r s] x]. destruct D as (-> & -> & D1 & D2). cbn [fst].
    exists (reg ++ s). repeat split; [apply D1, ND| |].
    + intros H. apply D2 in H as [H|H]; [apply I in H as (e & H1 & H2); exists e; split; [apply in_or_app; left|]; assumption|].
      exists (Build ps src). split; [apply in_or_app; right; left; reflexivity|exact H].
    + intros (e & H1 & H2). apply D2. apply in_app_iff in H1 as [H1|[<-|[]]]; [left; apply I; exists e; auto|right; exact H2].
Qed.
Lemma shown_once es : only_builds es -> NoDup (all_shown es) /\ forall w, In w (all_shown es) <-> exists e, In e es /\ emits e w.
Proof. intros H. destruct (default_state es H) as (reg & _ & <- & H1 & H2). auto. Qed.
Lemma deliver_fresh a reg ws w : In w (snd (fst (deliver a reg ws))) -> ~ In w reg.
Proof.
  revert reg. induction ws as [|x ws IH]; intros reg; cbn [deliver]; [intros []|]. destruct (in_dec message_eq_dec x reg) as [I|N]; [apply IH|].
  destruct a.
  - specialize (IH (reg ++ [x])). destruct (deliver _ _ _) as [[r s] e]. cbn [fst snd] in *. intros [<-|H]; [exact N|]. intros K. apply (IH H), in_or_app. left. exact K.
  - specialize (IH reg). destruct (deliver _ _ _) as [[r s] e]. cbn [fst snd] in *. intros [<-|H]; [exact N|exact (IH H)].
  - apply IH.
  - intros [].
Qed.
Lemma not_again es e w : only_builds es -> (exists e0, In e0 es /\ emits e0 w) -> forall s o, last_event (es ++ [e]) = Some (s, o) -> ~ In w s.
Proof.
  intros OB H s o. rewrite last_of. destruct (default_state es OB) as (reg & E & _ & _ & I). rewrite E. apply I in H. destruct e as [a|ps src]; cbn [happen p_action p_registry].
  - intros [= <- _]. intros [].
  - pose proof (deliver_fresh ADefaultly reg (warns (model_init ps src)) w) as D. destruct (deliver _ _ _) as [[r s'] x]. cbn [fst snd] in D. intros [= <- _] K. exact (D K H).
Qed.
Lemma again_silent es ps src : only_builds es -> In (Build ps src) es -> exists o, last_event (es ++ [Build ps src]) = Some ([], o).
Proof.
  intros OB H. pose proof (not_again es (Build ps src)) as N. destruct (last_event (es ++ [Build ps src])) as [[s o]|] eqn:E.
  - exists o. destruct s as [|w s]; [reflexivity|]. exfalso.
    assert (K : In w (w :: s)) by (left; reflexivity). refine (N w OB _ _ _ eq_refl K). exists (Build ps src). split; [exact H|].
    rewrite last_of in E. destruct (default_state es OB) as (reg & E' & _ & _ & I). rewrite E' in E. cbn [happen p_action p_registry emits] in *.
    pose proof (deliver_default reg (warns (model_init ps src))) as D. destruct (deliver _ _ _) as [[r s'] x]. injection E as -> _. destruct D as (-> & _ & D1 & D2).
    destruct (default_state es OB) as (reg2 & E2 & _ & ND & I2). rewrite E' in E2. injection E2 as <-. specialize (D1 ND).
    assert (In w (reg ++ w :: s)) as X by (apply in_or_app; right; exact K). apply D2 in X as [X|X]; [|exact X]. apply NoDup_remove_2 in D1. exfalso. apply D1, in_or_app. left. exact X.
  - rewrite last_of in E. discriminate.
Qed.

(** ** Outcomes *)
Lemma deliver_err a reg ws : a <> AError -> snd (deliver a reg ws) = None.
Proof.
  intros H. revert reg. induction ws as [|w ws IH]; intros reg; cbn [deliver]; [reflexivity|]. destruct (in_dec message_eq_dec w reg); [apply IH|].
  destruct a; try congruence; [specialize (IH (reg ++ [w]))|specialize (IH reg)]; destruct (deliver _ _ _) as [[r s] e]; exact IH.
Qed.
Lemma after_action p es : p_action (after p es) = in_force (p_action p) es.
Proof.
  revert p. induction es as [|e es IH]; intros p; [reflexivity|]. cbn [after in_force]. rewrite IH. destruct e as [b|ps src]; [reflexivity|].
  cbn [happen]. destruct (deliver _ _ _) as [[r s] x]. reflexivity.
Qed.
Lemma outcome_same es ps src : in_force ADefaultly es <> AError -> exists s, last_event (es ++ [Build ps src]) = Some (s, Some (Ended (result (model_init ps src)))).
Proof.
  intros H. rewrite last_of. cbn [happen]. change ADefaultly with (p_action fresh_process) in H. rewrite <- after_action in H.
  pose proof (deliver_err _ (p_registry (after fresh_process es)) (warns (model_init ps src)) H) as D. destruct (deliver _ _ _) as [[r s] x]. cbn [snd] in D. subst x. eexists. reflexivity.
Qed.
Lemma error_reg p es : (p_action p = AError \/ p_action p = AAlways \/ p_action p = AIgnore -> p_registry p = []) ->
  p_action (after p es) = AError \/ p_action (after p es) = AAlways \/ p_action (after p es) = AIgnore -> p_registry (after p es) = [].
Proof.
  revert p. induction es as [|e es IH]; intros p H; [exact H|]. cbn [after]. apply IH. destruct e as [b|ps src]; [reflexivity|].
  cbn [happen]. destruct p as [a reg]. cbn [p_action p_registry] in *. clear IH.
  destruct a.
  - pose proof (deliver_default reg (warns (model_init ps src))) as D. destruct (deliver _ _ _) as [[r s] x]. cbn. intros [K|[K|K]]; discriminate.
  - rewrite H by auto. intros _. generalize (warns (model_init ps src)). intros ws.
    assert (fst (fst (deliver AAlways [] ws)) = []) as E by (induction ws as [|w ws IH]; [reflexivity|]; cbn [deliver in_dec]; destruct (deliver AAlways [] ws) as [[r s] x]; exact IH).
    destruct (deliver _ _ _) as [[r s] x]. exact E.
  - rewrite H by auto. intros _. generalize (warns (model_init ps src)). intros ws.
    assert (fst (fst (deliver AIgnore [] ws)) = []) as E by (induction ws as [|w ws IH]; [reflexivity|]; exact IH).
    destruct (deliver _ _ _) as [[r s] x]. exact E.
  - rewrite H by auto. intros _. destruct (warns (model_init ps src)); reflexivity.
Qed.
Lemma fresh_reg es : in_force ADefaultly es <> ADefaultly -> p_registry (after fresh_process es) = [].
Proof.
  intros H. apply error_reg; [intros [K|[K|K]]; discriminate|]. rewrite after_action. cbn [fresh_process p_action]. destruct (in_force ADefaultly es); [congruence|auto..].
Qed.
Lemma error_outcome es ps src : in_force ADefaultly es = AError ->
  last_event (es ++ [Build ps src]) = Some ([], Some (match warns (model_init ps src) with [] => Ended (result (model_init ps src)) | w :: _ => UserWarning w end)).
Proof.
  intros H. rewrite last_of. cbn [happen]. rewrite fresh_reg by congruence. rewrite after_action. cbn [fresh_process p_action]. rewrite H.
  destruct (warns (model_init ps src)) as [|w ws]; reflexivity.
Qed.
Lemma always_shown es ps src : in_force ADefaultly es = AAlways ->
  last_event (es ++ [Build ps src]) = Some (warns (model_init ps src), Some (Ended (result (model_init ps src)))).
Proof.
  intros H. rewrite last_of. cbn [happen]. rewrite fresh_reg by congruence. rewrite after_action. cbn [fresh_process p_action]. rewrite H.
  assert (E : forall ws, deliver AAlways [] ws = ([], ws, None)) by (induction ws as [|w ws IH]; [reflexivity|]; cbn [deliver in_dec]; rewrite IH; reflexivity). rewrite E. reflexivity.
Qed.
Lemma ignore_shown es ps src : in_force ADefaultly es = AIgnore ->
  last_event (es ++ [Build ps src]) = Some ([], Some (Ended (result (model_init ps src)))).
Proof.
  intros H. rewrite last_of. cbn [happen]. rewrite fresh_reg by congruence. rewrite after_action. cbn [fresh_process p_action]. rewrite H.
  assert (E : forall ws, deliver AIgnore [] ws = ([], [], None)) by (induction ws as [|w ws IH]; [reflexivity|]; cbn [deliver in_dec]; exact IH). rewrite E. reflexivity.
Qed.

(** ** Which texts a construction emits *)
Fixpoint check_warns (ps : list param) (src : dict) : list message :=
  match ps with
  | [] => []
  | p :: r => let c := check p (dget_none src (p_name p)) in warns c ++ match result c with Ok _ => check_warns r src | Raise _ => [] end
  end.
Lemma check_inputs_warns ps src pre : NoDup (map p_name ps) -> (forall p, In p ps -> ~ In (p_name p) (dkeys pre)) ->
  warns (check_inputs ps (Scen (pre ++ pick ps src) [])) = check_warns ps src.
Proof.
  revert pre; induction ps as [|p ps IH]; intros pre ND Hpre; [reflexivity|].
  cbn [map] in ND. inversion ND as [|? ? Hnin ND']; subst. cbn [check_inputs check_warns]. rewrite warns_bind. unfold sc_item, ditem; cbn [s_data].
  rewrite dget_app_r by (apply Hpre; left; reflexivity). unfold pick; cbn [map dget fst snd]. rewrite String.eqb_refl. cbn [result snd ret warns fst app]. rewrite warns_bind.
  destruct (result (check p (dget_none src (p_name p)))) as [w|e]; [|rewrite app_nil_r; reflexivity]. f_equal. unfold sc_setitem; cbn [s_data s_attrs].
  rewrite dset_app_keep by (apply Hpre; left; reflexivity). change (map (fun p0 => (p_name p0, dget_none src (p_name p0))) ps) with (pick ps src).
  replace (pre ++ (p_name p, w) :: pick ps src) with ((pre ++ [(p_name p, w)]) ++ pick ps src) by (rewrite <- app_assoc; reflexivity). apply IH; [exact ND'|].
  intros q Hq. unfold dkeys. rewrite map_app, in_app_iff; cbn. intros [H|[H|[]]]; [eapply Hpre; [right; exact Hq|exact H]|]. apply Hnin. rewrite H. apply in_map; exact Hq.
Qed.
Lemma model_init_warns ps src : NoDup (map p_name ps) -> known_params ps = true -> warns (model_init ps src) = check_warns ps src.
Proof.
  intros ND HK. unfold model_init. rewrite sc_new_pick by assumption. rewrite bind_ret_l. apply (check_inputs_warns ps src []); [exact ND|intros p _ []].
Qed.
Lemma check_warns_ok ps src d : checks ps src = Ok d -> check_warns ps src = List.concat (map (fun p => warns (check p (dget_none src (p_name p)))) ps).
Proof.
  revert d. induction ps as [|p ps IH]; intros d E; [reflexivity|]. cbn [checks check_warns map List.concat] in *. destruct (result _) as [v|e]; [|discriminate].
  destruct (checks ps src) as [d'|e]; [|discriminate]. rewrite (IH d' eq_refl). reflexivity.
Qed.
Lemma warns_ok ps src s : NoDup (map p_name ps) -> known_params ps = true -> result (model_init ps src) = Ok s ->
  warns (model_init ps src) = List.concat (map (fun p => warns (check p (dget_none src (p_name p)))) ps).
Proof.
  intros ND HK H. rewrite model_init_warns by assumption. rewrite model_init_result in H by assumption. destruct (checks ps src) as [d|] eqn:E; [|discriminate].
  eapply check_warns_ok, E.
Qed.
Lemma warns_in ps src s p w : NoDup (map p_name ps) -> known_params ps = true -> result (model_init ps src) = Ok s -> In p ps ->
  In w (warns (check p (dget_none src (p_name p)))) -> In w (warns (model_init ps src)).
Proof.
  intros ND HK H Hp Hw. rewrite (warns_ok ps src s ND HK H). apply in_concat. eexists. split; [apply in_map_iff; exists p; split; [reflexivity|exact Hp]|exact Hw].
Qed.

(** ** The texts of a check *)
Lemma dget_none_some src n v : dget src n = Some v -> dget_none src n = v.
Proof. unfold dget_none. intros ->. reflexivity. Qed.
Lemma large_emits ps src s n x : well_declared ps -> result (model_init ps src) = Ok s -> too_large ps src n x -> In (msg_greater n (PNum (Fin x))) (warns (model_init ps src)).
Proof.
  intros [ND HK] R (req & lo & hi & def & Hp & G & Hx & Hl). eapply (warns_in ps src s _ _ ND HK R Hp). cbn [p_name NumP]. rewrite (dget_none_some _ _ _ G).
  unfold check, check_base, NumP; cbn -[fltb]. destruct lo as [l|]; cbn -[fltb]; [rewrite (Hl l eq_refl); cbn -[fltb]|]; rewrite fltb_fin, Rltb_true by exact Hx; left; reflexivity.
Qed.
Lemma small_emits ps src s n x : well_declared ps -> result (model_init ps src) = Ok s -> too_small ps src n x -> In (msg_less n (PNum (Fin x))) (warns (model_init ps src)).
Proof.
  intros [ND HK] R (req & lo & hi & def & Hp & G & Hx). eapply (warns_in ps src s _ _ ND HK R Hp). cbn [p_name NumP]. rewrite (dget_none_some _ _ _ G).
  unfold check, check_base, NumP; cbn -[fltb]. rewrite fltb_fin, Rltb_true by exact Hx. left. reflexivity.
Qed.
Lemma option_emits ps src s n : well_declared ps -> result (model_init ps src) = Ok s -> not_an_option ps src n -> In (msg_default n) (warns (model_init ps src)).
Proof.
  intros [ND HK] R (req & opts & def & v & Hp & G & Hv & Ho). eapply (warns_in ps src s _ _ ND HK R Hp). cbn [p_name]. rewrite (dget_none_some _ _ _ G).
  unfold check, check_base; cbn. destruct (is_none v) eqn:N; [destruct v; try discriminate; congruence|]. cbn. unfold check_cat. rewrite Ho. right. left. reflexivity.
Qed.
Lemma check_silent p src v : result (check p (dget_none src (p_name p))) = Ok v -> (warns (check p (dget_none src (p_name p))) = [] <-> unremarkable p src).
Proof.
  unfold unremarkable, check, check_base. destruct p as [n req def kd]. cbn [p_name p_default p_kind p_required]. set (u := dget_none src n).
  destruct (is_none u && req); [discriminate|]. rewrite bind_ret_l. set (u' := if is_none u then def else u). clearbody u'. clear u. destruct kd as [lo hi|opts].
  - unfold check_num, out_of_limits. destruct u' as [|x|t|b]; cbn -[fltb].
    + split; [intros _ x [=]|reflexivity].
    + destruct lo as [l|]; cbn -[fltb]; [destruct (fltb x l) eqn:E1; cbn -[fltb]|].
      * split; [discriminate|]. intros K. exfalso. apply (K x eq_refl). left. eauto.
      * destruct hi as [h|]; cbn -[fltb]; [destruct (fltb h x) eqn:E2; cbn -[fltb]|].
        -- split; [discriminate|]. intros K. exfalso. apply (K x eq_refl). right. eauto.
        -- split; [|reflexivity]. intros _ y [= <-] [(m & [= <-] & K)|(m & [= <-] & K)]; congruence.
        -- split; [|reflexivity]. intros _ y [= <-] [(m & [= <-] & K)|(m & [=] & K)]; congruence.
      * destruct hi as [h|]; cbn -[fltb]; [destruct (fltb h x) eqn:E2; cbn -[fltb]|].
        -- split; [discriminate|]. intros K. exfalso. apply (K x eq_refl). right. eauto.
        -- split; [|reflexivity]. intros _ y [= <-] [(m & [=] & K)|(m & [= <-] & K)]; congruence.
        -- split; [|reflexivity]. intros _ y [= <-] [(m & [=] & K)|(m & [=] & K)].
    + destruct lo as [l|]; cbn -[fltb]; [discriminate|]. destruct hi as [h|]; cbn -[fltb]; [discriminate|]. split; [intros _ x [=]|reflexivity].
    + destruct lo as [l|]; cbn -[fltb]; [destruct (fltb (bool_num b) l) eqn:E1; cbn -[fltb]|].
      * split; [discriminate|]. intros K. exfalso. apply (K _ eq_refl). left. eauto.
      * destruct hi as [h|]; cbn -[fltb]; [destruct (fltb h (bool_num b)) eqn:E2; cbn -[fltb]|].
        -- split; [discriminate|]. intros K. exfalso. apply (K _ eq_refl). right. eauto.
        -- split; [|reflexivity]. intros _ y [= <-] [(m & [= <-] & K)|(m & [= <-] & K)]; congruence.
        -- split; [|reflexivity]. intros _ y [= <-] [(m & [= <-] & K)|(m & [=] & K)]; congruence.
      * destruct hi as [h|]; cbn -[fltb]; [destruct (fltb h (bool_num b)) eqn:E2; cbn -[fltb]|].
        -- split; [discriminate|]. intros K. exfalso. apply (K _ eq_refl). right. eauto.
        -- split; [|reflexivity]. intros _ y [= <-] [(m & [=] & K)|(m & [= <-] & K)]; congruence.
        -- split; [|reflexivity]. intros _ y [= <-] [(m & [=] & K)|(m & [=] & K)].
  - unfold check_cat. destruct (pyin u' opts); cbn -[fltb]; split; auto; discriminate.
Qed.
Lemma checks_each ps src d p : checks ps src = Ok d -> In p ps -> exists v, result (check p (dget_none src (p_name p))) = Ok v.
Proof.
  revert d. induction ps as [|q ps IH]; [intros d E []|]. intros d E H. cbn [checks] in E. destruct (result (check q (dget_none src (p_name q)))) as [v|] eqn:R; [|discriminate].
  destruct (checks ps src) as [d'|] eqn:E'; [|discriminate]. destruct H as [<-|H]; [exists v; exact R|exact (IH d' eq_refl H)].
Qed.
Lemma silent_iff ps src s : well_declared ps -> result (model_init ps src) = Ok s -> (warns (model_init ps src) = [] <-> forall p, In p ps -> unremarkable p src).
Proof.
  intros [ND HK] R. rewrite (warns_ok ps src s ND HK R). rewrite model_init_result in R by assumption. destruct (checks ps src) as [d|] eqn:E; [|discriminate].
  assert (K : forall p, In p ps -> (warns (check p (dget_none src (p_name p))) = [] <-> unremarkable p src)).
  { intros p Hp. destruct (checks_each ps src d p E Hp) as [v Hv]. exact (check_silent p src v Hv). }
  clear E. split.
  - intros C p Hp. apply K; [exact Hp|]. destruct (warns _) as [|w ws] eqn:W; [reflexivity|]. exfalso.
    assert (In w (List.concat (map (fun p => warns (check p (dget_none src (p_name p)))) ps))) as I.
    { apply in_concat. exists (w :: ws). split; [apply in_map_iff; exists p; auto|left; reflexivity]. }
    rewrite C in I. destruct I.
  - intros H. assert (G : forall p, In p ps -> warns (check p (dget_none src (p_name p))) = []) by (intros p Hp; apply K; auto).
    clear K H. induction ps as [|p ps IH]; [reflexivity|]. cbn [map List.concat]. rewrite G by (left; reflexivity). apply IH.
    + inversion ND; assumption.
    + cbn in HK. apply andb_prop in HK. apply HK.
    + intros q Hq. apply G. right. exact Hq.
Qed.
Lemma error_accepts es ps src s : well_declared ps -> in_force ADefaultly es = AError ->
  (last_event (es ++ [Build ps src]) = Some ([], Some (Ended (Ok s))) <-> result (model_init ps src) = Ok s /\ forall p, In p ps -> unremarkable p src).
Proof.
  intros W H. rewrite error_outcome by exact H. split.
  - destruct (warns (model_init ps src)) as [|w ws] eqn:E; intros [= K]. split; [exact K|]. apply (silent_iff ps src s W K), E.
  - intros [K U]. rewrite (proj2 (silent_iff ps src s W K) U), K. reflexivity.
Qed.
(** Only one parameter out of its limits, and its text shown before. *)
Lemma deliver_known a reg ws : (forall w, In w ws -> In w reg) -> deliver a reg ws = (reg, [], None).
Proof.
  induction ws as [|w ws IH]; intros H; [reflexivity|]. cbn [deliver]. destruct (in_dec message_eq_dec w reg) as [I|N]; [|exfalso; apply N, H; left; reflexivity].
  apply IH. intros x Hx. apply H. right. exact Hx.
Qed.
Lemma greater_only p src n x : too_large [p] src n x -> forall w, In w (warns (check p (dget_none src (p_name p)))) -> w = msg_greater n (PNum (Fin x)).
Proof.
  intros (req & lo & hi & def & [->|[]] & G & Hx & Hl) w. cbn [p_name NumP]. rewrite (dget_none_some _ _ _ G).
  unfold check, check_base, NumP; cbn -[fltb]. destruct lo as [l|]; cbn -[fltb]; [rewrite (Hl l eq_refl); cbn -[fltb]|]; rewrite fltb_fin, Rltb_true by exact Hx; intros [<-|[]]; reflexivity.
Qed.
Lemma second_model_silent es ps1 src1 s1 ps2 src2 s2 n x : only_builds es -> In (Build ps1 src1) es -> well_declared ps1 -> result (model_init ps1 src1) = Ok s1 -> too_large ps1 src1 n x ->
  well_declared ps2 -> result (model_init ps2 src2) = Ok s2 -> (forall p, In p ps2 -> unremarkable p src2 \/ too_large [p] src2 n x) ->
  last_event (es ++ [Build ps2 src2]) = Some ([], Some (Ended (Ok s2))).
Proof.
  intros OB H1 W1 R1 L1 W2 R2 A. rewrite last_of. destruct (default_state es OB) as (reg & E & _ & _ & I). rewrite E. cbn [happen p_action p_registry].
  rewrite deliver_known; [rewrite R2; reflexivity|]. intros w Hw.
  destruct W2 as [ND2 HK2]. rewrite (warns_ok ps2 src2 s2 ND2 HK2 R2) in Hw. apply in_concat in Hw as (l & Hl & Hw). apply in_map_iff in Hl as (p & <- & Hp).
  destruct (A p Hp) as [U|L].
  - rewrite model_init_result in R2 by assumption. destruct (checks ps2 src2) as [d|] eqn:C; [|discriminate]. destruct (checks_each ps2 src2 d p C Hp) as [v Hv].
    apply (check_silent p src2 v Hv) in U. rewrite U in Hw. destruct Hw.
  - apply (greater_only p src2 n x L) in Hw as ->. apply I. exists (Build ps1 src1). split; [exact H1|]. exact (large_emits ps1 src1 s1 n x W1 R1 L1).
Qed.
