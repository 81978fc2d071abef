(** * What a model asks of a scenario: proofs *)
From Coq Require Import List Lia.
From Verif Require Import M_warn FrameworkProofs FrameworkProps Spec_warn P_warn Spec_asks.
Open Scope R_scope.
Open Scope string_scope.
Open Scope list_scope.

(** The declaration of a line in the code's terms. *)
Definition ofin (o : option R) : option flt := match o with Some x => Some (Fin x) | None => None end.
Definition to_param (a : ask) : param :=
  match a with
  | Number n b lo hi d => NumP n b (ofin lo) (ofin hi) (match d with Some x => PNum (Fin x) | None => PNone end)
  | Choice n b os d => CatP n b os (match d with Some x => PStr x | None => PNone end)
  | Flag n d => CatBoolP n false [true; false] (PBool d)
  end.
Lemma to_param_name a : p_name (to_param a) = ask_name a. Proof. destruct a; reflexivity. Qed.
Lemma to_param_req a : p_required (to_param a) = ask_needed a. Proof. destruct a; reflexivity. Qed.

(** ** model_init depends on the checks only *)
Lemma checks_same ps src src' : (forall p, In p ps -> result (check p (dget_none src (p_name p))) = result (check p (dget_none src' (p_name p)))) -> checks ps src = checks ps src'.
Proof.
  induction ps as [|p ps IH]; intros H; [reflexivity|]. cbn [checks]. rewrite (H p (or_introl eq_refl)), IH; [reflexivity|]. intros q Hq. apply H. right. exact Hq.
Qed.
Lemma check_warns_same ps src src' : (forall p, In p ps -> check p (dget_none src (p_name p)) = check p (dget_none src' (p_name p))) -> check_warns ps src = check_warns ps src'.
Proof.
  induction ps as [|p ps IH]; intros H; [reflexivity|]. cbn [check_warns]. rewrite (H p (or_introl eq_refl)), IH; [reflexivity|]. intros q Hq. apply H. right. exact Hq.
Qed.
Lemma init_result_same ps src src' : well_declared ps -> (forall p, In p ps -> result (check p (dget_none src (p_name p))) = result (check p (dget_none src' (p_name p)))) ->
  result (model_init ps src) = result (model_init ps src').
Proof. intros [ND K] H. rewrite !model_init_result by assumption. rewrite (checks_same ps src src' H). reflexivity. Qed.
Lemma init_same ps src src' : well_declared ps -> (forall p, In p ps -> check p (dget_none src (p_name p)) = check p (dget_none src' (p_name p))) ->
  model_init ps src = model_init ps src'.
Proof.
  intros W H. assert (E1 : result (model_init ps src) = result (model_init ps src')) by (apply init_result_same; [exact W|]; intros p Hp; rewrite (H p Hp); reflexivity).
  assert (E2 : warns (model_init ps src) = warns (model_init ps src')) by (destruct W; rewrite !model_init_warns by assumption; apply check_warns_same; exact H).
  destruct (model_init ps src), (model_init ps src'). cbn in E1, E2. congruence.
Qed.
Lemma init_raises ps src p e : well_declared ps -> In p ps -> result (check p (dget_none src (p_name p))) = Raise e -> exists e', result (model_init ps src) = Raise e'.
Proof.
  intros [ND K] Hp E. rewrite model_init_result by assumption. cut (exists e', checks ps src = Raise e'); [intros [e' ->]; eexists; reflexivity|]. clear ND K.
  induction ps as [|q ps IH]; [destruct Hp|]. cbn [checks]. destruct Hp as [->|Hp]; [rewrite E; eexists; reflexivity|].
  destruct (result (check q _)) as [v|e']; [|eexists; reflexivity]. destruct (IH Hp) as [e' ->]. eexists; reflexivity.
Qed.

(** ** Which parameter a text comes from *)
Inductive about (n : string) : message -> Prop :=
| ab_less x : about n (too_small_text n x)
| ab_greater x : about n (too_large_text n x)
| ab_default : about n (default_used_text n).
Lemma check_texts p v w : In w (warns (check p v)) -> exists u, w = msg_less (p_name p) u \/ w = msg_greater (p_name p) u \/ w = msg_default (p_name p) \/ exists os, w = msg_notoption (p_name p) u os.
Proof.
  unfold check, check_base. destruct (is_none v && p_required p); [intros []|]. rewrite bind_ret_l. set (u := if is_none v then _ else _). clearbody u.
  destruct (p_kind p) as [lo hi|os].
  - unfold check_num. intros H. exists u.
    destruct u as [|x|x|x], lo as [l|], hi as [h|]; cbn -[fltb] in H; repeat (destruct (fltb _ _) in H; cbn -[fltb] in H); intuition.
  - unfold check_cat. destruct (pyin u os); [intros []|]. cbn. intros [<-|[<-|[]]]; exists u; [right; right; right; exists os; reflexivity|auto].
Qed.
Lemma about_name n w p v : about n w -> In w (warns (check p v)) -> p_name p = n.
Proof.
  intros A H. apply check_texts in H as (u & H). destruct A; destruct H as [H|[H|[H|(os & H)]]];
    unfold too_small_text, too_large_text, default_used_text, msg_less, msg_greater, msg_default, msg_notoption in H; cbn [app] in H; congruence.
Qed.
Lemma same_name (ps : list param) p q : NoDup (map p_name ps) -> In p ps -> In q ps -> p_name p = p_name q -> p = q.
Proof.
  induction ps as [|r ps IH]; intros ND Hp Hq E; [destruct Hp|]. cbn [map] in ND. inversion ND as [|? ? N ND']; subst.
  destruct Hp as [->|Hp], Hq as [->|Hq]; auto.
  - exfalso. apply N. rewrite E. apply in_map. exact Hq.
  - exfalso. apply N. rewrite <- E. apply in_map. exact Hp.
Qed.
Lemma init_text ps src s p w : well_declared ps -> In p ps -> about (p_name p) w -> result (model_init ps src) = Ok s ->
  (In w (warns (model_init ps src)) <-> In w (warns (check p (dget_none src (p_name p))))).
Proof.
  intros [ND K] Hp A R. split; [|apply (warns_in ps src s p w ND K R Hp)].
  rewrite (warns_ok ps src s ND K R). intros H. apply in_concat in H as (l & Hl & Hw). apply in_map_iff in Hl as (q & <- & Hq).
  pose proof (about_name _ _ _ _ A Hw) as E. assert (q = p) as -> by (apply (same_name ps); assumption). exact Hw.
Qed.

(** ** Constructors: the checks, then code that warns at most about "Magnitude" *)
Definition other_text (w : message) : Prop := exists r, w = FText "Magnitude (" :: r \/ w = FText "Magnitude of " :: r.
Definition quiet {A} (m : M A) : Prop := forall w, In w (warns m) -> other_text w.
Lemma quiet_ret {A} (a : A) : quiet (ret a). Proof. intros w []. Qed.
Lemma quiet_raise {A} e : quiet (@raise A e). Proof. intros w []. Qed.
Lemma quiet_emit1 r : quiet (emit (FText "Magnitude (" :: r)). Proof. intros w [<-|[]]. exists r. auto. Qed.
Lemma quiet_emit2 r : quiet (emit (FText "Magnitude of " :: r)). Proof. intros w [<-|[]]. exists r. auto. Qed.
Lemma quiet_bind {A B} (m : M A) (f : A -> M B) : quiet m -> (forall a, quiet (f a)) -> quiet (bind m f).
Proof. intros H1 H2 w. rewrite warns_bind. destruct (result m); [|apply H1]. intros H. apply in_app_iff in H as [H|H]; [exact (H1 w H)|exact (H2 _ w H)]. Qed.
Lemma quiet_as_num v : quiet (as_num v). Proof. destruct v; intros w []. Qed.
Lemma quiet_attr s k : quiet (sc_attr s k).
Proof. unfold sc_attr, ditem. destruct (dget (s_attrs s) k); [apply quiet_ret|]. destruct (dget (s_data s) k); [apply quiet_ret|apply quiet_raise]. Qed.
Lemma quiet_num s k : quiet (num s k). Proof. unfold num. apply quiet_bind; [apply quiet_attr|apply quiet_as_num]. Qed.
Definition staged {A} (ctor : dict -> M A) (ps : list param) : Prop :=
  exists f : scen -> M A, (forall src, ctor src = bind (model_init ps src) f) /\ forall s, quiet (f s).

Lemma dget_none_of src k : dget src k = None \/ dget src k = Some PNone -> dget_none src k = PNone.
Proof. unfold dget_none. intros [->| ->]; reflexivity. Qed.
Lemma dget_none_set src k v : dget_none (dset src k v) k = v. Proof. unfold dget_none. rewrite dget_dset_same. reflexivity. Qed.
Lemma dget_none_set_other src k v n : n <> k -> dget_none (dset src k v) n = dget_none src n.
Proof. intros H. unfold dget_none. rewrite dget_dset_other by exact H. reflexivity. Qed.
Lemma str_in t os : pyin (PStr t) (map PStr os) = true <-> In t os.
Proof.
  unfold pyin. rewrite existsb_exists. split.
  - intros (v & Hv & E). apply in_map_iff in Hv as (u & <- & Hu). cbn in E. apply String.eqb_eq in E. subst. exact Hu.
  - intros H. exists (PStr t). split; [apply in_map; exact H|cbn; apply String.eqb_refl].
Qed.
Lemma staged_asks {A} (ctor : dict -> M A) (t : list ask) : well_declared (map to_param t) ->
  (forall a, In a t -> ask_name a <> "Magnitude (" /\ ask_name a <> "Magnitude of ") -> staged ctor (map to_param t) -> asks ctor t.
Proof.
  intros W NM (f & E & Q). set (ps := map to_param t) in *.
  assert (RS : forall src src', result (model_init ps src) = result (model_init ps src') -> result (ctor src) = result (ctor src')).
  { intros src src' H. rewrite !E, !result_bind, H. reflexivity. }
  assert (OK : forall src m, result (ctor src) = Ok m -> exists s, result (model_init ps src) = Ok s).
  { intros src m H. rewrite E, result_bind in H. destruct (result (model_init ps src)) as [s|]; [eauto|discriminate]. }
  assert (TX : forall src m a w, In a t -> about (ask_name a) w -> result (ctor src) = Ok m ->
    (In w (warns (ctor src)) <-> In w (warns (check (to_param a) (dget_none src (ask_name a)))))).
  { intros src m a w Ha Hw R. destruct (OK src m R) as (s & S). rewrite <- (to_param_name a) in *.
    rewrite <- (init_text ps src s (to_param a) w W); [|apply in_map; exact Ha|exact Hw|exact S].
    rewrite E, warns_bind, S. rewrite in_app_iff. split; [|auto]. intros [H|H]; [exact H|].
    exfalso. destruct (Q _ w H) as (r & [->| ->]); inversion Hw; subst; rewrite to_param_name in *; destruct (NM a Ha); congruence. }
  split.
  - intros a Ha. assert (Hp : In (to_param a) ps) by (apply in_map; exact Ha).
    assert (SD : forall src v u, check (to_param a) (dget_none src (ask_name a)) = check (to_param a) v -> v = u -> forall p, In p ps -> check p (dget_none src (p_name p)) = check p (dget_none (dset src (ask_name a) u) (p_name p))).
    { intros src v u H <- p Hin. destruct (string_dec (p_name p) (ask_name a)) as [N|N].
      - assert (p = to_param a) as -> by (apply (same_name ps); [apply W|exact Hin|exact Hp|rewrite to_param_name; exact N]).
        rewrite to_param_name, dget_none_set. exact H.
      - rewrite dget_none_set_other by exact N. reflexivity. }
    split; [|split].
    + intros Hn src Hm. destruct (init_raises ps src (to_param a) EValue W Hp) as (e & R).
      * rewrite to_param_name, dget_none_of by exact Hm. unfold check, check_base. rewrite to_param_req, Hn. reflexivity.
      * exists e. rewrite E, result_bind, R. reflexivity.
    + intros Hn d src Hd Hm. rewrite !E. rewrite (init_same ps src (dset src (ask_name a) d) W); [reflexivity|].
      apply (SD src d d); [|reflexivity]. rewrite dget_none_of by exact Hm. unfold check, check_base. rewrite to_param_req, Hn, !andb_false_r. cbn [is_none]. rewrite !bind_ret_l.
      destruct a as [n b lo hi [x|]|n b os [x|]|n x]; cbn in Hd; try discriminate; injection Hd as <-; reflexivity.
    + destruct a as [n b lo hi df|n b os df|n df]; cbn [ask_name] in *.
      * intros src x m G R. rewrite !(TX src m (Number n b lo hi df) _ Ha) by (try exact R; constructor). cbn [ask_name]. rewrite (dget_none_some _ _ _ G).
        unfold check, check_base, to_param, NumP. cbn [p_required p_kind p_name p_default is_none andb]. rewrite bind_ret_l. unfold check_num. cbn [is_none].
        destruct lo as [l|]; cbn [ofin as_num]; rewrite !bind_ret_l; [rewrite fltb_fin; destruct (Rltb_spec x l) as [L|L]|].
        -- cbn. split; split.
           ++ intros _. eauto.
           ++ intros _. left. reflexivity.
           ++ intros [H|[]]. exfalso. unfold msg_less, too_large_text in H. congruence.
           ++ intros (_ & H). specialize (H l eq_refl). lra.
        -- destruct hi as [h|]; cbn [ofin as_num]; rewrite !bind_ret_l; [rewrite fltb_fin; destruct (Rltb_spec h x) as [K|K]|]; cbn; split; split; try (intros []; fail); try (intros (l' & [= <-] & ?); lra).
           ++ intros [H|[]]. exfalso. unfold msg_greater, too_small_text in H. congruence.
           ++ intros _. split; [eauto|]. intros l' [= <-]. lra.
           ++ intros _. left. reflexivity.
           ++ intros ((h' & [= <-] & ?) & _). lra.
           ++ intros ((h' & [=] & _) & _).
        -- destruct hi as [h|]; cbn [ofin as_num]; rewrite ?bind_ret_l; [rewrite fltb_fin; destruct (Rltb_spec h x) as [K|K]|]; cbn; split; split; try (intros []; fail); try (intros (l' & [=] & _); fail).
           ++ intros [H|[]]. exfalso. unfold msg_greater, too_small_text in H. congruence.
           ++ intros _. split; [eauto|]. intros l' [=].
           ++ intros _. left. reflexivity.
           ++ intros ((h' & [= <-] & ?) & _). lra.
           ++ intros ((h' & [=] & _) & _).
      * intros src s G. split.
        -- intros m R. rewrite (TX src m (Choice n b os df) _ Ha) by (try exact R; constructor). cbn [ask_name]. rewrite (dget_none_some _ _ _ G).
           unfold check, check_base, to_param, CatP. cbn [p_required p_kind p_name p_default is_none andb]. rewrite bind_ret_l. unfold check_cat.
           destruct (pyin (PStr s) (map PStr os)) eqn:P.
           ++ apply str_in in P. split; [intros []|intros N; contradiction].
           ++ cbn. split; [|intros _; right; left; reflexivity]. intros _ H. apply str_in in H. congruence.
        -- intros d N -> Hd. apply RS. apply init_result_same; [exact W|]. intros p Hin.
           destruct (string_dec (p_name p) n) as [X|X]; [|rewrite dget_none_set_other by exact X; reflexivity].
           assert (p = to_param (Choice n b os (Some d))) as -> by (apply (same_name ps); [apply W|exact Hin|exact Hp|exact X]).
           cbn [p_name to_param CatP]. rewrite dget_none_set, (dget_none_some _ _ _ G).
           unfold check, check_base, CatP. cbn [p_required p_kind p_name p_default is_none andb]. rewrite !bind_ret_l. unfold check_cat.
           destruct (pyin (PStr s) (map PStr os)) eqn:P; [apply str_in in P; contradiction|].
           rewrite (proj2 (str_in d os) Hd). reflexivity.
      * intros src b m G R. rewrite (TX src m (Flag n df) _ Ha) by (try exact R; constructor). cbn [ask_name]. rewrite (dget_none_some _ _ _ G).
        destruct b; intros [].
  - intros src src' H. rewrite !E. rewrite (init_same ps src src' W); [reflexivity|]. intros p Hin. apply in_map_iff in Hin as (a & <- & Ha).
    rewrite to_param_name. unfold dget_none. rewrite (H a Ha). reflexivity.
Qed.
Print Assumptions staged_asks.
