(** * Heap: scenario objects with identity

    The functional model hides aliasing. Here scenario objects live at locations
    of a heap and the operations of src/pygmm/model.py mutate the heap step by
    step as the Python code does. *)

From Verif Require Import Framework.
Open Scope list_scope.

Definition heap := list scen.

Fixpoint hset (h : heap) (l : nat) (s : scen) : heap :=
  match h, l with
  | [], _ => []
  | _ :: h', O => s :: h'
  | x :: h', S l' => x :: hset h' l' s
  end.

(** Operations a program can apply to scenarios:
    - [ONew kw]: Scenario called with keywords kw (model.py:122-125)
    - [OCopyWith l kw]: copy_with with keywords kw               (model.py:135-139)
    - [OSetItem l k v]: [s[k] = v]                        (UserDict.__setitem__)
    - [OSetAttr l k v]: [s.k = v]
    - [OConstruct ps l]: construct a model declaring [ps] (model.py:157-175) *)
Inductive op :=
| ONew (kw : dict)
| OCopyWith (l : nat) (kw : dict)
| OSetItem (l : nat) (k : string) (v : pyval)
| OSetAttr (l : nat) (k : string) (v : pyval)
| OConstruct (ps : list param) (l : nat).

(** model.py:173-175, [_check_inputs] as a loop writing into the heap; an
    exception leaves the writes done so far. *)
Fixpoint hcheck (ps : list param) (l : nat) (h : heap) : heap * res unit :=
  match ps with
  | [] => (h, Ok tt)
  | p :: ps' =>
      match nth_error h l with
      | None => (h, Raise EAttr)   (* not a location: cannot happen *)
      | Some s =>
          match result (bind (sc_item s (p_name p)) (check p)) with
          | Raise e => (h, Raise e)
          | Ok w => hcheck ps' l (hset h l (sc_setitem s (p_name p) w))
          end
      end
  end.

(** One step: new heap and outcome (location of the object returned, if any).
    An operation on a location that does not exist is a NameError-like failure
    without effect. *)
Definition step (h : heap) (o : op) : heap * res (option nat) :=
  match o with
  | ONew kw =>
      match result (sc_new kw) with
      | Ok s => (h ++ [s], Ok (Some (List.length h)))
      | Raise e => (h, Raise e)
      end
  | OCopyWith l kw =>
      match nth_error h l with
      | None => (h, Raise EAttr)
      | Some s =>
          match result (sc_copy_with s kw) with
          | Ok s' => (h ++ [s'], Ok (Some (List.length h)))
          | Raise e => (h, Raise e)
          end
      end
  | OSetItem l k v =>
      match nth_error h l with
      | None => (h, Raise EAttr)
      | Some s => (hset h l (sc_setitem s k v), Ok None)
      end
  | OSetAttr l k v =>
      match nth_error h l with
      | None => (h, Raise EAttr)
      | Some s => (hset h l (sc_setattr s k v), Ok None)
      end
  | OConstruct ps l =>
      match nth_error h l with
      | None => (h, Raise EAttr)
      | Some s =>
          match result (sc_new (pick ps (s_data s))) with
          | Raise e => (h, Raise e)
          | Ok s' =>
              let '(h', r) := hcheck ps (List.length h) (h ++ [s']) in
              (h', match r with Ok _ => Ok (Some (List.length h)) | Raise e => Raise e end)
          end
      end
  end.

Definition run (h : heap) (os : list op) : heap := fold_left (fun h o => fst (step h o)) os h.

(** The object an operation is applied to *as an update*. *)
Definition updates (o : op) (l : nat) : bool :=
  match o with
  | OSetItem l' _ _ | OSetAttr l' _ _ => Nat.eqb l' l
  | _ => false
  end.

(** ** Proofs *)
Lemma hset_length h l s : List.length (hset h l s) = List.length h.
Proof. revert l; induction h as [|x h IH]; intros [|l]; cbn; auto. Qed.
Lemma hset_same h l s : (l < List.length h)%nat -> nth_error (hset h l s) l = Some s.
Proof.
  revert l; induction h as [|x h IH]; intros [|l] H; cbn in *; try lia; [reflexivity|].
  apply IH; lia.
Qed.
Lemma hset_other h l s l' : l' <> l -> nth_error (hset h l s) l' = nth_error h l'.
Proof.
  revert l l'; induction h as [|x h IH]; intros [|l] [|l'] H; cbn; try reflexivity; try congruence.
  apply IH; congruence.
Qed.

Lemma hcheck_frame ps l h l' : l' <> l -> nth_error (fst (hcheck ps l h)) l' = nth_error h l'.
Proof.
  revert h; induction ps as [|p ps IH]; intros h Hne; cbn [hcheck]; [reflexivity|].
  destruct (nth_error h l) as [s|]; [|reflexivity].
  destruct (result _) as [w|e]; [|reflexivity].
  rewrite IH by exact Hne. apply hset_other; exact Hne.
Qed.
Lemma hcheck_length ps l h : List.length (fst (hcheck ps l h)) = List.length h.
Proof.
  revert h; induction ps as [|p ps IH]; intros h; cbn [hcheck]; [reflexivity|].
  destruct (nth_error h l) as [s|]; [|reflexivity].
  destruct (result _) as [w|e]; [|reflexivity].
  rewrite IH. apply hset_length.
Qed.

Lemma step_frame h o l : (l < List.length h)%nat -> updates o l = false ->
  nth_error (fst (step h o)) l = nth_error h l /\ (List.length h <= List.length (fst (step h o)))%nat.
Proof.
  intros Hl Hu. destruct o as [kw|l0 kw|l0 k v|l0 k v|ps l0]; cbn [step updates] in *.
  - destruct (result _); cbn; [|split; [reflexivity|lia]].
    rewrite nth_error_app1 by exact Hl. rewrite app_length; split; [reflexivity|lia].
  - destruct (nth_error h l0) as [s|]; [|split; [reflexivity|cbn; lia]].
    destruct (result _); cbn; [|split; [reflexivity|lia]].
    rewrite nth_error_app1 by exact Hl. rewrite app_length; split; [reflexivity|lia].
  - apply Nat.eqb_neq in Hu. destruct (nth_error h l0) as [s|]; cbn; [|split; [reflexivity|lia]].
    rewrite hset_other by congruence. rewrite hset_length; split; [reflexivity|lia].
  - apply Nat.eqb_neq in Hu. destruct (nth_error h l0) as [s|]; cbn; [|split; [reflexivity|lia]].
    rewrite hset_other by congruence. rewrite hset_length; split; [reflexivity|lia].
  - destruct (nth_error h l0) as [s|]; [|split; [reflexivity|cbn; lia]].
    destruct (result _) as [s'|e]; [|split; [reflexivity|cbn; lia]].
    destruct (hcheck ps (List.length h) (h ++ [s'])) as [h' r] eqn:E.
    assert (E1 : h' = fst (hcheck ps (List.length h) (h ++ [s']))) by (rewrite E; reflexivity).
    cbn [fst]. rewrite E1, hcheck_frame by lia. rewrite hcheck_length, app_length; cbn.
    rewrite nth_error_app1 by exact Hl. split; [reflexivity|lia].
Qed.

Lemma step_length h o : (List.length h <= List.length (fst (step h o)))%nat.
Proof.
  destruct o as [kw|l0 kw|l0 k v|l0 k v|ps l0]; cbn [step].
  - destruct (result _); cbn; rewrite ?app_length; lia.
  - destruct (nth_error h l0) as [s|]; [|cbn; lia].
    destruct (result _); cbn; rewrite ?app_length; lia.
  - destruct (nth_error h l0); cbn; rewrite ?hset_length; lia.
  - destruct (nth_error h l0); cbn; rewrite ?hset_length; lia.
  - destruct (nth_error h l0) as [s|]; [|cbn; lia].
    destruct (result _) as [s'|e]; [|cbn; lia].
    pose proof (hcheck_length ps (List.length h) (h ++ [s'])) as HL.
    destruct (hcheck ps (List.length h) (h ++ [s'])) as [h' r]. cbn [fst] in *.
    rewrite HL, app_length; lia.
Qed.

Lemma run_frame os : forall h l, (l < List.length h)%nat ->
  forallb (fun o => negb (updates o l)) os = true ->
  nth_error (run h os) l = nth_error h l.
Proof.
  induction os as [|o os IH]; intros h l Hl H; cbn in *; [reflexivity|].
  apply andb_prop in H as [H1 H2]. apply negb_true_iff in H1.
  unfold run in *; cbn. rewrite IH; [apply step_frame; assumption| |exact H2].
  pose proof (step_length h o); lia.
Qed.

(** The loop on the heap computes exactly the functional [check_inputs]. *)
Lemma hcheck_refines ps l h s : nth_error h l = Some s ->
  match result (check_inputs ps s) with
  | Ok s' => hcheck ps l h = (hset h l s', Ok tt) \/ (ps = [] /\ hcheck ps l h = (h, Ok tt) /\ s' = s)
  | Raise e => snd (hcheck ps l h) = Raise e
  end.
Proof.
  revert h s; induction ps as [|p ps IH]; intros h s Hs.
  - cbn. right; auto.
  - cbn [check_inputs hcheck]. rewrite Hs.
    assert (Hb : result (bind (sc_item s (p_name p)) (fun v => bind (check p v) (fun w => check_inputs ps (sc_setitem s (p_name p) w))))
      = match result (bind (sc_item s (p_name p)) (check p)) with
        | Ok w => result (check_inputs ps (sc_setitem s (p_name p) w)) | Raise e => Raise e end).
    { destruct (sc_item s (p_name p)) as [w0 [v|e]]; cbn; [|reflexivity].
      destruct (check p v) as [w1 [w|e]]; cbn; [|reflexivity].
      destruct (check_inputs ps _) as [w2 r]; reflexivity. }
    rewrite Hb; clear Hb.
    destruct (result (bind (sc_item s (p_name p)) (check p))) as [w|e] eqn:E; [|reflexivity].
    set (s1 := sc_setitem s (p_name p) w).
    assert (Hlen : (l < List.length h)%nat) by (apply nth_error_Some; congruence).
    specialize (IH (hset h l s1) s1 (hset_same h l s1 Hlen)).
    destruct (result (check_inputs ps s1)) as [s'|e']; [|exact IH].
    left. destruct IH as [IH|(-> & IH & ->)]; rewrite IH; [|reflexivity].
    f_equal. clear. revert l; induction h as [|x h IHh]; intros [|l]; cbn; try reflexivity.
    f_equal; apply IHh.
Qed.

(** Constructing a model on the heap: fresh location holding the scenario that
    the functional [model_init] computes. *)
Lemma construct_refines h ps l s : nth_error h l = Some s ->
  match result (model_init ps (s_data s)) with
  | Ok s' => exists h', step h (OConstruct ps l) = (h', Ok (Some (List.length h)))
                        /\ nth_error h' (List.length h) = Some s'
  | Raise e => snd (step h (OConstruct ps l)) = Raise e
  end.
Proof.
  intros Hs. unfold model_init. cbn [step]. rewrite Hs.
  destruct (sc_new (pick ps (s_data s))) as [w0 [s0|e]]; cbn [result snd bind fst]; [|reflexivity].
  assert (Hn : nth_error (h ++ [s0]) (List.length h) = Some s0)
    by (rewrite nth_error_app2, Nat.sub_diag by lia; reflexivity).
  pose proof (hcheck_refines ps (List.length h) (h ++ [s0]) s0 Hn) as H.
  unfold bind; cbn [snd fst]. unfold result in *. cbn [snd].
  destruct (snd (check_inputs ps s0)) as [s'|e].
  - destruct H as [H|(-> & H & ->)]; rewrite H; eexists; split; try reflexivity.
    + apply hset_same. rewrite app_length; cbn; lia.
    + exact Hn.
  - destruct (hcheck ps (List.length h) (h ++ [s0])) as [h' r]. cbn in *. rewrite H; reflexivity.
Qed.

(** No attribute assignment: instance attributes stay empty everywhere. *)
Definition no_setattr (o : op) : bool := match o with OSetAttr _ _ _ => false | _ => true end.
Definition attrs_empty (h : heap) : Prop := Forall (fun s => s_attrs s = []) h.

Lemma hset_Forall (P : scen -> Prop) h l s : Forall P h -> P s -> Forall P (hset h l s).
Proof.
  intros H Hs; revert l; induction H as [|x h Hx H IH]; intros [|l]; cbn; constructor; auto.
Qed.
Lemma hcheck_attrs ps l h : attrs_empty h -> attrs_empty (fst (hcheck ps l h)).
Proof.
  revert h; induction ps as [|p ps IH]; intros h H; cbn [hcheck]; [exact H|].
  destruct (nth_error h l) as [s|] eqn:E; [|exact H].
  destruct (result _) as [w|e]; [|exact H].
  apply IH. apply hset_Forall; [exact H|].
  cbn. apply nth_error_In in E. unfold attrs_empty in H. rewrite Forall_forall in H. apply H; exact E.
Qed.
Lemma sc_new_attrs kw s : result (sc_new kw) = Ok s -> s_attrs s = [].
Proof.
  unfold sc_new. destruct (check_keys _) as [w [a|e]]; cbn; intros H; [|discriminate].
  injection H as <-; reflexivity.
Qed.
Lemma sc_copy_with_attrs s kw s' : result (sc_copy_with s kw) = Ok s' -> s_attrs s' = s_attrs s.
Proof.
  unfold sc_copy_with. destruct (check_keys _) as [w [a|e]]; cbn; intros H; [|discriminate].
  injection H as <-; reflexivity.
Qed.
Lemma step_attrs h o : no_setattr o = true -> attrs_empty h -> attrs_empty (fst (step h o)).
Proof.
  intros Hn H. assert (HF : forall l s, nth_error h l = Some s -> s_attrs s = []).
  { intros l s E; apply nth_error_In in E. unfold attrs_empty in H; rewrite Forall_forall in H; auto. }
  destruct o as [kw|l0 kw|l0 k v|l0 k v|ps l0]; cbn [step no_setattr] in *; try discriminate.
  - destruct (result (sc_new kw)) eqn:E; cbn; [|exact H].
    apply Forall_app; split; [exact H|]. constructor; [eapply sc_new_attrs; eauto | constructor].
  - destruct (nth_error h l0) as [s|] eqn:Es; [|exact H].
    destruct (result (sc_copy_with s kw)) eqn:E; cbn; [|exact H].
    apply Forall_app; split; [exact H|]. constructor; [|constructor].
    rewrite (sc_copy_with_attrs _ _ _ E). eapply HF; eauto.
  - destruct (nth_error h l0) as [s|] eqn:Es; cbn; [|exact H].
    apply hset_Forall; [exact H | cbn; eapply HF; eauto].
  - destruct (nth_error h l0) as [s|] eqn:Es; [|exact H].
    destruct (result (sc_new _)) as [s'|e] eqn:E; [|exact H].
    pose proof (hcheck_attrs ps (List.length h) (h ++ [s'])) as HA.
    destruct (hcheck ps (List.length h) (h ++ [s'])) as [h' r]. cbn [fst] in *. apply HA.
    apply Forall_app; split; [exact H|]. constructor; [eapply sc_new_attrs; eauto | constructor].
Qed.
Lemma run_attrs os h : forallb no_setattr os = true -> attrs_empty h -> attrs_empty (run h os).
Proof.
  revert h; induction os as [|o os IH]; intros h Hos H; cbn in *; [exact H|].
  apply andb_prop in Hos as [H1 H2]. unfold run; cbn. apply IH; [exact H2|]. apply step_attrs; assumption.
Qed.
