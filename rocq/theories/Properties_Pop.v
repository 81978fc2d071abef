(** * C151: taking entries out of a scenario; names that belong to the class

    Vocabulary: M_scen.v, M_scenops.v (the methods), Spec_asks.v ([asks], C144). *)
From Coq Require Import List Lia.
From Verif Require Import Framework FrameworkProofs FrameworkProps M_scen M_scenops M_cb14 Spec_asks Properties_Params.
From Verif Require Properties_Asks.
Open Scope R_scope.
Open Scope string_scope.
Open Scope list_scope.

Lemma ddel_keys d k x : In x (dkeys (ddel d k)) -> In x (dkeys d).
Proof.
  induction d as [|[k' v] d IH]; [tauto|]. cbn [ddel]. destruct (String.eqb k' k); cbn; [tauto|]. intros [H|H]; [left; exact H|right; apply IH, H].
Qed.
Lemma ddel_gone d k : NoDup (dkeys d) -> dget (ddel d k) k = None.
Proof.
  induction d as [|[k' v] d IH]; intros N; [reflexivity|]. cbn in N. apply NoDup_cons_iff in N as [N1 N2]. cbn [ddel].
  destruct (String.eqb k' k) eqn:E.
  - apply String.eqb_eq in E. subst. apply dget_None_keys, N1.
  - cbn. rewrite E. apply IH, N2.
Qed.
Lemma ddel_other d k n : n <> k -> dget (ddel d k) n = dget d n.
Proof.
  intros H. induction d as [|[k' v] d IH]; [reflexivity|]. cbn [ddel]. destruct (String.eqb k' k) eqn:E.
  - apply String.eqb_eq in E. subst. cbn. destruct (String.eqb k n) eqn:E'; [apply String.eqb_eq in E'; congruence|reflexivity].
  - cbn. rewrite IH. reflexivity.
Qed.
Lemma ddel_len d k v : dget d k = Some v -> S (List.length (ddel d k)) = List.length d.
Proof. induction d as [|[k' w] d IH]; [discriminate|]. cbn. destruct (String.eqb k' k); [reflexivity|]. intros H. cbn. f_equal. apply IH, H. Qed.

(** [pop] of an entry that is held gives its value; afterwards exactly that entry is gone: the others keep
    their values, and the instance attributes are as before. *)
Theorem C151_pop : forall s k v, NoDup (dkeys (s_data s)) -> dget (s_data s) k = Some v ->
  exists s', result (sc_pop s k) = Ok (v, s') /\
    dget (s_data s') k = None /\ (forall n, n <> k -> dget (s_data s') n = dget (s_data s) n) /\
    S (List.length (s_data s')) = List.length (s_data s) /\ s_attrs s' = s_attrs s.
Proof.
  intros s k v N H. exists (Scen (ddel (s_data s) k) (s_attrs s)). unfold sc_pop, sc_item, ditem. rewrite H.
  split; [reflexivity|]. cbn [s_data s_attrs]. split; [apply ddel_gone, N|]. split; [intros n Hn; apply ddel_other, Hn|].
  split; [apply (ddel_len _ _ v), H|reflexivity].
Qed.
Print Assumptions C151_pop.
(** [pop] of anything else raises KeyError with its name. *)
Theorem C151_pop_missing : forall s k, dget (s_data s) k = None -> result (sc_pop s k) = Raise (EKey k).
Proof. intros s k H. unfold sc_pop, sc_item, ditem. rewrite H. reflexivity. Qed.
Print Assumptions C151_pop_missing.

(** What the models make of it. A constructor that follows its table (C144: every shipped one does) gives the same model as before if
    the entry is not on its table; it cannot be called any more if the entry is needed; and it uses the default otherwise. *)
Theorem C151_models_after_pop : forall {A} (ctor : dict -> M A) t s k v s', asks ctor t -> NoDup (dkeys (s_data s)) -> dget (s_data s) k = Some v ->
  result (sc_pop s k) = Ok (v, s') ->
  (~ In k (map ask_name t) -> ctor (s_data s') = ctor (s_data s)) /\
  (forall a, In a t -> ask_name a = k -> ask_needed a = true -> exists e, result (ctor (s_data s')) = Raise e) /\
  (forall a d, In a t -> ask_name a = k -> ask_needed a = false -> ask_default a = Some d -> ctor (s_data s') = ctor (dset (s_data s) k d)).
Proof.
  intros A ctor t s k v s' (F & X) N H E. destruct (C151_pop s k v N H) as (s1 & E1 & G & O & _). rewrite E in E1.
  assert (s1 = s') as -> by congruence. split; [|split].
  - intros I. apply X. intros a Ha. apply O. intros C. apply I. rewrite <- C. apply in_map, Ha.
  - intros a Ha <- Hn. destruct (F a Ha) as (F1 & _). apply (F1 Hn). left. exact G.
  - intros a d Ha <- Hn Hd. destruct (F a Ha) as (_ & F2 & _). rewrite (F2 Hn d (s_data s') Hd (or_introl G)).
    apply X. intros b Hb. destruct (string_dec (ask_name b) (ask_name a)) as [->|D]; [rewrite !dget_dset_same; reflexivity|].
    rewrite !dget_dset_other by exact D. apply O, D.
Qed.
Print Assumptions C151_models_after_pop.

(** [popitem] takes the entry that was put in first, and raises KeyError only when there is none. *)
Theorem C151_popitem_takes_the_first : forall s k v d, s_data s = (k, v) :: d ->
  result (sc_popitem s) = Ok ((k, v), Scen d (s_attrs s)).
Proof.
  intros [d0 a] k v d H. cbn in H. subst. unfold sc_popitem, sc_pop, sc_item, ditem; cbn [s_data s_attrs dget ddel].
  rewrite String.eqb_refl. reflexivity.
Qed.
Print Assumptions C151_popitem_takes_the_first.
Theorem C151_popitem_empty : forall s, (exists k, result (sc_popitem s) = Raise (EKey k)) <-> s_data s = [].
Proof.
  intros [d a]. destruct d as [|[k v] d].
  - split; [reflexivity|]. intros _. exists "". reflexivity.
  - split; [|discriminate]. intros (n & H). rewrite (C151_popitem_takes_the_first (Scen ((k, v) :: d) a) k v d eq_refl) in H. discriminate.
Qed.
Print Assumptions C151_popitem_empty.
(** [clear] ends, after as many turns as there are entries, with none left; the instance attributes stay. *)
Theorem C151_clear : forall s fuel, (List.length (s_data s) <= fuel)%nat -> sc_clear fuel s = Scen [] (s_attrs s).
Proof.
  intros [d a]. cbn [s_data s_attrs]. induction d as [|[k v] d IH]; intros fuel H.
  - destruct fuel; reflexivity.
  - destruct fuel as [|fuel]; [cbn in H; lia|]. cbn [sc_clear]. rewrite (C151_popitem_takes_the_first (Scen ((k, v) :: d) a) k v d eq_refl). cbn [s_attrs].
    apply IH. cbn in H. lia.
Qed.
Print Assumptions C151_clear.
(** [setdefault] gives the value that is held and changes nothing, or installs the given one: recognised or not. *)
Theorem C151_setdefault : forall s k v, let '(r, s') := sc_setdefault s k v in
  dget (s_data s') k = Some r /\ (forall n, n <> k -> dget (s_data s') n = dget (s_data s) n) /\ s_attrs s' = s_attrs s /\
  match dget (s_data s) k with Some old => r = old /\ s' = s | None => r = v end.
Proof.
  intros s k v. unfold sc_setdefault. destruct (dget (s_data s) k) as [old|] eqn:E.
  - split; [exact E|]. auto.
  - unfold sc_setitem; cbn [s_data s_attrs]. split; [apply dget_dset_same|]. split; [intros n Hn; apply dget_dset_other, Hn|]. auto.
Qed.
Print Assumptions C151_setdefault.

(** The public methods of a mapping, as a user knows them, and those of Scenario itself, always answer to their names: an entry
    under such a name can be reached by item access only. *)
Definition public_members : list string :=
  ["clear"; "copy"; "copy_with"; "data"; "fromkeys"; "get"; "items"; "keys"; "pop"; "popitem"; "setdefault"; "update"; "values"; "KNOWN_KEYS"].
Theorem C151_members_hide_entries : forall s n, In n public_members -> dget (s_attrs s) n = None ->
  sc_getattr s n = ret (AClass n) /\ sc_hasattr s n = ret true /\ (forall v, dget (s_data s) n = Some v -> result (sc_item s n) = Ok v).
Proof.
  intros s n I A. assert (smem n class_names = true) as M.
  { assert (forallb (fun n => smem n class_names) public_members = true) as B by reflexivity. rewrite forallb_forall in B. apply B, I. }
  assert (sc_getattr s n = ret (AClass n)) as G by (unfold sc_getattr; rewrite A, M; reflexivity).
  split; [exact G|]. split; [unfold sc_hasattr; rewrite G; reflexivity|]. intros v H. unfold sc_item, ditem. rewrite H. reflexivity.
Qed.
Print Assumptions C151_members_hide_entries.
(** No recognised key is such a name. *)
Theorem C151_no_recognised_key_is_hidden : forall k, In k KNOWN_KEYS -> ~ In k class_names.
Proof.
  intros k I C. assert (forallb (fun k => negb (smem k class_names)) KNOWN_KEYS = true) as B by reflexivity.
  rewrite forallb_forall in B. specialize (B k I). apply negb_true_iff in B. apply smem_In in C. rewrite C in B. discriminate.
Qed.
Print Assumptions C151_no_recognised_key_is_hidden.

Example C151_nonvacuous : let s := Scen [("mag", PNum (Fin 6)); ("depth_bot", PNum (Fin 12)); ("values", PNum (Fin 1))] [("note", PStr "x")] in
  NoDup (dkeys (s_data s)) /\ dget (s_data s) "depth_bot" = Some (PNum (Fin 12)) /\
  result (sc_pop s "depth_bot") = Ok (PNum (Fin 12), Scen [("mag", PNum (Fin 6)); ("values", PNum (Fin 1))] [("note", PStr "x")]) /\
  asks cb14 cb14_asks /\ (exists a, In a cb14_asks /\ ask_name a = "mag" /\ ask_needed a = true) /\
  (exists a d, In a cb14_asks /\ ask_name a = "depth_bot" /\ ask_needed a = false /\ ask_default a = Some d) /\
  sc_getattr s "values" = ret (AClass "values") /\ sc_clear 3 s = Scen [] [("note", PStr "x")].
Proof.
  intros s. split; [apply nodupb_NoDup; reflexivity|]. split; [reflexivity|]. split; [reflexivity|]. split; [apply Properties_Asks.C144_cb14|].
  split; [exists (nth 10 cb14_asks (Flag "" false)); split; [apply nth_In; cbn; lia|split; reflexivity]|].
  split; [exists (nth 3 cb14_asks (Flag "" false)); eexists; split; [apply nth_In; cbn; lia|repeat split]|].
  split; reflexivity.
Qed.
