(** * C13: the parameter lists of all shipped models *)
From Verif Require Import M_c03 M_tp05 M_pzt11 M_i14 M_ab06 M_cy14 M_bssa14 M_cb14 M_ask14 M_asb14 M_aga16 M_ga11 M_dbc14 M_as96 M_ks06 M_as16 M_ab20 M_hkr14 M_ba19 M_pr23 M_pr24
  FrameworkProofs FrameworkProps.
Open Scope string_scope.
Open Scope list_scope.

(** Every class with PARAMS under src/pygmm (CoppersmithBommer2014: cop14), by name. *)
Definition all_params : list (string * list param) :=
  [("Campbell2003", gc_params c03_class); ("TavakoliPezeshk05", gc_params tp05_class); ("PezeshkZandiehTavakoli2011", gc_params pzt11_class);
   ("Idriss2014", gc_params i14_class); ("AtkinsonBoore2006", gc_params ab06_class); ("ChiouYoungs2014", gc_params cy14_class);
   ("BooreStewartSeyhanAtkinson2014", gc_params bssa14_class); ("CampbellBozorgnia2014", gc_params cb14_class); ("AbrahamsonSilvaKamai2014", gc_params ask14_class);
   ("AkkarSandikkayaBommer2014", gc_params asb14_class); ("AbrahamsonGregorAddo2016", gc_params aga16_class); ("CoppersmithBommer2014", gc_params cop14_class);
   ("GulerceAbrahamson2011", ga11_params); ("DerrasBardCotton2014", gc_params dbc14_class); ("AbrahamsonSilva1996", as96_params); ("KemptonStewart2006", ks06_params);
   ("AfshariStewart2016", as16_params); ("AbrahamsonBhasin2020", ab20_params); ("HermkesKuehnRiggelsen2014", gc_params hkr14_class);
   ("BaylessAbrahamson2019", ba19_params); ("PinillaRamosEtAl2023", pr23_params); ("PinillaRamosEtAl2024", pr24_params)].
Theorem C13_recognised_and_distinct : forall name ps, In (name, ps) all_params -> NoDup (map p_name ps) /\ incl (map p_name ps) KNOWN_KEYS.
Proof.
  assert (forallb (fun np => nodupb (map p_name (snd np)) && forallb (fun k => smem k KNOWN_KEYS) (map p_name (snd np))) all_params = true) as H by reflexivity.
  intros name ps I. rewrite forallb_forall in H. specialize (H _ I). cbn [snd] in H. apply andb_prop in H as (H1 & H2).
  split; [apply nodupb_NoDup; exact H1|]. rewrite forallb_forall in H2. intros k Hk. apply smem_In, H2. exact Hk.
Qed.
Print Assumptions C13_recognised_and_distinct.
(** Construction copies exactly the declared parameters; it fails only with ValueError or TypeError from a parameter check, never with Warning. *)
Theorem C13_never_a_warning : forall name ps src, In (name, ps) all_params ->
  (exists s, result (model_init ps src) = Ok s /\ dkeys (s_data s) = map p_name ps /\ s_attrs s = []) \/
  result (model_init ps src) = Raise EValue \/ result (model_init ps src) = Raise EType.
Proof.
  intros name ps src I. destruct (C13_recognised_and_distinct name ps I) as (ND & KN).
  rewrite model_init_result; [|exact ND|].
  2: { unfold known_params. apply forallb_forall. intros p Hp. apply smem_In, KN, in_map. exact Hp. }
  clear. assert (forall p v, (exists w, result (check p v) = Ok w) \/ result (check p v) = Raise EValue \/ result (check p v) = Raise EType) as C.
  { intros [n req def k] v. unfold check. rewrite result_bind. unfold check_base. cbn [p_required p_default p_kind p_name].
    destruct (is_none v && req); [right; left; reflexivity|]. rewrite result_ret. cbv beta iota. generalize (if is_none v then def else v) as w. intros w. destruct k as [lo hi|opts].
    - unfold check_num. destruct (is_none w); [left; eexists; reflexivity|]. destruct lo as [lo|], hi as [hi|], w; cbn;
      repeat match goal with |- context [if ?b then _ else _] => destruct b end; cbn; eauto.
    - rewrite check_cat_result. left. eexists. reflexivity. }
  induction ps as [|p ps IH]; cbn [checks map].
  - left. eexists. split; [reflexivity|]. split; reflexivity.
  - destruct (C p (dget_none src (p_name p))) as [(w & ->)|[->| ->]]; [|right; left; reflexivity|right; right; reflexivity].
    destruct (checks ps src) as [d|e].
    + left. eexists. split; [reflexivity|]. split; [|reflexivity]. destruct IH as [(s & E & K & _)|[E|E]]; try discriminate E. injection E as <-. cbn [s_data] in *. cbn. f_equal. exact K.
    + destruct IH as [(s & E & K)|[E|E]]; [discriminate E| |]; injection E as ->; tauto.
Qed.
Print Assumptions C13_never_a_warning.
(** Extra entries of the mapping, known or not, change nothing. *)
Theorem C13_extra_entries_ignored : forall name ps src k v, In (name, ps) all_params -> ~ In k (map p_name ps) -> model_init ps ((k, v) :: src) = model_init ps src.
Proof.
  intros name ps src k v _ N. apply model_init_ext. intros p Hp. unfold dget_none. cbn [dget]. destruct (String.eqb_spec k (p_name p)) as [E|]; [|reflexivity].
  exfalso. apply N. rewrite E. apply in_map. exact Hp.
Qed.
Print Assumptions C13_extra_entries_ignored.
Example C13_nonvacuous : List.length all_params = 22%nat /\ NoDup (map fst all_params) /\ Forall (fun np => snd np <> []) all_params /\
  (exists s, result (model_init as96_params [("mag", PNum (Fin 6)); ("dist_rup", PNum (Fin 10)); ("site_cond", PStr "rock"); ("colour", PNone)]) = Ok s) /\
  result (model_init as96_params [("dist_rup", PNum (Fin 10))]) = Raise EValue /\ result (model_init as96_params [("mag", PStr "6")]) = Raise EType.
Proof.
  split; [reflexivity|]. split; [apply nodupb_NoDup; reflexivity|]. split; [repeat constructor; discriminate|].
  split; [eexists; rewrite model_init_result' by reflexivity; unfold as96_params, NumP, CatP; cbn [checks p_name];
    change (dget_none _ "mag") with (PNum (Fin 6)); change (dget_none _ "dist_rup") with (PNum (Fin 10)); change (dget_none _ "site_cond") with (PStr "rock"); rewrite !chk_num, chk_cat; reflexivity|].
  split; rewrite model_init_result' by reflexivity; reflexivity.
Qed.
