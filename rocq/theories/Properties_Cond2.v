(** * Correlation matrices and conditioning on many periods (baker_jayaram_2008.py, kishida_2017.py)

    The vocabulary of the statements is in Spec_cms.v, Spec_cms2.v and Spec_k17.v. *)
From Coquelicot Require Import Coquelicot.
From Interval Require Import Tactic.
From Coq Require Import List Lia.
From Verif Require Import M_k17 Anal Spec_cms Spec_cms2 Spec_k17 P_bj08 P_k17 P_k17b P_bjpsd P_k17pd.
Open Scope R_scope.
Open Scope list_scope.

Lemma combine_fst {A B} (a : list A) (b : list B) : List.length a = List.length b -> map fst (combine a b) = a.
Proof. revert b. induction a as [|x a IH]; intros [|y b] H; cbn in *; try discriminate; [reflexivity|]. f_equal. apply IH. lia. Qed.
Lemma combine_snd {A B} (a : list A) (b : list B) : List.length a = List.length b -> map snd (combine a b) = b.
Proof. revert b. induction a as [|x a IH]; intros [|y b] H; cbn in *; try discriminate; [reflexivity|]. f_equal. apply IH. lia. Qed.
Lemma split_pairs (ts ws : list R) : List.length ts = List.length ws -> exists wt, ts = map fst wt /\ ws = map snd wt.
Proof. intros L. exists (combine ts ws). rewrite combine_fst, combine_snd by exact L. split; reflexivity. Qed.
(** ** C120: a matrix of correlations is a correlation matrix *)
Theorem C120_positive_semidefinite : forall ts ws, mid_periods ts -> List.length ts = List.length ws ->
  exists rows, map (fun t => bj08_correls (map Fin ts) (Fin t)) ts = map (map Fin) rows /\ 0 <= dot ws (map (dot ws) rows).
Proof.
  intros ts ws M L. exists (map (fun t => map (fun u => bj_rho u t) ts) ts). split; [apply rho_rows, M|].
  destruct (split_pairs ts ws L) as (wt & -> & ->). rewrite dot_rows. apply rho_psd, M.
Qed.
Print Assumptions C120_positive_semidefinite.
Theorem C120_positive_definite : forall ts ws, mid_periods ts -> NoDup ts -> List.length ts = List.length ws -> (exists w, In w ws /\ w <> 0) ->
  exists rows, map (fun t => bj08_correls (map Fin ts) (Fin t)) ts = map (map Fin) rows /\ 0 < dot ws (map (dot ws) rows).
Proof.
  intros ts ws M N L W. exists (map (fun t => map (fun u => bj_rho u t) ts) ts). split; [apply rho_rows, M|].
  destruct (split_pairs ts ws L) as (wt & -> & ->). rewrite dot_rows. apply rho_pd; try assumption.
  destruct W as (w & H & Z). apply in_map_iff in H. destruct H as (p & <- & Hp). exists p. split; assumption.
Qed.
Print Assumptions C120_positive_definite.
Example C120_nonvacuous : mid_periods [0.11; 0.5; 1; 8] /\ NoDup [0.11; 0.5; 1; 8] /\ exists w, In w [1; -2; 0; 1] /\ w <> 0.
Proof.
  split; [split; [intros t H|intros t u H1 H2]; cbn in *; intuition (subst; lra)|]. split; [|exists 1; split; [left; reflexivity|lra]].
  repeat constructor; cbn; intuition lra.
Qed.

(** ** C121: conditioning on any number of periods above 0.109 s *)
Theorem C121_never_raises : forall inv l data, inv_spec inv -> l <> [] -> spectrum_ok (map fst l) -> data_of data l ->
  mid_periods (times (conditioned l)) -> (forall x, In x (conditioned l) -> 0 < o_s (fst x)) ->
  exists means stds, kcall inv l data = Ok (means, stds) /\
    Forall2 (fun y x => mid_periods (o_t (fst x) :: times (conditioned l)) ->
      exists s, y = Fin s /\ 0 <= s <= o_s (fst x) /\ (snd x = None -> 0 < o_s (fst x) -> 0 < s)) stds l.
Proof.
  intros inv l data I N OK D M P. destruct (mid_succeeds inv l data I N OK D M P) as (means & stds & E & F). exists means, stds. split; [exact E|].
  clear - F. revert F. generalize (times (conditioned l)). intros ts F. induction F as [|y x ys xs H F IH]; constructor; [|exact IH].
  intros MX. destruct (H MX) as (s & E & R & Q). exists s. split; [exact E|]. split; [exact R|]. intros Z. apply Q. unfold free. rewrite Z. reflexivity.
Qed.
Print Assumptions C121_never_raises.
Theorem C121_more_conditions_never_raise_a_deviation : forall inv l l' data data', inv_spec inv -> l <> [] -> spectrum_ok (map fst l) ->
  data_of data l -> data_of data' l' -> mid_periods (times (conditioned l')) -> more_conditions l l' -> (forall x, In x (conditioned l') -> 0 < o_s (fst x)) ->
  exists means stds means' stds', kcall inv l data = Ok (means, stds) /\ kcall inv l' data' = Ok (means', stds') /\
    forall i x y y', nth_error l i = Some x -> mid_periods (o_t (fst x) :: times (conditioned l')) -> nth_error stds i = Some y -> nth_error stds' i = Some y' ->
      exists a b, y = Fin a /\ y' = Fin b /\ b <= a.
Proof.
  intros inv l l' data data' I N OK D D' M C P. apply mid_more; try assumption. clear - C.
  induction C as [|x x' l l' [E F] _ IH]; constructor; [|exact IH]. split; [exact E|]. unfold free. destruct (snd x); [|discriminate]. intros _.
  destruct (snd x'); [reflexivity|]. exfalso. apply F; [discriminate|reflexivity].
Qed.
Print Assumptions C121_more_conditions_never_raise_a_deviation.
(** Three targets out of six periods, one of them short; two of the targets already there before. *)
Definition ex_many : list item := [(Ord 0.05 0 0.6, None); (Ord 0.15 (-1) 0.6, Some (-0.5)); (Ord 0.2 0 0.65, None); (Ord 0.5 0 0.65, Some 0.4); (Ord 1 (-0.5) 0.7, None); (Ord 3 (-2) 0.8, Some (-1))].
Definition ex_fewer : list item := [(Ord 0.05 0 0.6, None); (Ord 0.15 (-1) 0.6, Some 1); (Ord 0.2 0 0.65, None); (Ord 0.5 0 0.65, None); (Ord 1 (-0.5) 0.7, None); (Ord 3 (-2) 0.8, Some (-1))].
Definition many_data : list flt := [NaN; Fin (-0.5); NaN; Fin 0.4; NaN; Fin (-1)].
Definition fewer_data : list flt := [NaN; Fin 1; NaN; NaN; NaN; Fin (-1)].
Lemma ex_many_ok : spectrum_ok (map fst ex_many) /\ data_of many_data ex_many /\ mid_periods (times (conditioned ex_many)) /\ (forall x, In x (conditioned ex_many) -> 0 < o_s (fst x)) /\
  mid_periods (1 :: times (conditioned ex_many)).
Proof.
  split; [split; [cbn; lra|repeat constructor; cbn; lra]|]. split; [repeat constructor|].
  split; [split; [intros t H|intros t u H1 H2]; cbn in *; intuition (subst; lra)|].
  split; [intros x H; cbn in H; intuition (subst; cbn; lra)|]. split; [intros t H|intros t u H1 H2]; cbn in *; intuition (subst; lra).
Qed.
Example C121_nonvacuous : exists inv, inv_spec inv /\ exists means stds means' stds' y y' a b,
  kcall inv ex_fewer fewer_data = Ok (means, stds) /\ kcall inv ex_many many_data = Ok (means', stds') /\
  nth_error stds 4 = Some y /\ nth_error stds' 4 = Some y' /\ y = Fin a /\ y' = Fin b /\ 0 < b <= a.
Proof.
  destruct inv_exists as [inv I]. exists inv. split; [exact I|]. destruct ex_many_ok as (OK & D & M & P & M1).
  destruct (C121_more_conditions_never_raise_a_deviation inv ex_fewer ex_many fewer_data many_data I) as (m & s & m' & s' & E & E' & H); try assumption; [discriminate|repeat constructor| |].
  { repeat constructor; cbn; intros; congruence. }
  destruct (C121_never_raises inv ex_many many_data I) as (m2 & s2 & E2 & F); try assumption; [discriminate|]. rewrite E' in E2. injection E2 as <- <-.
  assert (D1 : data_of fewer_data ex_fewer) by repeat constructor.
  destruct (k17_shapes inv ex_fewer fewer_data m s I) as [_ L]; try assumption; [discriminate|].
  destruct (nth_error s 4) as [y|] eqn:Y; [|apply nth_error_None in Y; rewrite L in Y; cbn in Y; lia].
  destruct (Forall2_nth_error_iff (fun (y : flt) (x : item) => mid_periods (o_t (fst x) :: times (conditioned ex_many)) ->
      exists s, y = Fin s /\ 0 <= s <= o_s (fst x) /\ (snd x = None -> 0 < o_s (fst x) -> 0 < s)) s' ex_many) as [Q _].
  destruct (Q F) as [L' Q']. destruct (nth_error s' 4) as [y'|] eqn:Y'; [|apply nth_error_None in Y'; rewrite L' in Y'; cbn in Y'; lia].
  destruct (H 4%nat _ y y' eq_refl M1 Y Y') as (a & b & Ea & Eb & AB). destruct (Q' 4%nat y' _ Y' eq_refl M1) as (b' & Eb' & _ & PB).
  exists m, s, m', s', y, y', a, b. repeat (split; [assumption|]). split; [|exact AB]. rewrite Eb in Eb'. injection Eb' as ->. apply PB; [reflexivity|cbn; lra].
Qed.
