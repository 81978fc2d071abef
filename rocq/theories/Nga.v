(** * Nga: scenarios of the NGA-West2 models, as used in the statements *)
From Verif Require Export GmmLib.
From Verif Require Import FrameworkProofs.
Open Scope R_scope.
Open Scope string_scope.
Open Scope list_scope.

(** Optional inputs: [None] means the scenario does not give the key (or gives None). *)
Definition onum (o : option R) : pyval := match o with Some x => PNum (Fin x) | None => PNone end.
Definition ostr (o : option string) : pyval := match o with Some t => PStr t | None => PNone end.
Definition obool (o : option bool) : pyval := match o with Some b => PBool b | None => PNone end.
Definition gives_num (src : dict) (k : string) (o : option R) : Prop := dget_none src k = onum o.
Definition gives_str (src : dict) (k : string) (o : option string) : Prop := dget_none src k = ostr o.
Definition gives_bool (src : dict) (k : string) (o : option bool) : Prop := dget_none src k = obool o.

(** The value a categorical parameter ends up with. *)
Definition choice (opts : list string) (def : pyval) (o : option string) : pyval :=
  match o with Some t => if existsb (String.eqb t) opts then PStr t else def | None => def end.
(** The value an optional number ends up with. *)
Definition odef (o : option R) (d : flt) : flt := match o with Some x => Fin x | None => d end.

Lemma chk_onum_none n lo hi o : result (check (Param n false PNone (KNum lo hi)) (onum o)) = Ok (onum o).
Proof. destruct o; [apply chk_num | apply chk_num_none]. Qed.
Lemma chk_onum n lo hi d o : result (check (Param n false (PNum d) (KNum lo hi)) (onum o)) = Ok (PNum (odef o d)).
Proof. destruct o; [apply chk_num | apply chk_num_default]. Qed.
Lemma pyin_str t opts : pyin (PStr t) (map PStr opts) = existsb (String.eqb t) opts.
Proof. unfold pyin. induction opts as [|a l IH]; cbn; [reflexivity|]. rewrite IH. reflexivity. Qed.
Lemma chk_ostr n opts def o : result (check (Param n false def (KCat (map PStr opts))) (ostr o)) = Ok (choice opts def o).
Proof. destruct o; cbn [ostr choice]; [rewrite chk_cat, pyin_str; destruct (existsb _ _); reflexivity | apply chk_cat_none]. Qed.
Lemma chk_str_req n opts def t : result (check (Param n true def (KCat (map PStr opts))) (PStr t)) = Ok (choice opts def (Some t)).
Proof. cbn [choice]; rewrite chk_cat, pyin_str; destruct (existsb _ _); reflexivity. Qed.
Lemma chk_obool n d o : result (check (Param n false (PBool d) (KCat (map PBool [true; false]))) (obool o)) =
  Ok (PBool (match o with Some b => b | None => d end)).
Proof. destruct o as [[]|]; cbn [obool]; [rewrite chk_cat_bool | rewrite chk_cat_bool | rewrite chk_cat_none]; reflexivity. Qed.

Lemma attr_dset d k v k2 : sc_attr (Scen (dset d k v) []) k2 =
  if String.eqb k k2 then ret v else sc_attr (Scen d []) k2.
Proof.
  unfold sc_attr, ditem; cbn [s_attrs s_data dget]. destruct (String.eqb k k2) eqn:E.
  - apply String.eqb_eq in E; subst. rewrite dget_dset_same. reflexivity.
  - apply String.eqb_neq in E. rewrite dget_dset_other by congruence. reflexivity.
Qed.

(** All inputs any of the four models reads. *)
Record nga := Nga {
  n_mag : R; n_rup : R; n_jb : R; n_x : option R; n_y0 : option R; n_crjb : option R; n_dip : R; n_v : R;
  n_tor : option R; n_bor : option R; n_bot : option R; n_hyp : option R; n_width : option R;
  n_z1 : option R; n_z25 : option R; n_dpp : option R;
  n_mech : option string; n_region : option string; n_source : option string;
  n_hw : option bool; n_after : option bool }.

(** [src] gives exactly these values (and whatever else). *)
Definition nga_gives (src : dict) (a : nga) : Prop :=
  has_num src "mag" (n_mag a) /\ has_num src "dist_rup" (n_rup a) /\ has_num src "dist_jb" (n_jb a) /\
  gives_num src "dist_x" (n_x a) /\ gives_num src "dist_y0" (n_y0 a) /\ gives_num src "dist_crjb" (n_crjb a) /\
  has_num src "dip" (n_dip a) /\ has_num src "v_s30" (n_v a) /\
  gives_num src "depth_tor" (n_tor a) /\ gives_num src "depth_bor" (n_bor a) /\ gives_num src "depth_bot" (n_bot a) /\
  gives_num src "depth_hyp" (n_hyp a) /\ gives_num src "width" (n_width a) /\
  gives_num src "depth_1_0" (n_z1 a) /\ gives_num src "depth_2_5" (n_z25 a) /\ gives_num src "dpp_centered" (n_dpp a) /\
  gives_str src "mechanism" (n_mech a) /\ gives_str src "region" (n_region a) /\ gives_str src "vs_source" (n_source a) /\
  gives_bool src "on_hanging_wall" (n_hw a) /\ gives_bool src "is_aftershock" (n_after a).

(** A scenario giving exactly [a]: any choice of inputs is realisable. *)
Definition nga_src (a : nga) : dict :=
  [("mag", PNum (Fin (n_mag a))); ("dist_rup", PNum (Fin (n_rup a))); ("dist_jb", PNum (Fin (n_jb a)));
   ("dist_x", onum (n_x a)); ("dist_y0", onum (n_y0 a)); ("dist_crjb", onum (n_crjb a)); ("dip", PNum (Fin (n_dip a)));
   ("v_s30", PNum (Fin (n_v a))); ("depth_tor", onum (n_tor a)); ("depth_bor", onum (n_bor a)); ("depth_bot", onum (n_bot a));
   ("depth_hyp", onum (n_hyp a)); ("width", onum (n_width a)); ("depth_1_0", onum (n_z1 a)); ("depth_2_5", onum (n_z25 a));
   ("dpp_centered", onum (n_dpp a)); ("mechanism", ostr (n_mech a)); ("region", ostr (n_region a));
   ("vs_source", ostr (n_source a)); ("on_hanging_wall", obool (n_hw a)); ("is_aftershock", obool (n_after a))].
Lemma nga_src_gives a : nga_gives (nga_src a) a.
Proof. unfold nga_gives, has_num, gives_num, gives_str, gives_bool. repeat split. Qed.

(** One field changed. *)
Definition with_rup (a : nga) (r : R) : nga :=
  let '(Nga m _ jb x y0 cr dip v tor bor bot hyp w z1 z25 dpp me re so hw af) := a in
  Nga m r jb x y0 cr dip v tor bor bot hyp w z1 z25 dpp me re so hw af.
Definition with_jb (a : nga) (jb : R) : nga :=
  let '(Nga m r _ x y0 cr dip v tor bor bot hyp w z1 z25 dpp me re so hw af) := a in
  Nga m r jb x y0 cr dip v tor bor bot hyp w z1 z25 dpp me re so hw af.
Definition with_mag (a : nga) (m : R) : nga :=
  let '(Nga _ r jb x y0 cr dip v tor bor bot hyp w z1 z25 dpp me re so hw af) := a in
  Nga m r jb x y0 cr dip v tor bor bot hyp w z1 z25 dpp me re so hw af.
Definition with_v (a : nga) (v : R) : nga :=
  let '(Nga m r jb x y0 cr dip _ tor bor bot hyp w z1 z25 dpp me re so hw af) := a in
  Nga m r jb x y0 cr dip v tor bor bot hyp w z1 z25 dpp me re so hw af.
Definition with_region (a : nga) (re : option string) : nga :=
  let '(Nga m r jb x y0 cr dip v tor bor bot hyp w z1 z25 dpp me _ so hw af) := a in
  Nga m r jb x y0 cr dip v tor bor bot hyp w z1 z25 dpp me re so hw af.
Definition with_mech (a : nga) (me : option string) : nga :=
  let '(Nga m r jb x y0 cr dip v tor bor bot hyp w z1 z25 dpp _ re so hw af) := a in
  Nga m r jb x y0 cr dip v tor bor bot hyp w z1 z25 dpp me re so hw af.
Definition with_z1 (a : nga) (z1 : option R) : nga :=
  let '(Nga m r jb x y0 cr dip v tor bor bot hyp w _ z25 dpp me re so hw af) := a in
  Nga m r jb x y0 cr dip v tor bor bot hyp w z1 z25 dpp me re so hw af.
Definition with_source (a : nga) (so : option string) : nga :=
  let '(Nga m r jb x y0 cr dip v tor bor bot hyp w z1 z25 dpp me re _ hw af) := a in
  Nga m r jb x y0 cr dip v tor bor bot hyp w z1 z25 dpp me re so hw af.

Ltac nga_open H :=
  let n := fresh "G" in
  unfold nga_gives, has_num, gives_num, gives_str, gives_bool in H; repeat (destruct H as [n H]; let n' := fresh "G" in rename n into n').
Ltac run_checks_nga :=
  cbn [checks p_name NumP CatP CatBoolP gc_params map];
  repeat match goal with H : dget_none ?s ?k = _ |- context [dget_none ?s ?k] => rewrite H end;
  repeat match goal with |- context [KCat (PStr ?a :: ?l)] =>
     let rec strs l := match l with PStr ?x :: ?r => let r' := strs r in constr:(x :: r') | [] => constr:(@nil string) end in
     let l' := strs constr:(PStr a :: l) in change (PStr a :: l) with (map PStr l') end;
  repeat match goal with |- context [KCat [PBool true; PBool false]] => change [PBool true; PBool false] with (map PBool [true; false]) end;
  repeat (rewrite ?chk_num, ?chk_onum_none, ?chk_onum, ?chk_ostr, ?chk_obool; cbn [checks p_name]).

(** ** Finiteness, structurally *)
Lemma finite_cosh x : finite x -> finite (fcosh x).
Proof. intros [a ->]; eexists; reflexivity. Qed.
Lemma finite_tanh x : finite x -> finite (ftanh x).
Proof. intros [a ->]; eexists; reflexivity. Qed.
Lemma finite_cos x : finite x -> finite (fcos x).
Proof. intros [a ->]; eexists; reflexivity. Qed.
Lemma finite_sin x : finite x -> finite (fsin x).
Proof. intros [a ->]; eexists; reflexivity. Qed.
Lemma finite_pymax x y : finite x -> finite y -> finite (pymax x y).
Proof. intros [a ->] [b ->]; rewrite pymax_fin; eexists; reflexivity. Qed.
Lemma finite_pymin x y : finite x -> finite y -> finite (pymin x y).
Proof. intros [a ->] [b ->]; rewrite pymin_fin; eexists; reflexivity. Qed.
Lemma finite_clip x y z : finite x -> finite y -> finite z -> finite (fclip x y z).
Proof. intros [a ->] [b ->] [c ->]; eexists; reflexivity. Qed.
Lemma finite_if (b : bool) x y : finite x -> finite y -> finite (if b then x else y).
Proof. destruct b; auto. Qed.
Lemma finite_fdiv_pos x y : finite x -> fpos y -> finite (x / y)%flt.
Proof. intros [a ->] (b & -> & H). eexists; apply fdiv_fin; lra. Qed.
Lemma finite_sqrt x : fnonneg x -> finite (fsqrt x).
Proof. intros (a & -> & H). eexists; apply fsqrt_fin; exact H. Qed.
Lemma finite_odef o d : finite d -> finite (odef o d).
Proof. destruct o; [intros _; eexists; reflexivity | auto]. Qed.
Lemma fpos_cosh x : finite x -> fpos (fcosh x).
Proof. intros [a ->]; exists (cosh a); split; [reflexivity|]. unfold cosh. pose proof (exp_pos a); pose proof (exp_pos (-a)); lra. Qed.
Lemma fpos_fexp x : finite x -> fpos (fexp x).
Proof. apply fpos_exp. Qed.
Lemma fpos_add x y : fpos x -> fpos y -> fpos (x + y)%flt.
Proof. intros (a & -> & H) (b & -> & H'). eexists; split; [reflexivity|lra]. Qed.
Lemma fpos_add_nn x y : fnonneg x -> fpos y -> fpos (x + y)%flt.
Proof. intros (a & -> & H) (b & -> & H'). eexists; split; [reflexivity|lra]. Qed.
Lemma fpos_mul x y : fpos x -> fpos y -> fpos (x * y)%flt.
Proof. intros (a & -> & H) (b & -> & H'). eexists; split; [reflexivity|nra]. Qed.
Lemma fpos_div x y : fpos x -> fpos y -> fpos (x / y)%flt.
Proof. intros (a & -> & H) (b & -> & H'). eexists; split; [apply fdiv_fin; lra|]. apply Rdiv_lt_0_compat; assumption. Qed.
Lemma fpos_fin a : 0 < a -> fpos (Fin a).
Proof. intros; eexists; split; [reflexivity|assumption]. Qed.
Lemma fnonneg_fin a : 0 <= a -> fnonneg (Fin a).
Proof. intros; eexists; split; [reflexivity|assumption]. Qed.
Lemma fnonneg_pos x : fpos x -> fnonneg x.
Proof. intros (a & -> & H). eexists; split; [reflexivity|lra]. Qed.
Lemma fnonneg_sq x : finite x -> fnonneg (fsq x).
Proof. intros [a ->]. eexists; split; [reflexivity|nra]. Qed.
Lemma fnonneg_add x y : fnonneg x -> fnonneg y -> fnonneg (x + y)%flt.
Proof. intros (a & -> & H) (b & -> & H'). eexists; split; [reflexivity|lra]. Qed.
Lemma fnonneg_mul x y : fnonneg x -> fnonneg y -> fnonneg (x * y)%flt.
Proof. intros (a & -> & H) (b & -> & H'). eexists; split; [reflexivity|nra]. Qed.
Lemma fpos_sqrt x : fpos x -> fpos (fsqrt x).
Proof. intros (a & -> & H). eexists; split; [apply fsqrt_fin; lra|apply sqrt_lt_R0; exact H]. Qed.
Lemma fpos_qf q : 0 < Q2R q -> fpos (qf q).
Proof. intros H. eexists; split; [reflexivity|exact H]. Qed.
Lemma fpos_sq x : fpos x -> fpos (fsq x).
Proof. intros (a & -> & H). eexists; split; [reflexivity|nra]. Qed.
Lemma fpos_pow x p : fpos x -> fpos (fpow x p).
Proof. intros (a & -> & H). rewrite fpow_fin by exact H. eexists; split; [reflexivity|apply exp_pos]. Qed.
Create HintDb fltdb.
#[export] Hint Resolve finite_fadd finite_fsub finite_fmul finite_fneg finite_qf finite_fexp finite_fsq finite_fcube
  finite_fmin finite_fmax finite_flog finite_cosh finite_tanh finite_cos finite_sin finite_pymax finite_pymin
  finite_clip finite_fdiv_pos finite_sqrt finite_odef finite_fin
  fpos_cosh fpos_fexp fpos_add fpos_add_nn fpos_mul fpos_div fnonneg_sq fpos_sqrt fpos_finite fnonneg_add fnonneg_mul
  fpos_sq fpos_pow : fltdb.
Ltac fpos_lit := apply fpos_fin; lra.
#[export] Hint Extern 1 (fpos (Fin _)) => (apply fpos_fin; lra) : fltdb.
#[export] Hint Extern 1 (fnonneg (Fin _)) => (apply fnonneg_fin; lra) : fltdb.
#[export] Hint Extern 1 (fpos (qf _)) => (apply fpos_qf; lra) : fltdb.
#[export] Hint Extern 1 (finite (if _ then _ else _)) => (apply finite_if) : fltdb.
(** Split a finiteness goal syntactically. *)
Ltac fsplit := repeat match goal with
  | |- finite (if _ then _ else _) => apply finite_if
  | |- finite (fadd _ _) => apply finite_fadd
  | |- finite (fsub _ _) => apply finite_fsub
  | |- finite (fmul _ _) => apply finite_fmul
  | |- finite (fneg _) => apply finite_fneg
  | |- finite (qf _) => apply finite_qf
  | |- finite (Fin _) => apply finite_fin
  | |- finite (fmin _ _) => apply finite_fmin
  | |- finite (fmax _ _) => apply finite_fmax
  | |- finite (pymin _ _) => apply finite_pymin
  | |- finite (pymax _ _) => apply finite_pymax
  | |- finite (fclip _ _ _) => apply finite_clip
  | |- finite (fexp _) => apply finite_fexp
  | |- finite (fsq _) => apply finite_fsq
  | |- finite (fcosh _) => apply finite_cosh
  | |- finite (ftanh _) => apply finite_tanh
  | |- finite (fcos _) => apply finite_cos
  | |- finite (fsin _) => apply finite_sin
  | |- finite (flog _) => apply finite_flog
  | |- finite (fsqrt _) => apply finite_sqrt
  | |- finite (fdiv _ _) => apply finite_fdiv_pos
  | |- finite (odef _ _) => apply finite_odef
  | |- fnonneg (fadd _ _) => apply fnonneg_add
  | |- fnonneg (fsq _) => apply fnonneg_sq
  | |- fnonneg (Fin _) => apply fnonneg_fin; lra
  | |- fpos (fcosh _) => apply fpos_cosh
  | |- fpos (fexp _) => apply fpos_fexp
  | |- fpos (fsqrt _) => apply fpos_sqrt
  | |- fpos (fmul _ _) => apply fpos_mul
  | |- fpos (fdiv _ _) => apply fpos_div
  | |- fpos (qf _) => apply fpos_qf; lra
  | |- fpos (Fin _) => apply fpos_fin; lra
  end.
