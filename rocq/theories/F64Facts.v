(** Facts about IEEE doubles that do not need real numbers: order, signs, NaN. *)
From Coq Require Import List Arith ZArith QArith Bool Lia Floats.SpecFloat.
From Verif Require Import Outcome Arith Problem LoadBalancing BalancerSpec BalancerProofs.
Import ListNotations.
Local Open Scope Z_scope.

(** ** The order of doubles that are not NaN *)

(** Position in the order, lexicographic. *)
Definition f_key (x : spec_float) : Z * Z * Z :=
  match x with
  | S754_infinity true => (-2, 0, 0)
  | S754_finite true m e => (-1, - e, - Zpos m)
  | S754_zero _ => (0, 0, 0)
  | S754_finite false m e => (1, e, Zpos m)
  | S754_infinity false => (2, 0, 0)
  | S754_nan => (3, 0, 0)
  end.

Definition key_lt (a b : Z * Z * Z) : Prop :=
  let '(a1, a2, a3) := a in let '(b1, b2, b3) := b in
  a1 < b1 \/ a1 = b1 /\ (a2 < b2 \/ a2 = b2 /\ a3 < b3).

Definition is_nan (x : spec_float) : bool := match x with S754_nan => true | _ => false end.

Lemma f64_ltb_key x y : is_nan x = false -> is_nan y = false ->
  SFltb x y = true <-> key_lt (f_key x) (f_key y).
Proof.
  intros Nx Ny. unfold SFltb, SFcompare.
  destruct x as [sx|[]| |[] mx ex], y as [sy|[]| |[] my ey]; try discriminate; simpl;
    try (split; [discriminate|lia]); try (split; [intros; lia|reflexivity]).
  - destruct (Z.compare_spec ex ey) as [->|L|L].
    + change (Pos.compare_cont Eq mx my) with (Pos.compare mx my).
      destruct (Pos.compare_spec mx my); simpl; split; try discriminate; try lia; auto.
    + simpl. split; try discriminate; lia.
    + simpl. split; auto; lia.
  - destruct (Z.compare_spec ex ey) as [->|L|L].
    + change (Pos.compare_cont Eq mx my) with (Pos.compare mx my).
      destruct (Pos.compare_spec mx my); simpl; split; try discriminate; try lia; auto.
    + split; auto; lia.
    + split; try discriminate; lia.
Qed.

(** std::sort may be used on loads that are not NaN. *)
Lemma comparable_f64 (loads : list (load F64)) :
  (forall l, In l loads -> is_nan (l_value l) = false) -> comparable loads = true.
Proof.
  intros N.
  assert (K : forall a b, In a loads -> In b loads ->
            (load_lt a b = true <-> key_lt (f_key (l_value a)) (f_key (l_value b)))).
  { intros a b Ha Hb. apply f64_ltb_key; auto. }
  assert (K' : forall a b, In a loads -> In b loads ->
            (load_lt a b = false <-> ~ key_lt (f_key (l_value a)) (f_key (l_value b)))).
  { intros a b Ha Hb. rewrite <- (K a b Ha Hb). apply iff_sym, not_true_iff_false. }
  unfold comparable. apply forallb_forall. intros a Ha. apply andb_true_iff. split.
  { apply negb_true_iff, K'; auto. destruct (f_key (l_value a)) as [[? ?] ?]. simpl. lia. }
  apply forallb_forall. intros b Hb. apply andb_true_iff. split.
  { apply negb_true_iff. destruct (load_lt a b) eqn:E1; auto. destruct (load_lt b a) eqn:E2; auto.
    apply K in E1; auto. apply K in E2; auto. exfalso.
    destruct (f_key (l_value a)) as [[? ?] ?], (f_key (l_value b)) as [[? ?] ?]. simpl in *. lia. }
  apply forallb_forall. intros c Hc. apply andb_true_iff. split.
  - destruct (load_lt a b) eqn:E1; auto. destruct (load_lt b c) eqn:E2; auto. cbn [negb andb implb].
    apply K in E1; auto. apply K in E2; auto. apply K; auto.
    destruct (f_key (l_value a)) as [[? ?] ?], (f_key (l_value b)) as [[? ?] ?],
      (f_key (l_value c)) as [[? ?] ?]. simpl in *. lia.
  - destruct (load_lt a b) eqn:E1; auto. destruct (load_lt b a) eqn:E2; auto.
    destruct (load_lt b c) eqn:E3; auto. destruct (load_lt c b) eqn:E4; auto. cbn [negb andb implb].
    apply K' in E1; auto. apply K' in E2; auto. apply K' in E3; auto. apply K' in E4; auto.
    assert (L1 : load_lt a c = false). 
    { apply K'; auto. destruct (f_key (l_value a)) as [[? ?] ?], (f_key (l_value b)) as [[? ?] ?],
      (f_key (l_value c)) as [[? ?] ?]. simpl in *. lia. }
    assert (L2 : load_lt c a = false). 
    { apply K'; auto. destruct (f_key (l_value a)) as [[? ?] ?], (f_key (l_value b)) as [[? ?] ?],
      (f_key (l_value c)) as [[? ?] ?]. simpl in *. lia. }
    rewrite L1, L2. reflexivity.
Qed.

(** ** Sums of non-negative doubles are not NaN *)

(** Not negative and not NaN. *)
Definition f_nonneg (x : spec_float) : bool :=
  match x with
  | S754_zero _ => true
  | S754_infinity s => negb s
  | S754_nan => false
  | S754_finite s _ _ => negb s
  end.

Lemma nonneg_not_nan x : f_nonneg x = true -> is_nan x = false.
Proof. destruct x; simpl; auto. Qed.

Lemma shr_1_nonneg r : 0 <= shr_m r -> 0 <= shr_m (shr_1 r).
Proof. destruct r as [[|m|m] a b]; simpl; try lia. destruct m; simpl; lia. Qed.

Lemma iter_nonneg n r : 0 <= shr_m r -> 0 <= shr_m (iter_pos shr_1 n r).
Proof.
  revert r. induction n as [n IH|n IH|]; intros r Hr; simpl.
  - apply IH, IH, shr_1_nonneg, Hr.
  - apply IH, IH, Hr.
  - apply shr_1_nonneg, Hr.
Qed.

Lemma shr_nonneg r e n : 0 <= shr_m r -> 0 <= shr_m (fst (shr r e n)).
Proof. intros Hr. unfold shr. destruct n; simpl; auto. apply iter_nonneg; auto. Qed.

Lemma shr_fexp_nonneg prec emax m e l : 0 <= m -> 0 <= shr_m (fst (shr_fexp prec emax m e l)).
Proof.
  intros Hm. unfold shr_fexp. apply shr_nonneg. destruct l as [|[| |]]; simpl; auto.
Qed.

Lemma round_nonneg m l : 0 <= m -> 0 <= round_nearest_even m l.
Proof. intros Hm. unfold round_nearest_even. destruct l as [|[| |]]; try lia. destruct (Z.even m); lia. Qed.

Lemma round_aux_nonneg prec emax m e l : 0 <= m ->
  f_nonneg (binary_round_aux prec emax false m e l) = true.
Proof.
  intros Hm. unfold binary_round_aux.
  assert (H1 := shr_fexp_nonneg prec emax m e l Hm).
  destruct (shr_fexp prec emax m e l) as [r1 e1] eqn:E1. simpl in H1.
  assert (H2 := shr_fexp_nonneg prec emax (round_nearest_even (shr_m r1) (loc_of_shr_record r1)) e1 loc_Exact
                  (round_nonneg _ _ H1)).
  destruct (shr_fexp prec emax (round_nearest_even _ _) e1 loc_Exact) as [r2 e2]. simpl in H2.
  destruct (shr_m r2); simpl; auto; try lia. destruct (e2 <=? emax - prec); auto.
Qed.

Lemma add_nonneg x y : f_nonneg x = true -> f_nonneg y = true -> f_nonneg (nadd F64 x y) = true.
Proof.
  intros Hx Hy. change (f_nonneg (SFadd 53 1024 x y) = true).
  destruct x as [sx|[]| |[] mx ex], y as [sy|[]| |[] my ey]; try discriminate; auto.
  - destruct sx, sy; auto.
  - unfold SFadd. cbn [cond_Zopp].
    set (v := Z.pos (fst (shl_align mx ex (Z.min ex ey))) + Z.pos (fst (shl_align my ey (Z.min ex ey)))).
    destruct v as [|p|p] eqn:Ev; simpl; auto; [|exfalso; subst v; lia].
    unfold binary_round. destruct (shl_align p (Z.min ex ey) _) as [mz ez].
    apply round_aux_nonneg. lia.
Qed.

Lemma load_nonneg q (ps : list (problem F64)) :
  (forall p, In p ps -> f_nonneg (p_cpuTime p) = true) -> f_nonneg (l_value (computeLoad q ps)) = true.
Proof.
  intros Hp. unfold computeLoad. cbn [l_value].
  assert (G : forall z : num F64, f_nonneg z = true ->
            f_nonneg (fold_left (fun sum p => nadd F64 sum (p_cpuTime p)) ps z) = true).
  { induction ps as [|p ps IH]; intros z Hz; simpl; auto. apply IH.
    - intros p' Hin. apply Hp. right; auto.
    - apply add_nonneg; auto. apply Hp. left; auto. }
  apply G. reflexivity.
Qed.

Lemma f64_self (t : num F64) : nltb F64 (small F64) (nsub F64 t t) = false.
Proof.
  assert (Z : forall b, nltb F64 (small F64) (S754_zero b) = false) by (intros []; vm_compute; reflexivity).
  assert (N : nltb F64 (small F64) S754_nan = false) by (vm_compute; reflexivity).
  destruct t as [b|b| |b m e]; cbn [nsub F64]; simpl.
  all: try (destruct b; simpl; auto; fail); auto.
  unfold SFsub. rewrite Z.sub_diag. simpl. auto.
Qed.

(** ** Planning succeeds in release builds *)
Lemma plan_ieee sortf (probs : list (list (problem F64))) :
  sort_contract sortf ->
  (forall ps p, In ps probs -> In p ps -> f_nonneg (p_cpuTime p) = true) ->
  exists sts, updateState false sortf probs = Ok sts.
Proof.
  intros Hs Hp. destruct probs as [|ps0 pr] eqn:Ep; [exists []; reflexivity|]. rewrite <- Ep in *.
  destruct (total_lemma sortf probs Hs) as (sts & E & _); eauto.
  - subst; discriminate.
  - apply comparable_f64. intros l Hl. apply in_map_iff in Hl as ([q ps] & <- & Hin).
    apply in_combine_r in Hin. apply nonneg_not_nan, load_nonneg. intros p Hin'.
    apply (Hp ps); auto.
Qed.
