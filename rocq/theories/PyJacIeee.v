(** The composition that ode_pyJac returns and that the mechanism gets, in IEEE doubles. *)
From Coq Require Import List Arith ZArith QArith Reals Lra Lia Psatz Bool Floats.SpecFloat.
From Flocq Require Import Core BinarySingleNaN.
From Verif Require Import Outcome Arith Problem LoadBalancing BalancerSpec ChemistryModel ChemFacts ChemSim ChemBalance ChemCells ChemStep ChemSafe ChemResults MixtureFraction OdeSolver Seulex SeulexMono SeulexSafe SeulexRun SeulexSpec OdeFacts SeulexFacts SeulexEx SeulexCases PyJac PyJacFacts PyJacSpec Gauss QSum PyJacCases Ieee SweepIeee.
Import ListNotations.
Local Open Scope R_scope.

(** A list of doubles as loads; not a function of /repo. *)
Definition as_loads (l : list (num F64)) : list (load F64) := map (mkLoad (A := F64) 0) l.

Lemma as_loads_secs l : map secs (as_loads l) = map val l.
Proof. unfold as_loads. rewrite map_map. reflexivity. Qed.

Lemma as_loads_fold l : forall z, fold_left (fun a x => nadd F64 a (l_value x)) (as_loads l) z = fold_left (nadd F64) l z.
Proof. induction l as [|x l IH]; intros z; [reflexivity|]. cbn. apply IH. Qed.

(** Sum of non-negative doubles. *)
Lemma nsum64 (l : list (num F64)) : (Z.of_nat (length l) <= 2 ^ 20)%Z -> (forall v, In v l -> fin64 v /\ 0 <= val v) -> Rsum (map val l) <= bpow radix2 900 ->
  fin64 (nsum F64 l) /\ Rabs (val (nsum F64 l) - Rsum (map val l)) <= 2 * INR (length l) * u * Rsum (map val l) /\ 0 <= Rsum (map val l) /\ 2 * INR (length l) * u <= 1.
Proof.
  intros L H B. destruct zero64 as [F0 V0].
  assert (S0 : 0 <= Rsum (map val l)).
  { clear L B. induction l as [|x l IH]; cbn [map Rsum]; [lra|]. destruct (H x (or_introl eq_refl)). assert (0 <= Rsum (map val l)) by (apply IH; intros; apply H; right; assumption). lra. }
  assert (LU : 2 * INR (length l) * u <= 1).
  { rewrite INR_IZR_INZ. apply IZR_le in L. unfold u. apply Rle_trans with (2 * IZR (2 ^ 20) * / IZR (2 ^ 53)).
    - apply Rmult_le_compat_r; [|lra]. apply Rlt_le, Rinv_0_lt_compat, IZR_lt. reflexivity.
    - apply Rmult_le_reg_r with (IZR (2 ^ 53)); [apply IZR_lt; reflexivity|]. rewrite Rmult_assoc, Rinv_l by (apply IZR_neq; discriminate).
      rewrite Rmult_1_r, Rmult_1_l, <- mult_IZR. apply IZR_le. discriminate. }
  destruct (sum64 (as_loads l) 0 (zero F64) 0 F0) as [F V].
  - lra.
  - rewrite V0. cbn. lra.
  - intros x Hx. apply in_map_iff in Hx as (v & <- & Hv). apply H, Hv.
  - unfold as_loads. rewrite map_length. cbn [Nat.add]. exact LU.
  - rewrite as_loads_secs, Rplus_0_l. apply Rle_trans with (bpow radix2 2 * bpow radix2 900); [|rewrite <- bpow_plus; apply bpow_le; lia].
    change (bpow radix2 2) with 4. lra.
  - rewrite as_loads_fold in F, V. rewrite as_loads_secs, Rplus_0_l in V. unfold as_loads in V. rewrite map_length in V. cbn [Nat.add] in V.
    change (fold_left (nadd F64) l (zero F64)) with (nsum F64 l) in *. split; [exact F|]. split; [|split; assumption].
    assert (U := u_pos). assert (0 <= INR (length l) * u * Rsum (map val l)) by (apply Rmult_le_pos; [apply Rmult_le_pos; [apply pos_INR|lra]|exact S0]).
    apply Rabs_le. split; lra.
Qed.

(** What is missing to one. *)
Lemma rest64 (l : list (num F64)) : (Z.of_nat (length l) <= 2 ^ 20)%Z -> (forall v, In v l -> fin64 v /\ 0 <= val v) -> Rsum (map val l) <= bpow radix2 900 ->
  fin64 (nsub F64 (lit F64 1) (nsum F64 l)) /\
  Rabs (Rsum (map val l) + val (nsub F64 (lit F64 1) (nsum F64 l)) - 1) <= (1 + 2 * INR (length l + 1) * Rsum (map val l)) * u /\ 0 <= Rsum (map val l).
Proof.
  intros L H B. destruct (nsum64 l L H B) as (F & E & S0 & LU). assert (U := u_pos).
  assert (O : fin64 (lit F64 1) /\ val (lit F64 1) = 1).
  { destruct val_one as [F1 V1]. replace (lit F64 1) with (f64_of_Z 1); [split; assumption|reflexivity]. }
  destruct O as [F1 V1]. set (s := nsum F64 l) in *. set (S := Rsum (map val l)) in *. apply Rabs_le_inv in E.
  assert (N0 : 0 <= INR (length l)) by apply pos_INR.
  assert (X : 2 * INR (length l) * u * S <= S) by (replace S with (1 * S) at 2 by ring; apply Rmult_le_compat_r; assumption).
  assert (VS : Rabs (1 - val s) <= 1 + 2 * S) by (apply Rabs_le; lra).
  destruct (sub64 (lit F64 1) s F1 F) as [FS VV].
  { apply big_lt. rewrite V1. eapply Rle_trans; [exact VS|]. apply Rle_trans with (bpow radix2 0 + bpow radix2 901).
    - change (bpow radix2 0) with 1. replace (bpow radix2 901) with (2 * bpow radix2 900) by (change 2 with (bpow radix2 1); rewrite <- bpow_plus; reflexivity). lra.
    - apply Rle_trans with (bpow radix2 901 + bpow radix2 901); [apply Rplus_le_compat_r, bpow_le; lia|].
      replace (bpow radix2 901 + bpow radix2 901) with (bpow radix2 902) by (replace (bpow radix2 902) with (2 * bpow radix2 901) by (change 2 with (bpow radix2 1); rewrite <- bpow_plus; reflexivity); ring).
      apply bpow_le. lia. }
  split; [exact FS|]. split; [|exact S0]. rewrite VV, V1.
  assert (E2 : Rabs (fl (1 - val s) - (1 - val s)) <= u * Rabs (1 - val s)).
  { rewrite <- V1. apply fl_sub_err; apply val_repr; assumption. }
  assert (E3 : Rabs (fl (1 - val s) - (1 - val s)) <= u * (1 + 2 * S)) by (eapply Rle_trans; [exact E2|apply Rmult_le_compat_l; [lra|exact VS]]).
  apply Rabs_le_inv in E3. rewrite plus_INR. cbn [INR]. apply Rabs_le.
  replace ((1 + 2 * (INR (length l) + 1) * S) * u) with (u * (1 + 2 * S) + 2 * INR (length l) * u * S) by ring. lra.
Qed.

Section Cell.
  Context {H : Type}.
  Variable ns : nat.
  Variable ode : H -> num F64 -> num F64 -> list (num F64) -> num F64 -> outcome (list (num F64) * num F64 * H).
  Hypothesis N1 : (1 <= ns)%nat.
  Hypothesis N2 : (Z.of_nat ns <= 2 ^ 20)%Z.

  (** The composition returned by [ode_solve]. *)
  Theorem composition64 h (x x' : kcell F64) h' : length (k_c x) = ns -> ode_solve ns (ns + 1) ode h x = Ok (x', h') ->
    Forall fin64 (firstn (ns - 1) (k_c x')) -> Rsum (map val (firstn (ns - 1) (k_c x'))) <= bpow radix2 900 ->
    length (k_c x') = ns /\ Forall fin64 (k_c x') /\ Forall (fun v => 0 <= val v) (firstn (ns - 1) (k_c x')) /\
    Rabs (Rsum (map val (k_c x')) - 1) <= (1 + 2 * INR ns * Rsum (map val (firstn (ns - 1) (k_c x')))) * u.
  Proof.
    intros L E F B. destruct (not_negative (A := F64) ns ode N1 h x x' h' eq_refl L E) as [Lx Hn].
    destruct (solve_result (A := F64) ns ode N1 h x x' h' L E) as (y' & o' & _ & _ & _ & _ & cs & Lc & EC & _). rewrite EC in *.
    assert (FC : firstn (ns - 1) (cs ++ [nsub F64 (lit F64 1) (nsum F64 cs)]) = cs).
    { rewrite firstn_app, Lc, Nat.sub_diag. cbn [firstn]. rewrite app_nil_r. apply firstn_all2. change (num F64) with spec_float in *. lia. }
    rewrite FC in *.
    assert (P : forall v, In v cs -> fin64 v /\ 0 <= val v).
    { rewrite Forall_forall in F. intros v Hv. split; [apply F, Hv|]. apply In_nth_error in Hv as [i Hi].
      assert (Li : (i < ns - 1)%nat) by (rewrite <- Lc; apply nth_error_Some; congruence).
      assert (Q := Hn i v Li ltac:(rewrite nth_error_app1 by (rewrite Lc; exact Li); exact Hi)).
      assert (Z0 : fin64 (lit F64 0) /\ val (lit F64 0) = 0) by exact zero64. destruct Z0 as [Z1 Z2].
      rewrite ltb64 in Q; [|apply F; apply nth_error_In with i; exact Hi|exact Z1]. rewrite Z2 in Q. destruct (Rlt_bool_spec (val v) 0); [discriminate|assumption]. }
    destruct (rest64 cs) as (FR & ER & _); [change (num F64) with spec_float in *; rewrite Lc; lia|exact P|exact B|].
    split; [exact Lx|]. split; [apply Forall_app; split; [exact F|constructor; [exact FR|constructor]]|]. split; [apply Forall_forall; intros v Hv; apply P, Hv|].
    rewrite map_app, Rsum_app. cbn [map Rsum]. rewrite Rplus_0_r. replace (INR ns) with (INR (length cs + 1)); [exact ER|]. f_equal. change (num F64) with spec_float in *. rewrite Lc. lia.
  Qed.

  (** The composition handed to the mechanism. *)
  Theorem handed64 (c Y : list (num F64)) : length c = (ns + 1)%nat -> composition (A := F64) ns c Y ->
    Forall fin64 (firstn (ns - 1) Y) -> Rsum (map val (firstn (ns - 1) Y)) <= bpow radix2 900 ->
    Forall fin64 Y /\ Forall (fun v => 0 <= val v) (firstn (ns - 1) Y) /\
    Rabs (Rsum (map val Y) - 1) <= (1 + 2 * INR ns * Rsum (map val (firstn (ns - 1) Y))) * u.
  Proof.
    intros Lc (L & HY & Hl) F B. set (ys := firstn (ns - 1) Y) in *.
    assert (Ly : length ys = (ns - 1)%nat) by (apply firstn_length_le; rewrite L; lia).
    assert (EY : Y = ys ++ [nsub F64 (lit F64 1) (nsum F64 ys)]).
    { transitivity (ys ++ skipn (ns - 1) Y); [symmetry; apply firstn_skipn|]. f_equal.
      assert (LS : length (skipn (ns - 1) Y) = 1%nat) by (rewrite skipn_length, L; lia).
      assert (NS : nth_error (skipn (ns - 1) Y) 0 = nth_error Y (ns - 1)).
      { rewrite <- (firstn_skipn (ns - 1) Y) at 2. rewrite nth_error_app2 by (fold ys; rewrite Ly; lia). fold ys. rewrite Ly, Nat.sub_diag. reflexivity. }
      destruct (skipn (ns - 1) Y) as [|z [|z' zs]]; try discriminate LS. cbn [nth_error] in NS. rewrite Hl in NS. injection NS as ->. reflexivity. }
    assert (P : forall v, In v ys -> fin64 v /\ 0 <= val v).
    { rewrite Forall_forall in F. intros v Hv. split; [apply F, Hv|]. assert (Fv := F v Hv). apply In_nth_error in Hv as [i Hi].
      assert (Li : (i < ns - 1)%nat) by (rewrite <- Ly; apply nth_error_Some; congruence).
      assert (Z0 : fin64 (lit F64 0) /\ val (lit F64 0) = 0) by exact zero64. destruct Z0 as [Z1 Z2].
      destruct (nth_error c (i + 1)) as [w|] eqn:Ew; [|apply nth_error_None in Ew; exfalso; change (num F64) with spec_float in *; lia].
      assert (X := HY i w Li Ew). rewrite EY, nth_error_app1, Hi in X by (rewrite Ly; exact Li).
      assert (X' : v = if nltb F64 (lit F64 0) w then w else lit F64 0) by congruence.
      destruct (nltb F64 (lit F64 0) w) eqn:E0; [subst w|rewrite X', Z2; lra].
      rewrite ltb64, Z2 in E0 by assumption. destruct (Rlt_bool_spec 0 (val v)); [lra|discriminate]. }
    destruct (rest64 ys) as (FR & ER & _); [change (num F64) with spec_float in *; rewrite Ly; lia|exact P|exact B|].
    split; [rewrite EY; apply Forall_app; split; [exact F|constructor; [exact FR|constructor]]|]. split; [apply Forall_forall; intros v Hv; apply P, Hv|].
    rewrite EY at 1. rewrite map_app, Rsum_app. cbn [map Rsum]. rewrite Rplus_0_r. replace (INR ns) with (INR (length ys + 1)); [exact ER|]. f_equal. change (num F64) with spec_float in *. rewrite Ly. lia.
  Qed.
End Cell.

(** ** Rates *)

Local Instance P53' : Prec_gt_0 53. Proof. reflexivity. Qed.

(** Error of a rounding, underflow included. *)
Lemma fl_any r : Rabs (fl r - r) <= u * Rabs r + bpow radix2 (-1075).
Proof.
  assert (U := u_pos). destruct (Rle_lt_dec (bpow radix2 (-1022)) (Rabs r)) as [L|L].
  - pose proof (fl_err r L). pose proof (bpow_ge_0 radix2 (-1075)). lra.
  - assert (E : Rabs (fl r - r) <= / 2 * ulp radix2 (FLT_exp (-1074) 53) r) by (apply error_le_half_ulp; auto with typeclass_instances).
    rewrite ulp_FLT_small in E; [|reflexivity|eapply Rlt_le_trans; [exact L|apply bpow_le; lia]].
    replace (bpow radix2 (-1075)) with (/ 2 * bpow radix2 (-1074)).
    + pose proof (Rabs_pos r). nra.
    + change (/ 2) with (bpow radix2 (-1)). rewrite <- bpow_plus. reflexivity.
Qed.

Lemma u_tiny : 3 * (u * u) + u * u * u <= u.
Proof.
  assert (U := u_pos). assert (u <= / 4). { unfold u. apply Rinv_le_contravar; [lra|]. change 4 with (IZR 4). apply IZR_le. discriminate. }
  nra.
Qed.

Lemma rate_real (d rho t D P Q e : R) : 0 <= rho -> 0 <= t -> 0 <= e -> Rabs (D - d) <= u * Rabs d -> Rabs (P - D * rho) <= u * Rabs (D * rho) + e -> Rabs (Q - P * t) <= u * Rabs (P * t) + e ->
  Rabs (Q - d * rho * t) <= 4 * u * (Rabs d * rho * t) + (2 * t + 1) * e.
Proof.
  intros Hr Ht He H1 H2 H3. assert (U := u_pos). assert (UT := u_tiny). set (a := Rabs d * rho). assert (A0 : 0 <= a) by (unfold a; apply Rmult_le_pos; [apply Rabs_pos|exact Hr]).
  assert (B1 : Rabs (D * rho - d * rho) <= u * a).
  { replace (D * rho - d * rho) with ((D - d) * rho) by ring. rewrite Rabs_mult, (Rabs_pos_eq rho Hr). unfold a. rewrite <- Rmult_assoc. apply Rmult_le_compat_r; assumption. }
  assert (DA : Rabs (d * rho) = a) by (rewrite Rabs_mult, (Rabs_pos_eq rho Hr); reflexivity).
  assert (B2 : Rabs (D * rho) <= (1 + u) * a) by (replace (D * rho) with (d * rho + (D * rho - d * rho)) by ring; eapply Rle_trans; [apply Rabs_triang|]; rewrite DA; lra).
  assert (B3 : Rabs (P - d * rho) <= (2 * u + u * u) * a + e).
  { replace (P - d * rho) with ((P - D * rho) + (D * rho - d * rho)) by ring. eapply Rle_trans; [apply Rabs_triang|].
    assert (u * Rabs (D * rho) <= u * ((1 + u) * a)) by (apply Rmult_le_compat_l; lra). lra. }
  assert (B4 : Rabs P <= (1 + 2 * u + u * u) * a + e) by (replace P with (d * rho + (P - d * rho)) by ring; eapply Rle_trans; [apply Rabs_triang|]; rewrite DA; lra).
  assert (PT : Rabs (P * t) <= ((1 + 2 * u + u * u) * a + e) * t) by (rewrite Rabs_mult, (Rabs_pos_eq t Ht); apply Rmult_le_compat_r; assumption).
  replace (Q - d * rho * t) with ((Q - P * t) + (P - d * rho) * t) by ring. eapply Rle_trans; [apply Rabs_triang|].
  assert (B5 : Rabs ((P - d * rho) * t) <= ((2 * u + u * u) * a + e) * t) by (rewrite Rabs_mult, (Rabs_pos_eq t Ht); apply Rmult_le_compat_r; assumption).
  assert (B6 : u * Rabs (P * t) <= u * (((1 + 2 * u + u * u) * a + e) * t)) by (apply Rmult_le_compat_l; lra).
  assert (AT : 0 <= a * t) by (apply Rmult_le_pos; assumption). assert (ET : 0 <= e * t) by (apply Rmult_le_pos; assumption).
  assert (U1 : u <= 1) by nra.
  assert (B7 : (3 * (u * u) + u * u * u) * (a * t) <= u * (a * t)) by (apply Rmult_le_compat_r; assumption).
  assert (B8 : u * (e * t) <= 1 * (e * t)) by (apply Rmult_le_compat_r; assumption).
  replace (4 * u * (a * t)) with (3 * u * (a * t) + u * (a * t)) by ring.
  replace (Rabs d * rho * t) with (a * t) by reflexivity.
  lra.
Qed.

Lemma fl_le r (k : Z) : (-1074 <= k)%Z -> Rabs r <= bpow radix2 k -> Rabs (fl r) <= bpow radix2 k.
Proof.
  intros K H. apply abs_round_le_generic; auto with typeclass_instances.
  apply generic_format_bpow. unfold FLT_exp. lia.
Qed.

(** One rate. *)
Lemma rate64 (c c0 rho dt : num F64) : fin64 c -> fin64 c0 -> Rabs (val c - val c0) <= bpow radix2 30 -> fin64 rho -> 0 <= val rho <= bpow radix2 100 -> fin64 dt -> bpow radix2 (-100) <= val dt ->
  fin64 (ndiv F64 (nmul F64 (nsub F64 c c0) rho) dt) /\
  Rabs (val (ndiv F64 (nmul F64 (nsub F64 c c0) rho) dt) - (val c - val c0) * val rho / val dt) <= 4 * u * (Rabs (val c - val c0) * val rho / val dt) + bpow radix2 (-900).
Proof.
  intros Fc Fc0 Bd Fr [R0 R1] Ft T1.
  assert (T0 : 0 < val dt) by (eapply Rlt_le_trans; [apply bpow_gt_0|exact T1]).
  assert (IT : / val dt <= bpow radix2 100).
  { replace (bpow radix2 100) with (/ bpow radix2 (-100)) by (rewrite <- bpow_opp; reflexivity). apply Rinv_le_contravar; [apply bpow_gt_0|exact T1]. }
  assert (IT0 : 0 <= / val dt) by (apply Rlt_le, Rinv_0_lt_compat, T0).
  destruct (sub64 c c0 Fc Fc0) as [FD VD]. { apply big_lt. eapply Rle_trans; [exact Bd|apply bpow_le; lia]. }
  assert (BD : Rabs (val (nsub F64 c c0)) <= bpow radix2 30) by (rewrite VD; apply fl_le; [lia|exact Bd]).
  assert (BP : Rabs (val (nsub F64 c c0) * val rho) <= bpow radix2 130).
  { rewrite Rabs_mult, (Rabs_pos_eq _ R0). change 130%Z with (30 + 100)%Z. rewrite bpow_plus. apply Rmult_le_compat; auto using Rabs_pos. }
  destruct (mul64 (nsub F64 c c0) rho FD Fr) as [FP VP]. { apply big_lt. eapply Rle_trans; [exact BP|apply bpow_le; lia]. }
  assert (BP' : Rabs (val (nmul F64 (nsub F64 c c0) rho)) <= bpow radix2 130) by (rewrite VP; apply fl_le; [lia|exact BP]).
  destruct (div64 (nmul F64 (nsub F64 c c0) rho) dt FP Ft) as [FQ VQ].
  - lra.
  - apply big_lt. unfold Rdiv. rewrite Rabs_mult, (Rabs_pos_eq _ IT0). apply Rle_trans with (bpow radix2 (130 + 100)); [|apply bpow_le; lia].
    rewrite bpow_plus. apply Rmult_le_compat; auto using Rabs_pos.
  - split; [exact FQ|]. unfold Rdiv in *.
    eapply Rle_trans; [apply (rate_real (val c - val c0) (val rho) (/ val dt) (val (nsub F64 c c0)) (val (nmul F64 (nsub F64 c c0) rho)) _ (bpow radix2 (-1075))); auto|].
    + apply bpow_ge_0.
    + rewrite VD. apply fl_sub_err; apply val_repr; assumption.
    + rewrite VP. apply fl_any.
    + rewrite VQ. apply fl_any.
    + apply Rplus_le_compat_l. apply Rle_trans with (bpow radix2 102 * bpow radix2 (-1075)).
      * apply Rmult_le_compat_r; [apply bpow_ge_0|]. change (bpow radix2 102) with (bpow radix2 (2 + 100)). rewrite (bpow_plus radix2 2 100). change (bpow radix2 2) with 4.
        assert (1 <= bpow radix2 100) by (change 1 with (bpow radix2 0); apply bpow_le; lia). lra.
      * rewrite <- bpow_plus. apply bpow_le. lia.
Qed.

(** Sum of the rates. *)
Lemma rates64 (rho dt : num F64) : fin64 rho -> 0 <= val rho <= bpow radix2 100 -> fin64 dt -> bpow radix2 (-100) <= val dt ->
  forall (c c0 : list (num F64)), length c = length c0 -> (forall v w, In (v, w) (combine c c0) -> fin64 v /\ fin64 w /\ Rabs (val v - val w) <= bpow radix2 30) ->
  Forall fin64 (map (fun '(y, y0) => ndiv F64 (nmul F64 (nsub F64 y y0) rho) dt) (combine c c0)) /\
  Rabs (Rsum (map val (map (fun '(y, y0) => ndiv F64 (nmul F64 (nsub F64 y y0) rho) dt) (combine c c0))) - (Rsum (map val c) - Rsum (map val c0)) * val rho / val dt) <=
    4 * u * (Rsum (map (fun '(y, y0) => Rabs (val y - val y0)) (combine c c0)) * val rho / val dt) + INR (length c) * bpow radix2 (-900).
Proof.
  intros Fr Br Ft Bt. induction c as [|a c IH]; intros [|b c0] L H; try discriminate L.
  - cbn. split; [constructor|]. unfold Rdiv. rewrite !Rmult_0_l, Rminus_0_r, !Rmult_0_l, Rminus_0_r, Rmult_0_r, Rabs_R0. lra.
  - destruct (IH c0 ltac:(injection L; auto)) as [F B]. { intros v w I. apply H. right. exact I. }
    destruct (H a b (or_introl eq_refl)) as (Fa & Fb & Bab). destruct (rate64 a b rho dt Fa Fb Bab Fr Br Ft Bt) as [F1 B1].
    cbn [combine map Rsum]. split; [constructor; assumption|].
    change (length (a :: c)) with (S (length c)). rewrite S_INR.
    match type of B with Rabs (?X - ?Y) <= ?Z => match type of B1 with Rabs (?X1 - ?Y1) <= ?Z1 =>
      replace (X1 + X - (val a + Rsum (map val c) - (val b + Rsum (map val c0))) * val rho / val dt) with ((X1 - Y1) + (X - Y)) by (unfold Rdiv; ring) end end.
    eapply Rle_trans; [apply Rabs_triang|]. unfold Rdiv in *. lra.
Qed.

(** The composition after the calls of one cell: the given one, or one that a call returned. *)
Lemma calls_last {A : Arith} {H} (kern : H -> kcell A -> outcome (kcell A * H)) ns : (forall h x x' h', length (k_c x) = ns -> kern h x = Ok (x', h') -> length (k_c x') = ns) ->
  forall h t x l x' h', calls kern h t x l x' h' -> length (k_c x) = ns ->
  x' = x \/ exists h0 x0 h1, length (k_c x0) = ns /\ kern h0 x0 = Ok (x', h1).
Proof.
  intros K h t x l x' h' C. induction C as [h t x Ht|h t x x1 h1 l x' h' Ht E C IH]; intros L; [left; reflexivity|]. right.
  assert (L1 : length (k_c x1) = ns) by (eapply K; [|exact E]; exact L).
  destruct (IH L1) as [->|X]; [|exact X]. exists h, (mkCell (k_p x) (k_T x) (k_c x) t (k_sub x)), h1. split; [exact L|exact E].
Qed.

Section Field.
  Context {H : Type}.
  Variable ns : nat.
  Variable ode : H -> num F64 -> num F64 -> list (num F64) -> num F64 -> outcome (list (num F64) * num F64 * H).
  Hypothesis N1 : (1 <= ns)%nat.
  Hypothesis N2 : (Z.of_nat ns <= 2 ^ 20)%Z.
  Notation kern := (ode_solve ns (ns + 1) ode).

  Lemma kern_length h x x' h' : length (k_c x) = ns -> kern h x = Ok (x', h') -> length (k_c x') = ns.
  Proof. intros L E. exact (proj1 (not_negative (A := F64) ns ode N1 h x x' h' eq_refl L E)). Qed.

  Lemma sum_two (l : list (num F64)) : Forall (fun v => fin64 v /\ Rabs (val v) <= 2) l ->
    Rsum (map val l) <= Rsum (map (fun v => Rabs (val v)) l) /\ Rsum (map (fun v => Rabs (val v)) l) <= INR (length l) * 2.
  Proof.
    induction 1 as [|v l [_ V] F [I1 I2]]; [cbn; split; lra|]. change (length (v :: l)) with (S (length l)). rewrite S_INR. cbn [map Rsum]. pose proof (Rle_abs (val v)). change (num F64) with spec_float in *. split; lra.
  Qed.

  (** Sum of the rates of a cell. *)
  Lemma total_rate64 fuel cfg dbg par sortf tms ranks outs :
    g_nSpecie cfg = ns -> g_chem cfg = true -> mapper_ok (g_nSpecie cfg) (g_mapper cfg) -> sort_contract sortf ->
    par = true \/ (length ranks <= 1)%nat ->
    solve_all kern fuel cfg dbg par sortf tms ranks = Ok outs ->
    forall q r o n, nth_error ranks q = Some r -> nth_error outs q = Some o ->
      meshed (g_nSpecie cfg) n r ->
      forall i, (i < n)%nat ->
      exists j p c rates, (j < n)%nat /\ problem_of (r_fields r) (r_dt r) (r_state r) j p /\
        (j = i \/ mapped (g_mapper cfg) (r_fields r) j i) /\
        map (fun row => nth_error row i) (m_RR (o_state o)) = map Some rates /\
        length c = ns /\ length (p_c p) = ns /\
        rates = map (fun '(y, y0) => ndiv F64 (nmul F64 (nsub F64 y y0) (p_rho p)) (p_deltaT p)) (combine c (p_c p)) /\
        (Forall (fun v => fin64 v /\ Rabs (val v) <= 2) (p_c p) -> Forall (fun v => fin64 v /\ Rabs (val v) <= 2) (firstn (ns - 1) c) ->
         fin64 (p_rho p) -> 0 <= val (p_rho p) <= bpow radix2 100 -> fin64 (p_deltaT p) -> bpow radix2 (-100) <= val (p_deltaT p) ->
         Forall fin64 rates /\
         Rabs (Rsum (map val rates)) <=
           (Rabs (Rsum (map val (p_c p)) - 1) +
            (1 + 2 * INR ns * Rsum (map (fun v => Rabs (val v)) (firstn (ns - 1) c)) + 4 * Rsum (map (fun '(y, y0) => Rabs (val y - val y0)) (combine c (p_c p)))) * u) *
           (val (p_rho p) / val (p_deltaT p)) + INR ns * bpow radix2 (-900)).
  Proof.
    intros En Hch MO Hs Hpar E q r o n Hr Ho HM i Hi.
    destruct (every_cell kern fuel cfg dbg par sortf tms ranks outs Hch MO Hs Hpar E q r o n Hr Ho HM i Hi)
      as (j & p & s & k & Hj & Hp & (q' & k' & h & l & x & h' & C & Lx & Hrr & _) & (Hc & _) & Hk).
    assert (Lp : length (p_c p) = ns).
    { rewrite <- En. destruct HM as [SF _]. destruct Hp as (Ep & _). apply sf_Y in SF. apply (f_equal (@length _)) in Ep. rewrite !map_length in Ep. rewrite <- Ep. exact SF. }
    exists j, p, (k_c x), (s_rr s). split; [exact Hj|]. split; [exact Hp|]. split.
    { destruct Hk as [(_ & -> & _)|[(_ & -> & _)|(_ & _ & Hm)]]; auto. }
    split; [exact Hc|]. split; [lia|]. split; [exact Lp|]. split; [exact Hrr|].
    intros Fp Fc Fr Br Ft Bt.
    set (c := k_c x) in *. assert (Lc : length c = ns) by lia.
    assert (U := u_pos). assert (I1 : 1 <= INR ns) by (change 1 with (INR 1); apply le_INR; exact N1).
    assert (I2 : INR ns <= bpow radix2 20) by (rewrite INR_IZR_INZ; change (bpow radix2 20) with (IZR (2 ^ 20)); apply IZR_le; exact N2).
    set (A1 := Rsum (map (fun v => Rabs (val v)) (firstn (ns - 1) c))).
    set (A2 := Rsum (map (fun '(y, y0) => Rabs (val y - val y0)) (combine c (p_c p)))).
    assert (T0 : 0 < val (p_deltaT p)) by (eapply Rlt_le_trans; [apply bpow_gt_0|exact Bt]).
    assert (K0 : 0 <= val (p_rho p) / val (p_deltaT p)) by (apply Rmult_le_pos; [lra|apply Rlt_le, Rinv_0_lt_compat, T0]).
    assert (A1p : 0 <= A1). { unfold A1. generalize (firstn (ns - 1) c). intros l0. induction l0 as [|v l0 IH]; cbn [map Rsum]; [lra|]. pose proof (Rabs_pos (val v)). lra. }
    assert (X : Forall fin64 c /\ Forall (fun v => Rabs (val v) <= bpow radix2 29) c /\ Rabs (Rsum (map val c) - Rsum (map val (p_c p))) <= Rabs (Rsum (map val (p_c p)) - 1) + (1 + 2 * INR ns * A1) * u).
    { destruct (calls_last kern ns kern_length _ _ _ _ _ _ C Lp) as [E0|(h0 & x0 & h1 & L0 & E0)].
      - subst x. cbn [k_c] in c. subst c. split; [|split].
        + eapply Forall_impl; [|exact Fp]. intros v V. apply V.
        + eapply Forall_impl; [|exact Fp]. intros v [_ V]. eapply Rle_trans; [exact V|]. change 2 with (bpow radix2 1). apply bpow_le. lia.
        + rewrite Rminus_diag_eq by reflexivity. rewrite Rabs_R0. pose proof (Rabs_pos (Rsum (map val (p_c p)) - 1)).
          assert (0 <= (1 + 2 * INR ns * A1) * u) by (apply Rmult_le_pos; [|lra]; assert (0 <= INR ns * A1) by (apply Rmult_le_pos; lra); lra). lra.
      - assert (SA : Rsum (map val (firstn (ns - 1) c)) <= A1 /\ A1 <= INR (ns - 1) * 2).
        { unfold A1. replace (INR (ns - 1)) with (INR (length (firstn (ns - 1) c))) by (rewrite firstn_length_le; [reflexivity|lia]). apply sum_two. exact Fc. }
        assert (I3 : INR (ns - 1) <= INR ns) by (apply le_INR; lia).
        destruct (composition64 ns ode N1 N2 h0 x0 x h1 L0 E0) as (_ & F & P & B).
        + eapply Forall_impl; [|exact Fc]. intros v V. apply V.
        + fold c. apply Rle_trans with (bpow radix2 21); [|apply bpow_le; lia]. change (bpow radix2 21) with (bpow radix2 (20 + 1)). rewrite bpow_plus. change (bpow radix2 1) with 2. lra.
        + fold c in F, P, B. split; [exact F|].
          assert (B' : Rabs (Rsum (map val c) - 1) <= (1 + 2 * INR ns * A1) * u).
          { eapply Rle_trans; [exact B|]. apply Rmult_le_compat_r; [lra|]. assert (INR ns * Rsum (map val (firstn (ns - 1) c)) <= INR ns * A1) by (apply Rmult_le_compat_l; lra). lra. }
          split.
          * assert (SP : c = firstn (ns - 1) c ++ skipn (ns - 1) c) by (symmetry; apply firstn_skipn).
            assert (LS : length (skipn (ns - 1) c) = 1%nat) by (rewrite skipn_length; lia).
            destruct (skipn (ns - 1) c) as [|z [|z' zs]]; try discriminate LS. rewrite SP. apply Forall_app. split.
            -- eapply Forall_impl; [|exact Fc]. intros v [_ V]. eapply Rle_trans; [exact V|]. change 2 with (bpow radix2 1). apply bpow_le. lia.
            -- constructor; [|constructor]. assert (SE : Rsum (map val c) = Rsum (map val (firstn (ns - 1) c)) + val z).
               { rewrite SP at 1. rewrite map_app, Rsum_app. cbn. ring. }
               rewrite SE in B'. set (s1 := Rsum (map val (firstn (ns - 1) c))) in *.
               assert (P1 : 0 <= s1). { unfold s1. clear -P. induction P as [|v l0 V F IH]; cbn [map Rsum]; lra. }
               assert (QQ : (1 + 2 * INR ns * A1) * u <= 1).
               { assert (INR ns * A1 <= bpow radix2 20 * (bpow radix2 20 * 2)) by (apply Rmult_le_compat; lra).
                 replace (bpow radix2 20 * (bpow radix2 20 * 2)) with (bpow radix2 41) in * by (change 2 with (bpow radix2 1); rewrite <- !bpow_plus; reflexivity).
                 apply Rle_trans with ((1 + 2 * bpow radix2 41) * u); [apply Rmult_le_compat_r; lra|].
                 change (bpow radix2 41) with (IZR (2 ^ 41)). unfold u. apply Rmult_le_reg_r with (IZR (2 ^ 53)); [apply IZR_lt; reflexivity|].
                 rewrite Rmult_assoc, Rinv_l by (apply IZR_neq; discriminate). rewrite Rmult_1_r, Rmult_1_l, <- mult_IZR, <- plus_IZR. apply IZR_le. discriminate. }
               apply Rabs_le_inv in B'. assert (G : bpow radix2 21 + 2 <= bpow radix2 29) by (change (bpow radix2 21) with (IZR (2 ^ 21)); change (bpow radix2 29) with (IZR (2 ^ 29)); rewrite <- plus_IZR; apply IZR_le; discriminate).
               assert (G2 : A1 <= bpow radix2 21) by (change (bpow radix2 21) with (bpow radix2 (20 + 1)); rewrite bpow_plus; change (bpow radix2 1) with 2; lra).
               pose proof (bpow_ge_0 radix2 21). apply Rabs_le. lra.
          * replace (Rsum (map val c) - Rsum (map val (p_c p))) with ((Rsum (map val c) - 1) - (Rsum (map val (p_c p)) - 1)) by ring.
            eapply Rle_trans; [apply Rabs_triang|]. rewrite Rabs_Ropp. lra. }
    destruct X as (X1 & X2 & X3).
    destruct (rates64 (p_rho p) (p_deltaT p) Fr Br Ft Bt c (p_c p) ltac:(lia)) as [R1 R2].
    { intros v w I. assert (Iv := in_combine_l _ _ _ _ I). assert (Iw := in_combine_r _ _ _ _ I). rewrite Forall_forall in X1, X2, Fp.
      destruct (Fp w Iw) as [Fw Bw]. specialize (X2 v Iv). split; [auto|]. split; [auto|]. eapply Rle_trans; [apply Rabs_triang|]. rewrite Rabs_Ropp.
      change (bpow radix2 30) with (bpow radix2 (29 + 1)). rewrite bpow_plus. change (bpow radix2 1) with 2.
      assert (2 <= bpow radix2 29) by (change 2 with (bpow radix2 1); apply bpow_le; lia). lra. }
    rewrite <- Hrr in R1, R2. split; [exact R1|]. fold A2 in R2. rewrite Lc in R2.
    unfold Rdiv in *. set (kk := val (p_rho p) * / val (p_deltaT p)) in *.
    replace ((Rsum (map val c) - Rsum (map val (p_c p))) * val (p_rho p) * / val (p_deltaT p)) with ((Rsum (map val c) - Rsum (map val (p_c p))) * kk) in R2 by (unfold kk; ring).
    replace (A2 * val (p_rho p) * / val (p_deltaT p)) with (A2 * kk) in R2 by (unfold kk; ring).
    match type of R2 with Rabs (?X - ?Y) <= _ => replace X with ((X - Y) + Y) by ring end.
    eapply Rle_trans; [apply Rabs_triang|]. rewrite (Rabs_mult _ kk), (Rabs_pos_eq kk K0).
    apply (Rmult_le_compat_r kk) in X3; [|exact K0].
    match goal with |- ?a + ?b <= ?c => assert (EQ : c = (Rabs (Rsum (map val (p_c p)) - 1) + (1 + 2 * INR ns * A1) * u) * kk + (4 * u * (A2 * kk) + INR ns * bpow radix2 (-900))) by ring; rewrite EQ end.
    rewrite (Rplus_comm (_ * kk) (_ + _)). apply Rplus_le_compat; [exact R2|exact X3].
  Qed.
End Field.
