(** The error norm of the ODE solver in IEEE doubles. *)
From Coq Require Import List Arith ZArith QArith Bool Lia Reals Lra.
From Coq Require Import Floats.SpecFloat.
From Flocq Require Import Core BinarySingleNaN.
From Verif Require Import Outcome Arith ChemistryModel OdeSolver OdeFacts Seulex SeulexSpec SeulexCases Ieee SweepIeee PyJacIeee MixIeee OdeIeee.
Import ListNotations.
Local Open Scope R_scope.

Lemma max64 (a b : num F64) : fin64 a -> fin64 b -> fin64 (foam_max F64 a b) /\ val (foam_max F64 a b) = Rmax (val a) (val b).
Proof.
  intros Fa Fb. unfold foam_max. rewrite (ltb64 _ _ Fb Fa). destruct (Rlt_bool_spec (val b) (val a)) as [C|C].
  - split; [exact Fa|]. rewrite Rmax_left by lra. reflexivity.
  - split; [exact Fb|]. rewrite Rmax_right by lra. reflexivity.
Qed.

(** A number of magnitude up to [2^k]; not a function of /repo. *)
Definition bounded (k : Z) (x : num F64) : Prop := fin64 x /\ Rabs (val x) <= bpow radix2 k.

(** An absolute tolerance from [2^-k] to [2^k]; not a function of /repo. *)
Definition divisor (k : Z) (a : num F64) : Prop := fin64 a /\ bpow radix2 (- k) <= val a <= bpow radix2 k.

(** The error of one component in units of its tolerance; not a function of /repo. *)
Definition ratio (a r y0 y e : num F64) : R := Rabs (val e) / (val a + val r * Rmax (Rabs (val y0)) (Rabs (val y))).

(** The rounded tolerance. *)
Lemma tol64 (a r m : num F64) : divisor 400 a -> bounded 400 r -> 0 <= val r -> fin64 m -> 0 <= val m <= bpow radix2 400 ->
  let s := nadd F64 a (nmul F64 r m) in let tol := val a + val r * val m in
  fin64 s /\ 0 < tol <= bpow radix2 801 /\ tol * (1 - 3 * u) <= val s <= tol * (1 + 3 * u).
Proof.
  intros [Fa Ba] [Fr Br] Pr Fm [M0 M1] s0 tol. unfold s0. clear s0. pose proof u_range as [U0 U1]. set (M := val m) in *.
  pose proof (bpow_gt_0 radix2 (-(400))) as A1. cbn [Z.opp] in *.
  rewrite Rabs_pos_eq in Br by exact Pr.
  set (eps := bpow radix2 (-1075)).
  assert (E2 : bpow radix2 (-1074) = 2 * eps) by (unfold eps; change (-1074)%Z with (1 + -1075)%Z; rewrite bpow_plus; reflexivity).
  assert (E0 : 0 < eps) by apply bpow_gt_0.
  assert (Q0 : 0 <= val r * M) by (apply Rmult_le_pos; lra).
  assert (Q1 : val r * M <= bpow radix2 800).
  { change 800%Z with (400 + 400)%Z. rewrite bpow_plus. apply Rmult_le_compat; lra. }
  assert (B8 : bpow radix2 800 + bpow radix2 800 <= bpow radix2 801).
  { change 801%Z with (1 + 800)%Z. rewrite (bpow_plus radix2 1 800). cbn -[bpow]. change (bpow radix2 1) with 2. lra. }
  assert (B48 : bpow radix2 400 <= bpow radix2 800) by (apply bpow_le; lia).
  assert (B9 : 2 * bpow radix2 801 <= bpow radix2 900).
  { replace (2 * bpow radix2 801) with (bpow radix2 802); [apply bpow_le; lia|]. change 802%Z with (1 + 801)%Z. rewrite bpow_plus. reflexivity. }
  destruct (mul64 r _ Fr Fm) as [Fp Vp]; [fold M; apply big_400; rewrite Rabs_pos_eq by exact Q0; lra|]. fold M in Vp.
  set (p := nmul F64 r _) in *. pose proof (fl_any (val r * M)) as Ep. rewrite <- Vp in Ep. rewrite (Rabs_pos_eq _ Q0) in Ep. fold eps in Ep.
  assert (A0 : 0 < val a) by (pose proof (bpow_gt_0 radix2 (-400)) as X; eapply Rlt_le_trans; [exact X|exact (proj1 Ba)]).
  assert (EA : eps <= u * val a).
  { apply Rle_trans with (bpow radix2 (-53) * bpow radix2 (-400)); [rewrite <- bpow_plus; apply bpow_le; lia|].
    apply Rmult_le_compat; [apply bpow_ge_0|apply bpow_ge_0|apply Rle_refl|lra]. }
  assert (T0 : 0 < tol) by (unfold tol; lra).
  assert (Ep' : Rabs (val p - val r * M) <= u * tol) by (eapply Rle_trans; [exact Ep|unfold tol; lra]). apply Rabs_le_inv in Ep'.
  assert (UT : u * tol <= / 1000000 * tol) by (apply Rmult_le_compat_r; lra).
  assert (T1 : tol <= bpow radix2 801) by (unfold tol; lra).
  assert (Bs : Rabs (val a + val p) <= tol * (1 + u)) by (apply Rabs_le; unfold tol in *; lra).
  destruct (add64 a p Fa Fp) as [Fs Vs]; [apply big_400; lra|]. set (s := nadd F64 a p) in *.
  pose proof (fl_add_err _ _ (val_repr a Fa) (val_repr p Fp)) as Es. rewrite <- Vs in Es.
  assert (Es' : Rabs (val s - (val a + val p)) <= u * (tol * (1 + u))) by (eapply Rle_trans; [exact Es|apply Rmult_le_compat_l; lra]).
  apply Rabs_le_inv in Es'.
  assert (UU : u * (tol * (1 + u)) <= 2 * (u * tol)) by (replace (u * (tol * (1 + u))) with (u * tol * (1 + u)) by ring; assert (0 < u * tol) by nra; nra).
  assert (S1 : tol * (1 - 3 * u) <= val s <= tol * (1 + 3 * u)) by (unfold tol in *; lra).
  split; [exact Fs|]. split; [lra|exact S1].
Qed.

Lemma ratio64 (a r y0 y e : num F64) : divisor 400 a -> bounded 400 r -> 0 <= val r -> bounded 400 y0 -> bounded 400 y -> bounded 400 e ->
  let q := ndiv F64 (nabs F64 e) (nadd F64 a (nmul F64 r (foam_max F64 (nabs F64 y0) (nabs F64 y)))) in
  fin64 q /\ 0 <= val q /\ 0 <= ratio a r y0 y e /\
  ratio a r y0 y e <= val q * (1 + 5 * u) + bpow radix2 (-1074) /\
  val q <= ratio a r y0 y e * (1 + 5 * u) + bpow radix2 (-1074).
Proof.
  intros [Fa Ba] [Fr Br] Pr [Fu Bu] [Fv Bv] [Fe Be] q. unfold ratio. pose proof u_range as [U0 U1].
  destruct (abs64 y0 Fu) as [F1 V1], (abs64 y Fv) as [F2 V2], (abs64 e Fe) as [F3 V3].
  destruct (max64 _ _ F1 F2) as [Fm Vm]. rewrite V1, V2 in Vm. set (M := Rmax (Rabs (val y0)) (Rabs (val y))) in *.
  assert (M0 : 0 <= M) by (unfold M; pose proof (Rmax_l (Rabs (val y0)) (Rabs (val y))); pose proof (Rabs_pos (val y0)); lra).
  assert (M1 : M <= bpow radix2 400) by (unfold M; apply Rmax_lub; assumption).
  destruct (tol64 a r (foam_max F64 (nabs F64 y0) (nabs F64 y)) (conj Fa Ba) (conj Fr Br) Pr Fm) as (Fs & [T0 T1] & S1); [rewrite Vm; lra|].
  rewrite Vm in T0, T1, S1. fold M in T0, T1, S1. set (s := nadd F64 a _) in *. set (tol := val a + val r * M) in *.
  assert (Q0 : 0 <= val r * M) by (apply Rmult_le_pos; lra).
  set (eps := bpow radix2 (-1075)).
  assert (E2 : bpow radix2 (-1074) = 2 * eps) by (unfold eps; change (-1074)%Z with (1 + -1075)%Z; rewrite bpow_plus; reflexivity).
  assert (E0 : 0 < eps) by apply bpow_gt_0.
  assert (B9 : 2 * bpow radix2 801 <= bpow radix2 900).
  { replace (2 * bpow radix2 801) with (bpow radix2 802); [apply bpow_le; lia|]. change 802%Z with (1 + 801)%Z. rewrite bpow_plus. reflexivity. }
  assert (B8 : bpow radix2 800 <= bpow radix2 801) by (apply bpow_le; lia). cbn [Z.opp] in Ba.
  assert (S0 : 0 < val s) by nra.
  set (x := Rabs (val e) / tol). set (z := Rabs (val e) / val s).
  assert (X0 : 0 <= x) by (unfold x; apply Rmult_le_pos; [apply Rabs_pos|left; apply Rinv_0_lt_compat; exact T0]).
  assert (Z0 : 0 <= z) by (unfold z; apply Rmult_le_pos; [apply Rabs_pos|left; apply Rinv_0_lt_compat; exact S0]).
  assert (XT : x * tol = Rabs (val e)) by (unfold x; field; lra).
  assert (ZS : z * val s = Rabs (val e)) by (unfold z; field; lra).
  assert (XZ1 : x <= z * (1 + 3 * u)).
  { apply Rmult_le_reg_r with tol; [exact T0|]. rewrite XT, <- ZS. replace (z * (1 + 3 * u) * tol) with (z * (tol * (1 + 3 * u))) by ring.
    apply Rmult_le_compat_l; lra. }
  assert (XZ2 : z * (1 - 3 * u) <= x).
  { apply Rmult_le_reg_r with tol; [exact T0|]. rewrite XT, <- ZS. replace (z * (1 - 3 * u) * tol) with (z * (tol * (1 - 3 * u))) by ring.
    apply Rmult_le_compat_l; lra. }
  assert (X9 : x <= bpow radix2 800).
  { apply Rmult_le_reg_r with tol; [exact T0|]. rewrite XT. apply Rle_trans with (bpow radix2 800 * bpow radix2 (-400)).
    - rewrite <- bpow_plus. exact Be.
    - apply Rmult_le_compat_l; [apply bpow_ge_0|unfold tol; lra]. }
  assert (Z9 : z <= 2 * x) by nra.
  destruct (div64 (nabs F64 e) s F3 Fs) as [Fq Vq].
  { lra. }
  { rewrite V3. fold z. apply big_400. rewrite Rabs_pos_eq by exact Z0. lra. }
  rewrite V3 in Vq. fold z in Vq. fold q in Fq, Vq. split; [exact Fq|].
  assert (Pq : 0 <= val q) by (rewrite Vq; apply fl_ge_repr; [apply repr_0|exact Z0]). split; [exact Pq|]. split; [exact X0|].
  pose proof (fl_any z) as Eq. rewrite <- Vq in Eq. rewrite (Rabs_pos_eq _ Z0) in Eq. fold eps in Eq. apply Rabs_le_inv in Eq. rewrite E2.
  split.
  - apply Rle_trans with ((val q + eps) * (1 + 5 * u)).
    + apply Rle_trans with (z * (1 - u) * (1 + 5 * u)); [|apply Rmult_le_compat_r; lra].
      apply Rle_trans with (z * (1 + 3 * u)); [exact XZ1|]. rewrite Rmult_assoc. apply Rmult_le_compat_l; [exact Z0|]. nra.
    + assert (eps * (1 + 5 * u) <= 2 * eps) by nra. lra.
  - apply Rle_trans with (z * (1 + u) + eps); [lra|].
    assert (z * (1 + u) <= x * (1 + 5 * u)); [|lra].
    apply Rle_trans with (z * (1 - 3 * u) * (1 + 5 * u)); [|apply Rmult_le_compat_r; lra].
    rewrite Rmult_assoc. apply Rmult_le_compat_l; [exact Z0|]. nra.
Qed.

(** The norm. *)
Theorem norm64 (a r y0 y e : list (num F64)) n :
  length a = n -> length r = n -> length y0 = n -> length y = n -> length e = n ->
  (forall x, In x a -> divisor 400 x) -> (forall x, In x r -> bounded 400 x /\ 0 <= val x) ->
  (forall x, In x y0 \/ In x y \/ In x e -> bounded 400 x) ->
  let ratio_of := fun i => ratio (nth i a (zero F64)) (nth i r (zero F64)) (nth i y0 (zero F64)) (nth i y (zero F64)) (nth i e (zero F64)) in
  exists m, normalizeError (A := F64) a r y0 y e = Ok m /\ fin64 m /\ 0 <= val m /\
    (forall i, (i < n)%nat -> ratio_of i <= val m * (1 + 5 * u) + bpow radix2 (-1074)) /\
    (val m = 0 \/ exists i, (i < n)%nat /\ val m <= ratio_of i * (1 + 5 * u) + bpow radix2 (-1074)).
Proof.
  intros La Lr L0 Ly Le Ha Hr Hy ratio_of. unfold normalizeError. rewrite Le. pose proof u_range as [U0 U1].
  assert (X : forall (l : list (num F64)) i, length l = n -> (i < n)%nat -> idx l i = Ok (nth i l (zero F64)) /\ In (nth i l (zero F64)) l).
  { intros l i Hl Hi. split; [|apply nth_In; lia]. unfold idx. rewrite (nth_error_nth' l (zero F64)) by lia. reflexivity. }
  set (F := fun (maxErr : num F64) (i : nat) => _).
  assert (G : forall (l : list nat) (m : num F64), (forall i, In i l -> (i < n)%nat) -> fin64 m -> 0 <= val m ->
    exists m', foldM F m l = Ok m' /\ fin64 m' /\ val m <= val m' /\
      (forall i, In i l -> ratio_of i <= val m' * (1 + 5 * u) + bpow radix2 (-1074)) /\
      (val m' = val m \/ exists i, In i l /\ val m' <= ratio_of i * (1 + 5 * u) + bpow radix2 (-1074))).
  { induction l as [|i l IH]; intros m Hl Fm Pm.
    - exists m. split; [reflexivity|]. split; [exact Fm|]. split; [lra|]. split; [intros i []|left; reflexivity].
    - assert (Hi : (i < n)%nat) by (apply Hl; left; reflexivity). cbn [foldM]. unfold F at 1.
      destruct (X a i La Hi) as [-> I1], (X r i Lr Hi) as [-> I2], (X y0 i L0 Hi) as [-> I3], (X y i Ly Hi) as [-> I4], (X e i Le Hi) as [-> I5].
      cbn [bind]. cbv zeta. destruct (Hr _ I2) as [Br Pr].
      destruct (ratio64 _ _ _ _ _ (Ha _ I1) Br Pr (Hy _ (or_introl I3)) (Hy _ (or_intror (or_introl I4))) (Hy _ (or_intror (or_intror I5)))) as (Fq & Pq & R0 & R1 & R2).
      fold (ratio_of i) in R0, R1, R2. set (q := ndiv F64 _ _) in *. destruct (max64 m q Fm Fq) as [Fx Vx].
      pose proof (Rmax_l (val m) (val q)) as M1. pose proof (Rmax_r (val m) (val q)) as M2.
      destruct (IH (foam_max F64 m q)) as (m' & E & Fm' & Gm & Ra & Rb); [intros; apply Hl; right; assumption|exact Fx|rewrite Vx; lra|].
      rewrite Vx in Gm, Rb.
      exists m'. split; [exact E|]. split; [exact Fm'|]. split; [lra|]. split.
      + intros j [<-|Hj]; [|auto]. eapply Rle_trans; [exact R1|]. assert (val q * (1 + 5 * u) <= val m' * (1 + 5 * u)) by (apply Rmult_le_compat_r; lra). lra.
      + destruct Rb as [Rb|(j & Hj & Rb)]; [|right; exists j; split; [right; exact Hj|exact Rb]].
        destruct (Rle_dec (val q) (val m)) as [C|C].
        * left. rewrite Rb. apply Rmax_left. exact C.
        * right. exists i. split; [left; reflexivity|]. rewrite Rb, Rmax_right by lra. exact R2. }
  destruct zero64 as [Fz Vz].
  destruct (G (seq 0 n) (zero F64)) as (m & E & Fm & Gm & Ra & Rb); [intros i Hi; apply in_seq in Hi; lia|exact Fz|lra|].
  exists m. split; [exact E|]. split; [exact Fm|]. split; [lra|]. split.
  - intros i Hi. apply Ra. apply in_seq. lia.
  - destruct Rb as [Rb|(i & Hi & Rb)]; [left; lra|right; exists i; split; [apply in_seq in Hi; lia|exact Rb]].
Qed.

(** ** The error estimate of seulex *)

Local Existing Instance P53.
Local Existing Instance P1024.

Lemma sqrt_B (x : B64) : SFsqrt 53 1024 (B2SF x) = B2SF (Bsqrt mode_NE x).
Proof.
  destruct x as [sx|sx| |sx mx ex Bx]; [now (trivial || case sx).. | ].
  case sx; [reflexivity|]. simpl. rewrite B2SF_SF2B.
  set (melz := SFsqrt_core_binary _ _ _ _). case melz as [[mz ez] lz]. apply binary_round_aux_equiv.
Qed.

Lemma sqrt64 (x : num F64) : fin64 x -> 0 <= val x -> fin64 (SFsqrt 53 1024 x) /\ val (SFsqrt 53 1024 x) = fl (sqrt (val x)).
Proof.
  intros Hx P. destruct (fin64_B x Hx) as (a & -> & Fa & Va). rewrite Va in *. rewrite sqrt_B.
  destruct (Bsqrt_correct 53 1024 _ _ mode_NE a) as (H1 & H2 & _).
  assert (F : is_finite (Bsqrt mode_NE a) = true).
  { rewrite H2. destruct a as [s|s| |s m e Ba]; try reflexivity; try discriminate. destruct s; [|reflexivity].
    exfalso. cbn [B2R] in P. assert (F2R (Float radix2 (cond_Zopp true (Z.pos m)) e) < 0) by (apply F2R_lt_0; reflexivity). lra. }
  destruct (B_fin64 _ F) as [G V]. split; [exact G|]. rewrite V. exact H1.
Qed.

(** A rounded sum of non-negative numbers is at least each of them. *)
Lemma sum_above (B : R) : 0 <= B -> B <= bpow radix2 850 -> forall (l : list (num F64)) (z : num F64) k,
  INR (k + length l) <= 2 ^ 20 -> fin64 z -> 0 <= val z <= INR k * (2 * B) -> (forall x, In x l -> fin64 x /\ 0 <= val x <= B) ->
  let s := sum_from F64 z l in fin64 s /\ val z <= val s <= INR (k + length l) * (2 * B) /\ forall x, In x l -> val x <= val s.
Proof.
  intros B0 B8. pose proof u_range as [U0 U1]. pose proof u_val as U2.
  induction l as [|x l IH]; intros z k HK Fz Hz Hl s.
  - unfold s. cbn [sum_from fold_left length]. rewrite Nat.add_0_r. split; [exact Fz|]. split; [cbn; lra|]. intros x [].
  - destruct (Hl x (or_introl eq_refl)) as [Fx Bx].
    assert (K2 : INR k + 1 <= 2 ^ 20).
    { rewrite <- S_INR. eapply Rle_trans; [apply le_INR with (m := (k + length (x :: l))%nat); cbn [length]; lia|exact HK]. }
    pose proof (pos_INR k) as K0.
    assert (KB : INR k * (2 * B) + B <= bpow radix2 900).
    { apply Rle_trans with (2 ^ 21 * B); [nra|]. apply Rle_trans with (bpow radix2 21 * bpow radix2 850).
      - apply Rmult_le_compat; [lra|exact B0|cbn; lra|exact B8].
      - rewrite <- bpow_plus. apply bpow_le. lia. }
    assert (P : 0 <= val z + val x) by lra.
    destruct (add64 z x Fz Fx) as [Fa Va]; [apply big_400; rewrite Rabs_pos_eq by exact P; lra|].
    pose proof (fl_add_err _ _ (val_repr z Fz) (val_repr x Fx)) as Ea. rewrite <- Va in Ea. rewrite (Rabs_pos_eq _ P) in Ea. apply Rabs_le_inv in Ea.
    assert (G1 : val z <= val (nadd F64 z x)) by (rewrite Va; apply fl_ge_repr; [apply val_repr; exact Fz|lra]).
    assert (G2 : val x <= val (nadd F64 z x)) by (rewrite Va; apply fl_ge_repr; [apply val_repr; exact Fx|lra]).
    destruct (IH (nadd F64 z x) (Datatypes.S k)) as (R1 & R2 & R3).
    + cbn [length] in HK. replace (Datatypes.S k + length l)%nat with (k + Datatypes.S (length l))%nat by lia. exact HK.
    + exact Fa.
    + rewrite S_INR. split; [lra|].
      assert (u * (val z + val x) <= u * (INR k * (2 * B) + B)) by (apply Rmult_le_compat_l; lra).
      assert (KU : INR k * u <= / 1000).
      { apply Rle_trans with (2 ^ 20 * / 2 ^ 53); [apply Rmult_le_compat; lra|lra]. }
      replace (u * (INR k * (2 * B) + B)) with (2 * (INR k * u) * B + u * B) in H by ring.
      assert (2 * (INR k * u) * B <= 2 * / 1000 * B) by (apply Rmult_le_compat_r; lra).
      assert (u * B <= / 1000000 * B) by (apply Rmult_le_compat_r; lra). lra.
    + intros y Hy. apply Hl. right. exact Hy.
    + change (sum_from F64 z (x :: l)) with (sum_from F64 (nadd F64 z x) l) in s. fold s in R1, R2, R3.
      split; [exact R1|]. cbn [length]. replace (k + Datatypes.S (length l))%nat with (Datatypes.S k + length l)%nat by lia.
      split; [lra|]. intros y [<-|Hy]; [lra|auto].
Qed.

(** One scaled square. *)
Lemma square64 (a r y v w : num F64) : divisor 200 a -> bounded 200 r -> 0 <= val r -> bounded 200 y -> bounded 200 v -> bounded 200 w ->
  let q := sqr F64 (ndiv F64 (nsub F64 v w) (nadd F64 a (nmul F64 r (nabs F64 y)))) in
  let scale := val a + val r * Rabs (val y) in
  fin64 q /\ 0 <= val q <= bpow radix2 850 /\ 0 < scale /\
  exists x, val q = fl (x * x) /\ 0 <= x /\ Rabs (val v - val w) <= (x + bpow radix2 (-1075)) * scale * (1 + 6 * u).
Proof.
  intros [Fa Ba] [Fr Br] Pr [Fy By] [Fv Bv] [Fw Bw] q scale. pose proof u_range as [U0 U1].
  assert (B24 : bpow radix2 200 <= bpow radix2 400) by (apply bpow_le; lia).
  assert (B24' : bpow radix2 (-400) <= bpow radix2 (-200)) by (apply bpow_le; lia). cbn [Z.opp] in Ba.
  destruct (abs64 y Fy) as [Fy' Vy].
  destruct (tol64 a r (nabs F64 y)) as (Fs & [T0 T1] & S1).
  { split; [exact Fa|cbn [Z.opp]; lra]. } { split; [exact Fr|lra]. } { exact Pr. } { exact Fy'. } { rewrite Vy. split; [apply Rabs_pos|lra]. }
  rewrite Vy in T0, T1, S1. fold scale in T0, T1, S1. set (s := nadd F64 a _) in *.
  assert (SA : bpow radix2 (-200) <= scale) by (unfold scale; pose proof (Rmult_le_pos _ _ Pr (Rabs_pos (val y))); lra).
  assert (S0 : scale * / 2 <= val s) by nra.
  assert (S2 : 0 < val s) by lra.
  assert (B201 : 2 * bpow radix2 200 = bpow radix2 201) by (change 201%Z with (1 + 200)%Z; rewrite (bpow_plus radix2 1 200); reflexivity).
  assert (B202 : 2 * bpow radix2 201 = bpow radix2 202) by (change 202%Z with (1 + 201)%Z; rewrite (bpow_plus radix2 1 201); reflexivity).
  assert (B29 : bpow radix2 202 <= bpow radix2 900) by (apply bpow_le; lia).
  pose proof (bpow_gt_0 radix2 200) as P2. set (D := val v - val w).
  assert (BD : Rabs D <= bpow radix2 201).
  { unfold D, Rminus. eapply Rle_trans; [apply Rabs_triang|]. rewrite Rabs_Ropp. lra. }
  destruct (sub64 v w Fv Fw) as [Fd Vd]; [fold D; apply big_400; lra|]. fold D in Vd. set (d := nsub F64 v w) in *.
  pose proof (fl_sub_err _ _ (val_repr v Fv) (val_repr w Fw)) as Ed. fold D in Ed. rewrite <- Vd in Ed.
  assert (D1 : Rabs D * (1 - u) <= Rabs (val d)).
  { pose proof (Rabs_triang (val d) (D - val d)) as X. replace (val d + (D - val d)) with D in X by ring.
    rewrite Rabs_minus_sym in Ed. lra. }
  assert (D2 : Rabs (val d) <= bpow radix2 202).
  { pose proof (Rabs_triang (val d - D) D) as X. replace (val d - D + D) with (val d) in X by ring.
    assert (u * Rabs D <= 1 * Rabs D) by (apply Rmult_le_compat_r; [apply Rabs_pos|lra]). lra. }
  set (z := val d / val s).
  assert (ZS : Rabs z * val s = Rabs (val d)).
  { unfold z, Rdiv. rewrite Rabs_mult, Rabs_inv, (Rabs_pos_eq (val s)) by lra. field. lra. }
  assert (Z1 : Rabs z <= bpow radix2 403).
  { apply Rmult_le_reg_r with (val s); [exact S2|]. rewrite ZS. apply Rle_trans with (bpow radix2 403 * (bpow radix2 (-200) * / 2)).
    - assert (G1 : bpow radix2 403 * bpow radix2 (-200) = bpow radix2 203) by (rewrite <- bpow_plus; reflexivity).
      assert (G2 : 2 * bpow radix2 202 = bpow radix2 203) by (change 203%Z with (1 + 202)%Z; rewrite (bpow_plus radix2 1 202); reflexivity). lra.
    - apply Rmult_le_compat_l; [apply bpow_ge_0|lra]. }
  destruct (div64 d s Fd Fs) as [Fx Vx]; [lra|fold z; apply big_400; eapply Rle_trans; [exact Z1|apply bpow_le; lia]|].
  fold z in Vx. set (x := ndiv F64 d s) in *.
  pose proof (fl_any z) as Ex. rewrite <- Vx in Ex. set (eps := bpow radix2 (-1075)) in *.
  assert (E0 : 0 < eps) by apply bpow_gt_0. assert (E1 : eps <= 1) by (apply (bpow_le radix2 (-1075) 0); lia).
  assert (X1 : Rabs z * (1 - u) <= Rabs (val x) + eps).
  { pose proof (Rabs_triang (val x) (z - val x)) as X. replace (val x + (z - val x)) with z in X by ring. rewrite Rabs_minus_sym in Ex. lra. }
  assert (X2 : Rabs (val x) <= bpow radix2 405).
  { pose proof (Rabs_triang (val x - z) z) as X. replace (val x - z + z) with (val x) in X by ring.
    assert (u * Rabs z <= 1 * Rabs z) by (apply Rmult_le_compat_r; [apply Rabs_pos|lra]).
    assert (1 <= bpow radix2 403) by (apply (bpow_le radix2 0 403); lia).
    assert (4 * bpow radix2 403 = bpow radix2 405) by (change 405%Z with (2 + 403)%Z; rewrite (bpow_plus radix2 2 403); reflexivity). lra. }
  assert (XX : val x * val x = Rabs (val x) * Rabs (val x)) by (rewrite <- Rabs_mult, Rabs_pos_eq by nra; reflexivity).
  assert (X0 : 0 <= val x * val x) by nra.
  assert (X3 : val x * val x <= bpow radix2 810).
  { rewrite XX. change 810%Z with (405 + 405)%Z. rewrite bpow_plus. apply Rmult_le_compat; try apply Rabs_pos; exact X2. }
  destruct (mul64 x x Fx Fx) as [Fq Vq]; [apply big_400; rewrite Rabs_pos_eq by exact X0; eapply Rle_trans; [exact X3|apply bpow_le; lia]|].
  change (nmul F64 x x) with q in Fq, Vq. split; [exact Fq|]. split.
  { rewrite Vq. split; [apply fl_ge_repr; [apply repr_0|exact X0]|]. apply fl_le_repr; [apply repr_bpow; lia|].
    eapply Rle_trans; [exact X3|apply bpow_le; lia]. }
  split; [exact T0|]. exists (Rabs (val x)). split; [rewrite Vq, XX; reflexivity|]. split; [apply Rabs_pos|].
  apply Rmult_le_reg_r with ((1 - u) * (1 - u)); [nra|].
  replace (Rabs D * ((1 - u) * (1 - u))) with (Rabs D * (1 - u) * (1 - u)) by ring.
  apply Rle_trans with (Rabs (val d) * (1 - u)); [apply Rmult_le_compat_r; lra|]. rewrite <- ZS.
  replace (Rabs z * val s * (1 - u)) with (Rabs z * (1 - u) * val s) by ring.
  apply Rle_trans with ((Rabs (val x) + eps) * (scale * (1 + 3 * u))).
  - apply Rmult_le_compat; [|lra|exact X1|lra]. apply Rmult_le_pos; [apply Rabs_pos|lra].
  - replace ((Rabs (val x) + eps) * scale * (1 + 6 * u) * ((1 - u) * (1 - u))) with ((Rabs (val x) + eps) * (scale * ((1 + 6 * u) * ((1 - u) * (1 - u))))) by ring.
    apply Rmult_le_compat_l; [pose proof (Rabs_pos (val x)); lra|]. apply Rmult_le_compat_l; [lra|]. nra.
Qed.

(** From the rounded squares back to the components. *)
Lemma component (N x q sum w err : R) : 1 <= N -> N <= 2 ^ 20 -> 0 <= x -> q = fl (x * x) -> q <= sum -> 0 <= sum -> w = fl (sum / N) -> 0 <= w ->
  err = fl (sqrt w) -> err <= 1 -> x + bpow radix2 (-1075) <= sqrt N * (1 + 7 * u).
Proof.
  intros N1 N2 X0 Eq Hq S0 Ew W0 Ee He. pose proof u_range as [U0 U1]. set (eps := bpow radix2 (-1075)).
  assert (E0 : 0 < eps) by apply bpow_gt_0.
  assert (E1 : eps <= u * / 2 ^ 30).
  { apply Rle_trans with (bpow radix2 (-53) * bpow radix2 (-30)); [rewrite <- bpow_plus; apply bpow_le; lia|].
    apply Rmult_le_compat; [apply bpow_ge_0|apply bpow_ge_0|apply Rle_refl|cbn; lra]. }
  assert (E2 : eps <= u * / 1000) by (eapply Rle_trans; [exact E1|apply Rmult_le_compat_l; lra]).
  pose proof (sqrt_pos w) as Q0. pose proof (sqrt_sqrt w W0) as QQ.
  pose proof (fl_any (sqrt w)) as A1. rewrite <- Ee, (Rabs_pos_eq _ Q0) in A1. fold eps in A1. apply Rabs_le_inv in A1.
  assert (Q1 : sqrt w <= 1 + 2 * u) by nra.
  assert (W1 : w <= 1 + 5 * u) by (rewrite <- QQ; apply Rle_trans with ((1 + 2 * u) * (1 + 2 * u)); [apply Rmult_le_compat; lra|nra]).
  assert (SN0 : 0 <= sum / N) by (apply Rmult_le_pos; [exact S0|left; apply Rinv_0_lt_compat; lra]).
  pose proof (fl_any (sum / N)) as A2. rewrite <- Ew, (Rabs_pos_eq _ SN0) in A2. fold eps in A2. apply Rabs_le_inv in A2.
  assert (SN : sum / N <= 1 + 7 * u) by nra.
  assert (S1 : sum <= N * (1 + 7 * u)).
  { replace sum with (sum / N * N) by (field; lra). rewrite Rmult_comm. apply Rmult_le_compat_l; lra. }
  assert (XX : 0 <= x * x) by nra.
  pose proof (fl_any (x * x)) as A3. rewrite <- Eq, (Rabs_pos_eq _ XX) in A3. fold eps in A3. apply Rabs_le_inv in A3.
  assert (X2 : x * x <= N * (1 + 9 * u)).
  { assert (x * x * (1 - u) <= N * (1 + 7 * u) + eps) by lra.
    apply Rmult_le_reg_r with (1 - u); [lra|]. eapply Rle_trans; [exact H|].
    apply Rle_trans with (N * (1 + 7 * u) + N * eps); [nra|].
    replace (N * (1 + 9 * u) * (1 - u)) with (N * ((1 + 9 * u) * (1 - u))) by ring. rewrite <- Rmult_plus_distr_l. apply Rmult_le_compat_l; [lra|]. nra. }
  pose proof (sqrt_pos N) as R0. pose proof (sqrt_sqrt N ltac:(lra)) as RR.
  assert (R1 : 1 <= sqrt N) by (rewrite <- sqrt_1 at 1; apply sqrt_le_1_alt; exact N1).
  assert (X3 : x <= sqrt N * (1 + 5 * u)).
  { destruct (Rle_dec x (sqrt N * (1 + 5 * u))) as [C|C]; [exact C|exfalso]. apply Rnot_le_lt in C.
    assert (P : 0 <= sqrt N * (1 + 5 * u)) by (apply Rmult_le_pos; lra).
    assert (sqrt N * (1 + 5 * u) * (sqrt N * (1 + 5 * u)) < x * x) by (apply Rmult_le_0_lt_compat; lra).
    replace (sqrt N * (1 + 5 * u) * (sqrt N * (1 + 5 * u))) with (sqrt N * sqrt N * ((1 + 5 * u) * (1 + 5 * u))) in H by ring. rewrite RR in H.
    assert (N * (1 + 9 * u) <= N * ((1 + 5 * u) * (1 + 5 * u))) by (apply Rmult_le_compat_l; [lra|nra]). lra. }
  assert (eps <= sqrt N * u) by nra. lra.
Qed.

Theorem estimate64 (cm : cmath F64) n (absTol relTol y0 v w : list (num F64)) :
  fsqrt cm = SFsqrt 53 1024 -> (1 <= n)%nat -> INR n <= 2 ^ 20 ->
  length absTol = n -> length relTol = n -> length y0 = n -> length v = n -> length w = n ->
  (forall x, In x absTol -> divisor 200 x) -> (forall x, In x relTol -> bounded 200 x /\ 0 <= val x) ->
  (forall x, In x y0 \/ In x v \/ In x w -> bounded 200 x) ->
  (let err := scaled_error cm n absTol relTol y0 v w in nleb F64 err (lit F64 1) = true \/ nltb F64 (lit F64 1) err = false) ->
  forall i, (i < n)%nat ->
    Rabs (val (nth i v (zero F64)) - val (nth i w (zero F64))) <=
    sqrt (INR n) * (val (nth i absTol (zero F64)) + val (nth i relTol (zero F64)) * Rabs (val (nth i y0 (zero F64)))) * (1 + 14 * u).
Proof.
  intros ES N1 N2 La Lr L0 Lv Lw Ha Hr Hy HE i Hi. pose proof u_range as [U0 U1].
  cbv zeta in HE. unfold scaled_error in HE. rewrite ES in HE.
  set (f := fun j : nat => sqr F64 (ndiv F64 (nsub F64 (nth j v (zero F64)) (nth j w (zero F64)))
      (nadd F64 (nth j absTol (zero F64)) (nmul F64 (nth j relTol (zero F64)) (nabs F64 (nth j y0 (zero F64))))))).
  set (qs := map _ (combine (combine v w) _)) in HE.
  assert (EQ : qs = map f (seq 0 n)).
  { unfold qs, f. clear - La Lr L0 Lv Lw. revert absTol relTol y0 v w La Lr L0 Lv Lw.
    induction n as [|n IH]; intros [|a al] [|r rl] [|y yl] [|v vl] [|w wl]; intros; try discriminate; [reflexivity|].
    cbn [combine map seq]. f_equal. rewrite <- seq_shift, map_map. apply (IH al rl yl vl wl); auto. }
  assert (H : forall j, (j < n)%nat -> fin64 (f j) /\ 0 <= val (f j) <= bpow radix2 850 /\
    0 < val (nth j absTol (zero F64)) + val (nth j relTol (zero F64)) * Rabs (val (nth j y0 (zero F64))) /\
    exists x, val (f j) = fl (x * x) /\ 0 <= x /\ Rabs (val (nth j v (zero F64)) - val (nth j w (zero F64))) <=
      (x + bpow radix2 (-1075)) * (val (nth j absTol (zero F64)) + val (nth j relTol (zero F64)) * Rabs (val (nth j y0 (zero F64)))) * (1 + 6 * u)).
  { intros j Hj. destruct (Hr (nth j relTol (zero F64))) as [Br Pr]; [apply nth_In; lia|].
    apply square64; [apply Ha, nth_In; lia|exact Br|exact Pr|apply Hy; left; apply nth_In; lia|apply Hy; right; left; apply nth_In; lia|apply Hy; right; right; apply nth_In; lia]. }
  destruct zero64 as [Fz Vz].
  destruct (sum_above (bpow radix2 850) (bpow_ge_0 _ _) (Rle_refl _) qs (zero F64) 0%nat) as (Fs & Bs & Gs).
  { rewrite EQ, map_length, seq_length. exact N2. } { exact Fz. } { rewrite Vz. cbn [INR]. lra. }
  { intros x Hx. rewrite EQ in Hx. apply in_map_iff in Hx as (j & <- & Hj). apply in_seq in Hj. destruct (H j) as (G1 & G2 & _); [lia|]. auto. }
  fold (nsum F64 qs) in Fs, Bs, Gs. set (sum := nsum F64 qs) in *.
  assert (Lq : length qs = n) by (rewrite EQ, map_length, seq_length; reflexivity). rewrite Lq in Bs. cbn [Nat.add] in Bs. rewrite Vz in Bs.
  assert (N0 : 1 <= INR n) by (apply (le_INR 1); exact N1).
  destruct (ofnat64 n) as [Fn Vn].
  { apply le_IZR. rewrite <- INR_IZR_INZ. apply Rle_trans with (2 ^ 20); [exact N2|]. rewrite pow_IZR. apply IZR_le. discriminate. }
  assert (Q0 : 0 <= val sum / INR n) by (apply Rmult_le_pos; [lra|left; apply Rinv_0_lt_compat; lra]).
  assert (Q1 : val sum / INR n <= bpow radix2 900).
  { apply Rmult_le_reg_r with (INR n); [lra|]. replace (val sum / INR n * INR n) with (val sum) by (field; lra).
    eapply Rle_trans; [exact (proj2 Bs)|]. rewrite Rmult_comm. apply Rmult_le_compat_r; [lra|].
    replace (2 * bpow radix2 850) with (bpow radix2 851); [apply bpow_le; lia|]. change 851%Z with (1 + 850)%Z. rewrite bpow_plus. reflexivity. }
  destruct (div64 sum (ofnat F64 n) Fs Fn) as [Fw Vw]; [rewrite Vn; lra|rewrite Vn; apply big_400; rewrite Rabs_pos_eq; assumption|].
  rewrite Vn in Vw. assert (W0 : 0 <= val (ndiv F64 sum (ofnat F64 n))) by (rewrite Vw; apply fl_ge_repr; [apply repr_0|exact Q0]).
  destruct (sqrt64 _ Fw W0) as [Fe Ve].
  assert (L1 : fin64 (lit F64 1) /\ val (lit F64 1) = 1).
  { split; [split; vm_compute; reflexivity|unfold val; cbn; unfold F2R; cbn; lra]. }
  destruct L1 as [F1 V1]. rewrite (ltb64 _ _ F1 Fe), (leb64 _ _ Fe F1), V1 in HE.
  assert (C : val (SFsqrt 53 1024 (ndiv F64 sum (ofnat F64 n))) <= 1).
  { destruct HE as [HE|HE].
    - destruct (Rle_bool_spec (val (SFsqrt 53 1024 (ndiv F64 sum (ofnat F64 n)))) 1) as [C|C]; [exact C|discriminate].
    - destruct (Rlt_bool_spec 1 (val (SFsqrt 53 1024 (ndiv F64 sum (ofnat F64 n))))) as [C|C]; [discriminate|exact C]. }
  destruct (H i Hi) as (_ & _ & T0 & x & Ex & X0 & B).
  assert (K : x + bpow radix2 (-1075) <= sqrt (INR n) * (1 + 7 * u)).
  { eapply component; [exact N0|exact N2|exact X0|exact Ex| |exact (proj1 Bs)|exact Vw|exact W0|exact Ve|exact C].
    apply Gs. rewrite EQ. apply in_map, in_seq. lia. }
  eapply Rle_trans; [exact B|]. set (tol := val (nth i absTol (zero F64)) + _) in *.
  apply Rle_trans with (sqrt (INR n) * (1 + 7 * u) * tol * (1 + 6 * u)).
  - apply Rmult_le_compat_r; [lra|]. apply Rmult_le_compat_r; lra.
  - replace (sqrt (INR n) * (1 + 7 * u) * tol * (1 + 6 * u)) with (sqrt (INR n) * tol * ((1 + 7 * u) * (1 + 6 * u))) by ring.
    apply Rmult_le_compat_l; [|nra]. apply Rmult_le_pos; [apply sqrt_pos|lra].
Qed.

(** In an integration by seulex. *)
Theorem accepted64 (S : Type) (cm : cmath F64) (lap : lapack F64) (sys : odesys F64 S) (absTol relTol : list (num F64)) fuel rhs jacf :
  computes sys rhs jacf -> fsqrt cm = SFsqrt 53 1024 ->
  nltb F64 (jacRedo relTol) (nmul F64 (lit F64 2) (jacRedo relTol)) = true ->
  (1 <= nEqns sys)%nat -> INR (nEqns sys) <= 2 ^ 20 ->
  length absTol = nEqns sys -> length relTol = nEqns sys ->
  (forall x, In x absTol -> divisor 200 x) -> (forall x, In x relTol -> bounded 200 x /\ 0 <= val x) ->
  forall m xs xe y dx k b, length y = nEqns sys ->
  seulex_reach cm lap sys absTol relTol fuel m xs xe y dx k b ->
  exists x0 y0 xj yj q,
    let E := col lap (nEqns sys) rhs (jacf xj yj) x0 y0 (ss_dxDid (pt_step b)) in
    (1 <= q <= 12)%nat /\
    ((k = 1%nat /\ x0 = xs /\ y0 = y) \/
     exists j b', k = Datatypes.S j /\ seulex_reach cm lap sys absTol relTol fuel m xs xe y dx j b' /\ x0 = pt_x b' /\ y0 = pt_y b') /\
    pt_y b = neville E q q /\
    ((forall x, In x y0 \/ In x (pt_y b) \/ In x (neville E q (q - 1)) -> bounded 200 x) ->
     forall i, (i < nEqns sys)%nat ->
       Rabs (val (nth i (pt_y b) (zero F64)) - val (nth i (neville E q (q - 1)) (zero F64))) <=
       sqrt (INR (nEqns sys)) * (val (nth i absTol (zero F64)) + val (nth i relTol (zero F64)) * Rabs (val (nth i y0 (zero F64)))) * (1 + 14 * u)).
Proof.
  intros CP ES HJ N1 N2 La Lr Ha Hr m xs xe y dx k b Ly R.
  destruct (each cm lap sys absTol relTol fuel rhs jacf CP HJ _ _ _ _ _ _ _ R) as (x0 & y0 & Hw & xj & yj & q & _ & (Hq & Hy & He & _)).
  exists x0, y0, xj, yj, q. cbv zeta. split; [lia|]. split; [exact Hw|]. split; [exact Hy|]. intros HB i Hi.
  assert (L0 : length y0 = nEqns sys).
  { destruct Hw as [(_ & _ & ->)|(j' & b' & _ & R' & _ & ->)]; auto.
    eapply (reach_length cm lap sys absTol relTol fuel rhs jacf CP HJ); eauto. }
  set (E := col lap (nEqns sys) rhs (jacf xj yj) x0 y0 (ss_dxDid (pt_step b))) in *.
  assert (LE : forall c d, length (neville E c d) = nEqns sys).
  { intros c d. apply nevilles_length. intros j. apply col_length. exact L0. }
  apply (estimate64 cm (nEqns sys) absTol relTol y0 (pt_y b) (neville E q (q - 1))); auto. rewrite Hy. apply LE.
Qed.

Lemma nan_lost :
  normalizeError (A := F64) [lit F64 1; lit F64 1] [lit F64 1; lit F64 1] [lit F64 0; lit F64 0] [lit F64 0; lit F64 0] [S754_nan; lit F64 0] = Ok (lit F64 0) /\
  normalizeError (A := F64) [lit F64 1; lit F64 1] [lit F64 1; lit F64 1] [lit F64 0; lit F64 0] [lit F64 0; lit F64 0] [lit F64 0; S754_nan] = Ok S754_nan.
Proof.
  assert (X : forall (o : outcome (num F64)) w, match o with Ok (S754_zero false) => w = true | Ok S754_nan => w = false | _ => False end ->
    o = Ok (if w then S754_zero false else S754_nan)).
  { intros [[[]| | |]| | |] w E; try contradiction; subst w; reflexivity. }
  split; [apply (X _ true)|apply (X _ false)]; vm_compute; reflexivity.
Qed.
