(** The mixture fraction in IEEE doubles. *)
From Coq Require Import List Arith ZArith QArith Bool Lia Reals Lra.
From Coq Require Import Floats.SpecFloat.
From Flocq Require Import Core BinarySingleNaN.
From Verif Require Import Outcome Arith MixtureFraction Ieee SweepIeee MechReal PyJacIeee TimeIeee.
Import ListNotations.
Local Open Scope R_scope.

(** ** Vocabulary (not functions of /repo) *)

(** Number of atoms of an element; absent entries are zero. *)
Definition count (o : option Z) : R := IZR (match o with Some z => z | None => 0%Z end).

(** Coefficient of a species in Bilger's formula without rounding: (2 C + H/2 - O)/W. *)
Definition coefficient (s : speciesData F64) : R :=
  match sp_elements s with
  | Some (c, h, o) => (2 * count c + count h / 2 - count o) / val (sp_W s)
  | None => 0
  end.

(** Bilger's sum of a composition without rounding. *)
Definition bilger_sum (sp : list (speciesData F64)) (Y : list (num F64)) : R :=
  Rsum (map (fun sy => coefficient (fst sy) * val (snd sy)) (combine sp Y)).

(** Up to 2^20 atoms of an element, and a molecular weight that is not absurdly small: 2 C + H/2 + O <= W. *)
Definition sane_species (s : speciesData F64) : Prop :=
  exists c h o, sp_elements s = Some (c, h, o) /\
    0 <= count c <= 2 ^ 20 /\ 0 <= count h <= 2 ^ 20 /\ 0 <= count o <= 2 ^ 20 /\
    fin64 (sp_W s) /\ 0 < val (sp_W s) /\ 2 * count c + count h / 2 + count o <= val (sp_W s).

(** Finite fractions, not negative, of sum at most 2. *)
Definition sane_fractions (Y : list (num F64)) : Prop :=
  (forall y, In y Y -> fin64 y /\ 0 <= val y) /\ Rsum (map val Y) <= 2.

(** ** Coefficients *)

Lemma u_val : u <= / 2 ^ 53. Proof. unfold u. cbn. lra. Qed.

Lemma fl_abs r b : Rabs r <= b -> Rabs (fl r - r) <= u * b + u * u.
Proof.
  intros H. eapply Rle_trans; [apply fl_any|].
  assert (u * Rabs r <= u * b) by (apply Rmult_le_compat_l; [left; apply u_pos|exact H]).
  assert (bpow radix2 (-1075) <= u * u).
  { replace (u * u) with (bpow radix2 (-106)).
    - apply bpow_le. lia.
    - change (-106)%Z with (-53 + -53)%Z. rewrite bpow_plus. reflexivity. }
  lra.
Qed.

Lemma repr_int z e : (Z.abs z < 2 ^ 53)%Z -> (-1074 <= e)%Z -> repr (F2R (Float radix2 z e)).
Proof. intros H He. apply generic_format_FLT. exists (Float radix2 z e); auto. Qed.

Lemma count_double (z : Z) : (Z.abs z <= 2 ^ 20)%Z -> fin64 (ofZ (A := F64) z) /\ val (ofZ (A := F64) z) = IZR z.
Proof.
  intros H. unfold ofZ. change (lit F64 (inject_Z z)) with (ndiv F64 (f64_of_Z z) (f64_of_Z 1)).
  destruct val_one as [F1 V1]. destruct (ofZ64 z) as [F2 V2]; [lia|].
  assert (E : val (f64_of_Z z) / val (f64_of_Z 1) = IZR z) by (rewrite V1, V2; field).
  assert (Rz : repr (IZR z)) by (rewrite <- V2; apply val_repr; exact F2).
  destruct (div64 (f64_of_Z z) (f64_of_Z 1) F2 F1) as [F V].
  - rewrite V1. lra.
  - rewrite E, fl_id by exact Rz. rewrite <- V2. apply val_big. exact F2.
  - split; [exact F|]. rewrite V, E. apply fl_id. exact Rz.
Qed.

Lemma literal_two : fin64 (lit F64 2) /\ val (lit F64 2) = 2.
Proof. split; [split; vm_compute; reflexivity|]. unfold val. cbn. unfold F2R. cbn. lra. Qed.
Lemma literal_half : fin64 (lit F64 (1 # 2)) /\ val (lit F64 (1 # 2)) = 1 / 2.
Proof. split; [split; vm_compute; reflexivity|]. unfold val. cbn. unfold F2R. cbn. lra. Qed.
Lemma literal_minus : fin64 (lit F64 (-1)) /\ val (lit F64 (-1)) = -1.
Proof. split; [split; vm_compute; reflexivity|]. unfold val. cbn. unfold F2R. cbn. lra. Qed.

(** The product of a literal and an integer is exact. *)
Lemma scaled_count (l : num F64) (z : Z) (r : R) : fin64 l -> (0 <= z <= 2 ^ 20)%Z -> val l * IZR z = r -> repr r -> Rabs r <= 2 ^ 22 ->
  fin64 (nmul F64 l (ofZ (A := F64) z)) /\ val (nmul F64 l (ofZ (A := F64) z)) = r.
Proof.
  intros Fl Hz E Rr B. destruct (count_double z) as [F V]; [lia|].
  destruct (mul64 l (ofZ (A := F64) z) Fl F) as [F' V'].
  - rewrite V, E. apply big_lt. eapply Rle_trans; [exact B|]. replace (2 ^ 22) with (bpow radix2 22) by (cbn; lra). apply bpow_le. lia.
  - split; [exact F'|]. rewrite V', V, E. apply fl_id. exact Rr.
Qed.

Lemma quotient64 (x w : num F64) : fin64 x -> fin64 w -> 0 < val w -> Rabs (val x) <= val w ->
  fin64 (ndiv F64 x w) /\ Rabs (val (ndiv F64 x w) - val x / val w) <= u + u * u.
Proof.
  intros Fx Fw Pw B.
  assert (Q : Rabs (val x / val w) <= 1).
  { unfold Rdiv. rewrite Rabs_mult, Rabs_inv, (Rabs_pos_eq (val w)) by lra.
    apply (Rmult_le_reg_r (val w)); [exact Pw|]. rewrite Rmult_assoc, Rinv_l by lra. lra. }
  destruct (div64 x w Fx Fw) as [F V]; [lra| |].
  - apply big_lt. eapply Rle_trans; [exact Q|]. apply (bpow_le radix2 0 1000). lia.
  - split; [exact F|]. rewrite V. pose proof (fl_abs _ _ Q). lra.
Qed.

Lemma sum64 (x y : num F64) : fin64 x -> fin64 y -> Rabs (val x + val y) <= 4 ->
  fin64 (nadd F64 x y) /\ Rabs (val (nadd F64 x y) - (val x + val y)) <= u * Rabs (val x + val y).
Proof.
  intros Fx Fy B. destruct (add64 x y Fx Fy) as [F V].
  - apply big_lt. eapply Rle_trans; [exact B|]. replace 4 with (bpow radix2 2) by (cbn; lra). apply bpow_le. lia.
  - split; [exact F|]. rewrite V. apply fl_add_err; apply val_repr; assumption.
Qed.

Lemma u_range : 0 < u <= / 1000000.
Proof.
  split; [apply u_pos|]. eapply Rle_trans; [apply u_val|]. apply Rinv_le_contravar; [lra|]. lra.
Qed.

(** A coefficient as [initialize] computes it. *)
Lemma alpha64 s : sane_species s -> exists a, alpha_of s = Ok a /\ fin64 a /\
  Rabs (val a - coefficient s) <= 9 * u /\ Rabs (coefficient s) <= 1.
Proof.
  intros (c & h & o & E & Hc & Hh & Ho & Fw & Pw & S). unfold alpha_of, coefficient. rewrite E.
  unfold count in *. set (zc := match c with Some z => z | None => 0%Z end) in *.
  set (zh := match h with Some z => z | None => 0%Z end) in *. set (zo := match o with Some z => z | None => 0%Z end) in *.
  assert (P20 : 2 ^ 20 = IZR (2 ^ 20)) by (cbn; lra). rewrite P20 in *.
  destruct Hc as [C1 C2], Hh as [H1 H2], Ho as [O1 O2]. apply le_IZR in C1, H1, O1.
  pose proof (le_IZR _ _ C2) as C3. pose proof (le_IZR _ _ H2) as H3. pose proof (le_IZR _ _ O2) as O3.
  apply IZR_le in C1, H1, O1.
  destruct literal_two as [L1 L2]. destruct literal_half as [L3 L4]. destruct literal_minus as [L5 L6].
  assert (B20 : IZR (2 ^ 20) <= 1048576) by (apply Req_le; reflexivity).
  destruct (scaled_count (lit F64 2) zc (2 * IZR zc) L1) as [F0 V0].
  { split; [apply le_IZR; exact C1|exact C3]. } { rewrite L2; ring. }
  { replace (2 * IZR zc) with (F2R (Float radix2 (2 * zc) 0)) by (unfold F2R; cbn [Fnum Fexp bpow]; rewrite mult_IZR; ring).
    apply le_IZR in C1. apply repr_int; lia. }
  { rewrite Rabs_pos_eq by lra. lra. }
  destruct (scaled_count (lit F64 (1 # 2)) zh (IZR zh / 2) L3) as [F1 V1].
  { split; [apply le_IZR; exact H1|exact H3]. } { rewrite L4; field. }
  { replace (IZR zh / 2) with (F2R (Float radix2 zh (-1))) by (unfold F2R; cbn; field).
    apply le_IZR in H1. apply repr_int; lia. }
  { rewrite Rabs_pos_eq by lra. lra. }
  destruct (scaled_count (lit F64 (-1)) zo (- IZR zo) L5) as [F2 V2].
  { split; [apply le_IZR; exact O1|exact O3]. } { rewrite L6; ring. }
  { replace (- IZR zo) with (F2R (Float radix2 (- zo) 0)) by (unfold F2R; cbn [Fnum Fexp bpow]; rewrite opp_IZR; ring).
    apply le_IZR in O1. apply repr_int; lia. }
  { rewrite Rabs_Ropp, Rabs_pos_eq by lra. lra. }
  fold (@or_default Z c 0%Z) in *.
  change (or_default c 0%Z) with zc. change (or_default h 0%Z) with zh. change (or_default o 0%Z) with zo.
  set (W := val (sp_W s)) in *.
  destruct (quotient64 _ (sp_W s) F0 Fw Pw) as [G0 E0]; [rewrite V0, Rabs_pos_eq; fold W; lra|].
  destruct (quotient64 _ (sp_W s) F1 Fw Pw) as [G1 E1]; [rewrite V1, Rabs_pos_eq; fold W; lra|].
  destruct (quotient64 _ (sp_W s) F2 Fw Pw) as [G2 E2]; [rewrite V2, Rabs_Ropp, Rabs_pos_eq; fold W; lra|].
  fold W in E0, E1, E2. rewrite V0 in E0. rewrite V1 in E1. rewrite V2 in E2.
  set (a0 := ndiv F64 (nmul F64 (lit F64 2) (ofZ zc)) (sp_W s)) in *.
  set (a1 := ndiv F64 (nmul F64 (lit F64 (1 # 2)) (ofZ zh)) (sp_W s)) in *.
  set (a2 := ndiv F64 (nmul F64 (lit F64 (-1)) (ofZ zo)) (sp_W s)) in *.
  assert (X : forall t, 0 <= t -> t <= W -> 0 <= t / W <= 1).
  { intros t T1 T2. split; [apply Rdiv_le_0_compat || (apply Rmult_le_pos; [exact T1|left; apply Rinv_0_lt_compat; exact Pw])|].
    - apply (Rmult_le_reg_r W); [exact Pw|]. unfold Rdiv. rewrite Rmult_assoc, Rinv_l by lra. lra. }
  set (x0 := 2 * IZR zc / W) in *. set (x1 := IZR zh / 2 / W) in *.
  assert (X2 : - IZR zo / W = - (IZR zo / W)) by (field; lra). rewrite X2 in E2. set (x2 := IZR zo / W) in *.
  assert (XS : x0 + x1 + x2 = (2 * IZR zc + IZR zh / 2 + IZR zo) / W) by (unfold x0, x1, x2; field; lra).
  assert (Y : 0 <= x0 + x1 + x2 <= 1) by (rewrite XS; apply X; lra).
  assert (Y0 : 0 <= x0 <= 1) by (apply X; lra). assert (Y1 : 0 <= x1 <= 1) by (apply X; lra). assert (Y2 : 0 <= x2 <= 1) by (apply X; lra).
  pose proof u_range as [U0 U1]. assert (UU : u * u <= u) by nra.
  apply Rabs_le_inv in E0, E1, E2.
  destruct (sum64 a0 a1 G0 G1) as [G3 E3]; [apply Rabs_le; lra|].
  assert (E3' : Rabs (val (nadd F64 a0 a1) - (val a0 + val a1)) <= u * 1.5).
  { eapply Rle_trans; [exact E3|]. apply Rmult_le_compat_l; [lra|]. apply Rabs_le. lra. }
  apply Rabs_le_inv in E3'.
  destruct (sum64 (nadd F64 a0 a1) a2 G3 G2) as [G4 E4]; [apply Rabs_le; lra|].
  assert (E4' : Rabs (val (nadd F64 (nadd F64 a0 a1) a2) - (val (nadd F64 a0 a1) + val a2)) <= u * 1.5).
  { eapply Rle_trans; [exact E4|]. apply Rmult_le_compat_l; [lra|]. apply Rabs_le. lra. }
  apply Rabs_le_inv in E4'.
  replace ((2 * IZR zc + IZR zh / 2 - IZR zo) / W) with (x0 + x1 - x2) by (unfold x0, x1, x2; field; lra).
  exists (nadd F64 (nadd F64 a0 a1) a2). split; [reflexivity|]. split; [exact G4|].
  split; apply Rabs_le; lra.
Qed.

(** ** Bilger's sum *)

(** A coefficient as stored; not a function of /repo. *)
Definition stored (a : num F64) (s : speciesData F64) : Prop :=
  fin64 a /\ Rabs (val a - coefficient s) <= 9 * u /\ Rabs (coefficient s) <= 1.

Lemma stored_all sp : (forall s, In s sp -> sane_species s) ->
  exists al, mapM alpha_of sp = Ok al /\ Forall2 stored al sp.
Proof.
  induction sp as [|s sp IH]; intros Hs; [exists []; split; [reflexivity|constructor]|].
  destruct (alpha64 s (Hs s (or_introl eq_refl))) as (a & Ea & Fa & A1 & A2).
  destruct IH as (al & El & Hl); [intros x Hx; apply Hs; right; exact Hx|].
  exists (a :: al). cbn [mapM]. rewrite Ea. cbn [bind]. rewrite El. split; [reflexivity|].
  constructor; [split; [exact Fa|split; assumption]|exact Hl].
Qed.

Lemma Rsum_nonneg (Y : list (num F64)) : (forall y, In y Y -> fin64 y /\ 0 <= val y) -> 0 <= Rsum (map val Y).
Proof.
  induction Y as [|y Y IH]; intros HY; cbn [map Rsum]; [lra|].
  pose proof (proj2 (HY y (or_introl eq_refl))). assert (0 <= Rsum (map val Y)) by (apply IH; intros x Hx; apply HY; right; exact Hx). lra.
Qed.

(** One term. *)
Lemma term64 a s y : stored a s -> fin64 y -> 0 <= val y <= 2 ->
  fin64 (nmul F64 a y) /\ Rabs (val (nmul F64 a y) - coefficient s * val y) <= 11 * u * val y + u * u /\
  Rabs (coefficient s * val y) <= val y.
Proof.
  intros (Fa & A1 & A2) Fy Hy. pose proof u_range as [U0 U1].
  set (c := coefficient s) in *. set (x := val a) in *. set (v := val y) in *.
  apply Rabs_le_inv in A1. apply Rabs_le_inv in A2.
  assert (C : Rabs (c * v) <= v) by (apply Rabs_le; nra).
  assert (D : Rabs (x * v - c * v) <= 9 * u * v).
  { replace (x * v - c * v) with ((x - c) * v) by ring. apply Rabs_le. nra. }
  assert (B : Rabs (x * v) <= 2 * v).
  { apply Rabs_le_inv in C. apply Rabs_le_inv in D. apply Rabs_le. assert (9 * u * v <= v) by nra. lra. }
  destruct (mul64 a y Fa Fy) as [F V].
  { apply big_lt. fold x v. eapply Rle_trans; [exact B|]. apply Rle_trans with (bpow radix2 2); [cbn; lra|apply bpow_le; lia]. }
  split; [exact F|]. split; [|exact C]. rewrite V. fold x v.
  pose proof (fl_abs _ _ B) as R. apply Rabs_le_inv in R. apply Rabs_le_inv in D. apply Rabs_le. lra.
Qed.

Lemma dot64 al sp : Forall2 stored al sp -> forall (Y : list (num F64)) (s : num F64) (S T : R) (k : nat),
  (forall y, In y Y -> fin64 y /\ 0 <= val y) -> 0 <= T -> T + Rsum (map val Y) <= 2 ->
  INR (k + length al) <= 2 ^ 20 -> fin64 s -> Rabs S <= T -> Rabs (val s - S) <= 11 * u * T + 5 * u * INR k ->
  let r := fold_left (fun s ay => nadd F64 s (nmul F64 (fst ay) (snd ay))) (combine al Y) s in
  fin64 r /\ Rabs (val r - (S + bilger_sum sp Y)) <= 22 * u + 5 * u * INR (k + length al) /\ Rabs (S + bilger_sum sp Y) <= 2.
Proof.
  pose proof u_range as [U0 U1]. intros HF. induction HF as [|a q al sp Ha HF IH]; intros Y s S T k HY HT HS HK Fs BS Es r.
  - unfold bilger_sum in *. cbn in r. subst r. cbn [combine map Rsum length]. pose proof (Rsum_nonneg Y HY).
    rewrite Nat.add_0_r, Rplus_0_r. split; [exact Fs|]. split; [|lra]. eapply Rle_trans; [exact Es|]. nra.
  - destruct Y as [|y Y].
    + unfold bilger_sum in *. cbn in r. subst r. cbn [combine map Rsum length]. cbn [map Rsum] in HS.
      rewrite Rplus_0_r. split; [exact Fs|]. split; [|lra]. eapply Rle_trans; [exact Es|].
      assert (INR k <= INR (k + Datatypes.S (length al))) by (apply le_INR; lia). nra.
    + assert (HY' : forall x, In x Y -> fin64 x /\ 0 <= val x) by (intros x Hx; apply HY; right; exact Hx).
      destruct (HY y (or_introl eq_refl)) as [Fy Py]. pose proof (Rsum_nonneg Y HY') as PY. cbn [map Rsum] in HS.
      destruct (term64 a q y Ha Fy) as (Fp & Ep & Bp); [lra|].
      set (p := nmul F64 a y) in *. set (c := coefficient q) in *.
      assert (K2 : INR k <= 2 ^ 20) by (eapply Rle_trans; [apply le_INR with (m := (k + length (a :: al))%nat); lia|exact HK]).
      assert (UK : 5 * u * INR k <= 1 / 100).
      { pose proof u_val. apply Rle_trans with (5 * / 2 ^ 53 * 2 ^ 20); [|lra].
        apply Rmult_le_compat; [lra|apply pos_INR| |exact K2]. lra. }
      pose proof (Rabs_le_inv _ _ Ep) as Ep'. pose proof (Rabs_le_inv _ _ Bp) as Bp'.
      pose proof (Rabs_le_inv _ _ Es) as Es'. pose proof (Rabs_le_inv _ _ BS) as BS'.
      assert (T1 : 11 * u * T <= 1 / 100) by nra. assert (T2 : 11 * u * val y <= 1 / 100) by nra.
      assert (T3 : u * u <= u) by nra.
      assert (Bsp : Rabs (val s + val p) <= 3) by (apply Rabs_le; lra).
      destruct (sum64 s p Fs Fp) as [F' E']; [lra|].
      assert (E'' : Rabs (val (nadd F64 s p) - (val s + val p)) <= 3 * u) by (eapply Rle_trans; [exact E'|nra]).
      pose proof (Rabs_le_inv _ _ E'') as E3.
      destruct (IH Y (nadd F64 s p) (S + c * val y) (T + val y) (Datatypes.S k) HY') as (R1 & R2 & R3).
      * lra.
      * lra.
      * cbn [length] in HK. replace (Datatypes.S k + length al)%nat with (k + Datatypes.S (length al))%nat by lia. exact HK.
      * exact F'.
      * apply Rabs_le. lra.
      * rewrite S_INR. replace (11 * u * (T + val y) + 5 * u * (INR k + 1)) with (11 * u * T + 11 * u * val y + 5 * u * INR k + 5 * u) by ring.
        apply Rabs_le. lra.
      * cbn [combine fold_left fst snd] in r. fold p in r. fold r in R1, R2.
        assert (EB : S + bilger_sum (q :: sp) (y :: Y) = S + c * val y + bilger_sum sp Y).
        { unfold bilger_sum. cbn [combine map Rsum fst snd]. fold c. ring. }
        rewrite EB. split; [exact R1|]. split; [|exact R3]. cbn [length].
        replace (k + Datatypes.S (length al))%nat with (Datatypes.S k + length al)%nat by lia. exact R2.
Qed.

Lemma stored_length al sp : Forall2 stored al sp -> length al = length sp.
Proof. induction 1; cbn [length]; congruence. Qed.

Lemma zero64 : fin64 (zero F64) /\ val (zero F64) = 0.
Proof. split; [split; reflexivity|reflexivity]. Qed.

Lemma beta64 al sp Y : Forall2 stored al sp -> sane_fractions Y -> sp <> [] -> INR (length sp) <= 2 ^ 20 ->
  fin64 (dot al Y) /\ Rabs (val (dot al Y) - bilger_sum sp Y) <= 27 * INR (length sp) * u /\ Rabs (bilger_sum sp Y) <= 2.
Proof.
  intros HF [HY HS] Hn HN. destruct zero64 as [Fz Vz]. pose proof u_range as [U0 U1].
  pose proof (stored_length al sp HF) as L.
  destruct (dot64 al sp HF Y (zero F64) 0 0 0%nat HY) as (R1 & R2 & R3).
  - lra. - lra. - cbn [plus]. rewrite L. exact HN. - exact Fz. - rewrite Rabs_R0. lra.
  - rewrite Vz. replace (0 - 0) with 0 by ring. rewrite Rabs_R0. cbn. lra.
  - rewrite Rplus_0_l in *. split; [exact R1|]. split; [|exact R3].
    eapply Rle_trans; [exact R2|]. cbn [plus]. rewrite L.
    assert (1 <= INR (length sp)) by (apply (le_INR 1); destruct sp; [congruence|cbn; lia]). nra.
Qed.

(** ** The mixture fraction *)

(** Error of a difference of two sums. *)
Lemma difference64 (x y : num F64) (X Y E : R) : fin64 x -> fin64 y -> 0 <= E <= 1 / 100 -> 5 * u <= E / 5 ->
  Rabs (val x - X) <= E -> Rabs (val y - Y) <= E -> Rabs X <= 2 -> Rabs Y <= 2 ->
  fin64 (nsub F64 x y) /\ Rabs (val (nsub F64 x y) - (X - Y)) <= 2.2 * E.
Proof.
  intros Fx Fy HE HU A1 A2 A3 A4. pose proof u_range as [U0 U1].
  apply Rabs_le_inv in A1. apply Rabs_le_inv in A2. apply Rabs_le_inv in A3. apply Rabs_le_inv in A4.
  assert (B : Rabs (val x - val y) <= 5) by (apply Rabs_le; lra).
  destruct (sub64 x y Fx Fy) as [F V].
  { apply big_lt. eapply Rle_trans; [exact B|]. apply Rle_trans with (bpow radix2 3); [cbn; lra|apply bpow_le; lia]. }
  split; [exact F|]. rewrite V. pose proof (fl_sub_err _ _ (val_repr x Fx) (val_repr y Fy)) as R.
  assert (R' : Rabs (fl (val x - val y) - (val x - val y)) <= 5 * u) by (eapply Rle_trans; [exact R|nra]).
  apply Rabs_le_inv in R'. apply Rabs_le. lra.
Qed.

(** Error of a quotient. *)
Lemma ratio64 (n d : num F64) (N D F : R) : fin64 n -> fin64 d -> 0 <= F <= / 100000 -> / 1000 <= Rabs D <= 4 -> Rabs N <= 4 ->
  Rabs (val n - N) <= F -> Rabs (val d - D) <= F -> 16 * u <= F ->
  val d <> 0 /\ fin64 (ndiv F64 n d) /\ Rabs (val (ndiv F64 n d) - N / D) <= 15 / 10 * F * (1 + Rabs (N / D)) / Rabs D.
Proof.
  intros Fn Fd HF HD HN A1 A2 HU. pose proof u_range as [U0 U1].
  assert (Dd : 99 / 100 * Rabs D <= Rabs (val d)).
  { pose proof (Rabs_triang_inv D (D - val d)) as T. replace (D - (D - val d)) with (val d) in T by ring.
    rewrite (Rabs_minus_sym D) in T. lra. }
  assert (Pd : 0 < Rabs (val d)) by lra. assert (Nd : val d <> 0) by (intros Z; rewrite Z, Rabs_R0 in Pd; lra).
  assert (ND : D <> 0) by (intros Z; rewrite Z, Rabs_R0 in HD; lra).
  set (Z := N / D) in *. set (q := val n / val d).
  assert (Q : Rabs (q - Z) <= F * (1 + Rabs Z) / Rabs (val d)).
  { replace (q - Z) with (((val n - N) - Z * (val d - D)) / val d) by (unfold q, Z; field; auto).
    unfold Rdiv. rewrite Rabs_mult, Rabs_inv. apply Rmult_le_compat_r; [left; apply Rinv_0_lt_compat; exact Pd|].
    pose proof (Rabs_triang (val n - N) (- (Z * (val d - D)))) as T. rewrite Rabs_Ropp, Rabs_mult in T.
    replace (val n - N - Z * (val d - D)) with (val n - N + - (Z * (val d - D))) by ring.
    pose proof (Rabs_pos Z). pose proof (Rmult_le_compat_l (Rabs Z) _ _ H A2). lra. }
  set (G := (1 + Rabs Z) / Rabs D).
  assert (PZ : 0 <= Rabs Z) by apply Rabs_pos.
  assert (PG : 0 < G) by (unfold G; apply Rdiv_lt_0_compat; lra).
  assert (G4 : 1 + Rabs Z <= 4 * G).
  { unfold G. apply (Rmult_le_reg_r (Rabs D)); [lra|]. replace (4 * ((1 + Rabs Z) / Rabs D) * Rabs D) with (4 * (1 + Rabs Z)) by (field; lra). nra. }
  assert (Q' : Rabs (q - Z) <= 102 / 100 * (F * G)).
  { eapply Rle_trans; [exact Q|]. unfold G.
    replace (102 / 100 * (F * ((1 + Rabs Z) / Rabs D))) with (F * (1 + Rabs Z) * (102 / 100 * / Rabs D)) by (field; lra).
    unfold Rdiv. apply Rmult_le_compat_l; [nra|].
    apply (Rmult_le_reg_l (Rabs (val d))); [exact Pd|]. rewrite Rinv_r by lra.
    apply (Rmult_le_reg_r (Rabs D)); [lra|].
    replace (Rabs (val d) * (102 * / 100 * / Rabs D) * Rabs D) with (102 / 100 * Rabs (val d)) by (field; lra). lra. }
  assert (ZB : Rabs Z <= 4000).
  { unfold Z, Rdiv. rewrite Rabs_mult, Rabs_inv. apply (Rmult_le_reg_r (Rabs D)); [lra|]. rewrite Rmult_assoc, Rinv_l by lra. lra. }
  assert (GB : G <= 4001 * 1000).
  { unfold G. apply (Rmult_le_reg_r (Rabs D)); [lra|]. replace ((1 + Rabs Z) / Rabs D * Rabs D) with (1 + Rabs Z) by (field; lra). lra. }
  assert (QB : Rabs q <= 1 + Rabs Z + 102 / 100 * (F * G)).
  { pose proof (Rabs_triang (q - Z) Z) as T. replace (q - Z + Z) with q in T by ring. lra. }
  assert (QC : Rabs q <= 5 * G) by nra.
  destruct (div64 n d Fn Fd Nd) as [Fq Vq].
  { apply big_lt. fold q. eapply Rle_trans; [exact QC|]. apply Rle_trans with (bpow radix2 30); [cbn; lra|apply bpow_le; lia]. }
  split; [exact Nd|]. split; [exact Fq|]. rewrite Vq. fold q.
  pose proof (fl_abs _ _ QC) as R. replace (15 / 10 * F * (1 + Rabs Z) / Rabs D) with (15 / 10 * (F * G)) by (unfold G; field; lra).
  assert (R' : u * (5 * G) + u * u <= 4 / 10 * (F * G)).
  { assert (u * u <= u * G).
    { apply Rmult_le_compat_l; lra. }
    assert (16 * u * G <= F * G) by (apply Rmult_le_compat_r; lra). clear - H H0 U0 PG. nra. }
  apply Rabs_le_inv in R. apply Rabs_le_inv in Q'. apply Rabs_le. lra.
Qed.

Section Mixture.
  Variable sp : list (speciesData F64).
  Variable mf : mixfrac F64.
  Hypothesis Hsp : forall s, In s sp -> sane_species s.
  Hypothesis Hn : INR (length sp) <= 2 ^ 20.
  Hypothesis Hox : sane_fractions (map y_ox sp).
  Hypothesis Hfu : sane_fractions (map y_fu sp).
  Hypothesis Hmf : initialize sp = Ok mf.
  Let beta := bilger_sum sp.
  Let D := beta (map y_fu sp) - beta (map y_ox sp).
  Hypothesis HD : / 1000 <= Rabs D.

  Lemma not_empty : sp <> [].
  Proof. intros E. unfold D, beta, bilger_sum in HD. rewrite E in HD. cbn in HD. replace (0 - 0) with 0 in HD by ring. rewrite Rabs_R0 in HD. lra. Qed.

  Lemma init_value : exists al, Forall2 stored al sp /\
    mf = mkMix al [dot al (map y_ox sp); dot al (map y_fu sp)].
  Proof.
    destruct (stored_all sp Hsp) as (al & E & HF). exists al. split; [exact HF|].
    unfold initialize in Hmf. rewrite E in Hmf. cbn [bind] in Hmf.
    destruct (nltb F64 _ _ || nltb F64 _ _)%bool in Hmf; [discriminate|]. congruence.
  Qed.

  Let N := INR (length sp).
  Let E := 27 * N * u.

  Lemma size_one : 1 <= N.
  Proof. unfold N. apply (le_INR 1). pose proof not_empty. destruct sp; [congruence|cbn; lia]. Qed.

  Lemma error_small : 0 <= E <= / 250000 /\ 5 * u <= E / 5 /\ 16 * u <= 2.2 * E.
  Proof.
    pose proof size_one as H1. pose proof u_range as [U0 U1]. pose proof u_val as U2. unfold E.
    assert (N * u <= 2 ^ 20 * / 2 ^ 53) by (apply Rmult_le_compat; [lra|lra|exact Hn|exact U2]).
    assert (u <= N * u) by nra.
    split; [split; [nra|]|split; nra]. replace (27 * N * u) with (27 * (N * u)) by ring. lra.
  Qed.

  Theorem mixture64 Y : sane_fractions Y -> (length Y <= length sp)%nat ->
    let Z := (beta Y - beta (map y_ox sp)) / D in
    exists z, massFractionToMixtureFraction mf Y = Ok z /\ fin64 z /\
      Rabs (val z - Z) <= 90 * N * u * (1 + Rabs Z) / Rabs D.
  Proof.
    intros HY HL Z. destruct init_value as (al & HF & Em). destruct error_small as (E1 & E2 & E3).
    pose proof (stored_length al sp HF) as L.
    destruct (beta64 al sp _ HF Hox not_empty Hn) as (F0 & B0 & M0).
    destruct (beta64 al sp _ HF Hfu not_empty Hn) as (F1 & B1 & M1).
    destruct (beta64 al sp _ HF HY not_empty Hn) as (F2 & B2 & M2).
    fold N in B0, B1, B2. fold E in B0, B1, B2. fold beta in B0, B1, B2, M0, M1, M2.
    assert (HE : 0 <= E <= 1 / 100) by lra.
    destruct (difference64 _ _ _ _ E F1 F0 HE E2 B1 B0 M1 M0) as [Fd Ed].
    destruct (difference64 _ _ _ _ E F2 F0 HE E2 B2 B0 M2 M0) as [Fm Emm].
    fold D in Ed.
    destruct (ratio64 _ _ (beta Y - beta (map y_ox sp)) D (2.2 * E) Fm Fd) as (Nd & Fz & Ez).
    - lra.
    - split; [exact HD|]. apply Rabs_le_inv in M0. apply Rabs_le_inv in M1. unfold D. apply Rabs_le. lra.
    - apply Rabs_le_inv in M0. apply Rabs_le_inv in M2. apply Rabs_le. lra.
    - exact Emm.
    - exact Ed.
    - exact E3.
    - eexists. split; [|split; [exact Fz|]].
      + unfold massFractionToMixtureFraction. rewrite Em. cbn [mf_alpha mf_beta].
        rewrite (proj2 (Nat.leb_le _ _)) by (rewrite L; exact HL). reflexivity.
      + eapply Rle_trans; [exact Ez|]. fold Z. unfold Rdiv.
        apply Rmult_le_compat_r; [left; apply Rinv_0_lt_compat; lra|].
        apply Rmult_le_compat_r; [pose proof (Rabs_pos Z); lra|]. unfold E.
        pose proof u_pos. pose proof size_one. nra.
  Qed.

  (** The streams themselves are exact. *)
  Theorem streams64 : exists z0 z1,
    massFractionToMixtureFraction mf (map y_ox sp) = Ok z0 /\ fin64 z0 /\ val z0 = 0 /\
    massFractionToMixtureFraction mf (map y_fu sp) = Ok z1 /\ fin64 z1 /\ val z1 = 1.
  Proof.
    destruct init_value as (al & HF & Em). destruct error_small as (E1 & E2 & E3).
    pose proof (stored_length al sp HF) as L.
    destruct (beta64 al sp _ HF Hox not_empty Hn) as (F0 & B0 & M0).
    destruct (beta64 al sp _ HF Hfu not_empty Hn) as (F1 & B1 & M1).
    fold N in B0, B1. fold E in B0, B1. fold beta in B0, B1, M0, M1.
    assert (HE : 0 <= E <= 1 / 100) by lra.
    destruct (difference64 _ _ _ _ E F1 F0 HE E2 B1 B0 M1 M0) as [Fd Ed]. fold D in Ed.
    set (b0 := dot al (map y_ox sp)) in *. set (b1 := dot al (map y_fu sp)) in *. set (d := nsub F64 b1 b0) in *.
    assert (Nd : val d <> 0).
    { intros C. rewrite C in Ed. unfold Rminus in Ed. rewrite Rplus_0_l, Rabs_Ropp in Ed. lra. }
    assert (I0 : massFractionToMixtureFraction mf (map y_ox sp) = Ok (ndiv F64 (nsub F64 b0 b0) d)).
    { unfold massFractionToMixtureFraction. rewrite Em. cbn [mf_alpha mf_beta].
      rewrite (proj2 (Nat.leb_le _ _)) by (rewrite L, map_length; reflexivity). reflexivity. }
    assert (I1 : massFractionToMixtureFraction mf (map y_fu sp) = Ok (ndiv F64 d d)).
    { unfold massFractionToMixtureFraction. rewrite Em. cbn [mf_alpha mf_beta].
      rewrite (proj2 (Nat.leb_le _ _)) by (rewrite L, map_length; reflexivity). reflexivity. }
    destruct (sub64 b0 b0 F0 F0) as [Fe Ve].
    { rewrite Rminus_eq_0, fl_0, Rabs_R0. apply bpow_gt_0. }
    rewrite Rminus_eq_0, fl_0 in Ve.
    destruct (div64 _ d Fe Fd Nd) as [Fz Vz].
    { rewrite Ve. unfold Rdiv. rewrite Rmult_0_l, fl_0, Rabs_R0. apply bpow_gt_0. }
    rewrite Ve in Vz. unfold Rdiv in Vz. rewrite Rmult_0_l, fl_0 in Vz.
    assert (R1 : fl 1 = 1). { destruct val_one as [P1 P2]. rewrite <- P2. apply fl_id. apply val_repr. exact P1. }
    destruct (div64 d d Fd Fd Nd) as [Fo Vo].
    { unfold Rdiv. rewrite Rinv_r by exact Nd. apply big_lt. rewrite Rabs_R1. apply (bpow_le radix2 0 1000). lia. }
    unfold Rdiv in Vo. rewrite Rinv_r, R1 in Vo by exact Nd.
    eexists. eexists. split; [exact I0|]. split; [exact Fz|]. split; [exact Vz|]. split; [exact I1|]. split; assumption.
  Qed.

  (** The mapper decides as without rounding, except near the tolerance. *)
  Theorem should64 (tol dT : num F64) Y : sane_fractions Y -> (length Y <= length sp)%nat -> fin64 tol ->
    let Z := (beta Y - beta (map y_ox sp)) / D in
    let e := 90 * N * u * (1 + Rabs Z) / Rabs D in
    (Z + e < val tol -> shouldMap (mkMapper true tol dT mf) Y = Ok true) /\
    (val tol + e <= Z -> shouldMap (mkMapper true tol dT mf) Y = Ok false).
  Proof.
    intros HY HL Ft Z e. destruct (mixture64 Y HY HL) as (z & Ez & Fz & Bz). fold Z in Bz. fold e in Bz.
    unfold shouldMap. cbn [mp_active mp_mix mp_Ztol]. rewrite Ez. cbn [bind]. rewrite (ltb64 _ _ Fz Ft).
    apply Rabs_le_inv in Bz.
    split; intros C; f_equal; [apply Rlt_bool_true|apply Rlt_bool_false]; lra.
  Qed.
End Mixture.
