(** Measured loads after an exchange when plan and batches are computed in IEEE doubles. *)
From Coq Require Import List Arith ZArith QArith Bool Lia Permutation Sorted Reals Lra Psatz.
From Flocq Require Import Core BinarySingleNaN.
From Verif Require Import Outcome Arith Problem LoadBalancing BalancerSpec SweepFacts PlanFacts SliceFacts BalancerProofs
  Comm CommFacts BalanceFacts PeakFacts Ieee SweepIeee PyJacIeee TransferIeee.
Import ListNotations.
Local Open Scope R_scope.

Local Notation load := (load F64).
Local Notation operation := (operation F64).
Local Notation problem := (problem F64).

(** ** Specification vocabulary *)

(** Total measured time of some problems, added without rounding; not a function of /repo. *)
Definition time64 (ps : list problem) : R := Rsum (map (fun p : problem => val (p_cpuTime p)) ps).

(** Mean over the ranks of that time, without rounding; not a function of /repo. *)
Definition mean_time (probs : list (list problem)) : R := Rsum (map time64 probs) / INR (length probs).

(** Usual measurements: at most [2^20] ranks with at most [K <= 2^20] problems each, all times finite and not negative,
    no rank has more than [2^890] seconds; not a function of /repo. *)
Definition sane_times (K : nat) (probs : list (list problem)) : Prop :=
  (1 <= Z.of_nat (length probs) <= 2 ^ 20)%Z /\ (Z.of_nat K <= 2 ^ 20)%Z /\
  forall ps, In ps probs -> (length ps <= K)%nat /\ time64 ps <= bpow radix2 890 /\ forall p, In p ps -> fin64 (p_cpuTime p) /\ 0 <= val (p_cpuTime p).

(** ** Proofs *)

Lemma time64_app a b : time64 (a ++ b) = time64 a + time64 b.
Proof. unfold time64. rewrite map_app. apply Rsum_app. Qed.

Lemma time64_concat l : time64 (concat l) = Rsum (map time64 l).
Proof. induction l as [|x l IH]; [reflexivity|]. cbn [concat map Rsum]. rewrite time64_app, IH. reflexivity. Qed.

Lemma time64_nonneg (l : list problem) : (forall p, In p l -> 0 <= val (p_cpuTime p)) -> 0 <= time64 l.
Proof.
  induction l as [|p l IH]; intros H; [unfold time64; cbn; lra|]. unfold time64 in *. cbn [map Rsum].
  assert (0 <= val (p_cpuTime p)) by (apply H; left; reflexivity). specialize (IH (fun q Hq => H q (or_intror Hq))). lra.
Qed.

Lemma time64_vals ps : time64 ps = Rsum (map val (map (fun p : problem => p_cpuTime p) ps)).
Proof. unfold time64. rewrite map_map. reflexivity. Qed.

Lemma le_890_900 : bpow radix2 890 <= bpow radix2 900.
Proof. apply bpow_le. lia. Qed.

(** What is required of the problems of a rank. *)
Definition sane_rank (K : nat) (ps : list problem) : Prop :=
  (length ps <= K)%nat /\ time64 ps <= bpow radix2 890 /\ forall p, In p ps -> fin64 (p_cpuTime p) /\ 0 <= val (p_cpuTime p).

Lemma sane_sub K ps a b : sane_rank K ps -> ps = a ++ b -> sane_rank K a /\ sane_rank K b.
Proof.
  intros (L & T & P) ->. rewrite app_length in L. rewrite time64_app in T.
  assert (0 <= time64 a) by (apply time64_nonneg; intros p Hp; apply P, in_or_app; left; exact Hp).
  assert (0 <= time64 b) by (apply time64_nonneg; intros p Hp; apply P, in_or_app; right; exact Hp).
  split; (split; [lia|split; [lra|]]); intros p Hp; apply P, in_or_app; [left|right]; exact Hp.
Qed.

(** Sums of measured times, rounded. *)
Lemma sum_times K ps : (Z.of_nat K <= 2 ^ 20)%Z -> sane_rank K ps ->
  let s := nsum F64 (map (fun p : problem => p_cpuTime p) ps) in
  fin64 s /\ Rabs (val s - time64 ps) <= 2 * INR K * u * time64 ps /\ 0 <= time64 ps /\ 2 * INR K * u <= / 1000.
Proof.
  intros HK (L & T & P) s. assert (U := u_pos).
  assert (KU : 2 * INR K * u <= / 1000).
  { rewrite INR_IZR_INZ. apply IZR_le in HK. unfold u. apply Rle_trans with (2 * IZR (2 ^ 20) * / IZR (2 ^ 53)).
    - apply Rmult_le_compat_r; [|lra]. apply Rlt_le, Rinv_0_lt_compat, IZR_lt. reflexivity.
    - apply Rmult_le_reg_r with (IZR (2 ^ 53)); [apply IZR_lt; reflexivity|]. rewrite Rmult_assoc, Rinv_l by (apply IZR_neq; discriminate).
      change (IZR (2 ^ 20)) with 1048576. change (IZR (2 ^ 53)) with 9007199254740992. lra. }
  destruct (nsum64 (map (fun p : problem => p_cpuTime p) ps)) as (F & E & S0 & _).
  - rewrite map_length. lia.
  - intros v Hv. apply in_map_iff in Hv as (p & <- & Hp). apply P, Hp.
  - rewrite <- time64_vals. assert (X := le_890_900). lra.
  - rewrite <- time64_vals, map_length in *. split; [exact F|]. split; [|split; assumption]. eapply Rle_trans; [exact E|].
    apply Rmult_le_compat_r; [exact S0|]. apply Rmult_le_compat_r; [lra|]. apply Rmult_le_compat_l; [lra|]. apply le_INR, L.
Qed.

Lemma computeLoad64 K i ps : (Z.of_nat K <= 2 ^ 20)%Z -> sane_rank K ps ->
  let v := l_value (computeLoad (A := F64) i ps) in
  fin64 v /\ Rabs (val v - time64 ps) <= 2 * INR K * u * time64 ps /\ 0 <= time64 ps /\ 2 * INR K * u <= / 1000 /\ 0 <= val v.
Proof.
  intros HK H v. destruct (sum_times K ps HK H) as (F & E & S0 & KU).
  assert (EV : v = nsum F64 (map (fun p : problem => p_cpuTime p) ps)).
  { unfold v, computeLoad, nsum, sum_from. cbn [l_value]. generalize (zero F64). clear. induction ps as [|p ps IH]; intros z; [reflexivity|]. cbn [fold_left map]. apply IH. }
  rewrite EV. split; [exact F|]. split; [exact E|]. split; [exact S0|]. split; [exact KU|]. apply Rabs_le_inv in E.
  assert (2 * INR K * u * time64 ps <= / 1000 * time64 ps) by (apply Rmult_le_compat_r; assumption). lra.
Qed.

(** A batch takes hardly more time than its operation asks for. *)
Lemma batch64 K t ps : (Z.of_nat K <= 2 ^ 20)%Z -> sane_rank K ps -> fin64 t ->
  time64 (firstn (count_while (A := F64) (zero F64) t ps) ps) <= (1 + 4 * INR K * u) * Rmax 0 (val t).
Proof.
  intros HK H Ft. assert (U := u_pos). set (n := count_while (A := F64) (zero F64) t ps).
  destruct (counts_lemma (A := F64) [t] ps) as [_ C]. specialize (C 0%nat t n eq_refl eq_refl). cbn [firstn list_sum fold_right skipn] in C. destruct C as (Hn & C & _).
  assert (KU0 : 0 <= INR K * u) by (apply Rmult_le_pos; [apply pos_INR|lra]).
  assert (M0 : 0 <= Rmax 0 (val t)) by apply Rmax_l.
  destruct n as [|n'] eqn:En.
  - cbn [firstn]. unfold time64. cbn [map Rsum]. apply Rmult_le_pos; [lra|exact M0].
  - specialize (C (Datatypes.S n') ltac:(lia)). rewrite <- En in *. set (b := firstn n ps) in *.
    destruct (sane_sub K ps b (skipn n ps) H (eq_sym (firstn_skipn n ps))) as [Hb _].
    destruct (sum_times K b HK Hb) as (F & E & S0 & KU).
    change (nleb F64 (nsum F64 (map (fun p : problem => p_cpuTime p) b)) t = true) in C. rewrite leb64 in C by assumption. apply Rle_bool_true_inv in C || (destruct (Rle_bool_spec (val (nsum F64 (map (fun p : problem => p_cpuTime p) b))) (val t)) as [Q|Q]; [|discriminate]; clear C; rename Q into C).
    apply Rabs_le_inv in E. assert (M1 : val t <= Rmax 0 (val t)) by apply Rmax_r. set (x := INR K * u) in *. set (M := Rmax 0 (val t)) in *.
    replace (2 * INR K * u) with (2 * x) in * by (unfold x; ring). replace (4 * INR K * u) with (4 * x) by (unfold x; ring).
    assert (Q1 : (1 - 2 * x) * time64 b <= M) by lra.
    assert (Q2 : 1 <= (1 + 4 * x) * (1 - 2 * x)) by nra.
    apply Rle_trans with ((1 + 4 * x) * ((1 - 2 * x) * time64 b)).
    + rewrite <- Rmult_assoc. rewrite <- (Rmult_1_l (time64 b)) at 1. apply Rmult_le_compat_r; assumption.
    + apply Rmult_le_compat_l; [lra|exact Q1].
Qed.

Lemma cut_times64 K : (Z.of_nat K <= 2 ^ 20)%Z -> forall (times : list (num F64)) (ps : list problem), sane_rank K ps ->
  (forall t, In t times -> fin64 t) ->
  Forall2 (fun s t => time64 s <= (1 + 4 * INR K * u) * Rmax 0 (val t)) (cut (timesToProblemCounts (A := F64) times ps) ps) times.
Proof.
  intros HK. induction times as [|t ts IH]; intros ps H F; simpl; constructor.
  - apply (batch64 K t ps HK H). apply F. left. reflexivity.
  - apply IH; [|intros; apply F; right; assumption].
    eapply sane_sub; [exact H|]. symmetry. apply firstn_skipn.
Qed.

Lemma Forall2_Rsum {S T} (f : S -> R) (g : T -> R) c l1 l2 : Forall2 (fun a b => f a <= c * g b) l1 l2 -> Rsum (map f l1) <= c * Rsum (map g l2).
Proof. induction 1; cbn [map Rsum]; lra. Qed.

Lemma Rsum_nonneg {S} (f : S -> R) l : (forall x, In x l -> 0 <= f x) -> 0 <= Rsum (map f l).
Proof. induction l as [|x l IH]; intros H; cbn [map Rsum]; [lra|]. assert (0 <= f x) by (apply H; left; reflexivity). specialize (IH (fun y Hy => H y (or_intror Hy))). lra. Qed.

(** Leaving operations out. *)
Lemma filtered_pos (f p : operation -> bool) ops :
  Rsum (map (fun op : operation => Rmax 0 (val (o_value op))) (filter f (filter p ops))) <= Rsum (map (fun op : operation => Rmax 0 (val (o_value op))) (filter f ops)).
Proof.
  induction ops as [|op ops IH]; [cbn; lra|]. cbn [filter]. assert (0 <= Rmax 0 (val (o_value op))) by apply Rmax_l.
  destruct (p op); cbn [filter]; destruct (f op); cbn [map Rsum]; lra.
Qed.

(** The mean of the computed loads. *)
Lemma mean_times K probs : sane_times K probs -> Rabs (true_mean (rank_loads probs) - mean_time probs) <= 2 * INR K * u * mean_time probs /\ 0 <= mean_time probs /\
  2 * INR K * u <= / 1000 /\ 1 <= INR (length probs).
Proof.
  intros (HL & HK & HP). assert (U := u_pos).
  assert (N1 : 1 <= INR (length probs)) by (rewrite INR_IZR_INZ; apply IZR_le; lia).
  assert (G : forall k l, (forall ps, In ps l -> sane_rank K ps) -> Rabs (Rsum (map (fun ip => val (l_value (computeLoad (A := F64) (fst ip) (snd ip)))) (combine (seq k (length l)) l)) - Rsum (map time64 l)) <= 2 * INR K * u * Rsum (map time64 l) /\ 0 <= Rsum (map time64 l)).
  { intros k l. revert k. induction l as [|ps l IH]; intros k H; cbn [length seq combine map Rsum fst snd].
    - rewrite Rminus_0_r, Rabs_R0. lra.
    - destruct (computeLoad64 K k ps HK (H ps (or_introl eq_refl))) as (_ & E & S0 & _).
      destruct (IH (Datatypes.S k) (fun q Hq => H q (or_intror Hq))) as [E2 S2]. apply Rabs_le_inv in E. apply Rabs_le_inv in E2.
      split; [apply Rabs_le; lra|lra]. }
  destruct (G 0%nat probs HP) as [E S0].
  assert (KU : 2 * INR K * u <= / 1000).
  { destruct probs as [|ps probs']; [cbn in HL; lia|]. destruct (sum_times K ps HK (HP ps (or_introl eq_refl))) as (_ & _ & _ & Q). exact Q. }
  unfold true_mean, mean_time. rewrite rank_loads_length.
  assert (EM : map (fun l : load => val (l_value l)) (rank_loads probs) = map (fun ip => val (l_value (computeLoad (A := F64) (fst ip) (snd ip)))) (combine (seq 0 (length probs)) probs)).
  { unfold rank_loads, enum. rewrite map_map. reflexivity. }
  rewrite EM. set (a := Rsum (map (fun ip => val _) _)) in *. set (b := Rsum (map time64 probs)) in *.
  assert (I0 : 0 < / INR (length probs)) by (apply Rinv_0_lt_compat; lra).
  split; [|split; [|split; assumption]].
  - replace (a / INR (length probs) - b / INR (length probs)) with ((a - b) * / INR (length probs)) by (unfold Rdiv; ring).
    rewrite Rabs_mult, (Rabs_pos_eq (/ _)) by lra. unfold Rdiv. rewrite <- Rmult_assoc. apply Rmult_le_compat_r; [lra|exact E].
  - apply Rmult_le_pos; lra.
Qed.

(** The arithmetic of the bounds: [k] for rounded sums, [e] for the sweep. *)
Lemma moved_bound L L' T T' M k e g s : 0 <= L -> 0 <= T -> 0 <= k <= / 1000 -> 0 <= e -> Rabs (L' - L) <= k * L -> Rabs (T' - T) <= k * T ->
  0 <= M <= 11 / 10 * Rmax L T -> g <= Rmax 0 (L' - T') + e * M -> s <= (1 + 2 * k) * g -> s <= Rmax 0 (L - T) + (6 * k + 2 * e) * Rmax L T.
Proof.
  intros L0 T0 K E HL HT HM HG HS. apply Rabs_le_inv in HL. apply Rabs_le_inv in HT. set (P := Rmax L T) in *.
  assert (PL : L <= P) by apply Rmax_l. assert (PT : T <= P) by apply Rmax_r.
  assert (KL : 0 <= k * L <= k * P) by nra. assert (KT : 0 <= k * T <= k * P) by nra. assert (KP : k * P <= / 1000 * P) by nra.
  assert (A : Rmax 0 (L' - T') <= Rmax 0 (L - T) + 2 * (k * P)).
  { apply Rmax_lub; [assert (0 <= Rmax 0 (L - T)) by apply Rmax_l; lra|assert (L - T <= Rmax 0 (L - T)) by apply Rmax_r; lra]. }
  assert (B : Rmax 0 (L' - T') <= 11 / 10 * P) by (apply Rmax_lub; lra).
  assert (C : 0 <= e * M <= e * (11 / 10 * P)) by (split; [apply Rmult_le_pos; lra|apply Rmult_le_compat_l; lra]).
  assert (D : (1 + 2 * k) * g <= (1 + 2 * k) * (Rmax 0 (L' - T') + e * M)) by (apply Rmult_le_compat_l; lra).
  assert (F : 2 * k * Rmax 0 (L' - T') <= 2 * k * (11 / 10 * P)) by (apply Rmult_le_compat_l; lra).
  assert (G : 2 * k * (e * M) <= 2 * / 1000 * (e * M)) by (apply Rmult_le_compat_r; lra).
  assert (EP : 0 <= e * P) by (apply Rmult_le_pos; lra). set (eP := e * P) in *. replace (e * (11 / 10 * P)) with (11 / 10 * eP) in C by (unfold eP; field).
  set (eM := e * M) in *. set (kP := k * P) in *. replace (2 * k * (11 / 10 * P)) with (11 / 5 * kP) in F by (unfold kP; field).
  replace ((6 * k + 2 * e) * P) with (6 * kP + 2 * eP) by (unfold kP, eP; ring). lra.
Qed.

Lemma sane_rank_loads K probs : sane_times K probs -> sane_loads (rank_loads probs).
Proof.
  intros (HL & HK & HP). split; [rewrite rank_loads_length; exact HL|]. intros l Hl. unfold rank_loads in Hl. apply in_map_iff in Hl as ([i ps] & <- & Hin).
  assert (Hps : In ps probs) by (rewrite <- (map_snd_enum probs); apply (in_map snd) in Hin; exact Hin).
  destruct (computeLoad64 K i ps HK (HP ps Hps)) as (F & E & S0 & KU & V0). destruct (HP ps Hps) as (_ & B & _).
  cbn [fst snd]. split; [exact F|]. split; [exact V0|]. apply Rabs_le_inv in E.
  assert (2 * INR K * u * time64 ps <= / 1000 * time64 ps) by (apply Rmult_le_compat_r; assumption).
  assert (bpow radix2 900 = 1024 * bpow radix2 890) by (change 1024 with (bpow radix2 10); rewrite <- bpow_plus; reflexivity).
  assert (0 < bpow radix2 890) by apply bpow_gt_0. lra.
Qed.

(** Operations that pass the filter are not small. *)
Lemma kept64 mean v : fin64 mean -> / 10000000 <= val mean <= bpow radix2 1000 -> fin64 v -> nltb F64 (nmul F64 (lit F64 (1 # 100)) mean) v = true ->
  99 / 10000 * val mean <= val v.
Proof.
  intros Fm Hm Fv H. assert (U := u_pos).
  assert (U1 : u <= / 1000) by (unfold u; apply Rinv_le_contravar; [lra|apply IZR_le; discriminate]).
  assert (SM : bpow radix2 (-1022) <= / 1000000000000).
  { apply Rle_trans with (bpow radix2 (-40)); [apply bpow_le; lia|]. change (bpow radix2 (-40)) with (/ 1099511627776). lra. }
  destruct (ofZ64 1 ltac:(cbn; lia)) as [F1 V1]. destruct (ofZ64 100 ltac:(cbn; lia)) as [F2 V2].
  destruct (div64 (f64_of_Z 1) (f64_of_Z 100) F1 F2) as [FL VL].
  { rewrite V2. lra. }
  { apply big_lt. rewrite V1, V2. rewrite Rabs_pos_eq by lra. apply Rle_trans with (bpow radix2 0); [cbn; lra|apply bpow_le; lia]. }
  rewrite V1, V2 in VL. change (ndiv F64 (f64_of_Z 1) (f64_of_Z 100)) with (lit F64 (1 # 100)) in FL, VL.
  set (c := lit F64 (1 # 100)) in *.
  assert (EC : Rabs (fl (1 / 100) - 1 / 100) <= u * Rabs (1 / 100)) by (apply fl_err; rewrite Rabs_pos_eq by lra; lra).
  rewrite <- VL, (Rabs_pos_eq (1 / 100)) in EC by lra. apply Rabs_le_inv in EC.
  assert (CB : 999 / 100000 <= val c <= 1001 / 100000) by lra.
  assert (PB : 999 / 100000 * val mean <= val c * val mean <= 1001 / 100000 * val mean) by (split; apply Rmult_le_compat_r; lra).
  destruct (mul64 c mean FL Fm) as [FP VP].
  { apply big_lt. rewrite Rabs_pos_eq by lra. lra. }
  assert (EP : Rabs (fl (val c * val mean) - val c * val mean) <= u * Rabs (val c * val mean)) by (apply fl_err; rewrite Rabs_pos_eq by lra; lra).
  rewrite (Rabs_pos_eq (val c * val mean)) in EP by lra. apply Rabs_le_inv in EP.
  assert (u * (val c * val mean) <= / 1000 * (val c * val mean)) by (apply Rmult_le_compat_r; lra).
  rewrite ltb64 in H by assumption. destruct (Rlt_bool_spec (val (nmul F64 c mean)) (val v)) as [Q|Q]; [|discriminate]. rewrite VP in Q. lra.
Qed.

(** One term of a sum of positive parts. *)
Lemma one_of (f : operation -> bool) ops op : In op ops -> f op = true -> val (o_value op) <= Rsum (map (fun o : operation => Rmax 0 (val (o_value o))) (filter f ops)).
Proof.
  intros Hin Hf. apply in_split in Hin as (l1 & l2 & ->). rewrite filter_app, map_app, Rsum_app. cbn [filter]. rewrite Hf. cbn [map Rsum].
  assert (P : forall l, 0 <= Rsum (map (fun o : operation => Rmax 0 (val (o_value o))) l)) by (intros l; apply Rsum_nonneg; intros o _; apply Rmax_l).
  assert (P1 := P (filter f l1)). assert (P2 := P (filter f l2)). assert (val (o_value op) <= Rmax 0 (val (o_value op))) by apply Rmax_r. lra.
Qed.

(** The arithmetic of the strict bounds of senders and receivers. *)
Lemma role_bounds Lf Lf' Lt Lt' T T' k e e' : 0 <= Lf -> 0 <= Lt -> 0 < T -> 0 <= k <= / 1000000 -> 0 <= e <= / 250 -> 0 <= e' <= / 1000 ->
  Rabs (Lf' - Lf) <= k * Lf -> Rabs (Lt' - Lt) <= k * Lt -> Rabs (T' - T) <= k * T ->
  98 / 10000 * T' <= Rmax 0 (Lf' - T') + e * T' -> 98 / 10000 * T' <= Rmax 0 (T' - Lt') + e' * T' ->
  1005 / 1000 * T <= Lf /\ Lt <= 995 / 1000 * T.
Proof.
  intros F0 T0 TP K E E' HF HT HM G1 G2. apply Rabs_le_inv in HF. apply Rabs_le_inv in HT. apply Rabs_le_inv in HM.
  assert (KT : k * T <= / 1000000 * T) by (apply Rmult_le_compat_r; lra). assert (KF : k * Lf <= / 1000000 * Lf) by (apply Rmult_le_compat_r; lra). assert (KL : k * Lt <= / 1000000 * Lt) by (apply Rmult_le_compat_r; lra).
  assert (ET : e * T' <= / 250 * T') by (apply Rmult_le_compat_r; lra). assert (ET' : e' * T' <= / 1000 * T') by (apply Rmult_le_compat_r; lra).
  unfold Rmax in G1, G2. split.
  - destruct (Rle_dec 0 (Lf' - T')); lra.
  - destruct (Rle_dec 0 (T' - Lt')); lra.
Qed.

Section Peak64.
  Context (dbg : bool) (sortf : list load -> list load) (probs : list (list problem)) (sts : list bstate) (K : nat)
    {C : Type} (enc : list problem -> list C) (dec : list C -> option (list problem * list C)).

  Theorem peak64 :
    (forall x rest, dec (enc x ++ rest) = Some (x, rest)) ->
    sort_contract sortf -> sane_times K probs -> / 500000 <= mean_time probs -> updateState dbg sortf probs = Ok sts ->
    exists guests, balance enc dec true sts probs = Ok guests /\ length guests = length probs /\
      let N := INR (length probs) in
      let T := mean_time probs in
      forall a st ps gs, nth_error sts a = Some st -> nth_error probs a = Some ps -> nth_error guests a = Some gs ->
        exists own, getRemaining st ps = Ok own /\
          let L := time64 ps in
          let after := time64 own + time64 (concat gs) in
          (destinations st <> [] -> T < L /\ T - (12 * INR K + 60 * N * N) * u * L <= after <= L) /\
          (sources st <> [] -> L < T /\ L <= after <= (1 + (12 * INR K + 80 * N) * u) * T) /\
          (destinations st = [] -> sources st = [] -> after = L) /\
          exists b ps', nth_error probs b = Some ps' /\ after <= time64 ps'.
  Proof.
    intros HC Hs Hsane HT HU. assert (U := u_pos).
    assert (SP := update_sym _ _ _ _ Hs HU).
    destruct (wellformed_lemma _ _ _ _ Hs HU) as [L _].
    destruct (update_slices dbg sortf probs sts probs Hs HU eq_refl) as (sl & rest & S1 & S2 & S3 & S4).
    destruct (balance_ok enc dec HC true sts probs sl SP (eq_sym L) S1 (or_introl eq_refl)) as (guests & G1 & G2 & G3).
    exists guests. split; [exact G1|]. split; [lia|]. intros N T a st ps gs Ha Hp Hg. fold T in HT.
    assert (Hne : probs <> []) by (intros ->; destruct a; discriminate).
    assert (HSL := sane_rank_loads K probs Hsane). destruct (mean_times K probs Hsane) as (ME & T0 & KU & N1). fold T N in ME, T0, N1.
    assert (Hsn := Hsane). destruct Hsn as (_ & HK & HP).
    set (loads := rank_loads probs) in *.
    assert (Hlr : ranks loads = seq 0 (length probs)) by apply ranks_rank_loads.
    assert (Hcmp : comparable loads = true) by (apply fin64_comparable; intros y Hy; apply HSL; exact Hy).
    destruct (updateState_spec sortf probs Hs Hcmp Hne) as (P & x & S & g & HR & PKg & PK & UU). fold loads in HR, PK, UU.
    rewrite UU in HU. destruct (dbg && _); [discriminate|]. assert (Hsts : map (fun ip => plan_of (filter_large (getMean loads) g) (fst ip) (snd ip)) (enum probs) = sts) by congruence. clear HU UU.
    set (Kp := filter_large (getMean loads) g) in *.
    assert (TT : / 1000000 <= true_mean loads) by (apply Rabs_le_inv in ME; assert (2 * INR K * u * T <= / 1000 * T) by (apply Rmult_le_compat_r; assumption); lra).
    set (la := computeLoad (A := F64) a ps).
    assert (Hla : In la loads).
    { apply (nth_error_In _ a). unfold loads. rewrite nth_error_rank_loads, Hp. reflexivity. }
    destruct (reach_transfers sortf loads (length probs) la P x S g Hs HSL TT Hlr Hla HR) as (FIN & BG & BT).
    change (l_rank la) with a in BG, BT. assert (LL : length loads = length probs) by apply rank_loads_length. rewrite LL in BG, BT. fold N in BG, BT.
    assert (Hps : In ps probs) by (eapply nth_error_In; exact Hp).
    destruct (computeLoad64 K a ps HK (HP ps Hps)) as (_ & LE & L0 & _ & _). fold la in LE.
    (* sizes *)
    assert (NU : N * N * u <= / 8192 /\ N * u <= / 1000000 /\ 2 * INR K * u <= / 1000000).
    { destruct Hsane as (HL & _ & _). assert (N2 : N <= 1048576) by (unfold N; rewrite INR_IZR_INZ; change 1048576 with (IZR (2 ^ 20)); apply IZR_le; lia).
      assert (K2 : INR K <= 1048576) by (rewrite INR_IZR_INZ; change 1048576 with (IZR (2 ^ 20)); apply IZR_le; exact HK). assert (K0 : 0 <= INR K) by apply pos_INR.
      assert (NN : N * N <= 1048576 * 1048576) by (apply Rmult_le_compat; lra).
      assert (UU : u = / 9007199254740992) by reflexivity. rewrite UU. lra. }
    destruct NU as (NU1 & NU2 & NU3).
    destruct (sweep_start sortf loads Hs HSL TT) as (_ & Fm & M0 & _ & _ & _ & _ & _ & MB & _ & MT & _). fold N in MB, MT. rewrite LL in MB, MT. fold N in MB, MT.
    set (T' := true_mean loads) in *. set (m := val (getMean loads)) in *.
    assert (MLO : 999 / 1000 * T' <= m).
    { apply Rabs_le_inv in MT. assert (4 * N * u * T' <= / 1000 * T') by (apply Rmult_le_compat_r; lra). lra. }
    assert (MHI : m <= bpow radix2 1000) by (apply Rle_trans with ((N + 4) * m); [nra|exact MB]).
    assert (KEPT : forall op, In op Kp -> In op g /\ 98 / 10000 * T' <= val (o_value op)).
    { intros op Hop. unfold Kp, filter_large in Hop. apply filter_In in Hop as [H1 H2]. split; [exact H1|].
      assert (H3 := kept64 (getMean loads) (o_value op) Fm ltac:(fold m; lra) (FIN op H1) H2). fold m in H3. lra. }
    assert (ROLE : forall op, In op Kp -> exists pf pt, nth_error probs (o_from op) = Some pf /\ nth_error probs (o_to op) = Some pt /\
              1005 / 1000 * T <= time64 pf /\ time64 pt <= 995 / 1000 * T).
    { intros op Hop. destruct (pk_range _ _ PK op Hop) as [R1 R2]. destruct (KEPT op Hop) as [Hg' Hv].
      destruct (nth_error probs (o_from op)) as [pf|] eqn:Ef; [|apply nth_error_None in Ef; lia].
      destruct (nth_error probs (o_to op)) as [pt|] eqn:Et; [|apply nth_error_None in Et; lia].
      exists pf, pt. split; [reflexivity|]. split; [reflexivity|].
      assert (Hf : In (computeLoad (A := F64) (o_from op) pf) loads) by (apply (nth_error_In _ (o_from op)); unfold loads; rewrite nth_error_rank_loads, Ef; reflexivity).
      assert (Ht : In (computeLoad (A := F64) (o_to op) pt) loads) by (apply (nth_error_In _ (o_to op)); unfold loads; rewrite nth_error_rank_loads, Et; reflexivity).
      destruct (reach_transfers sortf loads (length probs) _ P x S g Hs HSL TT Hlr Hf HR) as (_ & BGf & _).
      destruct (reach_transfers sortf loads (length probs) _ P x S g Hs HSL TT Hlr Ht HR) as (_ & _ & BTt).
      rewrite LL in BGf, BTt. fold N T' in BGf, BTt.
      destruct (computeLoad64 K (o_from op) pf HK (HP pf ltac:(eapply nth_error_In; exact Ef))) as (_ & LEf & L0f & _).
      destruct (computeLoad64 K (o_to op) pt HK (HP pt ltac:(eapply nth_error_In; exact Et))) as (_ & LEt & L0t & _).
      assert (NUP : 0 <= N * N * u) by (apply Rmult_le_pos; [nra|lra]). assert (NUQ : 0 <= N * u) by (apply Rmult_le_pos; lra).
      assert (KUP : 0 <= 2 * INR K * u) by (apply Rmult_le_pos; [apply Rmult_le_pos; [lra|apply pos_INR]|lra]).
      apply (role_bounds (time64 pf) (val (l_value (computeLoad (A := F64) (o_from op) pf))) (time64 pt) (val (l_value (computeLoad (A := F64) (o_to op) pt))) T T' (2 * INR K * u) (30 * N * N * u) (40 * N * u)); try assumption; try lra.
      - eapply Rle_trans; [exact Hv|]. eapply Rle_trans; [|exact BGf]. apply one_of; [exact Hg'|apply Nat.eqb_refl].
      - eapply Rle_trans; [exact Hv|]. eapply Rle_trans; [|exact BTt]. apply one_of; [exact Hg'|apply Nat.eqb_refl]. }
    (* slices *)
    assert (Hplan : forall b sb psb, nth_error sts b = Some sb -> nth_error probs b = Some psb -> sb = plan_of Kp b psb).
    { intros b sb psb Hb Hpb. rewrite <- Hsts in Hb. apply plan_of_nth in Hb as (ps' & E1 & ->). rewrite E1 in Hpb. injection Hpb as ->. reflexivity. }
    clear Hsts.
    assert (KF : forall op, In op Kp -> fin64 (o_value op)) by (intros op Hop; apply filter_In in Hop as [Hop _]; apply FIN, Hop).
    set (c := 1 + 4 * INR K * u).
    assert (Slb : forall b sb psb, nth_error sts b = Some sb -> nth_error probs b = Some psb ->
              nth_error sl b = Some (cut (nProblems sb) psb) /\
              Forall2 (fun s (op : operation) => time64 s <= c * Rmax 0 (val (o_value op))) (cut (nProblems sb) psb) (filter (from_is b) Kp)).
    { intros b sb psb Hb Hpb. assert (E := Hplan _ _ _ Hb Hpb).
      assert (Hcb : nth_error (combine sts probs) b = Some (sb, psb)) by (rewrite nth_error_combine, Hb, Hpb; auto).
      destruct (Forall2_nth_error _ _ _ S1 b _ Hcb) as (s & E1 & E1').
      assert (LD : length (destinations sb) = length (nProblems sb)).
      { rewrite E. simpl. rewrite counts_length, !map_length. auto. }
      rewrite LD, mapM_sendbuffer in E1' by (rewrite E; simpl; apply counts_le).
      assert (ES : s = cut (nProblems sb) psb) by congruence. rewrite ES in E1. split; [exact E1|].
      rewrite E. cbn [nProblems plan_of].
      apply (Forall2_map_r (fun s t => time64 s <= c * Rmax 0 (val t)) (fun op : operation => o_value op)).
      apply (cut_times64 K HK).
      - apply HP. eapply nth_error_In; exact Hpb.
      - intros t Ht. apply in_map_iff in Ht as (op & <- & Ht). apply filter_In in Ht as [Ht _]. apply KF, Ht. }
    destruct (Slb _ _ _ Ha Hp) as [Sa1 Sa2].
    assert (Hca : nth_error (combine sts probs) a = Some (st, ps)) by (rewrite nth_error_combine, Ha, Hp; auto).
    destruct (Forall2_nth_error _ _ _ S2 a _ Hca) as (own & O1 & O2).
    destruct (Forall2_nth_error _ _ _ S3 a _ Hp) as ([s' r'] & E3 & E3').
    rewrite nth_error_combine, Sa1, O1 in E3. injection E3 as <- <-.
    exists own. split; [exact O2|]. intros L1 after.
    (* sent *)
    assert (Sent : Rsum (map time64 (cut (nProblems st) ps)) <= c * gives a g).
    { eapply Rle_trans; [apply (Forall2_Rsum time64 (fun op : operation => Rmax 0 (val (o_value op))) c); exact Sa2|].
      apply Rmult_le_compat_l; [unfold c; assert (0 <= INR K * u) by (apply Rmult_le_pos; [apply pos_INR|lra]); lra|]. apply filtered_pos. }
    assert (Sent0 : 0 <= Rsum (map time64 (cut (nProblems st) ps))).
    { rewrite <- time64_concat. apply time64_nonneg. intros p Hin. apply (HP ps Hps). rewrite <- E3'. apply in_or_app. left. exact Hin. }
    assert (Split : L1 = Rsum (map time64 (cut (nProblems st) ps)) + time64 own).
    { unfold L1. rewrite <- time64_concat, <- time64_app. f_equal. symmetry. exact E3'. }
    (* received *)
    assert (Eg : nth a guests [] = gs) by (apply nth_error_nth; exact Hg).
    assert (Est := Hplan _ _ _ Ha Hp).
    assert (Recv : Forall2 (fun v (op : operation) => time64 v <= c * Rmax 0 (val (o_value op))) gs (filter (to_is a) Kp)).
    { specialize (G3 a). rewrite Eg, (nth_map_sources _ _ _ Ha) in G3.
      rewrite Est in G3. cbn [sources plan_of] in G3.
      assert (Sub : forall op, In op (filter (to_is a) Kp) -> In op Kp /\ o_to op = a).
      { intros op Hop. apply filter_In in Hop as [H1 H2]. split; [exact H1|]. apply Nat.eqb_eq in H2. exact H2. }
      revert G3 Sub. clear Eg Hg after. generalize (filter (to_is a) Kp). intros ops. revert gs.
      induction ops as [|op ops IH]; intros gs F Sub; inversion F; subst; constructor.
      - destruct (Sub op (or_introl eq_refl)) as [Hin Hto].
        destruct H1 as (i & I1 & I2).
        set (s := o_from op) in *.
        assert (Hs1 : (s < length sts)%nat).
        { rewrite L. apply (pk_range _ _ PK op Hin). }
        destruct (nth_error sts s) as [ss|] eqn:Es; [|apply nth_error_None in Es; lia].
        destruct (nth_error probs s) as [pss|] eqn:Eps; [|apply nth_error_None in Eps; lia].
        destruct (Slb _ _ _ Es Eps) as [Q1 Q2].
        rewrite (nth_map_dests _ _ _ Es) in I1.
        rewrite (nth_error_nth _ _ _ Q1) in I2.
        destruct (Forall2_nth_error _ _ _ Q2 i _ I2) as (op' & R1 & R2).
        assert (Hop' : In op' (filter (from_is s) Kp)) by (eapply nth_error_In; eauto).
        apply filter_In in Hop' as [Hin' Hfr]. apply Nat.eqb_eq in Hfr.
        assert (Hto' : o_to op' = a).
        { rewrite (Hplan _ _ _ Es Eps) in I1. cbn [destinations plan_of] in I1.
          rewrite nth_error_map, R1 in I1. cbn [option_map] in I1. congruence. }
        assert (op' = op).
        { assert (ND := pk_nodup _ _ PK). clear -ND Hin Hin' Hto Hto' Hfr.
          revert ND Hin Hin'. generalize Kp. intros l. induction l as [|z l IH]; cbn [map In]; [tauto|].
          intros ND H1 H2. inversion ND as [|? ? N1 N2]; subst.
          assert (Pr : (o_from op', o_to op') = (o_from op, o_to op)).
          { rewrite Hto'. f_equal; auto. }
          destruct H1 as [->|H1], H2 as [->|H2]; auto.
          - exfalso. apply N1. rewrite <- Pr. apply (in_map (fun op : operation => (o_from op, o_to op))). auto.
          - exfalso. apply N1. rewrite Pr. apply (in_map (fun op : operation => (o_from op, o_to op))). auto. }
        subst op'. exact R2.
      - apply IH; auto. intros; apply Sub; right; auto. }
    assert (RecvS : Rsum (map time64 gs) <= c * takes a g).
    { eapply Rle_trans; [apply (Forall2_Rsum time64 (fun op : operation => Rmax 0 (val (o_value op))) c); exact Recv|].
      apply Rmult_le_compat_l; [unfold c; assert (0 <= INR K * u) by (apply Rmult_le_pos; [apply pos_INR|lra]); lra|]. apply filtered_pos. }
    assert (Recv0 : 0 <= Rsum (map time64 gs)).
    { apply Rsum_nonneg. intros v Hv. apply time64_nonneg. intros p Hin.
      apply In_nth_error in Hv as [j Hj].
      specialize (G3 a). rewrite Eg in G3.
      destruct (Forall2_nth_error_r _ _ _ G3 j _ Hj) as (s & X1 & (i & I1 & I2)).
      destruct (nth_error sl s) as [sls|] eqn:Es; [|rewrite nth_overflow in I2 by (apply nth_error_None; auto); destruct i; discriminate].
      assert (Hin2 : In p (concat sls)).
      { apply in_concat. exists v. split; auto. rewrite (nth_error_nth _ _ _ Es) in I2. eapply nth_error_In; eauto. }
      assert (Lrest : length rest = length sl).
      { apply Forall2_len in S1. apply Forall2_len in S2. congruence. }
      destruct (nth_error rest s) as [rs|] eqn:Er.
      2:{ apply nth_error_None in Er. assert ((s < length sl)%nat) by (apply nth_error_Some; congruence). lia. }
      assert (Hcs : nth_error (combine sl rest) s = Some (sls, rs)) by (rewrite nth_error_combine, Es, Er; auto).
      destruct (Forall2_nth_error_r _ _ _ S3 s _ Hcs) as (pss & Y1 & Y2).
      apply (HP pss ltac:(eapply nth_error_In; exact Y1)). rewrite <- Y2. apply in_or_app. left. exact Hin2. }
    assert (Af : after = time64 own + Rsum (map time64 gs)) by (unfold after; rewrite time64_concat; reflexivity).
    (* how much *)
    fold L1 in LE, L0. change (true_mean loads) with T' in BG, BT.
    assert (PL : L1 <= Rmax L1 T) by apply Rmax_l. assert (PT : T <= Rmax L1 T) by apply Rmax_r.
    assert (K0 : 0 <= 2 * INR K * u <= / 1000) by (split; [apply Rmult_le_pos; [apply Rmult_le_pos; [lra|apply pos_INR]|lra]|exact KU]).
    assert (TM : 0 <= T' <= 11 / 10 * Rmax L1 T).
    { assert (2 * INR K * u * T <= / 1000 * T) by (apply Rmult_le_compat_r; assumption). apply Rabs_le_inv in ME. lra. }
    assert (NNU : 0 <= N * u /\ 0 <= N * N * u) by (split; apply Rmult_le_pos; try lra; nra).
    assert (MS : Rsum (map time64 (cut (nProblems st) ps)) <= Rmax 0 (L1 - T) + (12 * INR K + 60 * N * N) * u * Rmax L1 T).
    { eapply Rle_trans; [apply (moved_bound L1 (val (l_value la)) T T' T' (2 * INR K * u) (30 * N * N * u) (gives a g)); try assumption|].
      - lra.
      - unfold c in Sent. replace (2 * (2 * INR K * u)) with (4 * INR K * u) by ring. exact Sent.
      - apply Rplus_le_compat_l, Rmult_le_compat_r; [lra|]. lra. }
    assert (MR : Rsum (map time64 gs) <= Rmax 0 (T - L1) + (12 * INR K + 80 * N) * u * Rmax L1 T).
    { rewrite (Rmax_comm L1 T) in *. eapply Rle_trans; [apply (moved_bound T T' L1 (val (l_value la)) T' (2 * INR K * u) (40 * N * u) (takes a g)); try assumption|].
      - lra.
      - unfold c in RecvS. replace (2 * (2 * INR K * u)) with (4 * INR K * u) by ring. exact RecvS.
      - apply Rplus_le_compat_l, Rmult_le_compat_r; [lra|]. lra. }
    (* roles *)
    assert (Dst : destinations st <> [] -> gs = [] /\ T < L1).
    { intros Hd. rewrite Est in Hd. cbn [destinations plan_of] in Hd.
      destruct (filter (from_is a) Kp) as [|op l] eqn:F; [cbn [map] in Hd; congruence|].
      assert (Hop : In op Kp /\ o_from op = a).
      { assert (Q : In op (filter (from_is a) Kp)) by (rewrite F; left; reflexivity). apply filter_In in Q as [Q1 Q2]. apply Nat.eqb_eq in Q2. auto. }
      assert (Z : filter (to_is a) Kp = []).
      { apply filter_none. intros o Ho. apply Nat.eqb_neq. intros E. apply (pk_roles _ _ PK op o); [apply Hop|exact Ho|]. destruct Hop; congruence. }
      split; [rewrite Z in Recv; inversion Recv; reflexivity|].
      destruct (ROLE op (proj1 Hop)) as (pf & pt & E1 & _ & B1 & _). rewrite (proj2 Hop), Hp in E1. injection E1 as <-. unfold L1. lra. }
    assert (Src : sources st <> [] -> cut (nProblems st) ps = [] /\ L1 < T /\ exists b psb, nth_error probs b = Some psb /\ 1005 / 1000 * T <= time64 psb).
    { intros Hd. rewrite Est in Hd. cbn [sources plan_of] in Hd.
      destruct (filter (to_is a) Kp) as [|op l] eqn:F; [cbn [map] in Hd; congruence|].
      assert (Hop : In op Kp /\ o_to op = a).
      { assert (Q : In op (filter (to_is a) Kp)) by (rewrite F; left; reflexivity). apply filter_In in Q as [Q1 Q2]. apply Nat.eqb_eq in Q2. auto. }
      assert (Z : filter (from_is a) Kp = []).
      { apply filter_none. intros o Ho. apply Nat.eqb_neq. intros E. apply (pk_roles _ _ PK o op); [exact Ho|apply Hop|]. destruct Hop; congruence. }
      split; [rewrite Z in Sa2; inversion Sa2; reflexivity|].
      destruct (ROLE op (proj1 Hop)) as (pf & pt & E1 & E2 & B1 & B2). rewrite (proj2 Hop), Hp in E2. injection E2 as <-. split; [unfold L1; lra|]. exists (o_from op), pf. auto. }
    assert (C1 : destinations st <> [] -> T < L1 /\ T - (12 * INR K + 60 * N * N) * u * L1 <= after <= L1).
    { intros Hd. destruct (Dst Hd) as [D1 D2]. split; [exact D2|]. rewrite D1 in Af. cbn [map Rsum] in Af. split; [|lra].
      rewrite (Rmax_left L1 T), Rmax_right in MS by lra. lra. }
    assert (C2 : sources st <> [] -> L1 < T /\ L1 <= after <= (1 + (12 * INR K + 80 * N) * u) * T).
    { intros Hd. destruct (Src Hd) as (D1 & D2 & _). split; [exact D2|]. rewrite D1 in Split. cbn [map Rsum] in Split. split; [lra|].
      rewrite (Rmax_right L1 T), Rmax_right in MR by lra. lra. }
    assert (C3 : destinations st = [] -> sources st = [] -> after = L1).
    { intros Hd Hsr. rewrite Est in Hd, Hsr. cbn [destinations sources plan_of] in Hd, Hsr. apply map_eq_nil in Hd. apply map_eq_nil in Hsr.
      rewrite Hd in Sa2. rewrite Hsr in Recv. inversion Recv as [Q1|]. inversion Sa2 as [Q2|]. rewrite <- Q1 in Af. rewrite <- Q2 in Split. cbn [map Rsum] in Af, Split. lra. }
    split; [exact C1|]. split; [exact C2|]. split; [exact C3|].
    destruct (destinations st) as [|d ds]; [destruct (sources st) as [|s0 ss]|].
    - exists a, ps. split; [exact Hp|]. rewrite (C3 eq_refl eq_refl). apply Rle_refl.
    - destruct (Src ltac:(discriminate)) as (_ & _ & b & psb & Hb & Mb). exists b, psb. split; [exact Hb|].
      destruct (C2 ltac:(discriminate)) as (_ & _ & Q). assert ((12 * INR K + 80 * N) * u * T <= / 1000 * T) by (apply Rmult_le_compat_r; lra). lra.
    - exists a, ps. split; [exact Hp|]. apply C1. discriminate.
  Qed.
End Peak64.

(** What the filter leaves. *)
Theorem large64 dbg sortf (loads : list load) my ops :
  sort_contract sortf -> sane_loads loads -> / 1000000 <= true_mean loads -> getOperations dbg sortf loads my = Ok ops ->
  forall op, In op ops -> fin64 (o_value op) /\ 98 / 10000 * true_mean loads <= val (o_value op).
Proof.
  intros Hsort Hsane HT E op Hop. assert (U := u_pos).
  destruct (sweep_start sortf loads Hsort Hsane HT) as (D0 & Fm & M0 & Fsm & S0 & D00 & HD8 & Hw & HB & HI & ME & TM & HN & _ & Hperm & Hne).
  unfold getOperations in E. destruct (negb (comparable loads)); [discriminate|].
  destruct (sweep_total (getMean loads) (sortf loads) Hne) as (P & x & S & g & HR & Hok & _).
  destruct (length (sortf loads)) as [|last] eqn:EL; [discriminate|]. rewrite Nat.sub_succ, Nat.sub_0_r in Hok.
  rewrite (Hok my (Datatypes.S last)) in E by lia. cbn [bind] in E.
  destruct (runtime_assert dbg _) as [_t| | |]; try discriminate. cbn [bind] in E. destruct (runtime_assert dbg _) as [_t2| | |]; try discriminate. cbn [bind] in E.
  injection E as <-. unfold filter_large in Hop. apply filter_In in Hop as [H1 H2]. apply filter_In in H1 as [H1 _].
  assert (F := reach_fin (getMean loads) Fm M0 Fsm S0 (length loads) D0 D00 HD8 Hw HB (sortf loads) HI P [x] S g HR op H1). split; [exact F|].
  set (T := true_mean loads) in *. set (m := val (getMean loads)) in *. set (N := INR (length loads)) in *.
  assert (NU : 4 * N * u <= / 1000).
  { assert (N2 : N <= 1048576) by (unfold N; rewrite INR_IZR_INZ; change 1048576 with (IZR (2 ^ 20)); apply IZR_le; apply Hsane).
    assert (UU : u = / 9007199254740992) by reflexivity. rewrite UU. lra. }
  assert (MLO : 999 / 1000 * T <= m).
  { apply Rabs_le_inv in ME. assert (4 * N * u * T <= / 1000 * T) by (apply Rmult_le_compat_r; lra). lra. }
  assert (MHI : m <= bpow radix2 1000) by (apply Rle_trans with ((N + 4) * m); [nra|exact HB]).
  assert (H3 := kept64 (getMean loads) (o_value op) Fm ltac:(fold m; lra) F H2). fold m in H3. lra.
Qed.
