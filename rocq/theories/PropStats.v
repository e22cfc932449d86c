(** Properties C51 and C07: load statistics, and equalisation in IEEE doubles.
    Vocabulary: LoadBalancing.v (the model of the code), BalancerSpec.v
    ([sort_contract], [comparable]), Ieee.v ([fin64]: a finite double, [val]: the real
    number it stands for), SweepIeee.v ([sane_loads]: at least one and at most 2^20
    ranks, each with a finite load between 0 and 2^900 seconds; [true_mean]: the mean
    of the loads as a real number). *)
From Coq Require Import List Arith ZArith QArith Bool Permutation Reals Lra.
From Verif Require Import Outcome Arith Problem LoadBalancing BalancerSpec BalancerProofs
  LoadStats Ieee SweepIeee.
Import ListNotations.
Local Open Scope nat_scope.

(** ** C51: the statistics helpers *)

(** getMin is the first of the smallest loads; getMax the first of the largest. *)
Theorem C51_min :
  forall (A : Arith) (l : list (load A)), comparable l = true -> l <> [] ->
    exists m i, getMin l = Ok m /\ nth_error l i = Some m /\
      forall j x, nth_error l j = Some x ->
        load_lt x m = false /\ (j < i -> load_lt m x = true).
Proof. exact @getMin_spec. Qed.
Print Assumptions C51_min.

Theorem C51_max :
  forall (A : Arith) (l : list (load A)), comparable l = true -> l <> [] ->
    exists m i, getMax l = Ok m /\ nth_error l i = Some m /\
      forall j x, nth_error l j = Some x ->
        load_lt m x = false /\ (j < i -> load_lt x m = true).
Proof. exact @getMax_spec. Qed.
Print Assumptions C51_max.

(** getMean, exact arithmetic: the sum divided by the number of loads. *)
Theorem C51_mean :
  forall sm gr vg (l : list (load (QA sm gr vg))),
    (getMean l == Qtotal (map l_value l) / inject_Z (Z.of_nat (length l)))%Q.
Proof. exact getMean_exact. Qed.
Print Assumptions C51_mean.

(** getMean, IEEE doubles: the relative error is at most 4 n 2^-53. *)
Theorem C51_mean_ieee :
  forall loads : list (load F64), sane_loads loads ->
    (/ 2 ^ 1000 <= true_mean loads)%R ->
    fin64 (getMean loads) /\
    (Rabs (val (getMean loads) - true_mean loads)
       <= 4 * INR (length loads) / 2 ^ 53 * true_mean loads)%R.
Proof. exact mean_ieee. Qed.
Print Assumptions C51_mean_ieee.

(** In doubles the computed mean can lie above every load. *)
Theorem C51_mean_above_max_refuted :
  exists (loads : list (load F64)) m,
    loads <> [] /\ comparable loads = true /\ getMax loads = Ok m /\
    nltb F64 (l_value m) (getMean loads) = true.
Proof. exact mean_above. Qed.
Print Assumptions C51_mean_above_max_refuted.

(** rankToLoadIdx: the first entry with the rank, an error exactly when there is none. *)
Theorem C51_rank_index :
  forall (A : Arith) (l : list (load A)) rank,
    (forall i, rankToLoadIdx l rank = Ok i <->
      (exists x, nth_error l i = Some x /\ l_rank x = rank) /\
      (forall j y, j < i -> nth_error l j = Some y -> l_rank y <> rank)) /\
    (rankToLoadIdx l rank = Fatal <-> (forall x, In x l -> l_rank x <> rank)) /\
    (rankToLoadIdx l rank = Fatal \/ exists i, rankToLoadIdx l rank = Ok i).
Proof. exact @rankToLoadIdx_spec. Qed.
Print Assumptions C51_rank_index.

(** Loads 5, 2, 7, 2, 7 on ranks 3, 0, 4, 1, 2, with ties. *)
Definition stat_loads (A : Arith) : list (load A) :=
  [mkLoad 3 (lit A 5); mkLoad 0 (lit A 2); mkLoad 4 (lit A 7); mkLoad 1 (lit A 2);
   mkLoad 2 (lit A 7)].

Example C51_case :
  let l := stat_loads QAD in
  comparable l = true /\ getMin l = Ok (@mkLoad QAD 0 (lit QAD 2)) /\
  getMax l = Ok (@mkLoad QAD 4 (lit QAD 7)) /\ (getMean l == 23 # 5)%Q /\
  rankToLoadIdx l 1 = Ok 3 /\ rankToLoadIdx l 5 = Fatal.
Proof. cbv zeta. repeat split; vm_compute; reflexivity. Qed.

(** ** C07: equalisation in IEEE doubles *)

(** If the mean load is at least a microsecond, the sweep ends with every rank within
    1% of the mean (and within the stated bound, quadratic in the number of ranks). *)
Theorem C07_ieee_equalises :
  forall sortf (loads : list (load F64)) my,
    sort_contract sortf -> sane_loads loads -> (/ 1000000 <= true_mean loads)%R ->
    exists final ops,
      sweep (length loads) (getMean loads) my (sortf loads) (length loads - 1) 0 []
        = Ok (final, ops) /\
      Permutation (map l_rank final) (map l_rank loads) /\
      forall l, In l final -> fin64 (l_value l) /\
        let N := INR (length loads) in
        (Rabs (val (l_value l) - true_mean loads)
           <= (30 * N * N / 2 ^ 53) * true_mean loads + N * val (small F64))%R /\
        (Rabs (val (l_value l) - true_mean loads) <= / 100 * true_mean loads)%R.
Proof. exact sweep_close. Qed.
Print Assumptions C07_ieee_equalises.

(** Without the bound on the mean: false.  With loads 0, 0 and 9e-16 every difference is
    below the absolute tolerance SMALL, and a rank is left without any work. *)
Theorem C07_tiny_loads_refuted :
  exists (loads final : list (load F64)) ops idle,
    map l_rank loads = seq 0 3 /\ sane_loads loads /\ (0 < true_mean loads)%R /\
    sweep (length loads) (getMean loads) 0 (isort loads) (length loads - 1) 0 []
      = Ok (final, ops) /\
    In idle final /\ val (l_value idle) = 0%R.
Proof. exact tiny_witness. Qed.
Print Assumptions C07_tiny_loads_refuted.

(** Loads 12, 1, 3 and 8 meet the hypotheses; the mean is 6 and all ranks end at 6. *)
Example C07_case :
  (sane_loads four_loads /\ true_mean four_loads = 6%R) /\
  match sweep 4 (getMean four_loads) 0 (isort four_loads) 3 0 [] with
  | Ok (final, ops) =>
      forallb (fun l : load F64 => neqb F64 (l_value l) (f64_of_Z 6)) final
      && (length ops =? 2) && (length final =? 4)
  | _ => false
  end = true.
Proof. split; [exact four_sane|]. vm_cast_no_check (eq_refl true). Qed.
