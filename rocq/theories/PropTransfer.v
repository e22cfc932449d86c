(** Property C85: transfers and loads after an exchange, in IEEE doubles.
    Vocabulary: LoadBalancing.v and Comm.v (models of the code), BalancerSpec.v ([sort_contract]), Ieee.v ([fin64]: a finite
    double, [val]: the real number it stands for, [u]: 2^-53), SweepIeee.v ([sane_loads], [true_mean]), TransferIeee.v ([given64],
    [taken64]) and the head of PeakIeee.v ([time64]: measured time of problems without rounding, [mean_time], [sane_times]). *)
From Coq Require Import List Arith ZArith QArith Bool Lia Reals Lra.
From Coq Require Import Floats.SpecFloat.
From Flocq Require Import Core BinarySingleNaN.
From Verif Require Import Outcome Arith Problem LoadBalancing BalancerSpec PlanFacts SliceFacts Streams StreamFacts Comm CommFacts BalanceFacts
  Ieee SweepIeee TransferIeee PeakIeee PropBalancer.
Import ListNotations.
Local Open Scope R_scope.

(** What a rank is asked to give is at most its surplus, what it is to get at most its deficit, and no transfer is small. *)
Theorem C85_transfers :
  forall dbg sortf (loads : list (load F64)) k l ops,
    sort_contract sortf -> sane_loads loads -> / 1000000 <= true_mean loads -> map l_rank loads = seq 0 k -> In l loads ->
    getOperations dbg sortf loads (l_rank l) = Ok ops ->
    let N := INR (length loads) in
    let T := true_mean loads in
    given64 (l_rank l) ops <= Rmax 0 (val (l_value l) - T) + 30 * N * N * u * T /\
    taken64 (l_rank l) ops <= Rmax 0 (T - val (l_value l)) + 40 * N * u * T.
Proof. exact transfers64. Qed.
Print Assumptions C85_transfers.

Theorem C85_large :
  forall dbg sortf (loads : list (load F64)) my ops,
    sort_contract sortf -> sane_loads loads -> / 1000000 <= true_mean loads -> getOperations dbg sortf loads my = Ok ops ->
    forall op, In op ops -> fin64 (o_value op) /\ 98 / 10000 * true_mean loads <= val (o_value op).
Proof. exact large64. Qed.
Print Assumptions C85_large.

(** The measured time of every rank after the exchange. *)
Theorem C85_peak_not_raised :
  forall dbg sortf (probs : list (list (problem F64))) sts K (C : Type) (enc : list (problem F64) -> list C) dec,
    (forall x rest, dec (enc x ++ rest) = Some (x, rest)) ->
    sort_contract sortf -> sane_times K probs -> / 500000 <= mean_time probs -> updateState dbg sortf probs = Ok sts ->
    exists guests, balance enc dec true sts probs = Ok guests /\ length guests = length probs /\
      let N := INR (length probs) in
      let T := mean_time probs in
      forall a st ps gs, nth_error sts a = Some st -> nth_error probs a = Some ps -> nth_error guests a = Some gs ->
        exists own, getRemaining st ps = Ok own /\
          let L := time64 ps in
          let after := time64 own + time64 (concat gs) in
          (destinations st <> [] -> T < L /\ T - (12 * INR K + 60 * N * N) * u * L <= after <= L) /\
          (sources st <> [] -> L < T /\ L <= after <= (1 + (12 * INR K + 80 * N) * u) * T) /\
          (destinations st = [] -> sources st = [] -> after = L) /\
          exists b ps', nth_error probs b = Some ps' /\ after <= time64 ps'.
Proof. exact peak64. Qed.
Print Assumptions C85_peak_not_raised.

(** The four loads 12, 1, 3 and 8 (mean 6): rank 0 gives 6, rank 1 takes 5. *)
Example C85_transfers_case :
  sort_contract (A := F64) isort /\ sane_loads four_loads /\ true_mean four_loads = 6 /\ map l_rank four_loads = seq 0 4 /\
  exists ops0 ops1,
    getOperations true isort four_loads 0 = Ok ops0 /\ given64 0 ops0 = 6 /\ taken64 0 ops0 = 0 /\
    getOperations true isort four_loads 1 = Ok ops1 /\ given64 1 ops1 = 0 /\ taken64 1 ops1 = 5.
Proof.
  split; [apply isort_contract|]. split; [apply four_sane|]. split; [apply four_sane|]. split; [reflexivity|].
  exists [@mkOp F64 0 1 (f64_of_Z 5); @mkOp F64 0 2 (f64_of_Z 1)], [@mkOp F64 0 1 (f64_of_Z 5)].
  assert (V : forall z, (Z.abs z <= 2 ^ 53)%Z -> val (f64_of_Z z) = IZR z) by (intros; apply ofZ64; lia).
  assert (V5 := V 5%Z ltac:(lia)). assert (V1 := V 1%Z ltac:(lia)).
  split; [reflexivity|]. split; [unfold given64; cbn [filter o_from Nat.eqb map o_value Rsum]; lra|].
  split; [reflexivity|]. split; [reflexivity|]. split; [reflexivity|]. unfold taken64. cbn [filter o_to Nat.eqb map o_value Rsum]. lra.
Qed.

(** Splits membership in an explicit list. *)
Ltac destruct_all H := cbn [In map fst snd] in H; repeat (destruct H as [H|H]; [inversion H; subst; cbn [In]; tauto|]); destruct H.

(** Times of the example problems. *)
Lemma ex_times : forall t c, In t [1; 2; 3; 4]%Z -> fin64 (p_cpuTime (tproblem F64 (inject_Z t) c)) /\ val (p_cpuTime (tproblem F64 (inject_Z t) c)) = IZR t.
Proof.
  intros t c Ht. cbn [tproblem p_cpuTime].
  assert (E : lit F64 (inject_Z t) = f64_of_Z t) by (destruct Ht as [<-|[<-|[<-|[<-|[]]]]]; vm_compute; reflexivity).
  rewrite E. apply ofZ64. destruct Ht as [<-|[<-|[<-|[<-|[]]]]]; lia.
Qed.

(** A list of such problems, given by times and cells. *)
Definition ex_list (l : list (Z * nat)) : list (problem F64) := map (fun tc => tproblem F64 (inject_Z (fst tc)) (snd tc)) l.

Lemma ex_list_time l : (forall t c, In (t, c) l -> In t [1; 2; 3; 4]%Z) -> time64 (ex_list l) = IZR (fold_right (fun tc s => (fst tc + s)%Z) 0%Z l).
Proof.
  induction l as [|[t c] l IH]; intros H; [reflexivity|].
  assert (E : time64 (ex_list ((t, c) :: l)) = val (p_cpuTime (tproblem F64 (inject_Z t) c)) + time64 (ex_list l)) by reflexivity.
  rewrite E, IH by (intros t' c' Hin; apply (H t' c'); right; exact Hin). rewrite (proj2 (ex_times t c (H t c (or_introl eq_refl)))). cbn [fold_right fst]. rewrite plus_IZR. reflexivity.
Qed.

Lemma ex_probs_lists : ex_probs F64 = map ex_list [[(1%Z, 0%nat); (2%Z, 1%nat); (2%Z, 2%nat); (3%Z, 3%nat); (4%Z, 4%nat)]; [(1%Z, 0%nat)]; [(1%Z, 0%nat); (2%Z, 1%nat)]; [(2%Z, 0%nat); (2%Z, 1%nat); (4%Z, 2%nat)]].
Proof. reflexivity. Qed.

(** [ex_probs]: measured times 12, 1, 3, 8 become 7, 6, 5, 6 (mean 6). *)
Example C85_peak_case :
  sane_times 5 (ex_probs F64) /\ mean_time (ex_probs F64) = 6 /\
  exists sts guests owns,
    updateState true isort (ex_probs F64) = Ok sts /\
    balance (wr_list wr_problem) (rd_list rd_problem) true sts (ex_probs F64) = Ok guests /\
    mapM (fun '(st, ps) => getRemaining st ps) (combine sts (ex_probs F64)) = Ok owns /\
    map time64 (ex_probs F64) = [12; 1; 3; 8] /\
    map (fun '(own, gs) => time64 own + time64 (concat gs)) (combine owns guests) = [7; 6; 5; 6].
Proof.
  assert (TM : map time64 (ex_probs F64) = [12; 1; 3; 8]).
  { rewrite ex_probs_lists. cbn [map]. rewrite !ex_list_time by (intros t c Hin; cbn in Hin; destruct_all Hin). reflexivity. }
  split; [|split].
  - split; [cbn [ex_probs length]; lia|]. split; [lia|]. intros ps Hps. split; [|split].
    + rewrite ex_probs_lists in Hps. apply in_map_iff in Hps as (l & <- & Hl). unfold ex_list. rewrite map_length. destruct Hl as [<-|[<-|[<-|[<-|[]]]]]; cbn [length]; lia.
    + assert (X : In (time64 ps) [12; 1; 3; 8]) by (rewrite <- TM; apply in_map, Hps).
      assert (B : 16 <= bpow radix2 890) by (change 16 with (bpow radix2 4); apply bpow_le; lia).
      destruct X as [<-|[<-|[<-|[<-|[]]]]]; lra.
    + intros p Hp. rewrite ex_probs_lists in Hps. apply in_map_iff in Hps as (l & <- & Hl). apply in_map_iff in Hp as ([t c] & <- & Hp).
      assert (Ht : In t [1; 2; 3; 4]%Z) by (destruct Hl as [<-|[<-|[<-|[<-|[]]]]]; destruct_all Hp).
      destruct (ex_times t c Ht) as [F V]. cbn [fst snd]. split; [exact F|]. rewrite V. apply IZR_le. destruct Ht as [<-|[<-|[<-|[<-|[]]]]]; lia.
  - unfold mean_time. rewrite TM. cbn [Rsum ex_probs length INR]. lra.
  - exists [mkState [] [1; 2]%nat [3; 0]%nat 2; mkState [0]%nat [] [] 1; mkState [0; 3]%nat [] [] 2; mkState [] [2]%nat [1]%nat 2].
    exists (map (map ex_list) [[]; [[(1%Z, 0%nat); (2%Z, 1%nat); (2%Z, 2%nat)]]; [[]; [(2%Z, 0%nat)]]; []]).
    exists (map ex_list [[(3%Z, 3%nat); (4%Z, 4%nat)]; [(1%Z, 0%nat)]; [(1%Z, 0%nat); (2%Z, 1%nat)]; [(2%Z, 1%nat); (4%Z, 2%nat)]]).
    split; [reflexivity|]. split; [reflexivity|]. split; [reflexivity|]. split; [exact TM|].
    cbn [map combine]. rewrite !time64_concat. cbn [map Rsum].
    rewrite !ex_list_time by (intros t c Hin; destruct_all Hin). cbn [fold_right fst Z.add Pos.add Pos.succ]. repeat f_equal; lra.
Qed.
