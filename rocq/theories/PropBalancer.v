(** Properties C01-C06 and C08-C11 of the load balancer.
    Vocabulary: LoadBalancing.v (the model of the code), BalancerSpec.v
    ([sort_contract], [occurrences]) and the head of PlanQ.v ([Qmean], [given],
    [taken]).  [updateState dbg sortf probs] is the collective plan computation, entry
    [i] of [probs] being rank [i]'s problems and entry [i] of the result its plan. *)
From Coq Require Import List Arith ZArith QArith Qabs Qminmax Bool Permutation.
From Verif Require Import Outcome Arith Problem LoadBalancing BalancerSpec SweepFacts
  PlanFacts QSum QSweep PlanQ SliceFacts BalancerProofs F64Facts.
Import ListNotations.
Local Open Scope nat_scope.

(** ** Test data *)

(** A problem whose only interesting datum is the measured time. *)
Definition tproblem (A : Arith) (t : Q) (cell : nat) : problem A :=
  mkProblem [one A] (one A) (one A) (one A) (one A) (one A) (lit A t) cell.

(** Four ranks with loads 12, 1, 3 and 8 (mean 6): two senders, two receivers. *)
Definition ex_probs (A : Arith) : list (list (problem A)) :=
  [ [tproblem A 1 0; tproblem A 2 1; tproblem A 2 2; tproblem A 3 3; tproblem A 4 4];
    [tproblem A 1 0];
    [tproblem A 1 0; tproblem A 2 1];
    [tproblem A 2 0; tproblem A 2 1; tproblem A 4 2] ].

(** ** C01: no rank both sends and receives *)
Theorem C01_role_exclusivity :
  forall (A : Arith) dbg sortf (probs : list (list (problem A))) sts,
    sort_contract sortf -> updateState dbg sortf probs = Ok sts ->
    (forall a sa, nth_error sts a = Some sa -> sources sa = [] \/ destinations sa = []) /\
    (forall a b c sa sc, nth_error sts a = Some sa -> nth_error sts c = Some sc ->
       In b (destinations sa) -> ~ In b (sources sc)).
Proof. exact @role_lemma. Qed.
Print Assumptions C01_role_exclusivity.

Example sorting_exists : forall A : Arith, sort_contract (@isort A).
Proof. exact @isort_contract. Qed.

(** A plan with two senders, two receivers and three transfers, in exact and in IEEE
    arithmetic. *)
Example C01_case_exact :
  updateState true isort (ex_probs QAD) =
  Ok [ mkState [] [1; 2] [3; 0] 2;
       mkState [0] [] [] 1;
       mkState [0; 3] [] [] 2;
       mkState [] [2] [1] 2 ].
Proof. vm_compute. reflexivity. Qed.

Example C01_case_ieee :
  updateState true isort (ex_probs F64) =
  Ok [ mkState [] [1; 2] [3; 0] 2;
       mkState [0] [] [] 1;
       mkState [0; 3] [] [] 2;
       mkState [] [2] [1] 2 ].
Proof. vm_compute. reflexivity. Qed.

(** ** C02: the independently computed plans agree *)
Theorem C02_plan_symmetry :
  forall (A : Arith) dbg sortf (probs : list (list (problem A))) sts a b sa sb,
    sort_contract sortf -> updateState dbg sortf probs = Ok sts ->
    nth_error sts a = Some sa -> nth_error sts b = Some sb ->
    occurrences b (destinations sa) = occurrences a (sources sb) /\
    occurrences b (destinations sa) <= 1.
Proof. exact @symmetry_lemma. Qed.
Print Assumptions C02_plan_symmetry.

(** ** C03: plans are well formed *)
Theorem C03_plan_wellformed :
  forall (A : Arith) dbg sortf (probs : list (list (problem A))) sts,
    sort_contract sortf -> updateState dbg sortf probs = Ok sts ->
    length sts = length probs /\
    forall a sa ps, nth_error sts a = Some sa -> nth_error probs a = Some ps ->
      (forall b, In b (destinations sa) \/ In b (sources sa) -> b < length probs /\ b <> a) /\
      NoDup (destinations sa) /\ NoDup (sources sa) /\
      length (nProblems sa) = length (destinations sa) /\
      (Z.of_nat (list_sum (nProblems sa)) + nRemaining sa = Z.of_nat (length ps))%Z /\
      (0 <= nRemaining sa)%Z /\
      validState (length probs) sa = true.
Proof. exact @wellformed_lemma. Qed.
Print Assumptions C03_plan_wellformed.

(** ** C04: planning terminates without undefined behaviour *)
Theorem C04_planning_total :
  forall (A : Arith) sortf (probs : list (list (problem A))),
    sort_contract sortf -> probs <> [] ->
    comparable (map (fun ip => computeLoad (fst ip) (snd ip)) (enum probs)) = true ->
    exists sts, updateState false sortf probs = Ok sts /\
      (updateState true sortf probs = Ok sts \/ updateState true sortf probs = Fatal).
Proof. exact @total_lemma. Qed.
Print Assumptions C04_planning_total.

(** The loop body runs exactly [length l - 1] times: that much fuel is enough and
    less is not. *)
Theorem C04_sweep_iterations :
  forall (A : Arith) mean my (l : list (load A)) fuel,
    l <> [] ->
    (fuel < length l - 1 -> sweep fuel mean my l (length l - 1) 0 [] = Diverge) /\
    (length l - 1 <= fuel ->
       exists final ops, sweep fuel mean my l (length l - 1) 0 [] = Ok (final, ops) /\
         map l_rank final = map l_rank l).
Proof. exact @iterations_lemma. Qed.
Print Assumptions C04_sweep_iterations.

(** In exact arithmetic loads are always comparable, so the hypothesis of
    [C04_planning_total] always holds. *)
Theorem C04_exact_comparable :
  forall sm gr vg (loads : list (load (QA sm gr vg))), comparable loads = true.
Proof. exact comparable_Q. Qed.
Print Assumptions C04_exact_comparable.

(** IEEE doubles, release build: measured times that are neither negative nor NaN are
    enough. *)
Theorem C04_ieee :
  forall sortf (probs : list (list (problem F64))),
    sort_contract sortf ->
    (forall ps p, In ps probs -> In p ps -> f_nonneg (p_cpuTime p) = true) ->
    exists sts, updateState false sortf probs = Ok sts.
Proof. exact plan_ieee. Qed.
Print Assumptions C04_ieee.

Example C04_ieee_case : forall ps p, In ps (ex_probs F64) -> In p ps -> f_nonneg (p_cpuTime p) = true.
Proof.
  assert (E : forallb (forallb (fun p : problem F64 => f_nonneg (p_cpuTime p))) (ex_probs F64) = true)
    by (vm_compute; reflexivity).
  intros ps p Hps Hp. rewrite forallb_forall in E. specialize (E ps Hps).
  rewrite forallb_forall in E. auto.
Qed.

Example C04_case : comparable (map (fun ip => computeLoad (fst ip) (snd ip))
                                 (enum (ex_probs F64))) = true.
Proof. vm_compute. reflexivity. Qed.

(** ** C05: transfers never exceed excess or deficit (exact arithmetic) *)
Theorem C05_transfer_bounds :
  forall sm gr vg, (0 < sm)%Q ->
  forall dbg sortf (loads : list (load (QA sm gr vg))) n l ops,
    sort_contract sortf -> map l_rank loads = seq 0 n -> In l loads ->
    (forall x, In x (load_values loads) -> (0 <= x)%Q) ->
    getOperations dbg sortf loads (l_rank l) = Ok ops ->
    let m := Qmean (load_values loads) in
    (given (l_rank l) ops <= Qmax 0 (l_value l - m))%Q /\
    (taken (l_rank l) ops <= Qmax 0 (m - l_value l))%Q.
Proof. exact bounds_lemma. Qed.
Print Assumptions C05_transfer_bounds.

(** The loads of [ex_probs]. *)
Definition ex_loads : list (load QAD) :=
  [@mkLoad QAD 0 12%Q; @mkLoad QAD 1 1%Q; @mkLoad QAD 2 3%Q; @mkLoad QAD 3 8%Q].

(** Rank 0 has 6 too much and gives 5 to rank 1 and 1 to rank 2. *)
Example C05_case :
  (exists v w, getOperations (A := QAD) true isort ex_loads 0 =
    Ok [@mkOp QAD 0 1 v; @mkOp QAD 0 2 w] /\ (v == 5)%Q /\ (w == 1)%Q) /\
  map l_rank ex_loads = seq 0 4 /\ (Qmean (load_values ex_loads) == 6)%Q.
Proof.
  split; [do 2 eexists; split; [vm_compute; reflexivity|split; reflexivity]|].
  split; reflexivity.
Qed.

(** ** C06: the unfiltered transfers equalise the loads (exact arithmetic) *)
Theorem C06_sweep_equalises :
  forall sm gr vg, (0 < sm)%Q ->
  forall sortf (loads : list (load (QA sm gr vg))) n my final ops,
    sort_contract sortf -> map l_rank loads = seq 0 n ->
    sweep (length loads) (getMean loads) my (sortf loads) (length loads - 1) 0 []
      = Ok (final, ops) ->
    loads <> [] ->
    let m := Qmean (load_values loads) in
    let N := inject_Z (Z.of_nat (n - 1)) in
    Permutation (map l_rank final) (seq 0 n) /\
    (forall l, In l final -> (Qabs (l_value l - m) <= N * sm)%Q) /\
    (exists r, forall l, In l final -> l_rank l <> r -> (m <= l_value l)%Q) /\
    (forall l, In l loads -> l_rank l = my ->
       exists l', In l' final /\ l_rank l' = my /\
         (l_value l' == l_value l - given my ops + taken my ops)%Q) /\
    (Qmean (load_values final) == m)%Q.
Proof. exact sweep_exact. Qed.
Print Assumptions C06_sweep_equalises.

(** The same for the operations the ranks get from [getOperations]: there is one list of
    transfers, equalising all loads, of which each rank gets exactly those it takes part
    in and that exceed 1% of the mean. *)
Theorem C06_plan_equalises :
  forall sm gr vg, (0 < sm)%Q ->
  forall sortf (loads : list (load (QA sm gr vg))) n,
    sort_contract sortf -> map l_rank loads = seq 0 n -> loads <> [] ->
    let m := Qmean (load_values loads) in
    let N := inject_Z (Z.of_nat (n - 1)) in
    exists plan : list (operation (QA sm gr vg)),
      (forall dbg my ops, getOperations dbg sortf loads my = Ok ops ->
         ops = filter (fun op : operation (QA sm gr vg) =>
                         ((o_from op =? my) || (o_to op =? my))
                         && Qltb ((1 # 100) * m) (o_value op)) plan) /\
      (forall l, In l loads ->
         (Qabs (l_value l - given (l_rank l) plan + taken (l_rank l) plan - m)
           <= N * sm)%Q) /\
      (exists r, forall l, In l loads -> l_rank l <> r ->
         (m <= l_value l - given (l_rank l) plan + taken (l_rank l) plan)%Q).
Proof. exact plan_exact. Qed.
Print Assumptions C06_plan_equalises.

Example C06_case :
  exists final ops,
    sweep (A := QAD) 4 (getMean ex_loads) 0 (isort ex_loads) 3 0 [] = Ok (final, ops) /\
    length ops = 2 /\ Forall (fun l : load QAD => (l_value l == 6)%Q) final.
Proof. do 2 eexists. split; [vm_compute; reflexivity|]. split; repeat constructor. Qed.

(** ** C08: the mean is conserved; the debug assertions *)

(** Exact arithmetic: a debug build never stops, and computes the same operations. *)
Theorem C08_assertions_hold_exact :
  forall sm gr vg sortf (loads : list (load (QA sm gr vg))) n my,
    sort_contract sortf -> map l_rank loads = seq 0 n -> loads <> [] ->
    exists ops, getOperations false sortf loads my = Ok ops /\
                getOperations true sortf loads my = Ok ops.
Proof. exact assertion_lemma. Qed.
Print Assumptions C08_assertions_hold_exact.

(** IEEE doubles: false.  With loads near 8e8 the mean moves by one ulp, more than the
    absolute tolerance 1e-7, and a debug build throws. *)
Theorem C08_assertions_ieee_refuted :
  exists (loads : list (load F64)),
    map l_rank loads = seq 0 4 /\
    (forall my, exists ops, getOperations false isort loads my = Ok ops) /\
    (forall my, getOperations true isort loads my = Fatal).
Proof. exact vanishing_witness. Qed.
Print Assumptions C08_assertions_ieee_refuted.

(** ** C09: the 1% filter *)

(** Every arithmetic: the plan consists of exactly the swept transfers above 1% of the
    mean, in order. *)
Theorem C09_filter :
  forall (A : Arith) dbg sortf (loads : list (load A)) my ops,
    sort_contract sortf -> getOperations dbg sortf loads my = Ok ops ->
    exists final swept,
      sweep (length loads) (getMean loads) my (sortf loads) (length loads - 1) 0 []
        = Ok (final, swept) /\
      ops = filter (fun op => nltb A (nmul A (lit A (1 # 100)) (getMean loads))
                                     (o_value op)) swept.
Proof. exact @filter_lemma. Qed.
Print Assumptions C09_filter.

(** Exact arithmetic: equal loads give no transfer. *)
Theorem C09_equal_loads :
  forall sm gr vg dbg sortf (loads : list (load (QA sm gr vg))) n my v ops,
    sort_contract sortf -> map l_rank loads = seq 0 n ->
    (forall l, In l loads -> (l_value l == v)%Q) -> (0 <= v)%Q ->
    getOperations dbg sortf loads my = Ok ops -> ops = [].
Proof. exact equal_lemma. Qed.
Print Assumptions C09_equal_loads.

(** Exact arithmetic: with the planned (filtered) transfers every rank ends within
    about (n-1)% of the mean. *)
Theorem C09_imbalance_after_filter :
  forall sm gr vg, (0 < sm)%Q ->
  forall dbg sortf (loads : list (load (QA sm gr vg))) n l ops,
    sort_contract sortf -> map l_rank loads = seq 0 n -> In l loads ->
    (forall x, In x (load_values loads) -> (0 <= x)%Q) ->
    getOperations dbg sortf loads (l_rank l) = Ok ops ->
    let m := Qmean (load_values loads) in
    let N := inject_Z (Z.of_nat (n - 1)) in
    (Qabs (l_value l - given (l_rank l) ops + taken (l_rank l) ops - m)
      <= N * sm + N * (m * (1 # 100) + N * sm))%Q.
Proof. exact kept_lemma. Qed.
Print Assumptions C09_imbalance_after_filter.

(** Mean 10, threshold 1/10: the transfer of 9/20 stays, that of 1/20 is dropped. *)
Definition ex_loads2 : list (load QAD) :=
  [@mkLoad QAD 0 (209#20)%Q; @mkLoad QAD 1 (191#20)%Q;
   @mkLoad QAD 2 (201#20)%Q; @mkLoad QAD 3 (199#20)%Q].

Example C09_case_kept :
  exists op, getOperations true isort ex_loads2 0 = Ok [op] /\ (o_value op == 9#20)%Q.
Proof. eexists. split; [vm_compute; reflexivity|reflexivity]. Qed.

Example C09_case_dropped : getOperations true isort ex_loads2 2 = Ok [].
Proof. vm_compute. reflexivity. Qed.

(** Values exactly on the threshold are dropped: mean 100, transfer 1. *)
Example C09_case_threshold :
  getOperations (A := QAD) true isort [@mkLoad QAD 0 101%Q; @mkLoad QAD 1 99%Q] 0 = Ok [].
Proof. vm_compute. reflexivity. Qed.

(** ** C10: problem counts *)
Theorem C10_counts_greedy :
  forall (A : Arith) (times : list (num A)) (ps : list (problem A)),
    let counts := timesToProblemCounts times ps in
    length counts = length times /\
    forall i t n, nth_error times i = Some t -> nth_error counts i = Some n ->
      let rest := skipn (list_sum (firstn i counts)) ps in
      let within j := nleb A (nsum A (map p_cpuTime (firstn j rest))) t in
      n <= length rest /\
      (forall j, 1 <= j <= n -> within j = true) /\
      (n < length rest -> within (n + 1) = false).
Proof. exact @counts_lemma. Qed.
Print Assumptions C10_counts_greedy.

Example C10_case :
  timesToProblemCounts (A := QAD) [5; 1; 7]%Q (nth 0 (ex_probs QAD) []) = [3; 0; 2].
Proof. vm_compute. reflexivity. Qed.

(** ** C11: slices and remaining problems partition the list *)
Theorem C11_partition :
  forall (A : Arith) dbg sortf (probs : list (list (problem A))) sts a sa ps
         (T : Type) (values : list T),
    sort_contract sortf -> updateState dbg sortf probs = Ok sts ->
    nth_error sts a = Some sa -> nth_error probs a = Some ps ->
    length values = length ps ->
    exists slices rest,
      mapM (sendbuffer_at values (nProblems sa)) (seq 0 (length (destinations sa))) = Ok slices /\
      getRemaining sa values = Ok rest /\
      map (@length T) slices = nProblems sa /\
      concat slices ++ rest = values.
Proof. exact @partition_lemma. Qed.
Print Assumptions C11_partition.

Example C11_case :
  let st := mkState [] [1; 2] [2; 1] 2 in
  mapM (sendbuffer_at [10; 11; 12; 13; 14] (nProblems st)) [0; 1] = Ok [[10; 11]; [12]] /\
  getRemaining st [10; 11; 12; 13; 14] = Ok [13; 14].
Proof. vm_compute. auto. Qed.
