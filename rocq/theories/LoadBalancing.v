(** Model of the load balancer: LoadBalancerBase.[HC], LoadBalancer.[HC],
    SendBuffer.H, algorithms_DLB.H, runtime_assert.H
    (all in src/thermophysicalModels/chemistryModel/loadBalancing). *)
From Coq Require Import List Arith ZArith QArith Bool.
From Verif Require Import Outcome Arith Problem.
Import ListNotations.
Local Open Scope nat_scope.

(** [runtime_assert], runtime_assert.H:39-52: throws only in builds that define
    DEBUG ([dbg = true]). *)
Definition runtime_assert (dbg cond : bool) : outcome unit :=
  if dbg then (if cond then Ok tt else Fatal) else Ok tt.

(** Numbering of the ranks 0,1,2,...: [Pstream::myProcNo()] of the owner of each
    entry of a per-rank list. *)
Definition enum {T} (l : list T) : list (nat * T) := combine (seq 0 (length l)) l.

Section Model.
  Context {A : Arith}.

  Notation load := (load A).
  Notation problem := (problem A).

  (** [ChemistryLoad::operator<], ChemistryLoad.H:74-77. *)
  Definition load_lt (a b : load) : bool := nltb A (l_value a) (l_value b).

  (** [LoadBalancerBase::computeLoad], LoadBalancerBase.C:41-50. *)
  Definition computeLoad (myProcNo : nat) (problems : list problem) : load :=
    mkLoad myProcNo
      (fold_left (fun sum p => nadd A sum (p_cpuTime p)) problems (zero A)).

  (** [LoadBalancerBase::getMean], LoadBalancerBase.C:52-59. *)
  Definition getMean (loads : list load) : num A :=
    ndiv A (fold_left (fun sum l => nadd A sum (l_value l)) loads (zero A))
           (ofnat A (length loads)).

  (** [std::min_element] with the comparator of LoadBalancerBase.C:63-65. *)
  Fixpoint min_element (best : load) (l : list load) : load :=
    match l with
    | [] => best
    | x :: l' => min_element (if load_lt x best then x else best) l'
    end.

  (** [std::max_element] with the comparator of LoadBalancerBase.C:71-73. *)
  Fixpoint max_element (best : load) (l : list load) : load :=
    match l with
    | [] => best
    | x :: l' => max_element (if load_lt best x then x else best) l'
    end.

  (** [LoadBalancerBase::getMin], LoadBalancerBase.C:60-67; dereferencing [end()]
      of an empty list is UB. *)
  Definition getMin (l : list load) : outcome load :=
    match l with [] => UB | x :: l' => Ok (min_element x l') end.

  (** [LoadBalancerBase::getMax], LoadBalancerBase.C:69-75. *)
  Definition getMax (l : list load) : outcome load :=
    match l with [] => UB | x :: l' => Ok (max_element x l') end.

  (** [LoadBalancerBase::rankToLoadIdx], LoadBalancerBase.C:77-88 ([i] is the loop
      counter, 0 at entry). *)
  Fixpoint rankToLoadIdx_from (i : nat) (loads : list load) (rank : nat) : outcome nat :=
    match loads with
    | [] => Fatal
    | l :: loads' => if l_rank l =? rank then Ok i
                     else rankToLoadIdx_from (S i) loads' rank
    end.

  (** LoadBalancerBase.C:77-88. *)
  Definition rankToLoadIdx (loads : list load) (rank : nat) : outcome nat :=
    rankToLoadIdx_from 0 loads rank.

  (** [struct LoadBalancer::Operation], LoadBalancer.H:61-65. *)
  Record operation := mkOp { o_from : nat; o_to : nat; o_value : num A }.

  (** [struct LoadBalancerBase::BalancerState], LoadBalancerBase.H:58-64.
      [nRemaining] is an integer so that a negative count would be visible. *)
  Record bstate := mkState {
    sources : list nat;
    destinations : list nat;
    nProblems : list nat;
    nRemaining : Z
  }.

  (** [LoadBalancer::isSender], LoadBalancer.C:164-181. *)
  Definition isSender (ops : list operation) (rank : nat) : bool :=
    match ops with
    | [] => false
    | _ => forallb (fun op => o_from op =? rank) ops
    end.

  (** [LoadBalancer::isReceiver], LoadBalancer.C:183-195. *)
  Definition isReceiver (ops : list operation) (rank : nat) : bool :=
    forallb (fun op => o_to op =? rank) ops.

  (** C++ standard requirement of std::sort on its comparator (strict weak
      ordering), checked on the values actually present; LoadBalancer.C:115 with
      ChemistryLoad.H:74-77.  Violating it is UB. *)
  Definition comparable (loads : list load) : bool :=
    forallb (fun a =>
      negb (load_lt a a) &&
      forallb (fun b =>
        negb (load_lt a b && load_lt b a) &&
        forallb (fun c =>
          implb (load_lt a b && load_lt b c) (load_lt a c) &&
          implb (negb (load_lt a b) && negb (load_lt b a) &&
                 negb (load_lt b c) && negb (load_lt c b))
                (negb (load_lt a c) && negb (load_lt c a))) loads) loads) loads.

  (** The while loop of [LoadBalancer::getOperations], LoadBalancer.C:120-141.
      [s], [r] are the positions of the iterators [sender], [receiver]; [my] is
      [myLoad.rank].  Dereferencing outside the list or decrementing [begin()] is
      UB.  [fuel] bounds the number of iterations. *)
  Fixpoint sweep (fuel : nat) (mean : num A) (my : nat)
    (loads : list load) (s r : nat) (ops : list operation)
    : outcome (list load * list operation) :=
    if s =? r then Ok (loads, ops)
    else match fuel with
    | O => Diverge
    | S fuel' =>
      let* ls := idx loads s in
      let* lr := idx loads r in
      let v := std_min A (nsub A (l_value ls) mean) (nsub A mean (l_value lr)) in
      let op := mkOp (l_rank ls) (l_rank lr) v in
      let ops' := if (l_rank ls =? my) || (l_rank lr =? my)
                  then ops ++ [op] else ops in
      let* loads1 := setidx loads s (mkLoad (l_rank ls) (nsub A (l_value ls) v)) in
      let* lr1 := idx loads1 r in
      let* loads2 := setidx loads1 r (mkLoad (l_rank lr1) (nadd A (l_value lr1) v)) in
      let* ls2 := idx loads2 s in
      if nltb A (nabs A (nsub A (l_value ls2) mean)) (small A)
      then match s with
           | O => UB
           | S s' => sweep fuel' mean my loads2 s' r ops'
           end
      else sweep fuel' mean my loads2 s (S r) ops'
    end.

  (** The filter of LoadBalancer.C:144-151. *)
  Definition filter_large (mean : num A) (ops : list operation) : list operation :=
    filter (fun op => nltb A (nmul A (lit A (1 # 100)) mean) (o_value op)) ops.

  (** [LoadBalancer::getOperations], LoadBalancer.C:106-162.  [sortf] is the
      implementation of std::sort.  [loads.end() - 1] on an empty list is UB.
      The sweep gets as much fuel as there are ranks (theorem C04: this is never
      used up). *)
  Definition getOperations (dbg : bool) (sortf : list load -> list load)
    (loads : list load) (my : nat) : outcome (list operation) :=
    let mean := getMean loads in
    if negb (comparable loads) then UB else
    let sorted := sortf loads in
    match length sorted with
    | O => UB
    | S last =>
      let* (final, ops) := sweep (length sorted) mean my sorted last 0 [] in
      let* _ := runtime_assert dbg
                  (negb (isSender ops my && isReceiver ops my)) in
      let* _ := runtime_assert dbg
                  (nltb A (nabs A (nsub A (getMean final) mean)) (lit A (1 # 10 ^ 7))) in
      Ok (filter_large mean ops)
    end.

  (** [count_while] (algorithms_DLB.H:52-68) with the predicate of
      LoadBalancer.C:91-96; [sum] is the captured running sum. *)
  Fixpoint count_while (sum time : num A) (problems : list problem) : nat :=
    match problems with
    | [] => 0
    | p :: ps =>
      let sum' := nadd A sum (p_cpuTime p) in
      if nleb A sum' time then S (count_while sum' time ps) else 0
    end.

  (** [LoadBalancer::timesToProblemCounts], LoadBalancer.C:79-104; [problems] is
      the range from the iterator [begin] to the end. *)
  Fixpoint timesToProblemCounts (times : list (num A)) (problems : list problem)
    : list nat :=
    match times with
    | [] => []
    | t :: ts =>
      let count := count_while (zero A) t problems in
      count :: timesToProblemCounts ts (skipn count problems)
    end.

  (** [LoadBalancer::operationsToInfo], LoadBalancer.C:40-77.  The local [sum]
      (lines 50, 55) is never read and is left out. *)
  Definition operationsToInfo (ops : list operation) (problems : list problem)
    (my : nat) : bstate :=
    if isSender ops my then
      let counts := timesToProblemCounts (map o_value ops) problems in
      mkState [] (map o_to ops) counts
        (Z.of_nat (length problems) - Z.of_nat (fold_left Nat.add counts 0%nat))%Z
    else
      mkState (map o_from ops) [] [] (Z.of_nat (length problems)).

  (** [LoadBalancerBase::validState], LoadBalancerBase.C:90-100. *)
  Definition validState (nProcs : nat) (st : bstate) : bool :=
    (length (sources st) <=? nProcs) && (length (destinations st) <=? nProcs).

  (** [LoadBalancerBase::setState], LoadBalancerBase.C:33-39. *)
  Definition setState (dbg : bool) (nProcs : nat) (st : bstate) : outcome bstate :=
    let* _ := runtime_assert dbg (validState nProcs st) in Ok st.

  (** [LoadBalancerBase::allGather], LoadBalancerBase.H:148-160: every rank gets
      the list of all ranks' data, indexed by rank (gatherList/scatterList of
      OpenFOAM are trusted to do this). *)
  Definition allGather {T} (data : list T) : list (list T) := map (fun _ => data) data.

  (** [LoadBalancer::updateState] after the collective, LoadBalancer.C:34-37, on
      the rank [my]. *)
  Definition updateState_local (dbg : bool) (sortf : list load -> list load)
    (allLoads : list load) (my : nat) (problems : list problem) : outcome bstate :=
    let* ops := getOperations dbg sortf allLoads my in
    setState dbg (length allLoads) (operationsToInfo ops problems my).

  (** [LoadBalancer::updateState], LoadBalancer.C:28-38, run by all ranks; entry
      [i] of [probs] is the problem list of rank [i]. *)
  Definition updateState (dbg : bool) (sortf : list load -> list load)
    (probs : list (list problem)) : outcome (list bstate) :=
    let loads := map (fun ip => computeLoad (fst ip) (snd ip)) (enum probs) in
    let gathered := allGather loads in
    mapM (fun '(i, (ps, allLoads)) => updateState_local dbg sortf allLoads i ps)
         (enum (combine probs gathered)).

  (** [SendBuffer::operator[]], SendBuffer.H:55-60. *)
  Definition sendbuffer_at {T} (values : list T) (counts : list nat) (i : nat)
    : outcome (list T) :=
    let* n := idx counts i in
    slice values (fold_left Nat.add (firstn i counts) 0) n.

  (** [LoadBalancerBase::getRemaining], LoadBalancerBase.H:138-145. *)
  Definition getRemaining {T} (st : bstate) (values : list T) : outcome (list T) :=
    let n := nRemaining st in
    if (n <? 0)%Z || (Z.of_nat (length values) <? n)%Z then UB
    else slice values (length values - Z.to_nat n) (Z.to_nat n).
End Model.
Arguments operation A : clear implicits.
