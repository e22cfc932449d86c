(** Properties C12-C14 and C18: predicted loads, the exchange of problems and
    solutions, serialisation.
    Vocabulary: LoadBalancing.v, Streams.v and Comm.v (models of the code), the heads of
    PlanQ.v ([Qmean]) and PeakFacts.v ([load_time]). *)
From Coq Require Import List Arith ZArith QArith Bool Lia.
From Verif Require Import Outcome Arith Problem LoadBalancing BalancerSpec PlanFacts
  QSum PlanQ SliceFacts BalancerProofs Streams StreamFacts Comm CommFacts BalanceFacts PeakFacts
  PropBalancer.
Import ListNotations.
Local Open Scope nat_scope.

(** ** C12: balancing never raises the predicted peak load (exact arithmetic) *)
Theorem C12_peak_not_raised :
  forall sm gr vg, (0 < sm)%Q ->
  forall dbg sortf (probs : list (list (problem (QA sm gr vg)))) sts
         (K : Type) (enc : list (problem (QA sm gr vg)) -> list K) dec,
    (forall x rest, dec (enc x ++ rest) = Some (x, rest)) ->
    sort_contract sortf -> updateState dbg sortf probs = Ok sts ->
    (forall ps p, In ps probs -> In p ps -> (0 <= p_cpuTime p)%Q) ->
    exists guests, balance enc dec true sts probs = Ok guests /\
      length guests = length probs /\
      let m := Qmean (map load_time probs) in
      forall a st ps gs, nth_error sts a = Some st -> nth_error probs a = Some ps ->
        nth_error guests a = Some gs ->
        exists own, getRemaining st ps = Ok own /\
          let after := (load_time own + load_time (concat gs))%Q in
          (destinations st <> [] -> (m <= after <= load_time ps)%Q) /\
          (sources st <> [] -> (load_time ps <= after <= m)%Q) /\
          (destinations st = [] -> sources st = [] -> (after == load_time ps)%Q) /\
          exists b ps', nth_error probs b = Some ps' /\ (after <= load_time ps')%Q.
Proof. exact peak_lemma. Qed.
Print Assumptions C12_peak_not_raised.

(** [ex_probs]: loads 12, 1, 3, 8 become 7, 6, 5, 6 (mean 6). *)
Example C12_case :
  exists sts guests owns,
    updateState true isort (ex_probs QAD) = Ok sts /\
    balance (wr_list wr_problem) (rd_list rd_problem) true sts (ex_probs QAD) = Ok guests /\
    mapM (fun '(st, ps) => getRemaining st ps) (combine sts (ex_probs QAD)) = Ok owns /\
    Forall2 (fun '(own, gs) t => (load_time own + load_time (concat gs) == t)%Q)
      (combine owns guests) [7; 6; 5; 6]%Q.
Proof.
  do 3 eexists. split; [vm_compute; reflexivity|]. split; [vm_compute; reflexivity|].
  split; [vm_compute; reflexivity|]. repeat constructor.
Qed.

(** ** C13: the exchange is deadlock free and schedule independent *)

(** [bufs] is what each rank passes as send buffer.  From every reachable state of the
    concurrent exchange every schedule is finite, no rank has failed, and either some
    step is possible or all ranks have returned with the one result [res]; position [j]
    of rank [q]'s result is what [sources[j]] sent to [q].  [eager] says which messages
    MPI buffers. *)
Theorem C13_exchange :
  forall (A : Arith) (T K : Type) (enc : list T -> list K) dec (eager : nat -> nat -> bool)
         dbg sortf (probs : list (list (problem A))) sts (bufs : list (list (list T))),
    (forall x rest, dec (enc x ++ rest) = Some (x, rest)) ->
    sort_contract sortf -> updateState dbg sortf probs = Ok sts ->
    map (@length _) bufs = map (fun st => length (destinations st)) sts ->
    let outs := map (fun db => combine (fst db) (snd db)) (combine (map destinations sts) bufs) in
    let srcs := map sources sts in
    exists res, length res = length probs /\
      (forall c, steps enc dec eager (init outs srcs) c ->
         Acc (fun c' c => step enc dec eager c c') c /\
         (forall i r, nth_error (rks c) i = Some r -> ph r <> PFail) /\
         ((exists c', step enc dec eager c c') \/ (finished c /\ map got (rks c) = res))) /\
      (forall q sq, nth_error sts q = Some sq ->
         exists got_q, nth_error res q = Some got_q /\
           Forall2 (fun s v => exists st_s buf_s i,
               nth_error sts s = Some st_s /\ nth_error bufs s = Some buf_s /\
               nth_error (destinations st_s) i = Some q /\ nth_error buf_s i = Some v)
             (sources sq) got_q).
Proof. exact @plan_exchange_lemma. Qed.
Print Assumptions C13_exchange.

(** The plan of [ex_probs] moves three slices; rank 2 gets one from rank 0 (empty) and
    one from rank 3, in the order of its sources. *)
Example C13_case :
  let outs := [[(1, [10; 11; 12]); (2, [])]; []; []; [(2, [13])]] in
  let srcs := [[]; [0]; [0; 3]; []] in
  sendRecv (fun l : list nat => [l]) (fun l => match l with [] => None | x :: r => Some (x, r) end)
    true outs srcs
  = Ok [[]; [[10; 11; 12]]; [[]; [13]]; []].
Proof. vm_compute. reflexivity. Qed.

(** Without symmetry the exchange does fail: rank 1 expects data rank 0 never sends. *)
Example C13_asymmetric :
  sendRecv (fun l : list nat => [l]) (fun l => match l with [] => None | x :: r => Some (x, r) end)
    true [[]; []] [[]; [0]] = Fatal.
Proof. vm_compute. reflexivity. Qed.

(** ** C14: solutions return to their owner, in the order sent *)

(** [f q] is what rank [q] makes of a problem.  Each rank gets back, for each
    destination [d] in the order of its plan, the images under [f d] of the slice it sent
    to [d]; slices and remaining values together are the rank's values in order. *)
Theorem C14_return_in_order :
  forall (A : Arith) (T S K : Type) (encT : list T -> list K) decT
         (encS : list S -> list K) decS (f : nat -> T -> S)
         par dbg sortf (probs : list (list (problem A))) sts (values : list (list T)),
    (forall x rest, decT (encT x ++ rest) = Some (x, rest)) ->
    (forall x rest, decS (encS x ++ rest) = Some (x, rest)) ->
    sort_contract sortf -> updateState dbg sortf probs = Ok sts ->
    par = true \/ length probs <= 1 ->
    map (@length _) values = map (@length _) probs ->
    exists guests back,
      balance encT decT par sts values = Ok guests /\
      unbalance encS decS par sts (map (fun '(q, g) => map (map (f q)) g) (enum guests)) = Ok back /\
      length back = length probs /\
      forall p st vs, nth_error sts p = Some st -> nth_error values p = Some vs ->
        exists sl r,
          mapM (sendbuffer_at vs (nProblems st)) (seq 0 (length (destinations st))) = Ok sl /\
          getRemaining st vs = Ok r /\ concat sl ++ r = vs /\
          nth_error back p =
            Some (map (fun '(d, s) => map (f d) s) (combine (destinations st) sl)).
Proof. exact @return_lemma. Qed.
Print Assumptions C14_return_in_order.

(** Cells numbered 100*owner + cell; the solver tags each with its rank. *)
Example C14_case :
  let enc (l : list (nat * nat)) := [l] in
  let dec (l : list (list (nat * nat))) := match l with [] => None | x :: r => Some (x, r) end in
  let values := [[(0,0); (0,1); (0,2); (0,3); (0,4)]; [(1,0)]; [(2,0); (2,1)]; [(3,0); (3,1); (3,2)]] in
  let sts := [ mkState [] [1; 2] [3; 0] 2; mkState [0] [] [] 1;
               mkState [0; 3] [] [] 2; mkState [] [2] [1] 2 ] in
  exists guests,
    updateState true isort (ex_probs QAD) = Ok sts /\
    balance enc dec true sts values = Ok guests /\
    guests = [[]; [[(0,0); (0,1); (0,2)]]; [[]; [(3,0)]]; []] /\
    unbalance enc dec true sts
      (map (fun '(q, g) => map (map (fun v => (q, 100 * fst v + snd v))) g) (enum guests))
    = Ok [[[(1,0); (1,1); (1,2)]; []]; []; []; [[(2,300)]]].
Proof.
  eexists. split; [vm_compute; reflexivity|]. split; [vm_compute; reflexivity|].
  split; [reflexivity|vm_compute; reflexivity].
Qed.

(** ** C18: serialisation round trip *)
Theorem C18_problems :
  forall (A : Arith) (l : list (problem A)) rest,
    rd_list rd_problem (wr_list wr_problem l ++ rest) = Some (l, rest).
Proof. intros A. exact (codec_list _ _ codec_problem). Qed.
Print Assumptions C18_problems.

Theorem C18_solutions :
  forall (A : Arith) (l : list (solution A)) rest,
    rd_list rd_solution (wr_list wr_solution l ++ rest) = Some (l, rest).
Proof. intros A. exact (codec_list _ _ codec_solution). Qed.
Print Assumptions C18_solutions.

Theorem C18_loads :
  forall (A : Arith) (l : load A) rest,
    rd_load (wr_load l ++ rest) = Some (l, rest).
Proof. intros A. exact codec_load. Qed.
Print Assumptions C18_loads.

(** The tokens of a list of one solution. *)
Example C18_case :
  wr_list wr_solution [@mkSolution QAD [1; 2]%Q 3%Q 4%Q 5 6%Q] =
  [TLabel 1; TBegin; TLabel 2; @TRaw QAD [1; 2]%Q; @TNum QAD 3%Q; @TNum QAD 4%Q;
   TLabel 5; @TNum QAD 6%Q; TEnd].
Proof. reflexivity. Qed.
