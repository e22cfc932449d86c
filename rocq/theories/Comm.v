(** Model of LoadBalancerBase::sendRecv, balance and unbalance, as a function of all
    ranks' data, and of the same exchange as a concurrent program. *)
From Coq Require Import List Arith Bool ZArith.
From Verif Require Import Outcome Arith Problem LoadBalancing.
Import ListNotations.
Local Open Scope nat_scope.

(** Function update [f[i] := x] (one of the per-processor buffers of OpenFOAM's
    PstreamBuffers is replaced); not a function of /repo. *)
Definition fupd {T} (f : nat -> T) (i : nat) (x : T) : nat -> T :=
  fun j => if j =? i then x else f j.

Section Comm.
  (** [K]: tokens; [X]: what is sent to one destination; [enc], [dec]: the stream
      operators used at LoadBalancerBase.H:209 and 220. *)
  Context {K X : Type}.
  Variable enc : X -> list K.
  Variable dec : list K -> option (X * list K).

  (** What one rank writes: destination and value, in program order
      (LoadBalancerBase.H:206-210). *)
  Definition outbox : Type := list (nat * X).

  (** Bytes collected by PstreamBuffers for one destination (UOPstream appends). *)
  Definition written (o : outbox) (q : nat) : list K :=
    concat (map (fun dx => enc (snd dx)) (filter (fun dx => fst dx =? q) o)).

  (** The receive loop, LoadBalancerBase.H:215-221, on a rank whose receive buffer
      from rank [s] is [inbox s]; [n] is the number of ranks.  A UIPstream from a
      non-existing rank is UB; reading past the end or a wrong token is a
      FatalIOError. *)
  Fixpoint reads (n : nat) (sources : list nat) (inbox : nat -> list K)
    : outcome (list X) :=
    match sources with
    | [] => Ok []
    | s :: r =>
      if s <? n then
        match dec (inbox s) with
        | None => Fatal
        | Some (x, rest) => let* xs := reads n r (fupd inbox s rest) in Ok (x :: xs)
        end
      else UB
    end.

  (** [LoadBalancerBase::sendRecv], LoadBalancerBase.H:194-225, run by all ranks:
      entry [p] of [outs] is what rank [p] writes, entry [q] of [srcs] its argument
      [sources].  [par] is [Pstream::parRun()].  A UOPstream to a non-existing rank
      is UB. *)
  Definition sendRecv (par : bool) (outs : list outbox) (srcs : list (list nat))
    : outcome (list (list X)) :=
    if par then
      if forallb (forallb (fun dx => fst dx <? length outs)) outs then
        mapM (fun '(q, s) =>
                reads (length outs) s (fun p => written (nth p outs []) q)) (enum srcs)
      else UB
    else Ok (map (fun _ => []) srcs).

  (** ** Small steps *)

  (** Where a rank is in [sendRecv]: writing (lines 206-210), waiting in the exchange of
      message sizes inside [finishedSends()] (line 212), waiting for its requests inside
      [finishedSends()], reading (lines 214-221), stopped by an error. *)
  Inductive phase := PWrite | PSizes | PXfer | PRead | PFail.

  (** Local state of a rank inside [sendRecv], LoadBalancerBase.H:194-225. *)
  Record rstate := mkR {
    ph : phase;
    todo : outbox;               (* values still to be written *)
    sbuf : nat -> list K;        (* send buffers of pBufs *)
    rbuf : nat -> list K;        (* receive buffers of pBufs *)
    left : list nat;             (* sources still to be read *)
    got : list X                 (* ret *)
  }.

  (** All ranks, and the messages already delivered, as (sender, receiver). *)
  Record config := mkC { rks : list rstate; dlv : list (nat * nat) }.

  (** Initial state: all ranks at LoadBalancerBase.H:204. *)
  Definition init (outs : list outbox) (srcs : list (list nat)) : config :=
    mkC (map (fun os => mkR PWrite (fst os) (fun _ => []) (fun _ => []) (snd os) [])
           (combine outs srcs)) [].

  (** The rank has called [finishedSends()]. *)
  Definition entered (r : rstate) : Prop := ph r <> PWrite /\ ph r <> PFail.

  (** The rank's nonblocking requests are posted. *)
  Definition posted (r : rstate) : Prop := ph r = PXfer \/ ph r = PRead.

  (** MPI may or may not buffer a message: if [eager p q], rank [p]'s send to [q] may
      complete before it is delivered. *)
  Variable eager : nat -> nat -> bool.

  (** One step of one rank, or one message delivery, in any order. *)
  Inductive step : config -> config -> Prop :=
  | st_write i r d x t c :
      nth_error (rks c) i = Some r -> ph r = PWrite -> todo r = (d, x) :: t ->
      d < length (rks c) ->
      step c (mkC (upd (rks c) i
        (mkR PWrite t (fupd (sbuf r) d (sbuf r d ++ enc x)) (rbuf r) (left r) (got r))) (dlv c))
  | st_badwrite i r d x t c :
      nth_error (rks c) i = Some r -> ph r = PWrite -> todo r = (d, x) :: t ->
      length (rks c) <= d ->
      step c (mkC (upd (rks c) i (mkR PFail t (sbuf r) (rbuf r) (left r) (got r))) (dlv c))
  | st_post i r c :
      nth_error (rks c) i = Some r -> ph r = PWrite -> todo r = [] ->
      step c (mkC (upd (rks c) i (mkR PSizes [] (sbuf r) (rbuf r) (left r) (got r))) (dlv c))
  | st_sizes i r c :
      nth_error (rks c) i = Some r -> ph r = PSizes ->
      (forall j rj, nth_error (rks c) j = Some rj -> entered rj) ->
      step c (mkC (upd (rks c) i (mkR PXfer (todo r) (sbuf r) (rbuf r) (left r) (got r))) (dlv c))
  | st_deliver p q rp rq c :
      nth_error (rks c) p = Some rp -> nth_error (rks c) q = Some rq ->
      posted rp -> ph rq = PXfer -> ~ In (p, q) (dlv c) -> sbuf rp q <> [] ->
      step c (mkC (upd (rks c) q
        (mkR PXfer (todo rq) (sbuf rq) (fupd (rbuf rq) p (sbuf rp q)) (left rq) (got rq)))
        ((p, q) :: dlv c))
  | st_complete i r c :
      nth_error (rks c) i = Some r -> ph r = PXfer ->
      (forall p rp, nth_error (rks c) p = Some rp -> sbuf rp i = [] \/ In (p, i) (dlv c)) ->
      (forall q, q < length (rks c) ->
         sbuf r q = [] \/ In (i, q) (dlv c) \/ eager i q = true) ->
      step c (mkC (upd (rks c) i (mkR PRead (todo r) (sbuf r) (rbuf r) (left r) (got r))) (dlv c))
  | st_read i r s l x rest c :
      nth_error (rks c) i = Some r -> ph r = PRead -> left r = s :: l ->
      s < length (rks c) -> dec (rbuf r s) = Some (x, rest) ->
      step c (mkC (upd (rks c) i
        (mkR PRead (todo r) (sbuf r) (fupd (rbuf r) s rest) l (got r ++ [x]))) (dlv c))
  | st_badread i r s l c :
      nth_error (rks c) i = Some r -> ph r = PRead -> left r = s :: l ->
      length (rks c) <= s \/ dec (rbuf r s) = None ->
      step c (mkC (upd (rks c) i (mkR PFail (todo r) (sbuf r) (rbuf r) l (got r))) (dlv c)).

  (** Configurations reachable from [c0]; not a function of /repo. *)
  Inductive steps (c0 : config) : config -> Prop :=
  | steps_refl : steps c0 c0
  | steps_step c c' : steps c0 c -> step c c' -> steps c0 c'.

  (** All ranks have returned from [sendRecv]; not a function of /repo. *)
  Definition finished (c : config) : Prop :=
    forall i r, nth_error (rks c) i = Some r -> ph r = PRead /\ left r = [].
End Comm.
Arguments rstate K X : clear implicits.
Arguments config K X : clear implicits.
Arguments outbox X : clear implicits.

Section BalanceOps.
  Context {T K : Type}.
  (** Stream operators for a list of [T] (a SubList or DynamicList). *)
  Variable encl : list T -> list K.
  Variable decl : list K -> option (list T * list K).

  (** Writes of [sendRecv] (LoadBalancerBase.H:206-210) for an indexable send buffer. *)
  Definition outbox_of (buf : nat -> outcome (list T)) (dests : list nat)
    : outcome (outbox (list T)) :=
    mapM (fun '(i, d) => let* v := buf i in Ok (d, v)) (enum dests).

  (** Runs [sendRecv] on all ranks given each rank's send buffer, sources and
      destinations; LoadBalancerBase.H:194-225.  In a serial run nothing is indexed. *)
  Definition exchange (par : bool)
    (args : list ((nat -> outcome (list T)) * list nat * list nat))
    : outcome (list (list (list T))) :=
    let* outs := (if par then mapM (fun '(buf, _, dests) => outbox_of buf dests) args
                  else Ok (map (fun _ => []) args)) in
    sendRecv encl decl par outs (map (fun '(_, srcs, _) => srcs) args).

  (** [LoadBalancerBase::balance], LoadBalancerBase.H:162-170, on all ranks. *)
  Definition balance (par : bool) (sts : list bstate) (values : list (list T))
    : outcome (list (list (list T))) :=
    exchange par (map (fun '(st, vs) =>
      (sendbuffer_at vs (nProblems st), sources st, destinations st)) (combine sts values)).

  (** [LoadBalancerBase::unbalance], LoadBalancerBase.H:172-178, on all ranks. *)
  Definition unbalance (par : bool) (sts : list bstate) (values : list (list (list T)))
    : outcome (list (list (list T))) :=
    exchange par (map (fun '(st, vs) =>
      (idx vs, destinations st, sources st)) (combine sts values)).
End BalanceOps.
