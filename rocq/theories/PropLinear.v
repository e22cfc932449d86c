(** Properties C57 and C58: what the rates conserve is conserved by the integration.
    Vocabulary: [weighted], [regular_steps] in SeulexLinear.v, [conserves] in PyJacLinear.v,
    [computes] in SeulexRun.v, [lapack_solves] in SeulexFacts.v, [seulex_reach] in SeulexCases.v,
    [pj_rhs] and [pj_jacf] (what the pyJac system computes) in PyJacSpec.v. *)
From Coq Require Import List Arith ZArith QArith Bool Lia.
From Verif Require Import Outcome Arith ChemistryModel OdeSolver Seulex SeulexRun SeulexSpec OdeFacts SeulexFacts SeulexEx
  SeulexCases SeulexLinear PyJac PyJacFacts PyJacSpec PyJacCases PyJacLinear LinearEx QSum PropPyJac.
Import ListNotations.
Local Open Scope nat_scope.

(** ** C57: seulex conserves linear first integrals *)

(** Weights for which the right-hand side and the columns of the Jacobian cancel: the weighted
    sum of the state is the same after any number of steps. *)
Theorem C57_first_integrals :
  forall sm gr vg (S : Type) (cm : cmath (QA sm gr vg)) (lap : lapack (QA sm gr vg)) (sys : odesys (QA sm gr vg) S)
         (absTol relTol : list Q) fuel (rhs : Q -> list Q -> list Q) (jacf : Q -> list Q -> list (list Q)),
    computes sys rhs jacf -> (forall r, In r relTol -> (0 < r)%Q) -> relTol <> [] ->
    lapack_solves lap (nEqns sys) ->
    (forall x y, length y = nEqns sys -> length (rhs x y) = nEqns sys) ->
  forall w : nat -> Q,
    (forall x y, length y = nEqns sys -> (Qsumf (fun i => w i * nth i (rhs x y) 0) (seq 0 (nEqns sys)) == 0)%Q) ->
    (forall x y j, j < nEqns sys ->
       (Qsumf (fun i => w i * nth j (nth i (jacf x y) []) 0) (seq 0 (nEqns sys)) == 0)%Q) ->
  forall m (xs xe : Q) y (dx : Q), length y = nEqns sys ->
    regular_steps sm gr vg cm lap sys absTol relTol fuel jacf m xs xe y dx ->
  forall q b, seulex_reach cm lap sys absTol relTol fuel m xs xe y dx q b ->
    (Qsumf (fun i => w i * nth i (pt_y b) 0) (seq 0 (nEqns sys)) == Qsumf (fun i => w i * nth i y 0) (seq 0 (nEqns sys)))%Q.
Proof. exact @linear_kept. Qed.
Print Assumptions C57_first_integrals.

(** A turns into B (LinearEx.v): one step; the sum of A and B is kept. *)
Example C57_case :
  exists b, seulex_reach qmath red_lap (pj_sys ex_react 3) react_tol react_tol 4 react_mem 0%Q 1%Q react_state 1%Q 1 b /\
    Forall2 Qeq (pt_y b) [1000; 2 # 5; 7 # 20; 100000]%Q /\
    regular_steps (small QAD) (great QAD) (vgreat QAD) qmath red_lap (pj_sys ex_react 3) react_tol react_tol 4
      (pj_jacf ex_react 3) react_mem 0%Q 1%Q react_state 1%Q /\
    computes (pj_sys ex_react 3) (pj_rhs ex_react 3) (pj_jacf ex_react 3) /\ lapack_solves red_lap 4.
Proof.
  destruct react_step as (x & y & s & m & E & _ & _ & Y). exists (mkPoint (A := QAD) m x y s). split.
  - apply react_reach. exact E.
  - split; [exact Y|]. split; [exact react_regular_steps|]. split; [apply pj_computes|apply red_lapack].
Qed.

(** ** C58: the cell solve conserves what the mechanism conserves *)

(** For instance the mass of an element, [e k] being the mass of the element in a unit mass of
    species [k]; provided that the integration ends with mass fractions that are not negative
    (the values in [cTp_]). *)
Theorem C58_elements :
  forall sm gr vg (cm : cmath (QA sm gr vg)) (lap : lapack (QA sm gr vg)) (mc : mech (QA sm gr vg)) ns,
    NSP mc = ns -> 1 <= ns ->
  forall e : nat -> Q, conserves mc ns e ->
  forall (aT rT : Q) fuel maxSteps h (x x' : kcell (QA sm gr vg)) h',
    (0 < rT)%Q -> lapack_solves lap (ns + 1) -> length (k_c x) = ns -> (Qsum (k_c x) == 1)%Q ->
    regular_steps sm gr vg cm lap (pj_sys mc ns) (repeat aT (ns + 1)) (repeat rT (ns + 1)) fuel (pj_jacf mc ns)
      (snd h) 0%Q (k_dt x) (k_T x :: firstn (ns - 1) (k_c x) ++ [k_p x]) (k_sub x) ->
    pyJac_kern cm lap mc aT rT fuel maxSteps ns h x = Ok (x', h') ->
    (forall i, 1 <= i < ns -> exists v, fst h' i = Some v /\ (0 <= v)%Q) ->
    (Qsumf (fun k => e k * nth k (k_c x') 0) (seq 0 ns) == Qsumf (fun k => e k * nth k (k_c x) 0) (seq 0 ns))%Q.
Proof. exact conserved_cell. Qed.
Print Assumptions C58_elements.

Example C58_case :
  conserves (sm := small QAD) (gr := great QAD) (vg := vgreat QAD) ex_react 3 ex_element /\
  lapack_solves red_lap 4 /\
  regular_steps (small QAD) (great QAD) (vgreat QAD) qmath red_lap (pj_sys ex_react 3) (repeat (1 # 5) 4)%Q (repeat (1 # 5) 4)%Q 4
    (pj_jacf ex_react 3) react_mem 0%Q 1%Q [1000; 1 # 2; 1 # 4; 100000]%Q 1%Q /\
  exists x' h',
    pyJac_kern (A := QAD) qmath red_lap ex_react (1 # 5)%Q (1 # 5)%Q 4 9 3 (fun _ => None, react_mem)
      (mkCell (A := QAD) 100000 1000 [1 # 2; 1 # 4; 1 # 4] 1 1)%Q = Ok (x', h') /\
    map Qred (k_c x') = [2 # 5; 7 # 20; 1 # 4]%Q.
Proof.
  split; [exact react_conserves|]. split; [apply red_lapack|]. split; [exact react_regular_steps|].
  apply by_solve. vm_compute. reflexivity.
Qed.

(** Where a negative mass fraction is cut off, mass of the element appears: here 3/4 become 5/4. *)
Theorem C58_cut_off_refuted :
  exists (mc : mech QAD) (e : nat -> Q) (x x' : kcell QAD) h h',
    conserves (sm := small QAD) (gr := great QAD) (vg := vgreat QAD) mc 3 e /\
    (forall v, In v (k_c x) -> (0 < v)%Q) /\ (Qsum (k_c x) == 1)%Q /\
    pyJac_kern (A := QAD) qmath red_lap mc (1 # 5)%Q (1 # 5)%Q 4 9 3 h x = Ok (x', h') /\
    (Qsumf (fun k => e k * nth k (k_c x) 0) (seq 0 3) == 3 # 4)%Q /\
    (Qsumf (fun k => e k * nth k (k_c x') 0) (seq 0 3) == 5 # 4)%Q.
Proof. exact cut_off. Qed.
Print Assumptions C58_cut_off_refuted.
