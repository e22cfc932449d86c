(** The value types exchanged between ranks. *)
From Coq Require Import List ZArith.
From Verif Require Import Outcome Arith.
Import ListNotations.

Section Types.
  Context {A : Arith}.

  (** [struct ChemistryLoad], ChemistryLoad.H:43-82.  Ranks are natural numbers. *)
  Record load := mkLoad { l_rank : nat; l_value : num A }.

  (** [struct ChemistryProblem], ChemistryProblem.H:41-69.  A default or sized
      construction (lines 44-48) leaves [cpuTime] (and the elements of [c])
      indeterminate; such objects are modelled as [None : option problem]. *)
  Record problem := mkProblem {
    p_c : list (num A);
    p_T : num A;
    p_p : num A;
    p_rho : num A;
    p_deltaTChem : num A;
    p_deltaT : num A;
    p_cpuTime : num A;
    p_cellid : nat
  }.

  (** [struct ChemistrySolution], ChemistrySolution.H:41-66.  A sized construction
      (lines 46-49) leaves [cpuTime] indeterminate and is modelled as
      [None : option solution]. *)
  Record solution := mkSolution {
    s_rr : list (num A);
    s_deltaTChem : num A;
    s_cpuTime : num A;
    s_cellid : nat;
    s_rho : num A
  }.
End Types.
Arguments load A : clear implicits.
Arguments problem A : clear implicits.
Arguments solution A : clear implicits.
