(** Model of the serialisation operators of ChemistryLoad, ChemistryProblem and
    ChemistrySolution, and of the OpenFOAM list streaming they rest on. *)
From Coq Require Import List ZArith Bool.
From Verif Require Import Outcome Arith Problem.
Import ListNotations.
Local Open Scope nat_scope.

(** Tokens of an OpenFOAM binary Pstream.  Not a function of /repo: abstraction of
    OpenFOAM's token stream ([TRaw] is the raw block of a contiguous list). *)
Inductive tok (A : Arith) : Type :=
| TNum (x : num A)
| TLabel (n : nat)
| TBegin
| TEnd
| TRaw (l : list (num A)).
Arguments TNum {A} x.
Arguments TLabel {A} n.
Arguments TBegin {A}.
Arguments TEnd {A}.
Arguments TRaw {A} l.

Section Streams.
  Context {A : Arith}.
  Notation toks := (list (tok A)).

  (** Reader: consumes tokens, or stops with a FatalIOError.  Not a function of
      /repo: type of [Istream& operator>>(Istream&, T&)]. *)
  Definition reader (T : Type) : Type := toks -> option (T * toks).

  (** Reading two things one after the other; not a function of /repo. *)
  Definition rbind {S T} (r : reader S) (k : S -> reader T) : reader T :=
    fun ts => match r ts with Some (s, ts') => k s ts' | None => None end.

  (** Value of a reader that consumes nothing; not a function of /repo. *)
  Definition rret {T} (x : T) : reader T := fun ts => Some (x, ts).

  (** [Ostream << scalar] (OpenFOAM). *)
  Definition wr_num (x : num A) : toks := [TNum x].

  (** [Istream >> scalar] (OpenFOAM [token::isNumber]: a label is accepted and
      converted). *)
  Definition rd_num : reader (num A) := fun ts =>
    match ts with
    | TNum x :: ts' => Some (x, ts')
    | TLabel n :: ts' => Some (ofnat A n, ts')
    | _ => None
    end.

  (** [Ostream << label] (OpenFOAM).  Labels are natural numbers here. *)
  Definition wr_label (n : nat) : toks := [TLabel n].

  (** [Istream >> label] (OpenFOAM). *)
  Definition rd_label : reader nat := fun ts =>
    match ts with TLabel n :: ts' => Some (n, ts') | _ => None end.

  (** [Ostream << scalarField] in binary format (OpenFOAM [operator<<(Ostream&, const
      UList<scalar>&)]): size, then the raw block unless empty. *)
  Definition wr_field (l : list (num A)) : toks :=
    TLabel (length l) :: match l with [] => [] | _ => [TRaw l] end.

  (** [Istream >> scalarField] in binary format (OpenFOAM): the raw block must have
      the announced size. *)
  Definition rd_field : reader (list (num A)) := fun ts =>
    match ts with
    | TLabel 0 :: ts' => Some ([], ts')
    | TLabel n :: TRaw l :: ts' => if length l =? n then Some (l, ts') else None
    | _ => None
    end.

  (** [Ostream << UList<T>] for non-contiguous [T] (OpenFOAM): size, '(', elements, ')'.
      The uniform-list shortcut does not apply: it needs a contiguous type (and
      ChemistryProblem.H:60-63 makes elements never compare equal). *)
  Definition wr_list {T} (wr : T -> toks) (l : list T) : toks :=
    TLabel (length l) :: TBegin :: concat (map wr l) ++ [TEnd].

  (** Reads [n] elements; inner loop of OpenFOAM's [Istream >> List<T>]. *)
  Fixpoint rd_n {T} (r : reader T) (n : nat) : reader (list T) :=
    match n with
    | O => rret []
    | S n' => rbind r (fun x => rbind (rd_n r n') (fun l => rret (x :: l)))
    end.

  (** [Istream::readBeginList] (OpenFOAM). *)
  Definition rd_begin : reader unit := fun ts =>
    match ts with TBegin :: ts' => Some (tt, ts') | _ => None end.

  (** [Istream::readEndList] (OpenFOAM). *)
  Definition rd_end : reader unit := fun ts =>
    match ts with TEnd :: ts' => Some (tt, ts') | _ => None end.

  (** [Istream >> DynamicList<T>] for non-contiguous [T] (OpenFOAM); used at
      LoadBalancerBase.H:220. *)
  Definition rd_list {T} (r : reader T) : reader (list T) :=
    rbind rd_label (fun n => rbind rd_begin (fun _ =>
    rbind (rd_n r n) (fun l => rbind rd_end (fun _ => rret l)))).

  (** [operator<<(Ostream&, const ChemistryLoad&)], ChemistryLoad.H:85-92. *)
  Definition wr_load (l : load A) : toks := wr_label (l_rank l) ++ wr_num (l_value l).

  (** [operator>>(Istream&, ChemistryLoad&)], ChemistryLoad.H:95-102. *)
  Definition rd_load : reader (load A) :=
    rbind rd_label (fun r => rbind rd_num (fun v => rret (mkLoad r v))).

  (** [operator<<(Ostream&, const ChemistryProblem&)], ChemistryProblem.H:72-85. *)
  Definition wr_problem (p : problem A) : toks :=
    wr_field (p_c p) ++ wr_num (p_T p) ++ wr_num (p_p p) ++ wr_num (p_rho p) ++
    wr_num (p_deltaTChem p) ++ wr_num (p_deltaT p) ++ wr_num (p_cpuTime p) ++
    wr_label (p_cellid p).

  (** [operator>>(Istream&, ChemistryProblem&)], ChemistryProblem.H:88-101. *)
  Definition rd_problem : reader (problem A) :=
    rbind rd_field (fun c => rbind rd_num (fun T => rbind rd_num (fun p =>
    rbind rd_num (fun rho => rbind rd_num (fun dtc => rbind rd_num (fun dt =>
    rbind rd_num (fun cpu => rbind rd_label (fun cell =>
    rret (mkProblem c T p rho dtc dt cpu cell))))))))).

  (** [operator<<(Ostream&, const ChemistrySolution&)], ChemistrySolution.H:69-77. *)
  Definition wr_solution (s : solution A) : toks :=
    wr_field (s_rr s) ++ wr_num (s_deltaTChem s) ++ wr_num (s_cpuTime s) ++
    wr_label (s_cellid s) ++ wr_num (s_rho s).

  (** [operator>>(Istream&, ChemistrySolution&)], ChemistrySolution.H:80-88. *)
  Definition rd_solution : reader (solution A) :=
    rbind rd_field (fun rr => rbind rd_num (fun dtc => rbind rd_num (fun cpu =>
    rbind rd_label (fun cell => rbind rd_num (fun rho =>
    rret (mkSolution rr dtc cpu cell rho)))))).
End Streams.
