(** The statements of PropSeulex.v in the form in which they are used there. *)
From Coq Require Import List Arith ZArith QArith Qabs Bool Lia Lqa Setoid.
From Coq Require Import Floats.SpecFloat.
From Verif Require Import Outcome Arith ChemistryModel ChemFacts OdeSolver Seulex SeulexMono SeulexSafe
  SeulexRun SeulexSpec OdeFacts SeulexFacts SeulexPoly SeulexEx QSum.
Import ListNotations.
Local Open Scope nat_scope.

(** Integration over an interval with seulex: the driver, ODESolver.C:145-202, calling
    seulex::solve, seulex_LAPACK.C:333-597. *)
Definition seulex_range {A S} (cm : cmath A) (lap : lapack A) (sys : odesys A S) (absTol relTol : list (num A))
  (fuel maxSteps : nat) (m : mem A S) (xs xe : num A) (y : list (num A)) (dxTry : num A)
  : outcome (list (num A) * num A * mem A S) :=
  solve_range (fun h x y step => step_solve cm lap sys absTol relTol fuel x y step h) maxSteps m xs xe y dxTry.

(** In an integration from [xs] (memory [m], state [y], trial step [dx]) the point [b] is reached
    after [k] steps. *)
Definition seulex_reach {A S} (cm : cmath A) (lap : lapack A) (sys : odesys A S) (absTol relTol : list (num A))
  (fuel : nat) (m : mem A S) (xs xe : num A) (y : list (num A)) (dx : num A)
  : nat -> point A (mem A S) -> Prop :=
  reach (fun h x y step => step_solve cm lap sys absTol relTol fuel x y step h) xs xe
    (mkPoint m xs y (newStep dx)).

(** ** Tolerances in exact arithmetic *)
Section Tolerances.
  Variables sm gr vg : Q.
  Notation AQ := (QA sm gr vg).

  Lemma foam_min_pos (a b : Q) : (0 < a)%Q -> (0 < b)%Q -> (0 < foam_min AQ a b)%Q.
  Proof. unfold foam_min. destruct (nltb AQ a b); auto. Qed.

  Lemma jacRedo_pos (relTol : list Q) : (forall r, In r relTol -> (0 < r)%Q) -> relTol <> [] ->
    (0 < jacRedo (A := AQ) relTol)%Q.
  Proof.
    intros H NE. unfold jacRedo. apply foam_min_pos; [reflexivity|].
    destruct relTol as [|r l]; [congruence|].
    assert (G : forall l' a, (forall x, In x l' -> (0 < x)%Q) -> (0 < a)%Q ->
      (0 < fold_left (fun a b => foam_min AQ b a) l' a)%Q).
    { clear. induction l' as [|x l' IH]; intros a Hl Ha; [exact Ha|]. cbn [fold_left]. apply IH.
      - intros y Hy. apply Hl. right. auto.
      - apply foam_min_pos; auto. apply Hl. left. auto. }
    apply G; auto. apply H. left. auto.
  Qed.

  Lemma jacRedo_twice (relTol : list Q) : (forall r, In r relTol -> (0 < r)%Q) -> relTol <> [] ->
    nltb AQ (jacRedo (A := AQ) relTol) (nmul AQ (lit AQ 2) (jacRedo (A := AQ) relTol)) = true.
  Proof.
    intros H NE. apply Qltb_true. assert (P := jacRedo_pos relTol H NE). simpl in *. lra.
  Qed.

  Lemma positive_tolerances (cm : cmath AQ) n (absTol relTol : list Q) :
    length absTol = n -> length relTol = n -> 1 <= n ->
    (forall q, fint cm q <> None) -> (forall r, In r relTol -> (0 < r)%Q) ->
    good_tolerances cm n absTol relTol.
  Proof.
    intros L1 L2 L3 HI HR. split; auto. split; auto. split.
    - apply jacRedo_twice; auto. intros ->. simpl in L2. lia.
    - intros a r _ _. unfold order_defined.
      match goal with |- exists z, fint cm ?q = Some z => specialize (HI q); destruct (fint cm q) as [z|] end;
        [eauto|congruence].
  Qed.
End Tolerances.

(** ** Every step *)
Section Every.
  Context {A : Arith} {S : Type}.
  Variable cm : cmath A.
  Variable lap : lapack A.
  Variable sys : odesys A S.
  Variables absTol relTol : list (num A).
  Variable fuel : nat.
  Variable rhs : num A -> list (num A) -> list (num A).
  Variable jacf : num A -> list (num A) -> list (list (num A)).
  Hypothesis CP : computes sys rhs jacf.
  Hypothesis HJ : nltb A (jacRedo relTol) (nmul A (lit A 2) (jacRedo relTol)) = true.

  Lemma each m xs xe y dx k b :
    seulex_reach cm lap sys absTol relTol fuel m xs xe y dx k b ->
    exists x0 y0,
      ((k = 1 /\ x0 = xs /\ y0 = y) \/
       exists j b', k = Datatypes.S j /\ seulex_reach cm lap sys absTol relTol fuel m xs xe y dx j b' /\
                    x0 = pt_x b' /\ y0 = pt_y b') /\
      exists xj yj q, pt_x b = nadd A x0 (ss_dxDid (pt_step b)) /\
        good cm lap sys absTol relTol rhs (jacf xj yj) x0 y0 (ss_dxDid (pt_step b)) q (pt_y b).
  Proof.
    intros R.
    destruct (every_step cm lap sys absTol relTol fuel rhs jacf CP HJ (fun J => exists x y, J = jacf x y)
      (fun x y => ex_intro _ x (ex_intro _ y eq_refl)) m xs xe y dx k b R)
      as (x0 & y0 & Hw & J & q & (xj & yj & ->) & Hx & G).
    exists x0, y0. split; auto. exists xj, yj, q. auto.
  Qed.

  Lemma step_by_step m xs xe y dx k b :
    seulex_reach cm lap sys absTol relTol fuel m xs xe y dx k b ->
    exists x0 y0,
      ((k = 1 /\ x0 = xs /\ y0 = y) \/
       exists j b', k = Datatypes.S j /\ seulex_reach cm lap sys absTol relTol fuel m xs xe y dx j b' /\
                    x0 = pt_x b' /\ y0 = pt_y b') /\
      exists xj yj q,
        let H := ss_dxDid (pt_step b) in
        let E := col lap (nEqns sys) rhs (jacf xj yj) x0 y0 H in
        let err := scaled_error cm (nEqns sys) absTol relTol y0 (neville E q q) (neville E q (q - 1)) in
        1 <= q <= 12 /\ pt_x b = nadd A x0 H /\ pt_y b = neville E q q /\
        (nleb A err (lit A 1) = true \/ nltb A (lit A 1) err = false).
  Proof.
    intros R. destruct (each _ _ _ _ _ _ _ R) as (x0 & y0 & Hw & xj & yj & q & Hx & (Hq & Hy & Ha & _)).
    exists x0, y0. split; auto. exists xj, yj, q. cbv zeta. split; [lia|]. split; auto. split; auto.
    rewrite Hy in Ha. exact Ha.
  Qed.

  Lemma substeps_plausible m xs xe y dx k b :
    seulex_reach cm lap sys absTol relTol fuel m xs xe y dx k b ->
    exists x0 y0 xj yj q, 1 <= q /\
      pt_y b = neville (col lap (nEqns sys) rhs (jacf xj yj) x0 y0 (ss_dxDid (pt_step b))) q q /\
      forall c, c <= q ->
        let s := nth c substep_numbers 0 in
        forall i, 1 <= i < s ->
          exists T rest, snd (euler lap (nEqns sys) rhs (jacf xj yj) x0 y0
                                (ndiv A (ss_dxDid (pt_step b)) (ofnat A s)) i) = T :: rest /\
            nleb A T (lit A 200) = false /\ nltb A (lit A 5000) T = false.
  Proof.
    intros R. destruct (each _ _ _ _ _ _ _ R) as (x0 & y0 & _ & xj & yj & q & _ & (Hq & Hy & _ & Hp)).
    exists x0, y0, xj, yj, q. split; [lia|]. split; auto. intros c Hc s i Hi.
    specialize (Hp c Hc i Hi). unfold plausible in Hp. fold s in Hp.
    destruct (snd (euler _ _ _ _ _ _ _ _)) as [|T rest] in *; [contradiction|]. exists T, rest. auto.
  Qed.

  Lemma col_length J x0 (y0 : list (num A)) H k : length y0 = nEqns sys ->
    length (col lap (nEqns sys) rhs J x0 y0 H k) = nEqns sys.
  Proof.
    intros L. unfold col. cbv zeta. generalize (ndiv A H (ofnat A (nth k substep_numbers 0))) as h.
    intros h. induction (nth k substep_numbers 0) as [|m IH]; [exact L|]. cbn [euler].
    destruct (euler lap (nEqns sys) rhs J x0 y0 h m) as [x y]. simpl in *.
    unfold vadd, increment. rewrite map_length, combine_length, map_length, seq_length. lia.
  Qed.

  Lemma nevilles_length (E : nat -> list (num A)) n : (forall j, length (E j) = n) -> forall i k,
    length (neville E k i) = n.
  Proof.
    intros L. induction i as [|i IH]; intros k; [apply L|]. cbn [neville].
    rewrite map_length, combine_length, !IH. apply Nat.min_id.
  Qed.

  Lemma reach_length m xs xe y dx k : length y = nEqns sys -> forall b,
    seulex_reach cm lap sys absTol relTol fuel m xs xe y dx k b -> length (pt_y b) = nEqns sys.
  Proof.
    intros L. induction k as [|k IH]; intros b R.
    - inversion R.
    - destruct (each _ _ _ _ _ _ _ R) as (x0 & y0 & Hw & xj & yj & q & _ & (_ & Hy & _)). rewrite Hy.
      apply nevilles_length. intros j. apply col_length.
      destruct Hw as [(_ & _ & ->)|(j' & b' & Ej & R' & _ & ->)]; auto.
      inversion Ej; subst j'. apply IH. exact R'.
  Qed.

  Lemma reads_initialised (s : S) maxSteps (xs xe : num A) y dxTry :
    sys_sane sys -> 1 <= nEqns sys -> good_tolerances cm (nEqns sys) absTol relTol ->
    length y = nEqns sys ->
    seulex_range cm lap sys absTol relTol fuel maxSteps (mkMem (fun _ _ => None) None None s)
      xs xe y dxTry <> UB.
  Proof.
    clear CP HJ. intros SS N1 GT L E.
    assert (R := range_safe cm lap sys absTol relTol fuel SS N1 GT maxSteps (mkMem (fun _ _ => None) None None s)
      xs xe y dxTry L). unfold seulex_range in E. rewrite E in R. exact R.
  Qed.
End Every.

(** ** Exact arithmetic *)
Section Exact.
  Variables sm gr vg : Q.
  Notation AQ := (QA sm gr vg).
  Context {S : Type}.
  Variable cm : cmath AQ.
  Variable lap : lapack AQ.
  Variable sys : odesys AQ S.
  Variables absTol relTol : list Q.
  Variable fuel : nat.
  Variable rhs : Q -> list Q -> list Q.
  Variable jacf : Q -> list Q -> list (list Q).
  Hypothesis CP : computes sys rhs jacf.

  Lemma accepted_exact :
    (forall r, In r relTol -> (0 < r)%Q) -> relTol <> [] ->
    forall m (xs xe : Q) y (dx : Q) k b,
    seulex_reach cm lap sys absTol relTol fuel m xs xe y dx k b ->
    exists x0 y0 xj yj q,
      let E := col (A := AQ) lap (nEqns sys) rhs (jacf xj yj) x0 y0 (ss_dxDid (pt_step b)) in
      1 <= q <= 12 /\
      ((k = 1 /\ x0 = xs /\ y0 = y) \/
       exists j b', k = Datatypes.S j /\ seulex_reach cm lap sys absTol relTol fuel m xs xe y dx j b' /\
                    x0 = pt_x b' /\ y0 = pt_y b') /\
      pt_y b = neville (A := AQ) E q q /\
      (scaled_error (A := AQ) cm (nEqns sys) absTol relTol y0 (pt_y b)
         (neville (A := AQ) E q (q - 1)) <= 1)%Q.
  Proof.
    intros HR NE m xs xe y dx k b R.
    destruct (each cm lap sys absTol relTol fuel rhs jacf CP (jacRedo_twice sm gr vg relTol HR NE) _ _ _ _ _ _ _ R)
      as (x0 & y0 & Hw & xj & yj & q & _ & (Hq & Hy & Ha & _)).
    exists x0, y0, xj, yj, q. cbv zeta. split; [lia|]. split; auto. split; auto.
    destruct Ha as [Ha|Ha]; [apply Qle_bool_iff in Ha; exact Ha|apply Qltb_false in Ha; exact Ha].
  Qed.

  Lemma columns_are_euler :
    lapack_solves lap (nEqns sys) ->
    (forall x y, length (rhs x y) = nEqns sys) ->
    (forall r, In r relTol -> (0 < r)%Q) -> relTol <> [] ->
    forall m (xs xe : Q) y (dx : Q) k b, length y = nEqns sys ->
    seulex_reach cm lap sys absTol relTol fuel m xs xe y dx k b ->
    exists x0 y0 xj yj q E,
      ((k = 1 /\ x0 = xs /\ y0 = y) \/
       exists j b', k = Datatypes.S j /\ seulex_reach cm lap sys absTol relTol fuel m xs xe y dx j b' /\
                    x0 = pt_x b' /\ y0 = pt_y b') /\
      1 <= q <= 12 /\ pt_y b = neville (A := AQ) E q q /\
      forall c, c <= q ->
        let s := nth c substep_numbers 0 in
        let h := (ss_dxDid (pt_step b) / inject_Z (Z.of_nat s))%Q in
        step_regular (nEqns sys) (jacf xj yj) h ->
        euler_run (nEqns sys) rhs (jacf xj yj) x0 y0 h s (E c).
  Proof.
    intros LS RL HR NE m xs xe y dx k b Ly R. assert (HJ := jacRedo_twice sm gr vg relTol HR NE).
    destruct (each cm lap sys absTol relTol fuel rhs jacf CP HJ _ _ _ _ _ _ _ R)
      as (x0 & y0 & Hw & xj & yj & q & _ & (Hq & Hy & _)).
    exists x0, y0, xj, yj, q, (col (A := AQ) lap (nEqns sys) rhs (jacf xj yj) x0 y0 (ss_dxDid (pt_step b))).
    split; auto. split; [lia|]. split; auto. intros c Hc s h HS.
    assert (L0 : length y0 = nEqns sys).
    { destruct Hw as [(_ & _ & ->)|(j' & b' & _ & R' & _ & ->)]; auto.
      eapply (reach_length cm lap sys absTol relTol fuel rhs jacf CP HJ); eauto. }
    apply (euler_is_run sm gr vg lap (nEqns sys) rhs LS RL (jacf xj yj) x0 y0 h s L0 HS).
  Qed.

  Lemma extrapolated_poly (H : Q) (cs : list (list Q)) E K m y' m' :
    K <= 12 -> (forall c, In c cs -> length c <= K + 1) ->
    (forall j, E j = map (fun c => poly c (H / inject_Z (Z.of_nat (nth j substep_numbers 0%nat)))) cs) ->
    extrapolated sys E K m = Ok (y', m') ->
    length y' = length cs /\ forall i, i < length cs -> (nth i y' 0 == nth 0 (nth i cs []) 0)%Q.
  Proof.
    clear CP. intros HK HC HE X. assert (P := post_extrapolated sys E K m). unfold post in P. rewrite X in P.
    destruct P as [-> _]. apply (neville_poly sm gr vg H cs E K); auto.
  Qed.
End Exact.

(** ** The system with one equation *)
Lemma scalar_sane {A} f j : sys_sane (scalar_sys (A := A) f j).
Proof.
  split; intros s x [|v [|w y]] L; simpl in *; try discriminate L; auto.
  split; auto. split; auto. intros r [<-|[]]; auto.
Qed.

Lemma scalar_quiet {A} f j : sys_quiet (scalar_sys (A := A) f j).
Proof. split; intros s x [|v [|w y]]; simpl; discriminate. Qed.

Lemma scalar_memoryless {A} f j : sys_memoryless (scalar_sys (A := A) f j).
Proof. split; intros s1 s2 x [|v [|w y]]; simpl; auto. Qed.

Lemma scalar_computes {A : Arith} (f : num A -> num A -> num A) j :
  computes (scalar_sys f j) (fun x y => [f x (nth 0 y (zero A))]) (fun _ _ => [[j]]).
Proof.
  split.
  - intros s x [|v [|w y]] d s' E; simpl in E; inversion E; auto.
  - intros s x [|v [|w y]] a b s' E; simpl in E; inversion E; auto.
Qed.

Lemma lap1_solves : lapack_solves (lap1 (A := QAD)) 1.
Proof.
  intros a b La Lb R i Hi. destruct a as [|a [|? ?]]; simpl in La; try lia.
  destruct b as [|b [|? ?]]; simpl in Lb; try lia.
  assert (NZ : (~ a == 0)%Q).
  { intros Z. specialize (R [1%Q] eq_refl). unfold matvec, Qsumf in R. simpl in R.
    specialize (R ltac:(intros [|j] Hj; [|lia]; simpl; rewrite Z; reflexivity) 0 ltac:(lia)). discriminate R. }
  destruct i as [|i]; [|lia]. unfold matvec, Qsumf. simpl. field. exact NZ.
Qed.

(** ** Witnesses *)
Section Witnesses.
  Context {A : Arith}.
  Variable cm : cmath A.
  Variable sys : odesys A unit.
  Variables absTol relTol : list (num A).
  Notation solver := (fun h x y step => step_solve cm lap1 sys absTol relTol 4 x y step h).

  (** The point after a step, computed. *)
  Definition next_point (xs xe : num A) (a : point A (mem A unit)) : option (point A (mem A unit)) :=
    let s := pt_step a in
    let cut := outside xs xe (nadd A (pt_x a) (ss_dxTry s)) in
    match step_solve cm lap1 sys absTol relTol 4 (pt_x a) (pt_y a)
      (mkStep (ss_forward s) (if cut then nsub A xe (pt_x a) else ss_dxTry s) (ss_dxDid s)
         (ss_first s) (if cut then true else ss_last s) false (ss_prevReject s)) (pt_mem a) with
    | Ok (x, y, s', m) => Some (mkPoint m x y s')
    | _ => None
    end.

  Lemma next_stepped xs xe a b : next_point xs xe a = Some b -> stepped solver xs xe a b.
  Proof.
    unfold next_point, stepped. cbv zeta.
    destruct (step_solve _ _ _ _ _ _ _ _ _ _) as [[[[x y] s'] m]| | |]; intros E; inversion E; subst; reflexivity.
  Qed.

  (** A second step, if the first has not arrived. *)
  Definition second_point (xs xe : num A) (a : point A (mem A unit)) : option (point A (mem A unit)) :=
    match next_point xs xe a with
    | Some b => if nleb A (zero A) (nmul A (nsub A (pt_x b) xe) (nsub A xe xs)) then None
                else next_point xs xe (carry b)
    | None => None
    end.

  Lemma second_reached xs xe a c : second_point xs xe a = Some c -> reach solver xs xe a 2 c.
  Proof.
    unfold second_point. destruct (next_point xs xe a) as [b|] eqn:E1; [|discriminate].
    destruct (nleb A _ _) eqn:E2; [discriminate|]. intros E3. eapply reach_more.
    - apply next_stepped. exact E1.
    - unfold arrived. rewrite E2. discriminate.
    - apply reach_one. apply next_stepped. exact E3.
  Qed.

  Lemma some_ex {T} (P : T -> bool) o : match o with Some b => P b | None => false end = true ->
    exists b, o = Some b /\ P b = true.
  Proof. destruct o as [b|]; [eauto|discriminate]. Qed.
End Witnesses.

Definition ex_tol : list Q := [1 # 1000]%Q.

Lemma grows_beyond :
  exists b, seulex_reach qrmath lap1 ex_grow ex_absTol ex_relTol 4 (newMem (A := QR) ex_relTol tt) 0%Q 9%Q [1000]%Q 1%Q 2 b /\
    (9 < pt_x b)%Q.
Proof.
  destruct (some_ex (fun b : point QR (mem QR unit) => Qltb 9%Q (pt_x b))
    (second_point qrmath ex_grow ex_absTol ex_relTol 0%Q 9%Q
       (mkPoint (A := QR) (newMem (A := QR) ex_relTol tt) 0%Q [1000]%Q (newStep (A := QR) 1%Q)))) as (b & E & X).
  { vm_compute. reflexivity. }
  exists b. split; [apply second_reached; exact E|]. apply Qltb_true. exact X.
Qed.

Lemma cold_accepted :
  exists (sys : odesys QAD unit) b,
    seulex_reach qmath lap1 sys ex_tol ex_tol 4 (newMem (A := QAD) ex_tol tt) 0%Q 2%Q [1000]%Q (11 # 10)%Q 1 b /\
    exists T, pt_y b = [T] /\ (T == -100)%Q.
Proof.
  exists (scalar_sys (A := QAD) (fun _ _ => -1000) 0)%Q.
  destruct (some_ex (fun b : point QAD (mem QAD unit) => match pt_y b with [T] => Qeq_bool T (-100) | _ => false end)
    (next_point qmath (scalar_sys (A := QAD) (fun _ _ => -1000) 0)%Q ex_tol ex_tol 0%Q 2%Q
       (mkPoint (A := QAD) (newMem (A := QAD) ex_tol tt) 0%Q [1000]%Q (newStep (A := QAD) (11 # 10)%Q))))
    as (b & E & X).
  { vm_compute. reflexivity. }
  exists b. split; [apply reach_one, next_stepped; exact E|]. clear E.
  destruct (pt_y b) as [|T [|? ?]]; try discriminate X. apply Qeq_bool_iff in X. eauto.
Qed.

(** Two steps with [y' = 100]. *)
Lemma ramp_steps :
  exists b, seulex_reach qmath lap1 ex_ramp ex_tol ex_tol 4 (newMem (A := QAD) ex_tol tt) 0%Q 3%Q [1000]%Q 1%Q 2 b.
Proof.
  destruct (some_ex (fun b : point QAD (mem QAD unit) => true)
    (second_point qmath ex_ramp ex_tol ex_tol 0%Q 3%Q
       (mkPoint (A := QAD) (newMem (A := QAD) ex_tol tt) 0%Q [1000]%Q (newStep (A := QAD) 1%Q)))) as (b & E & _).
  { vm_compute. reflexivity. }
  exists b. apply second_reached. exact E.
Qed.

(** A stale Jacobian. *)
Definition stale (j : Q) : mem QAD unit := set_arr (newMem (A := QAD) [0]%Q tt) (Dfdy 0) (fun _ => Some j).

Lemma differ_ex {T U V W X Y} (o1 : outcome (Q * T * U * V)) (o2 : outcome (Q * W * X * Y)) :
  match o1, o2 with
  | Ok (x1, _, _, _), Ok (x2, _, _, _) => negb (Qeq_bool x1 x2)
  | _, _ => false
  end = true ->
  exists x1 a1 b1 c1 x2 a2 b2 c2, o1 = Ok (x1, a1, b1, c1) /\ o2 = Ok (x2, a2, b2, c2) /\ ~ (x1 == x2)%Q.
Proof.
  destruct o1 as [[[[x1 a1] b1] c1]| | |]; try discriminate.
  destruct o2 as [[[[x2 a2] b2] c2]| | |]; try discriminate.
  intros N. exists x1, a1, b1, c1, x2, a2, b2, c2. split; auto. split; auto.
  intros C. apply Qeq_bool_iff in C. rewrite C in N. discriminate.
Qed.

Lemma zero_relTol_stale :
  exists (sys : odesys QAD unit) absTol (m1 m2 : mem QAD unit) x1 y1 s1 m1' x2 y2 s2 m2',
    sys_sane sys /\ sys_memoryless sys /\
    step_solve qmath lap1 sys absTol [0]%Q 30 0%Q [1000]%Q (newStep (A := QAD) 1%Q) m1 = Ok (x1, y1, s1, m1') /\
    step_solve qmath lap1 sys absTol [0]%Q 30 0%Q [1000]%Q (newStep (A := QAD) 1%Q) m2 = Ok (x2, y2, s2, m2') /\
    ~ (x1 == x2)%Q.
Proof.
  set (sys := scalar_sys (A := QAD) (fun _ _ => 1%Q) 0%Q).
  assert (X : match step_solve qmath lap1 sys [1 # 1000]%Q [0]%Q 30 0%Q [1000]%Q (newStep (A := QAD) 1%Q) (stale 0),
                    step_solve qmath lap1 sys [1 # 1000]%Q [0]%Q 30 0%Q [1000]%Q (newStep (A := QAD) 1%Q) (stale 1) with
    | Ok (x1, _, _, _), Ok (x2, _, _, _) => negb (Qeq_bool x1 x2)
    | _, _ => false
    end = true) by (vm_compute; reflexivity).
  apply differ_ex in X. destruct X as (x1 & y1 & s1 & m1 & x2 & y2 & s2 & m2 & E1 & E2 & N).
  exists sys, [1 # 1000]%Q, (stale 0), (stale 1), x1, y1, s1, m1, x2, y2, s2, m2.
  split; [apply scalar_sane|]. split; [apply scalar_memoryless|]. split; [exact E1|]. split; [exact E2|]. exact N.
Qed.

Lemma nan_ex {T U V} (o : outcome (T * list spec_float * U * V)) :
  match o with Ok (_, [S754_nan], _, _) => true | _ => false end = true ->
  exists x s m, o = Ok (x, [S754_nan], s, m).
Proof.
  destruct o as [[[[x [|[| | |] [|? ?]]] s] m]| | |]; try discriminate. intros _. exists x, s, m. reflexivity.
Qed.

Lemma nan_accepted :
  exists x s m,
    step_solve fmath lap1 (scalar_sys (A := F64) (fun _ _ => S754_nan) (zero F64))
      [lit F64 (1 # 1000)] [lit F64 (1 # 1000)] 1 (lit F64 0) [lit F64 1000] (newStep (A := F64) (lit F64 1))
      (newMem (A := F64) [lit F64 (1 # 1000)] tt)
    = Ok (x, [S754_nan], s, m).
Proof. apply nan_ex. vm_compute. reflexivity. Qed.
