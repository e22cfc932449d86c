(** A concrete case for the conservation theorems: species A turns into B at a rate proportional
    to the temperature, in the presence of an inert third species. *)
From Coq Require Import List Arith ZArith QArith Bool Lia Lqa Setoid.
From Verif Require Import Outcome Arith ChemistryModel ChemFacts OdeSolver Seulex SeulexRun SeulexSpec OdeFacts
  SeulexFacts SeulexEx SeulexCases SeulexLinear PyJac PyJacFacts PyJacSpec PyJacLinear Gauss QSum.
Import ListNotations.
Local Open Scope nat_scope.

(** Gaussian elimination with numbers in lowest terms (not a function of /repo). *)
Definition red_lap : lapack QAD :=
  mkLapack QAD (list Q) (fun _ a => map Qred a)
    (fun n f b i => Qred (nth i (gauss (A := QAD) n (eqns (A := QAD) n f (map Qred b))) 0%Q)).

Lemma nth_map_Qred (l : list Q) i : (nth i (map Qred l) 0 == nth i l 0)%Q.
Proof. change 0%Q with (Qred 0) at 1. rewrite map_nth. apply Qred_correct. Qed.

Lemma red_lapack n : lapack_solves red_lap n.
Proof.
  intros a b La Lb R i Hi.
  assert (MV : forall z k, (matvec n (map Qred a) z k == matvec n a z k)%Q).
  { intros z k. unfold matvec. apply Qsumf_ext. intros j _. rewrite nth_map_Qred. reflexivity. }
  assert (G := gauss_lapack 0%Q 0%Q 0%Q n (map Qred a) (map Qred b)).
  rewrite !map_length in G. specialize (G La Lb).
  assert (R' : regular n (map Qred a)).
  { intros z Lz Hz. apply R; auto. intros k Hk. rewrite <- MV. auto. }
  specialize (G R' i Hi). rewrite MV in G. rewrite nth_map_Qred in G. rewrite <- G.
  unfold matvec. apply Qsumf_ext. intros j Hj. apply in_seq in Hj. apply Qmult_comp; [reflexivity|].
  set (g := fun i => nth i (gauss (A := QAD) n (eqns (A := QAD) n (map Qred a) (map Qred b))) 0%Q).
  assert (E1 : nth j (map (dgetrs red_lap n (dgetrf red_lap n a) b) (seq 0 n)) 0%Q = Qred (g j)).
  { rewrite (nth_indep _ 0%Q (dgetrs red_lap n (dgetrf red_lap n a) b 0)) by (rewrite map_length, seq_length; lia).
    rewrite (map_nth (dgetrs red_lap n (dgetrf red_lap n a) b)), seq_nth by lia. reflexivity. }
  assert (E2 : nth j (map (dgetrs (gauss_lap (A := QA 0 0 0)) n (dgetrf (gauss_lap (A := QA 0 0 0)) n (map Qred a)) (map Qred b)) (seq 0 n)) 0%Q = g j).
  { rewrite (nth_indep _ 0%Q (dgetrs (gauss_lap (A := QA 0 0 0)) n (dgetrf (gauss_lap (A := QA 0 0 0)) n (map Qred a)) (map Qred b) 0))
      by (rewrite map_length, seq_length; lia).
    rewrite (map_nth (dgetrs (gauss_lap (A := QA 0 0 0)) n (dgetrf (gauss_lap (A := QA 0 0 0)) n (map Qred a)) (map Qred b))), seq_nth by lia.
    reflexivity. }
  refine (Qeq_trans _ _ _ (eqQ _ _ E1) _). refine (Qeq_trans _ _ _ (Qred_correct _) _). exact (eqQ _ _ (eq_sym E2)).
Qed.

Definition ex_react : mech QAD :=
  mkMech (A := QAD) 3
    (fun _ y i => Qred (nth i [0; - (nth 0%nat y 0 * (1 # 10000)); nth 0%nat y 0 * (1 # 10000)] 0))%Q
    (fun _ _ k => nth k [0; -(1 # 10000); 1 # 10000] 0)%Q (fun T _ => T).

(** Mass of an element that A and B consist of and the third species does not contain. *)
Definition ex_element (k : nat) : Q := nth k [1; 1; 0]%Q 0%Q.

Lemma react_sum (T : Q) :
  ((1 - 0) * Qred (- (T * (1 # 10000))) + ((1 - 0) * Qred (T * (1 # 10000)) + 0) == 0)%Q.
Proof. rewrite !Qred_correct. ring. Qed.

Lemma react_conserves : conserves (sm := small QAD) (gr := great QAD) (vg := vgreat QAD) ex_react 3 ex_element.
Proof.
  intros p y _. split.
  - exact (react_sum (nth 0 y 0%Q)).
  - intros [|[|[|j]]] Hj; [..|lia]; unfold Qsumf; cbn; reflexivity.
Qed.

Lemma react_regular (x : Q) (y : list Q) (h : Q) : ~ (h == 0)%Q -> step_regular 4 (pj_jacf ex_react 3 x y) h.
Proof.
  intros Hh z [Lz Hz].
  assert (D : forall v : Q, (v / h == 0)%Q -> (v == 0)%Q).
  { intros v Hv. setoid_replace v with (v / h * h)%Q by (field; exact Hh). rewrite Hv. ring. }
  assert (C : pj_jacf ex_react 3 x y = [] \/ pj_jacf ex_react 3 x y =
    [[0; 0; 0; 0]; [-(1 # 10000); 0; 0; 0]; [1 # 10000; 0; 0; 0]; [0; 0; 0; 0]]%Q).
  { unfold pj_jacf, pj_jac. destruct (to_pyJac (A := QAD) 3 y) as [[[p v] s]| | |]; auto. cbn [bind].
    unfold c_jacob, into. destruct (_ && _); [right; reflexivity|left; reflexivity]. }
  destruct z as [|z0 [|z1 [|z2 [|z3 [|? ?]]]]]; simpl in Lz; try lia.
  assert (Z0 := Hz 0 ltac:(lia)). assert (Z1 := Hz 1 ltac:(lia)). assert (Z2 := Hz 2 ltac:(lia)).
  assert (Z3 := Hz 3 ltac:(lia)). unfold Qsumf in *. cbn [seq map nth Qsum repeat] in *.
  assert (A0 : (z0 == 0)%Q).
  { apply D. destruct C as [C|C]; rewrite C in Z0; cbn [nth] in Z0; lra. }
  intros [|[|[|[|i]]]] Hi; [exact A0|..|lia]; cbn [nth]; apply D;
    destruct C as [C|C]; rewrite C in *; cbn [nth] in *; rewrite ?A0 in *; lra.
Qed.

(** The point after the first step, computed. *)
Definition react_state : list Q := [1000; 1 # 2; 1 # 4; 100000]%Q.
Definition react_mem : mem QAD (scratch (A := QAD)) := newMem (A := QAD) (repeat (1 # 5) 4)%Q (fun _ => None).
Definition react_tol : list Q := (repeat (1 # 5) 4)%Q.
Definition react_first : outcome (Q * list Q * stepState QAD * mem QAD (scratch (A := QAD))) :=
  step_solve qmath red_lap (pj_sys ex_react 3) react_tol react_tol 4 0%Q react_state
    (newStep (A := QAD) 1%Q) react_mem.

Lemma react_step : exists x y s m, react_first = Ok (x, y, s, m) /\
  nleb QAD (zero QAD) (nmul QAD (nsub QAD x 1%Q) (nsub QAD 1%Q 0%Q)) = true /\ Qeq_bool (ss_dxDid s) 1 = true /\
  Forall2 Qeq y [1000; 2 # 5; 7 # 20; 100000]%Q.
Proof.
  assert (X : match react_first with
    | Ok (x, y, s, _) => nleb QAD (zero QAD) (nmul QAD (nsub QAD x 1%Q) (nsub QAD 1%Q 0%Q)) = true /\
        Qeq_bool (ss_dxDid s) 1 = true /\ map Qred y = [1000; 2 # 5; 7 # 20; 100000]%Q
    | _ => False end) by (vm_compute; auto).
  destruct react_first as [[[[x y] s] m]| | |]; try contradiction. exists x, y, s, m.
  destruct X as (X1 & X2 & X3). split; auto. split; auto. split; auto. clear -X3.
  assert (G : forall l : list Q, Forall2 Qeq l (map Qred l)).
  { induction l as [|a l IH]; constructor; auto. symmetry. apply Qred_correct. }
  rewrite <- X3. apply G.
Qed.

Lemma react_points q b :
  seulex_reach qmath red_lap (pj_sys ex_react 3) react_tol react_tol 4 react_mem 0%Q 1%Q react_state 1%Q q b ->
  q = 1 /\ react_first = Ok (pt_x b, pt_y b, pt_step b, pt_mem b).
Proof.
  unfold seulex_reach. intros R.
  assert (ST : forall b, stepped (fun h x y step => step_solve qmath red_lap (pj_sys ex_react 3) react_tol react_tol 4 x y step h)
      0%Q 1%Q (mkPoint (A := QAD) react_mem 0%Q react_state (newStep (A := QAD) 1%Q)) b ->
      react_first = Ok (pt_x b, pt_y b, pt_step b, pt_mem b)).
  { clear. intros b S. unfold stepped in S. cbv zeta in S. cbn [pt_x pt_y pt_step pt_mem] in S.
    rewrite <- S. reflexivity. }
  inversion R as [a b' S|a b' k c S NA R']; subst.
  - auto.
  - exfalso. apply NA. unfold arrived. apply ST in S. destruct react_step as (x & y & s & m & E & X & _).
    rewrite S in E. inversion E; subst. exact X.
Qed.

Lemma react_reach (b : point QAD (mem QAD (scratch (A := QAD)))) : react_first = Ok (pt_x b, pt_y b, pt_step b, pt_mem b) ->
  seulex_reach qmath red_lap (pj_sys ex_react 3) react_tol react_tol 4 react_mem 0%Q 1%Q react_state 1%Q 1 b.
Proof.
  intros E. apply reach_one. unfold stepped. cbv zeta. cbn [pt_x pt_y pt_step pt_mem].
  match goal with |- ?l = _ => assert (X : react_first = l) by reflexivity end.
  rewrite <- X. exact E.
Qed.

Lemma react_regular_steps :
  regular_steps (small QAD) (great QAD) (vgreat QAD) qmath red_lap (pj_sys ex_react 3) react_tol react_tol 4 (pj_jacf ex_react 3)
    react_mem 0%Q 1%Q react_state 1%Q.
Proof.
  intros q b R. apply react_points in R as [_ E]. destruct react_step as (x & y & s & m & E' & _ & X & _).
  rewrite E in E'. inversion E'; subst. apply Qeq_bool_iff in X.
  assert (D : ~ (ss_dxDid (pt_step b) == 0)%Q).
  { intros Z. assert (Z' : (1 == 0)%Q) by (rewrite <- Z; symmetry; exact X). discriminate Z'. }
  split; [exact D|]. intros x' y' c Hc. apply react_regular. intros Z. apply D.
  exact (part_zero _ _ (substeps_pos c Hc) Z).
Qed.

(** In a step ten times as long A becomes negative. *)
Lemma cut_off :
  exists (mc : mech QAD) (e : nat -> Q) (x x' : kcell QAD) h h',
    conserves (sm := small QAD) (gr := great QAD) (vg := vgreat QAD) mc 3 e /\
    (forall v, In v (k_c x) -> (0 < v)%Q) /\ (Qsum (k_c x) == 1)%Q /\
    pyJac_kern (A := QAD) qmath red_lap mc (1 # 5)%Q (1 # 5)%Q 4 9 3 h x = Ok (x', h') /\
    (Qsumf (fun k => e k * nth k (k_c x) 0) (seq 0 3) == 3 # 4)%Q /\
    (Qsumf (fun k => e k * nth k (k_c x') 0) (seq 0 3) == 5 # 4)%Q.
Proof.
  set (x := (mkCell (A := QAD) 100000 1000 [1 # 2; 1 # 4; 1 # 4] 10 10)%Q).
  assert (X : match pyJac_kern (A := QAD) qmath red_lap ex_react (1 # 5)%Q (1 # 5)%Q 4 9 3 (fun _ => None, react_mem) x with
    | Ok (x', _) => (Qsumf (fun k => ex_element k * nth k (k_c x') 0) (seq 0 3) == 5 # 4)%Q
    | _ => False end) by (vm_compute; reflexivity).
  destruct (pyJac_kern (A := QAD) qmath red_lap ex_react (1 # 5)%Q (1 # 5)%Q 4 9 3 (fun _ => None, react_mem) x)
    as [[x' h']| | |] eqn:E; try contradiction.
  exists ex_react, ex_element, x, x', (fun _ => None, react_mem), h'.
  split; [exact react_conserves|]. split; [intros v [<-|[<-|[<-|[]]]]; reflexivity|]. split; [reflexivity|].
  split; [exact E|]. split; [reflexivity|exact X].
Qed.
