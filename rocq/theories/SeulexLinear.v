(** Linear first integrals of the ODE system are kept by seulex in exact arithmetic. *)
From Coq Require Import List Arith ZArith QArith Qabs Bool Lia Lqa Setoid.
From Verif Require Import Outcome Arith ChemistryModel ChemFacts OdeSolver Seulex SeulexMono SeulexSafe
  SeulexRun SeulexSpec OdeFacts SeulexFacts SeulexEx SeulexCases QSum.
Import ListNotations.
Local Open Scope nat_scope.

(** The weighted sum of the first [n] components. *)
Definition weighted (n : nat) (w : nat -> Q) (y : list Q) : Q :=
  Qsumf (fun i => w i * nth i y 0)%Q (seq 0 n).

Lemma Qsumf_swap {X Y} (f : X -> Y -> Q) l l' :
  (Qsumf (fun x => Qsumf (f x) l') l == Qsumf (fun y => Qsumf (fun x => f x y) l) l')%Q.
Proof.
  induction l as [|a l IH].
  - rewrite Qsumf_nil, (Qsumf_ext _ (fun _ => 0%Q)); [|intros; apply Qsumf_nil].
    rewrite Qsumf_const. ring.
  - rewrite Qsumf_cons, IH, <- Qsumf_plus. apply Qsumf_ext. intros y _. rewrite Qsumf_cons. reflexivity.
Qed.

Lemma extra_linear (k v a b : Q) : (v * (a + k * (a - b)) == v * a + k * (v * a - v * b))%Q.
Proof. ring. Qed.

Lemma part_zero (d : Q) (k : nat) : 0 < k -> (d / inject_Z (Z.of_nat k) == 0)%Q -> (d == 0)%Q.
Proof.
  intros P Z. setoid_replace d with (d / inject_Z (Z.of_nat k) * inject_Z (Z.of_nat k))%Q.
  - rewrite Z. ring.
  - field. unfold Qeq, inject_Z. simpl. lia.
Qed.

(** An increment of the implicit Euler method keeps the sum. *)
Lemma increment_kept n w J h z f : ~ (h == 0)%Q -> implicit_increment n J h z f ->
  (weighted n w f == 0)%Q -> (forall j, j < n -> (Qsumf (fun i => w i * nth j (nth i J []) 0) (seq 0 n) == 0)%Q) ->
  (weighted n w z == 0)%Q.
Proof.
  intros Hh [Lz Hz] Hf HJ. unfold weighted in *.
  assert (E : (Qsumf (fun i => w i * nth i f 0) (seq 0 n) ==
    Qsumf (fun i => w i * nth i z 0) (seq 0 n) / h -
    Qsumf (fun j => Qsumf (fun i => w i * nth j (nth i J []) 0) (seq 0 n) * nth j z 0) (seq 0 n))%Q).
  { transitivity (Qsumf (fun i => (/ h) * (w i * nth i z 0) -
      Qsumf (fun j => w i * nth j (nth i J []) 0 * nth j z 0) (seq 0 n)) (seq 0 n))%Q.
    - apply Qsumf_ext. intros i Hi. apply in_seq in Hi. rewrite <- (Hz i) by lia.
      rewrite (Qsumf_ext (fun j => w i * nth j (nth i J []) 0 * nth j z 0)%Q
        (fun j => w i * (nth j (nth i J []) 0 * nth j z 0))%Q) by (intros; ring).
      rewrite Qsumf_scale. unfold Qdiv. ring.
    - rewrite Qsumf_minus, Qsumf_scale, Qsumf_swap. unfold Qdiv. rewrite (Qmult_comm (/ h)).
      apply Qplus_comp; [reflexivity|]. apply Qopp_comp. apply Qsumf_ext. intros j _.
      rewrite (Qsumf_ext _ (fun i => nth j z 0 * (w i * nth j (nth i J []) 0))%Q) by (intros; ring).
      rewrite Qsumf_scale. ring. }
  rewrite Hf in E. rewrite (Qsumf_ext (fun j => Qsumf (fun i => w i * nth j (nth i J []) 0) (seq 0 n) * nth j z 0)%Q (fun _ => 0%Q)) in E.
  2:{ intros j Hj. apply in_seq in Hj. assert (X := HJ j ltac:(lia)). rewrite X. ring. }
  rewrite Qsumf_const in E.
  setoid_replace (Qsumf (fun i => w i * nth i z 0) (seq 0 n))%Q
    with (h * (Qsumf (fun i => w i * nth i z 0) (seq 0 n) / h))%Q by (field; exact Hh).
  setoid_replace (Qsumf (fun i => w i * nth i z 0) (seq 0 n) / h)%Q with 0%Q by lra. ring.
Qed.

Section Linear.
  Variables sm gr vg : Q.
  Notation AQ := (QA sm gr vg).
  Context {S : Type}.
  Variable cm : cmath AQ.
  Variable lap : lapack AQ.
  Variable sys : odesys AQ S.
  Variables absTol relTol : list Q.
  Variable fuel : nat.
  Variable rhs : Q -> list Q -> list Q.
  Variable jacf : Q -> list Q -> list (list Q).
  Hypothesis CP : computes sys rhs jacf.
  Hypothesis HR : forall r, In r relTol -> (0 < r)%Q.
  Hypothesis NE : relTol <> [].
  Notation n := (nEqns sys).
  Hypothesis LS : lapack_solves lap n.
  Hypothesis RL : forall x y, length y = n -> length (rhs x y) = n.
  Variable w : nat -> Q.
  Hypothesis W0 : forall x y, length y = n -> (weighted n w (rhs x y) == 0)%Q.
  Hypothesis WJ : forall x y j, j < n -> (Qsumf (fun i => w i * nth j (nth i (jacf x y) []) 0) (seq 0 n) == 0)%Q.

  Lemma zip_nth (f : Q -> Q -> Q) u v i : length u = n -> length v = n -> i < n ->
    nth i (map (fun '(a, b) => f a b) (combine u v)) 0%Q = f (nth i u 0%Q) (nth i v 0%Q).
  Proof.
    intros Lu Lv Hi. set (g := fun '(a, b) => f a b).
    rewrite (nth_indep _ 0%Q (g (0%Q, 0%Q))) by (rewrite map_length, combine_length; lia).
    rewrite map_nth, combine_nth by lia. reflexivity.
  Qed.

  Lemma euler_kept xj yj (x0 : Q) y0 (h : Q) : ~ (h == 0)%Q -> step_regular n (jacf xj yj) h -> length y0 = n ->
    forall m, let y := snd (euler (A := AQ) lap n rhs (jacf xj yj) x0 y0 h m) in
    length y = n /\ (weighted n w y == weighted n w y0)%Q.
  Proof.
    intros Hh R L0. induction m as [|m [IL IW]]; [split; [exact L0|reflexivity]|]. cbn [euler].
    destruct (euler lap n rhs (jacf xj yj) x0 y0 h m) as [x y]. cbn [snd] in *. cbv zeta.
    set (z := increment lap n (jacf xj yj) h (rhs (nadd AQ x h) y)).
    assert (I : implicit_increment n (jacf xj yj) h z (rhs (nadd AQ x h) y)).
    { apply (increment_solves sm gr vg lap n LS); auto. }
    assert (Lz : length z = n) by apply I.
    split; [unfold vadd; rewrite map_length, combine_length; lia|].
    assert (Z0 := increment_kept n w _ h z _ Hh I (W0 _ _ IL) (WJ xj yj)).
    rewrite <- IW. unfold weighted at 1.
    rewrite (Qsumf_ext _ (fun i => w i * nth i y 0 + w i * nth i z 0)%Q).
    - rewrite Qsumf_plus. unfold weighted in *. rewrite Z0. apply Qplus_0_r.
    - intros i Hi. apply in_seq in Hi. unfold vadd. rewrite (zip_nth Qplus) by (auto; lia). apply Qmult_plus_distr_r.
  Qed.

  Lemma neville_kept (E : nat -> list Q) (v : Q) q : (forall j, length (E j) = n) ->
    (forall j, j <= q -> (weighted n w (E j) == v)%Q) ->
    forall i c, i <= c -> c <= q -> (weighted n w (neville (A := AQ) E c i) == v)%Q.
  Proof.
    intros LE HE. induction i as [|i IH]; intros c Hi Hc; [apply HE; auto|]. cbn [neville].
    match goal with |- context [nmul AQ ?t _] => set (k := t) end.
    set (a := neville (A := AQ) E c i). set (b := neville (A := AQ) E (c - 1) i).
    assert (La : length a = n) by (apply nevilles_length; auto).
    assert (Lb : length b = n) by (apply nevilles_length; auto).
    assert (Ha : (weighted n w a == v)%Q) by (apply IH; lia).
    assert (Hb : (weighted n w b == v)%Q) by (apply IH; lia).
    unfold weighted in *.
    rewrite (Qsumf_ext _ (fun j => w j * nth j a 0 + k * (w j * nth j a 0 - w j * nth j b 0))%Q).
    - rewrite Qsumf_plus, Qsumf_scale, Qsumf_minus, Ha, Hb. ring.
    - intros j Hj. apply in_seq in Hj.
      rewrite (zip_nth (fun a b => a + k * (a - b))%Q) by (auto; lia). apply extra_linear.
  Qed.

  (** Steps of all sizes that are used are regular. *)
  Definition regular_steps (m : mem AQ S) (xs xe : Q) (y : list Q) (dx : Q) : Prop :=
    forall q b, seulex_reach cm lap sys absTol relTol fuel m xs xe y dx q b ->
    ~ (ss_dxDid (pt_step b) == 0)%Q /\
    forall x' y' c, c <= 12 ->
      step_regular n (jacf x' y') (ss_dxDid (pt_step b) / inject_Z (Z.of_nat (nth c substep_numbers 0%nat)))%Q.

  Lemma substeps_pos c : c <= 12 -> 0 < nth c substep_numbers 0.
  Proof. intros Hc. do 13 (destruct c as [|c]; [cbn; lia|]). lia. Qed.

  Lemma linear_kept m (xs xe : Q) y (dx : Q) : length y = n -> regular_steps m xs xe y dx -> forall q b,
    seulex_reach cm lap sys absTol relTol fuel m xs xe y dx q b ->
    (weighted n w (pt_y b) == weighted n w y)%Q.
  Proof.
    intros Ly RG. assert (HJ := jacRedo_twice sm gr vg relTol HR NE).
    assert (G : forall q b, seulex_reach cm lap sys absTol relTol fuel m xs xe y dx q b ->
      length (pt_y b) = n /\ (weighted n w (pt_y b) == weighted n w y)%Q); [|intros q b R; apply (G q b R)].
    induction q as [|q IH]; intros b R; [inversion R|].
    destruct (each cm lap sys absTol relTol fuel rhs jacf CP HJ _ _ _ _ _ _ _ R)
      as (x0 & y0 & Hw & xj & yj & c & _ & (Hc & Hy & _)).
    assert (Q0 : length y0 = n /\ (weighted n w y0 == weighted n w y)%Q).
    { destruct Hw as [(_ & _ & ->)|(j' & b' & Ej & R' & _ & ->)]; [split; [auto|reflexivity]|].
      inversion Ej; subst j'. apply IH. exact R'. }
    destruct Q0 as [L0 H0]. destruct (RG _ _ R) as [Hd HS].
    assert (LE : forall j, length (col lap n rhs (jacf xj yj) x0 y0 (ss_dxDid (pt_step b)) j) = n)
      by (intros j; apply col_length; auto).
    rewrite Hy. split; [apply nevilles_length; auto|].
    rewrite <- H0. apply (neville_kept _ _ c LE); [|lia|lia].
    intros j Hj. unfold col. cbv zeta. apply euler_kept; auto.
    - change (~ (ss_dxDid (pt_step b) / inject_Z (Z.of_nat (nth j substep_numbers 0%nat)) == 0)%Q).
      intros Z. apply Hd. exact (part_zero _ _ (substeps_pos j ltac:(lia)) Z).
    - apply HS. lia.
  Qed.
End Linear.
