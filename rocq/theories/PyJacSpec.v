(** What the pyJac chemistry model and ode_pyJac compute. *)
From Coq Require Import List Arith ZArith QArith Qabs Bool Lia Lqa Setoid Morphisms.
From Verif Require Import Outcome Arith LoadBalancing BalancerSpec ChemistryModel ChemFacts ChemSim ChemBalance
  ChemCells ChemStep ChemSafe ChemResults MixtureFraction OdeSolver Seulex
  SeulexMono SeulexSafe SeulexRun SeulexSpec OdeFacts SeulexFacts SeulexCases PyJac PyJacFacts QSum.
Import ListNotations.
Local Open Scope nat_scope.

(** Mass fractions handed to the mechanism for the species components [l] of a state: negative
    ones (and NaN) are replaced by 0, the last one is what is missing to 1. *)
Definition handed {A : Arith} (l : list (num A)) : list (num A) :=
  let ys := map (fun v => if nltb A (zero A) v then v else zero A) l in
  ys ++ [nsub A (lit A 1) (nsum A ys)].

Section System.
  Context {A : Arith}.
  Variable mc : mech A.
  Variable ns : nat.
  Hypothesis HN : NSP mc = ns.
  Hypothesis N1 : 1 <= ns.

  Lemma firstn_idx {X} (f : X -> X) (c : list X) k : k + 1 <= length c ->
    mapM (fun i => let* v := idx c (i + 1) in Ok (f v)) (seq 0 k) = Ok (map f (firstn k (tl c))).
  Proof.
    destruct c as [|c0 c]; intros L; [simpl in L; lia|]. simpl in L. cbn [tl].
    assert (X0 : forall k, k <= length c ->
      mapM (fun i => let* v := idx (c0 :: c) (i + 1) in Ok (f v)) (seq 0 k) = Ok (map f (firstn k c))).
    { clear k L. induction k as [|k IH]; intros Hk; auto. rewrite seq_S, mapM_app, IH by lia. cbn [bind mapM plus].
      unfold idx. rewrite Nat.add_1_r. cbn [nth_error].
      destruct (nth_error c k) as [v|] eqn:Ev; [|apply nth_error_None in Ev; lia].
      cbn [bind]. f_equal. clear -Ev. revert k Ev. induction c as [|x c IH]; intros [|k] Ev; simpl in *; try discriminate.
      - inversion Ev; auto.
      - f_equal. apply IH. auto. }
    apply X0. lia.
  Qed.

  Lemma to_pyJac_eq (c : list (num A)) T p : length c = ns + 1 -> nth_error c 0 = Some T -> nth_error c ns = Some p ->
    to_pyJac ns c = Ok (p, T :: handed (firstn (ns - 1) (tl c)), nth_error (handed (firstn (ns - 1) (tl c)))).
  Proof.
    intros L E0 En. unfold to_pyJac. destruct (Nat.eqb_spec ns 0); [lia|].
    unfold idx at 1. rewrite E0. unfold idx at 1. rewrite En. cbn [bind].
    rewrite (firstn_idx (fun v => foam_max A v (zero A))) by lia. reflexivity.
  Qed.

  Lemma handed_length (l : list (num A)) : length (handed l) = length l + 1.
  Proof. unfold handed. rewrite app_length, map_length. reflexivity. Qed.

  Lemma handed_front (l : list (num A)) k : k <= length l ->
    firstn k (handed l) = map (fun v => if nltb A (zero A) v then v else zero A) (firstn k l).
  Proof.
    intros L. unfold handed. rewrite firstn_app, map_length.
    replace (k - length l) with 0 by lia. simpl. rewrite app_nil_r. apply firstn_map.
  Qed.

  (** The part of the vector the mechanism reads. *)
  Notation seen T c := (T :: firstn (ns - 1) (handed (firstn (ns - 1) (tl c)))).

  Lemma seen_firstn T (c : list (num A)) : length c = ns + 1 ->
    firstn ns (T :: handed (firstn (ns - 1) (tl c))) = seen T c.
  Proof. intros L. destruct ns as [|k]; [lia|]. simpl. rewrite Nat.sub_0_r. reflexivity. Qed.

  Lemma derivs_eq s t (c : list (num A)) T p : length c = ns + 1 -> nth_error c 0 = Some T -> nth_error c ns = Some p ->
    exists s', pj_derivs mc ns s t c = Ok (map (dydt_elt mc p (seen T c)) (seq 0 ns) ++ [zero A], s').
  Proof.
    intros L E0 En. unfold pj_derivs. rewrite (to_pyJac_eq c T p) by auto. cbn [bind].
    unfold c_dydt, into. rewrite HN. simpl length. rewrite handed_length.
    assert (Lf : length (firstn (ns - 1) (tl c)) = ns - 1) by (rewrite firstn_length; destruct c; simpl in *; lia).
    rewrite Lf. rewrite (proj2 (Nat.leb_le ns ns)) by lia.
    rewrite (proj2 (Nat.leb_le ns (S (ns - 1 + 1)))) by lia. cbn [andb bind].
    rewrite Nat.sub_diag, seen_firstn by auto. cbn [repeat]. rewrite app_nil_r. eauto.
  Qed.

  Lemma mapM_pure {X Y} (f : X -> outcome Y) (g : X -> Y) l : (forall x, In x l -> f x = Ok (g x)) ->
    mapM f l = Ok (map g l).
  Proof.
    induction l as [|x l IH]; intros H; auto. simpl. rewrite (H x) by (left; auto). cbn [bind].
    rewrite IH by (intros; apply H; right; auto). reflexivity.
  Qed.

  Lemma jac_eq s t (c : list (num A)) T p : length c = ns + 1 -> nth_error c 0 = Some T -> nth_error c ns = Some p ->
    exists s', pj_jac mc ns s t c =
      Ok (repeat (zero A) (ns + 1),
          map (fun i => map (fun j => jacob_elt mc p (seen T c) (j * ns + i)) (seq 0 ns) ++ [zero A]) (seq 0 ns)
            ++ [repeat (zero A) (ns + 1)], s').
  Proof.
    intros L E0 En. unfold pj_jac. rewrite (to_pyJac_eq c T p) by auto. cbn [bind].
    unfold c_jacob, into. rewrite HN. simpl length. rewrite handed_length.
    assert (Lf : length (firstn (ns - 1) (tl c)) = ns - 1) by (rewrite firstn_length; destruct c; simpl in *; lia).
    rewrite Lf. rewrite (proj2 (Nat.leb_le (ns * ns) (ns * ns))) by lia.
    rewrite (proj2 (Nat.leb_le ns (S (ns - 1 + 1)))) by lia. cbn [andb bind].
    rewrite Nat.sub_diag, seen_firstn by auto. cbn [repeat]. rewrite app_nil_r.
    rewrite (mapM_pure _ (fun i => map (fun j => jacob_elt mc p (seen T c) (j * ns + i)) (seq 0 ns) ++ [zero A])).
    { cbn [bind]. eauto. }
    intros i Hi. apply in_seq in Hi.
    rewrite (mapM_pure _ (fun j => jacob_elt mc p (seen T c) (j * ns + i))); [reflexivity|].
    intros j Hj. apply in_seq in Hj. unfold idx. rewrite nth_error_map.
    assert (B : j * ns + i < ns * ns) by nia.
    rewrite PlanFacts.nth_error_seq, (proj2 (Nat.ltb_lt _ _) B). reflexivity.
  Qed.

  Lemma ends (c : list (num A)) : length c = ns + 1 -> exists T p, nth_error c 0 = Some T /\ nth_error c ns = Some p.
  Proof.
    clear HN. intros L. destruct (nth_error c 0) as [T|] eqn:E0; [|apply nth_error_None in E0; lia].
    destruct (nth_error c ns) as [p|] eqn:E1; [|apply nth_error_None in E1; lia]. eauto.
  Qed.

  (** The functions the system computes. *)
  Definition pj_rhs (x : num A) (y : list (num A)) : list (num A) :=
    match pj_derivs mc ns (fun _ => None) x y with Ok (d, _) => d | _ => [] end.
  Definition pj_jacf (x : num A) (y : list (num A)) : list (list (num A)) :=
    match pj_jac mc ns (fun _ => None) x y with Ok (_, J, _) => J | _ => [] end.

  Lemma pj_computes : computes (pj_sys mc ns) pj_rhs pj_jacf.
  Proof.
    split; intros s x y; intros.
    - unfold pj_rhs. change (pj_derivs mc ns s x y = Ok (d, s')) in H.
      change (pj_derivs mc ns (fun _ => None) x y) with (pj_derivs mc ns s x y). rewrite H. reflexivity.
    - unfold pj_jacf. change (pj_jac mc ns s x y = Ok (a, b, s')) in H.
      change (pj_jac mc ns (fun _ => None) x y) with (pj_jac mc ns s x y). rewrite H. reflexivity.
  Qed.
End System.

(** ** Exact arithmetic *)
Section Exact.
  Variables sm gr vg : Q.
  Notation AQ := (QA sm gr vg).

  Lemma nsum_Qsum (l : list Q) : (nsum AQ l == Qsum l)%Q.
  Proof.
    unfold nsum, sum_from. assert (X : forall l c, (fold_left (nadd AQ) l c == c + Qsum l)%Q).
    { clear l. induction l as [|x l IH]; intros c; simpl in *; [ring|]. rewrite IH. simpl. ring. }
    rewrite X. unfold zero. simpl. ring.
  Qed.

  Lemma handed_sum (l : list Q) : (Qsum (handed (A := AQ) l) == 1)%Q.
  Proof.
    unfold handed. rewrite Qsum_app. unfold nsub, lit. simpl. rewrite nsum_Qsum. ring.
  Qed.

  Lemma handed_nonneg (l : list Q) i : i < length l -> (0 <= nth i (handed (A := AQ) l) 0)%Q.
  Proof.
    intros Hi. unfold handed. rewrite app_nth1 by (rewrite map_length; exact Hi).
    assert (X : Forall (fun v => 0 <= v)%Q (map (fun v => if nltb AQ (zero AQ) v then v else zero AQ) l)).
    { apply Forall_map, Forall_forall. intros v _. destruct (nltb AQ (zero AQ) v) eqn:E; [|apply Qle_refl].
      apply Qltb_true in E. apply Qlt_le_weak. exact E. }
    rewrite Forall_forall in X. apply X. apply nth_In. rewrite map_length. exact Hi.
  Qed.
End Exact.

(** ** A component with a vanishing derivative *)
Section Constant.
  Context {A : Arith} {S : Type}.
  Variable cm : cmath A.
  Variable lap : lapack A.
  Variable sys : odesys A S.
  Variables absTol relTol : list (num A).
  Variable fuel : nat.
  Variable rhs : num A -> list (num A) -> list (num A).
  Variable jacf : num A -> list (num A) -> list (list (num A)).
  Hypothesis CP : computes sys rhs jacf.
  Hypothesis HJ : nltb A (jacRedo relTol) (nmul A (lit A 2) (jacRedo relTol)) = true.
  Notation n := (nEqns sys).
  (** The component, its values, increments and the numbers that are finite. *)
  Variable k : nat.
  Hypothesis Hk : k < n.
  Variables P Z fin : num A -> Prop.
  Definition fins (y : list (num A)) : Prop := forall v, In v y -> fin v.
  Hypothesis addP : forall a z, P a -> Z z -> P (nadd A a z).
  Hypothesis add_fin : forall a b, fin (nadd A a b) -> fin a /\ fin b.
  Definition coef (c i : nat) : num A :=
    ndiv A (lit A 1)
      (nsub A (ndiv A (ofnat A (nth c substep_numbers 0)) (ofnat A (nth (c - i) substep_numbers 0))) (lit A 1)).
  Hypothesis extraP : forall c i a b, c <= 12 -> 1 <= i <= c -> P a -> P b -> P (nadd A a (nmul A (coef c i) (nsub A a b))).
  Hypothesis extra_fin : forall c i a b, c <= 12 -> 1 <= i <= c -> fin (nadd A a (nmul A (coef c i) (nsub A a b))) -> fin a /\ fin b.
  Hypothesis row : forall x y j, nth j (nth k (jacf x y) []) (zero A) = zero A.
  Hypothesis rhs0 : forall x y, length y = n -> length (rhs x y) = n /\ nth k (rhs x y) (zero A) = zero A.
  Hypothesis LZ : forall J h b, (forall j, nth j (nth k J []) (zero A) = zero A) -> length b = n -> nth k b (zero A) = zero A ->
    fins (increment lap n J h b) -> forall z, nth_error (increment lap n J h b) k = Some z -> Z z.

  Definition stays (y : list (num A)) : Prop := fins y -> forall v, nth_error y k = Some v -> P v.

  Lemma combine_nth_error {X Y} (l : list X) : forall (l' : list Y) i p, nth_error (combine l l') i = Some p ->
    nth_error l i = Some (fst p) /\ nth_error l' i = Some (snd p).
  Proof.
    induction l as [|a l IH]; intros [|b l'] [|i] p E; simpl in *; try discriminate.
    - inversion E; auto.
    - auto.
  Qed.

  Lemma zip_fins (f : num A -> num A -> num A) : (forall a b, fin (f a b) -> fin a /\ fin b) ->
    forall u v, length u = length v -> fins (map (fun '(a, b) => f a b) (combine u v)) -> fins u /\ fins v.
  Proof.
    intros F u. induction u as [|a u IH]; intros [|b v] L H; simpl in *; try lia.
    - split; intros w [].
    - destruct (F a b) as [Fa Fb]; [apply H; left; auto|].
      destruct (IH v) as [Hu Hv]; [lia|intros w Hw; apply H; right; auto|].
      split; intros w [<-|Hw]; auto.
  Qed.

  Lemma euler_stays J x0 y0 h : (forall j, nth j (nth k J []) (zero A) = zero A) -> length y0 = n -> stays y0 ->
    forall j, length (snd (euler lap n rhs J x0 y0 h j)) = n /\
      (fins (snd (euler lap n rhs J x0 y0 h j)) -> fins y0) /\ stays (snd (euler lap n rhs J x0 y0 h j)).
  Proof.
    intros RJ L0 S0. induction j as [|j (IL & IF & IS)]; [split; auto|]. cbn [euler].
    destruct (euler lap n rhs J x0 y0 h j) as [x y]. cbn [snd] in *.
    set (z := increment lap n J h (rhs (nadd A x h) y)).
    assert (Lz : length z = n) by (unfold z, increment; rewrite map_length, seq_length; auto).
    assert (Len : length (vadd y z) = n) by (unfold vadd; rewrite map_length, combine_length; lia).
    split; auto.
    assert (F : fins (vadd y z) -> fins y /\ fins z).
    { intros Hv. apply (zip_fins (nadd A) add_fin); [lia|exact Hv]. }
    split; [intros Hv; apply IF, F, Hv|].
    intros Hv v Ev. destruct (F Hv) as [Fy Fz]. unfold vadd in Ev. rewrite nth_error_map in Ev.
    destruct (nth_error (combine y z) k) as [[a b]|] eqn:Ec; [|discriminate]. simpl in Ev. inversion Ev; subst v.
    apply combine_nth_error in Ec as [Ea Eb]. cbn [fst snd] in *.
    destruct (rhs0 (nadd A x h) y IL) as [Lr R0]. apply addP; [apply (IS Fy); auto|].
    apply (LZ J h (rhs (nadd A x h) y) RJ Lr R0 Fz b Eb).
  Qed.

  Lemma neville_stays (E : nat -> list (num A)) (m : nat) : (forall j, length (E j) = m) -> (forall j, stays (E j)) ->
    forall i c, i <= c -> c <= 12 -> (fins (neville E c i) -> fins (E c)) /\ stays (neville E c i).
  Proof.
    intros LE SE. induction i as [|i IH]; intros c Hi Hc; [split; auto; apply SE|]. cbn [neville].
    fold (coef c (Datatypes.S i)).
    destruct (IH c ltac:(lia) Hc) as [F1 S1]. destruct (IH (c - 1) ltac:(lia) ltac:(lia)) as [F2 S2].
    assert (F : fins (map (fun '(a, b) => nadd A a (nmul A (coef c (Datatypes.S i)) (nsub A a b)))
      (combine (neville E c i) (neville E (c - 1) i))) -> fins (neville E c i) /\ fins (neville E (c - 1) i)).
    { intros H. apply (zip_fins (fun a b => nadd A a (nmul A (coef c (Datatypes.S i)) (nsub A a b)))); auto.
      - intros a b. apply extra_fin; lia.
      - rewrite !(nevilles_length E m); auto. }
    split; [intros H; apply F1, F, H|].
    intros H v Ev. destruct (F H) as [Fa Fb]. rewrite nth_error_map in Ev.
    destruct (nth_error (combine _ _) k) as [[a b]|] eqn:Ec; [|discriminate]. simpl in Ev. inversion Ev; subst v.
    apply combine_nth_error in Ec as [Ea Eb]. cbn [fst snd] in *. apply extraP; auto; lia.
  Qed.

  Lemma reach_stays m xs xe y dx : length y = n -> stays y -> forall q b,
    seulex_reach cm lap sys absTol relTol fuel m xs xe y dx q b ->
    length (pt_y b) = n /\ stays (pt_y b).
  Proof.
    intros Ly Sy. induction q as [|q IH]; intros b R; [inversion R|].
    destruct (each cm lap sys absTol relTol fuel rhs jacf CP HJ _ _ _ _ _ _ _ R)
      as (x0 & y0 & Hw & xj & yj & c & _ & (Hc & Hy & _)).
    assert (Q : length y0 = n /\ stays y0).
    { destruct Hw as [(_ & _ & ->)|(j' & b' & Ej & R' & _ & ->)]; auto. inversion Ej; subst j'. apply IH. exact R'. }
    destruct Q as [L0 S0]. rewrite Hy.
    assert (LE : forall j, length (col lap n rhs (jacf xj yj) x0 y0 (ss_dxDid (pt_step b)) j) = n)
      by (intros j; apply col_length; auto).
    split; [apply nevilles_length; auto|].
    apply (neville_stays _ n LE); [|lia|lia].
    intros j. unfold col. cbv zeta. apply euler_stays; auto.
  Qed.
End Constant.
