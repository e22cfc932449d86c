(** Gaussian elimination as an instance of the LAPACK interface of Seulex.v (LAPACK itself is not
    part of /repo): used in examples, and to show that what is assumed of LAPACK in
    SeulexFacts.v ([lapack_solves]) and PyJacSpec.v can be met for any number of equations. *)
From Coq Require Import List Arith ZArith QArith Bool Lia Lqa Setoid Morphisms.
From Verif Require Import Outcome Arith ChemistryModel OdeSolver Seulex SeulexFacts QSum.
Import ListNotations.
Local Open Scope nat_scope.

Lemma tl_len {X} (l : list X) n : length l = S n -> length (tl l) = n.
Proof. destruct l; simpl; lia. Qed.

Lemma some_len {X} (l : list X) n : length l = S n -> 1 <= length l.
Proof. lia. Qed.

Section Gauss.
  Context {A : Arith}.

  (** An equation: coefficients and right-hand side. *)
  Definition eqn : Type := (list (num A) * num A)%type.

  (** The first equation in which the first unknown occurs (else the first one), and the others. *)
  Fixpoint pivot (l : list eqn) : option (eqn * list eqn) :=
    match l with
    | [] => None
    | e :: l' =>
      if neqb A (hd (zero A) (fst e)) (zero A)
      then match pivot l' with
           | Some (p, r) => if neqb A (hd (zero A) (fst p)) (zero A) then Some (e, l') else Some (p, e :: r)
           | None => Some (e, l')
           end
      else Some (e, l')
    end.

  (** [e] without the first unknown, eliminated with [p]. *)
  Definition eliminate (p e : eqn) : eqn :=
    let f := ndiv A (hd (zero A) (fst e)) (hd (zero A) (fst p)) in
    (map (fun '(a, b) => nsub A a (nmul A f b)) (combine (tl (fst e)) (tl (fst p))),
     nsub A (snd e) (nmul A f (snd p))).

  Fixpoint gauss (n : nat) (l : list eqn) : list (num A) :=
    match n with
    | O => []
    | S n' =>
      match pivot l with
      | None => repeat (zero A) n
      | Some (p, r) =>
        let z := gauss n' (map (eliminate p) r) in
        ndiv A (nsub A (snd p) (nsum A (map (fun '(a, b) => nmul A a b) (combine (tl (fst p)) z))))
          (hd (zero A) (fst p)) :: z
      end
    end.

  (** The equations of a matrix given by columns. *)
  Definition eqns (n : nat) (a b : list (num A)) : list eqn :=
    map (fun i => (map (fun j => nth (j * n + i) a (zero A)) (seq 0 n), nth i b (zero A))) (seq 0 n).

  Definition gauss_lap : lapack A :=
    mkLapack A (list (num A)) (fun _ a => a) (fun n a b i => nth i (gauss n (eqns n a b)) (zero A)).

  Lemma gauss_length n : forall l, length (gauss n l) = n.
  Proof.
    induction n as [|n IH]; intros l; auto. cbn [gauss]. destruct (pivot l) as [[p r]|]; [|apply repeat_length].
    simpl. rewrite IH. auto.
  Qed.

  Lemma pivot_length l : forall p r, pivot l = Some (p, r) -> length l = S (length r).
  Proof.
    induction l as [|e l IH]; intros p r E; simpl in E; [discriminate|].
    destruct (neqb A _ _); [|inversion E; auto].
    destruct (pivot l) as [[p' r']|]; [|inversion E; auto].
    destruct (neqb A (hd (zero A) (fst p')) _); inversion E; subst; auto. simpl. rewrite (IH p r'); auto.
  Qed.

  Lemma pivot_in l : forall p r, pivot l = Some (p, r) -> forall e, In e l <-> e = p \/ In e r.
  Proof.
    induction l as [|e l IH]; intros p r E; simpl in E; [discriminate|].
    assert (T : forall e', In e' (e :: l) <-> e' = e \/ In e' l).
    { intros e'. simpl. split; intros [X|X]; auto. }
    destruct (neqb A _ _); [|inversion E; subst; exact T].
    destruct (pivot l) as [[p' r']|]; [|inversion E; subst; exact T].
    destruct (neqb A (hd (zero A) (fst p')) _); inversion E; subst; [exact T|].
    intros e'. simpl. rewrite (IH p r' eq_refl e'). split; [intros [X|[X|X]]|intros [X|[X|X]]]; auto.
  Qed.

  Lemma gauss_S n l p r : pivot l = Some (p, r) -> exists v, gauss (S n) l = v :: gauss n (map (eliminate p) r).
  Proof. intros E. cbn [gauss]. rewrite E. eauto. Qed.

  Lemma pivot_some (l : list eqn) : pivot l = None -> l = [].
  Proof.
    destruct l as [|e l]; auto. simpl. destruct (neqb A _ _); [|discriminate].
    destruct (pivot l) as [[p r]|]; [|discriminate]. destruct (neqb A (hd (zero A) (fst p)) _); discriminate.
  Qed.
End Gauss.

Section Exact.
  Variables sm gr vg : Q.
  Notation AQ := (QA sm gr vg).

  Definition dot (a z : list Q) : Q := Qsumf (fun '(x, y) => x * y)%Q (combine a z).

  (** [z] solves the equations. *)
  Definition solved (l : list (eqn (A := AQ))) (z : list Q) : Prop := forall e, In e l -> (dot (fst e) z == snd e)%Q.

  Definition homogeneous (e : eqn (A := AQ)) : eqn (A := AQ) := (fst e, 0%Q).

  (** Only zero solves the homogeneous equations. *)
  Definition unique (n : nat) (l : list (eqn (A := AQ))) : Prop :=
    forall z, length z = n -> solved (map homogeneous l) z -> forall i, i < n -> (nth i z 0 == 0)%Q.

  Lemma dot_cons a l b z : (dot (a :: l) (b :: z) == a * b + dot l z)%Q.
  Proof. exact (Qsumf_cons (fun '(x, y) => x * y)%Q (a, b) (combine l z)). Qed.

  Lemma dot_eliminate f (a b z : list Q) : length a = length z -> length b = length z ->
    (dot (map (fun '(x, y) => x - f * y)%Q (combine a b)) z == dot a z - f * dot b z)%Q.
  Proof.
    revert b z. induction a as [|x a IH]; intros [|y b] [|v z] La Lb; simpl in La, Lb; try lia.
    - unfold dot, Qsumf. simpl. ring.
    - cbn [combine map]. rewrite !dot_cons, IH by lia. ring.
  Qed.

  Lemma dot_nsum a z : (nsum AQ (map (fun '(x, y) => nmul AQ x y) (combine a z)) == dot a z)%Q.
  Proof.
    unfold nsum, sum_from, dot. assert (X : forall l c, (fold_left (nadd AQ) (map (fun '(x, y) => nmul AQ x y) l) c ==
      c + Qsumf (fun '(x, y) => x * y)%Q l)%Q).
    { induction l as [|[x y] l IH]; intros c; simpl in c; [change (c == c + 0)%Q; ring|]. cbn [map fold_left].
      rewrite IH, Qsumf_cons. simpl. ring. }
    rewrite X. change (0 + Qsumf (fun '(x, y) => x * y)%Q (combine a z) == Qsumf (fun '(x, y) => x * y)%Q (combine a z))%Q. ring.
  Qed.

  Lemma dot_zero a : forall n, (dot a (repeat 0%Q n) == 0)%Q.
  Proof.
    induction a as [|x a IH]; intros [|n]; try (unfold dot, Qsumf; simpl; ring).
    cbn [repeat]. rewrite dot_cons, IH. ring.
  Qed.

  Lemma pivot_zero l : forall p r, pivot (A := AQ) l = Some (p, r) -> (hd 0 (fst p) == 0)%Q ->
    forall e, In e l -> (hd 0 (fst e) == 0)%Q.
  Proof.
    induction l as [|e l IH]; intros p r E Z e' He; [destruct He|]. cbn [pivot] in E.
    destruct (neqb AQ (hd (zero AQ) (fst e)) (zero AQ)) eqn:E0.
    - destruct (pivot (A := AQ) l) as [[p' r']|] eqn:EP.
      + destruct (neqb AQ (hd (zero AQ) (fst p')) (zero AQ)) eqn:E1.
        * destruct He as [<-|He]; [apply Qeq_bool_iff in E0; exact E0|].
          apply Qeq_bool_iff in E1. eapply IH; eauto.
        * inversion E; subst. apply Qeq_bool_iff in Z. exfalso. exact (eq_true_false_abs _ Z E1).
      + destruct He as [<-|He]; [apply Qeq_bool_iff in E0; exact E0|]. apply pivot_some in EP. subst l. destruct He.
    - inversion E; subst. apply Qeq_bool_iff in Z. exfalso. exact (eq_true_false_abs _ Z E0).
  Qed.

  Lemma dot_hd (e : list Q) v z : 1 <= length e -> (dot e (v :: z) == hd 0 e * v + dot (tl e) z)%Q.
  Proof. destruct e as [|a b]; intros L; [simpl in L; lia|]. apply dot_cons. Qed.

  Lemma gauss_solves n : forall l, length l = n -> (forall e, In e l -> length (fst e) = n) ->
    unique n l -> solved l (gauss (A := AQ) n l).
  Proof.
    induction n as [|n IH]; intros l Ll Lc U.
    - destruct l; [|simpl in Ll; lia]. intros e [].
    - cbn [gauss]. destruct (pivot (A := AQ) l) as [[p r]|] eqn:EP.
      2:{ apply pivot_some in EP. subst l. simpl in Ll. lia. }
      assert (PI := pivot_in l p r EP). assert (PL := pivot_length l p r EP).
      assert (Lp : length (fst p) = S n) by (apply Lc, PI; auto).
      set (h := hd (zero AQ) (fst p)). set (t := tl (fst p)).
      assert (Lt : length t = n) by exact (tl_len _ _ Lp).
      assert (Hh : (~ h == 0)%Q).
      { intros Z. assert (ZA := pivot_zero l p r EP Z).
        assert (X : (nth 0 (1%Q :: repeat 0%Q n) 0 == 0)%Q); [|discriminate X].
        apply (U (1%Q :: repeat 0%Q n)); [simpl; rewrite repeat_length; auto| |lia].
        intros e He. apply in_map_iff in He as (e' & <- & He'). simpl. specialize (ZA e' He'). specialize (Lc e' He').
        rewrite (dot_hd (fst e')) by exact (some_len _ _ Lc). rewrite dot_zero, ZA. ring. }
      set (z := gauss n (map (eliminate p) r)).
      assert (Lz : length z = n) by apply gauss_length.
      assert (El : forall e, In e r -> forall w, length w = n ->
        (dot (fst (eliminate (A := AQ) p e)) w == dot (tl (fst e)) w - (hd 0 (fst e) / h) * dot t w)%Q).
      { intros e He w Lw. assert (Le : length (fst e) = S n) by (apply Lc, PI; auto).
        apply (dot_eliminate (hd 0%Q (fst e) / h)%Q (tl (fst e)) t w); [|rewrite Lw; exact Lt].
        rewrite Lw. exact (tl_len _ _ Le). }
      assert (Dp : forall v w, (dot (fst p) (v :: w) == h * v + dot t w)%Q).
      { intros v w. apply (dot_hd (fst p)). exact (some_len _ _ Lp). }
      assert (Dr : forall e, In e r -> forall v w, (dot (fst e) (v :: w) == hd 0 (fst e) * v + dot (tl (fst e)) w)%Q).
      { intros e He v w. assert (Le : length (fst e) = S n) by (apply Lc, PI; auto). apply (dot_hd (fst e)).
        exact (some_len _ _ Le). }
      assert (S1 : solved (map (eliminate p) r) z).
      { apply IH.
        - rewrite map_length. exact (eq_add_S _ _ (eq_trans (eq_sym PL) Ll)).
        - intros e He. apply in_map_iff in He as (e' & <- & He'). unfold eliminate. simpl fst.
          assert (Le : length (fst e') = S n) by (apply Lc, PI; auto).
          rewrite map_length, combine_length. transitivity (Nat.min n n); [f_equal; [exact (tl_len _ _ Le)|exact Lt]|apply Nat.min_id].
        - intros w Lw Hw i Hi.
          assert (X : (nth (S i) ((- dot t w / h)%Q :: w) 0 == 0)%Q); [|exact X].
          apply (U ((- dot t w / h)%Q :: w)); [simpl; lia| |lia].
          intros e He. apply in_map_iff in He as (e' & <- & He'). unfold homogeneous. cbn [fst snd].
          apply PI in He' as [->|He'].
          + rewrite Dp. field. exact Hh.
          + specialize (El e' He' w Lw).
            assert (Hw' : (dot (fst (eliminate (A := AQ) p e')) w == 0)%Q).
            { apply (Hw (homogeneous (eliminate (A := AQ) p e'))). apply in_map, in_map. auto. }
            rewrite Hw' in El. rewrite (Dr e' He').
            setoid_replace (dot (tl (fst e')) w) with (hd 0 (fst e') / h * dot t w)%Q by lra. field. exact Hh. }
      assert (Sp : (h * ((snd p - nsum AQ (map (fun '(a, b) => nmul AQ a b) (combine t z))) / h) + dot t z == snd p)%Q).
      { assert (X := dot_nsum t z). revert X.
        generalize (nsum AQ (map (fun '(a, b) => nmul AQ a b) (combine t z))). intros q X. simpl in q. rewrite <- X.
        field. exact Hh. }
      revert Sp. change (ndiv AQ (nsub AQ (snd p) (nsum AQ (map (fun '(a, b) => nmul AQ a b) (combine t z)))) h)
        with ((snd p - nsum AQ (map (fun '(a, b) => nmul AQ a b) (combine t z))) / h)%Q.
      generalize ((snd p - nsum AQ (map (fun '(a, b) => nmul AQ a b) (combine t z))) / h)%Q. intros q Sp.
      intros e He. apply PI in He as [->|He]; [rewrite Dp; exact Sp|].
      assert (S2 := S1 (eliminate p e) (in_map _ _ _ He)). rewrite (El e He z Lz) in S2.
      rewrite (Dr e He). change (snd (eliminate (A := AQ) p e)) with (snd e - (hd 0 (fst e) / h) * snd p)%Q in S2.
      setoid_replace (dot (tl (fst e)) z) with (snd e - hd 0 (fst e) / h * snd p + hd 0 (fst e) / h * dot t z)%Q by lra.
      rewrite <- Sp. field. exact Hh.
  Qed.

  (** What SeulexFacts.v assumes of LAPACK. *)
  Lemma gauss_lapack n : lapack_solves (gauss_lap (A := AQ)) n.
  Proof.
    intros a b La Lb R i Hi.
    assert (MV : forall z, length z = n -> forall i, i < n ->
      (matvec n a z i == dot (map (fun j => nth (j * n + i) a 0%Q) (seq 0 n)) z)%Q).
    { intros z Lz k Hk. unfold matvec, dot. clear -Lz.
      assert (X : forall z s, (Qsumf (fun j => nth (j * n + k) a 0 * nth (j - s) z 0)%Q (seq s (length z)) ==
        Qsumf (fun '(x, y) => x * y)%Q (combine (map (fun j => nth (j * n + k) a 0%Q) (seq s (length z))) z))%Q).
      { clear. induction z as [|v z IH]; intros s; [reflexivity|]. cbn [length seq map combine].
        rewrite !Qsumf_cons. rewrite Nat.sub_diag. cbn [nth]. rewrite <- IH.
        apply Qplus_comp; [reflexivity|]. apply Qsumf_ext. intros j Hj. apply in_seq in Hj.
        replace (j - s) with (S (j - S s)) by lia. reflexivity. }
      assert (Es : seq 0 n = seq 0 (length z)) by (rewrite Lz; auto). rewrite Es. rewrite <- (X z 0). apply Qsumf_ext. intros j _. rewrite Nat.sub_0_r. reflexivity. }
    set (l := eqns (A := AQ) n a b).
    assert (S : solved l (gauss (A := AQ) n l)).
    { apply gauss_solves.
      - unfold l, eqns. rewrite map_length, seq_length. auto.
      - intros e He. apply in_map_iff in He as (k & <- & _). simpl. rewrite map_length, seq_length. auto.
      - intros z Lz Hz. apply R; auto. intros k Hk. rewrite (MV z Lz k Hk).
        apply (Hz (homogeneous (map (fun j => nth (j * n + k) a 0%Q) (seq 0 n), nth k b 0%Q))). apply in_map.
        unfold l, eqns. apply in_map_iff. exists k. split; [reflexivity|apply in_seq; lia]. }
    set (z := gauss (A := AQ) n l) in *.
    assert (Lz : length z = n) by apply gauss_length.
    assert (E : map (dgetrs (gauss_lap (A := AQ)) n (dgetrf (gauss_lap (A := AQ)) n a) b) (seq 0 n) = z).
    { change (map (fun i => nth i z 0%Q) (seq 0 n) = z). clear -Lz. rewrite <- Lz.
      assert (X : forall u v : list Q, map (fun i => nth i (u ++ v) 0%Q) (seq (length u) (length v)) = v).
      { intros u v. revert u. induction v as [|x v IH]; intros u; auto. cbn [length seq map].
        rewrite app_nth2, Nat.sub_diag by lia. cbn [nth]. f_equal. specialize (IH (u ++ [x])).
        rewrite app_length in IH. simpl in IH. rewrite Nat.add_1_r, <- app_assoc in IH. exact IH. }
      apply (X [] z). }
    rewrite E, (MV z Lz i Hi).
    apply (S (map (fun j => nth (j * n + i) a 0%Q) (seq 0 n), nth i b 0%Q)).
    unfold l, eqns. apply in_map_iff. exists i. split; [reflexivity|apply in_seq; lia].
  Qed.

  (** ** A last equation in the last unknown only *)
  Lemma pivot_last l : forall e : eqn (A := AQ), l <> [] -> (hd 0 (fst e) == 0)%Q ->
    exists p r, pivot (A := AQ) (l ++ [e]) = Some (p, r ++ [e]) /\ length l = S (length r) /\
      forall x, In x r -> In x l.
  Proof.
    induction l as [|a l IH]; intros e NE Z; [congruence|]. cbn [app pivot].
    destruct (neqb AQ (hd (zero AQ) (fst a)) (zero AQ)) eqn:E0; [|exists a, l; simpl; auto].
    destruct l as [|b l].
    - cbn [app pivot]. apply Qeq_bool_iff in Z.
      change (neqb AQ (hd (zero AQ) (fst e)) (zero AQ)) with (Qeq_bool (hd 0%Q (fst e)) 0).
      rewrite Z. change (neqb AQ (hd (zero AQ) (fst e)) (zero AQ)) with (Qeq_bool (hd 0%Q (fst e)) 0). rewrite Z.
      exists a, []. simpl. auto.
    - destruct (IH e ltac:(discriminate) Z) as (p & r & EP & LP & IP). rewrite EP.
      destruct (neqb AQ (hd (zero AQ) (fst p)) (zero AQ)) eqn:E1.
      + exists a, (b :: l). simpl. auto.
      + exists p, (a :: r). simpl in *. split; auto. split; [lia|]. intros x [<-|Hx]; auto.
  Qed.

  Lemma row_zero (f : Q) (u w : list Q) j n : length u = S n -> length w = S n -> j < n ->
    (nth j u 0 == 0)%Q -> (f == 0)%Q -> (nth j (map (fun '(a, b) => a - f * b) (combine u w)) 0 == 0)%Q.
  Proof.
    intros L1 L2 Hj Hu Hf. set (g := fun '(a, b) => (a - f * b)%Q).
    assert (E : nth j (map g (combine u w)) 0%Q = g (nth j u 0%Q, nth j w 0%Q)).
    { transitivity (nth j (map g (combine u w)) (g (0%Q, 0%Q))).
      - apply nth_indep. rewrite map_length, combine_length. lia.
      - rewrite map_nth, combine_nth; [reflexivity|]. lia. }
    rewrite E. unfold g. rewrite Hu, Hf. ring.
  Qed.

  Lemma gauss_last n : forall l e, length l = n -> (forall x, In x (l ++ [e]) -> length (fst x) = S n) ->
    (forall j, j < n -> (nth j (fst e) 0 == 0)%Q) -> (snd e == 0)%Q ->
    (nth n (gauss (A := AQ) (S n) (l ++ [e])) 0 == 0)%Q.
  Proof.
    induction n as [|n IH]; intros l e Ll Lc Hz Hs.
    - destruct l; [|simpl in Ll; lia]. cbn [app]. cbn [gauss pivot].
      assert (G : pivot (A := AQ) [e] = Some (e, [])) by (cbn [pivot]; destruct (neqb AQ _ _); reflexivity).
      cbn [pivot] in G. rewrite G. cbn [gauss map nth].
      assert (X : (nsum AQ (map (fun '(a, b) => nmul AQ a b) (combine (tl (fst e)) [])) == 0)%Q).
      { rewrite dot_nsum. unfold dot. destruct (tl (fst e)); reflexivity. }
      change ((snd e - nsum AQ (map (fun '(a, b) => nmul AQ a b) (combine (tl (fst e)) []))) / hd 0 (fst e) == 0)%Q.
      unfold Qdiv. assert (Y : (snd e - nsum AQ (map (fun '(a, b) => nmul AQ a b) (combine (tl (fst e)) [])) == 0)%Q).
      { rewrite Hs. unfold Qminus. rewrite X. ring. }
      rewrite Y. ring.
    - assert (Z0 : (hd 0 (fst e) == 0)%Q).
      { specialize (Hz 0 ltac:(lia)). destruct (fst e); auto. }
      destruct (pivot_last l e) as (p & r & EP & LP & IP); auto.
      { intros ->. simpl in Ll. lia. }
      destruct (gauss_S (S n) _ p _ EP) as (v & EG).
      match goal with |- (nth _ ?g _ == _)%Q => replace g with (v :: gauss (A := AQ) (S n) (map (eliminate p) (r ++ [e]))) end.
      cbn [nth]. rewrite map_app. cbn [map].
      assert (Le : length (fst e) = S (S n)) by (apply Lc, in_app_iff; simpl; auto).
      assert (PI : In p (l ++ [e])) by (apply (pivot_in _ _ _ EP); auto).
      assert (Lp : length (fst p) = S (S n)) by (apply Lc; auto).
      apply IH.
      + rewrite map_length. apply eq_add_S. transitivity (length l); [symmetry; exact LP|exact Ll].
      + intros x Hx. change [eliminate (A := AQ) p e] with (map (eliminate (A := AQ) p) [e]) in Hx. rewrite <- map_app in Hx.
        apply in_map_iff in Hx as (x' & <- & Hx').
        assert (Lx : length (fst x') = S (S n)).
        { apply Lc. apply in_app_iff in Hx' as [Hx'|Hx']; apply in_app_iff; auto. }
        unfold eliminate. cbn [fst]. rewrite map_length, combine_length.
        transitivity (Nat.min (S n) (S n)); [f_equal; [exact (tl_len _ _ Lx)|exact (tl_len _ _ Lp)]|apply Nat.min_id].
      + intros j Hj. unfold eliminate. cbn [fst].
        assert (L1 := tl_len _ _ Le). assert (L2 := tl_len _ _ Lp).
        specialize (Hz (S j) ltac:(lia)).
        assert (Ht : (nth j (tl (fst e)) 0 == 0)%Q) by (destruct (fst e); [destruct j; exact Hz|exact Hz]).
        apply (row_zero (hd 0 (fst e) / hd 0 (fst p))%Q (tl (fst e)) (tl (fst p)) j n); auto.
        unfold Qdiv. rewrite Z0. ring.
      + unfold eliminate. cbn [snd]. change (snd e - (hd 0 (fst e) / hd 0 (fst p)) * snd p == 0)%Q.
        unfold Qdiv. rewrite Z0, Hs. ring.
  Qed.
End Exact.
