(** Extrapolation is exact on polynomials. *)
From Coq Require Import List Arith ZArith QArith Qpower Bool Lia Lqa Setoid Morphisms.
From Verif Require Import Outcome Arith ChemistryModel ChemFacts ChemBalance ChemCells OdeSolver Seulex
  SeulexMono SeulexSafe SeulexSpec.
Import ListNotations.
Local Open Scope nat_scope.

(** Value at [h] of the polynomial with these coefficients, constant term first. *)
Fixpoint poly (c : list Q) (h : Q) : Q :=
  match c with [] => 0 | a :: c' => a + h * poly c' h end%Q.

(** The columns 0 to [K] are extrapolated one after the other, as in the loop of a step: each
    new one is put in the table and the last result updated. *)
Fixpoint extrapolated {A S} (sys : odesys A S) (E : nat -> list (num A)) (K : nat) : M A S (list (num A)) :=
  match K with
  | O => ret (E 0)
  | Datatypes.S k =>
    let! y := extrapolated sys E k in
    let! _ := wrv (nEqns sys) (Table k) (E K) in
    extrapolate sys K y
  end.

Lemma post_extrapolated {A S} (sys : odesys A S) E K : forall m,
  post (extrapolated sys E K) m (fun y m' => y = neville E K K /\
    forall i, i < K -> holds (nEqns sys) m' (Table i) (neville E K (K - 1 - i))).
Proof.
  induction K as [|k IH]; intros m; cbn [extrapolated].
  - apply post_ret. split; auto. intros; lia.
  - eapply post_bind; [apply IH|]. intros y m1 [Hy H1].
    eapply post_bind; [apply post_wrv|]. intros _ m2 (-> & L2).
    eapply post_weaken.
    + apply (post_extrapolate sys E (Datatypes.S k) y).
      * lia.
      * simpl. rewrite Nat.sub_0_r. apply holds_set. exact L2.
      * intros i Hi. simpl. rewrite Nat.sub_0_r in *. eapply holds_same; [|apply H1; lia].
        apply set_other. simpl. apply Nat.eqb_neq. lia.
      * simpl. rewrite Nat.sub_0_r. exact Hy.
    + intros y' m3 (_ & A3 & ->). split; auto.
Qed.

Section Exact.
  Variables sm gr vg : Q.
  Notation AQ := (QA sm gr vg).

  Definition wt (k l : nat) : Q :=
    (1 / (inject_Z (Z.of_nat (nth k substep_numbers 0%nat)) / inject_Z (Z.of_nat (nth l substep_numbers 0%nat)) - 1))%Q.

  (** One component. *)
  Fixpoint nv (e : nat -> Q) (k i : nat) : Q :=
    match i with
    | O => e k
    | Datatypes.S i' => (nv e k i' + wt k (k - i) * (nv e k i' - nv e (k - 1) i'))%Q
    end.

  Lemma neville_length (E : nat -> list Q) n : (forall j, length (E j) = n) -> forall i k,
    length (neville (A := AQ) E k i) = n.
  Proof.
    intros L. induction i as [|i IH]; intros k; simpl; auto. rewrite map_length, combine_length.
    transitivity (Nat.min n n); [f_equal; apply IH|apply Nat.min_id].
  Qed.

  Lemma neville_nth (E : nat -> list Q) n c : (forall j, length (E j) = n) -> forall i k,
    nth c (neville (A := AQ) E k i) 0%Q = (if c <? n then nv (fun j => nth c (E j) 0%Q) k i else 0%Q).
  Proof.
    intros L. destruct (Nat.ltb_spec c n) as [Hc|Hc].
    2:{ intros i k. apply nth_overflow. rewrite (neville_length E n); auto. }
    induction i as [|i IH]; intros k; [reflexivity|].
    assert (L1 := neville_length E n L i k). assert (L2 := neville_length E n L i (k - 1)).
    cbn [neville nv]. rewrite <- (IH k), <- (IH (k - 1)).
    set (u := neville (A := AQ) E k i) in *. set (v := neville (A := AQ) E (k - 1) i) in *. clearbody u v.
    match goal with |- nth c (map ?g _) _ = _ => set (f := g) end.
    rewrite (nth_indep _ 0%Q (f (0, 0)%Q)).
    - rewrite map_nth, combine_nth; [reflexivity|]. transitivity n; [exact L1|symmetry; exact L2].
    - rewrite map_length, combine_length. apply Nat.min_glb_lt; [rewrite L1|rewrite L2]; exact Hc.
  Qed.

  Lemma nv_ext e f i : (forall j, e j == f j)%Q -> forall k, (nv e k i == nv f k i)%Q.
  Proof. intros H. induction i as [|i IH]; intros k; simpl; auto. rewrite !IH. reflexivity. Qed.

  Lemma nv_add e f i : forall k, (nv (fun j => e j + f j) k i == nv e k i + nv f k i)%Q.
  Proof. induction i as [|i IH]; intros k; simpl; [reflexivity|]. rewrite !IH. ring. Qed.

  Lemma nv_scale a e i : forall k, (nv (fun j => a * e j) k i == a * nv e k i)%Q.
  Proof. induction i as [|i IH]; intros k; simpl; [reflexivity|]. rewrite !IH. ring. Qed.

  (** Sub-step sizes for an interval of length 1. *)
  Definition rel (j : nat) : Q := (1 / inject_Z (Z.of_nat (nth j substep_numbers 0%nat)))%Q.

  Fixpoint pw (q : Q) (d : nat) : Q := match d with O => 1 | Datatypes.S d' => q * pw q d' end%Q.

  (** Row [k] of the table after row [k-1] ([old]), with reduced fractions: entries [i], [i+1], ...,
      the first of which is [cur]. *)
  Fixpoint next_row (k i : nat) (cur : Q) (old : list Q) : list Q :=
    match old with
    | [] => [cur]
    | o :: old' => cur :: next_row k (i + 1) (Qred (cur + wt k (k - (i + 1)) * (cur - o))) old'
    end.

  (** Rows 0 to [k]. *)
  Fixpoint rows_of (e : nat -> Q) (k : nat) : list (list Q) :=
    match k with
    | O => [[Qred (e 0%nat)]]
    | Datatypes.S k' => let t := rows_of e k' in next_row k 0 (Qred (e k)) (hd [] t) :: t
    end.

  Definition row_is (e : nat -> Q) (k i : nat) (r : list Q) : Prop :=
    length r = k + 1 - i /\ forall j, j < length r -> (nth j r 0 == nv e k (i + j))%Q.

  Lemma next_row_is e k old : forall i cur, row_is e k i old -> i <= k + 1 -> (cur == nv e (k + 1) i)%Q ->
    row_is e (k + 1) i (next_row (k + 1) i cur old).
  Proof.
    induction old as [|o old IH]; intros i cur [Lo Ho] Hi Hc; simpl in Lo.
    - split; [simpl; lia|]. intros [|j] Hj; simpl in *; [|lia]. rewrite Nat.add_0_r. exact Hc.
    - cbn [next_row].
      destruct (IH (i + 1) (Qred (cur + wt (k + 1) (k + 1 - (i + 1)) * (cur - o)))%Q) as [L2 H2].
      + split; [lia|]. intros j Hj. specialize (Ho (Datatypes.S j) ltac:(simpl; lia)). simpl in Ho.
        rewrite Ho. replace (i + 1 + j) with (i + Datatypes.S j) by lia. reflexivity.
      + lia.
      + rewrite Qred_correct, Hc. specialize (Ho 0 ltac:(simpl; lia)). simpl in Ho. rewrite Nat.add_0_r in Ho.
        rewrite Ho. replace (i + 1) with (Datatypes.S i) by lia. cbn [nv].
        replace (k + 1 - 1) with k by lia. reflexivity.
      + split; [cbn [length]; rewrite L2; lia|]. intros [|j] Hj.
        * rewrite Nat.add_0_r. exact Hc.
        * cbn [nth]. cbn [length] in Hj. rewrite H2 by (apply Nat.succ_lt_mono; exact Hj). replace (i + 1 + j) with (i + Datatypes.S j) by lia. reflexivity.
  Qed.

  Lemma rows_are e k : forall i, i <= k -> row_is e (k - i) 0 (nth i (rows_of e k) []).
  Proof.
    induction k as [|k IH]; intros i Hi.
    - destruct i; [|lia]. split; auto. intros [|j] Hj; simpl in *; [apply Qred_correct|lia].
    - destruct i as [|i].
      + cbn [rows_of nth]. cbv zeta. replace (hd [] (rows_of e k)) with (nth 0 (rows_of e k) []) by (destruct (rows_of e k); auto).
        rewrite Nat.sub_0_r. replace (Datatypes.S k) with (k + 1) by lia. apply next_row_is.
        * specialize (IH 0 ltac:(lia)). rewrite Nat.sub_0_r in IH. exact IH.
        * lia.
        * simpl. apply Qred_correct.
      + cbn [rows_of nth]. cbv zeta. simpl (Datatypes.S k - Datatypes.S i). apply IH. lia.
  Qed.

  Lemma moments : forallb (fun d => let t := rows_of (fun j => pw (rel j) d) 12 in
    forallb (fun i => let k := (12 - i)%nat in
      if (d <=? k)%nat then Qeq_bool (nth k (nth i t []) 0%Q) (if (d =? 0)%nat then 1 else 0) else true) (seq 0 13))
    (seq 0 13) = true.
  Proof. vm_compute. reflexivity. Qed.

  Lemma moment k d : k <= 12 -> d <= k -> (nv (fun j => pw (rel j) d) k k == if (d =? 0)%nat then 1 else 0)%Q.
  Proof.
    intros Hk Hd. assert (M := moments). rewrite forallb_forall in M.
    specialize (M d ltac:(apply in_seq; lia)). cbv zeta in M. rewrite forallb_forall in M.
    specialize (M (12 - k) ltac:(apply in_seq; lia)). cbv beta in M.
    assert (R := rows_are (fun j => pw (rel j) d) 12 (12 - k) ltac:(lia)).
    replace (12 - (12 - k)) with k in * by lia. rewrite (proj2 (Nat.leb_le _ _) Hd) in M.
    apply Qeq_bool_iff in M. destruct R as [LR HR]. rewrite HR in M by lia. exact M.
  Qed.

  Lemma poly_extrapolated (H : Q) k c : k <= 12 -> forall d, d + length c <= k + 1 ->
    (nv (fun j => pw (H * rel j) d * poly c (H * rel j)) k k == (if (d =? 0)%nat then nth 0 c 0 else 0))%Q.
  Proof.
    intros Hk. induction c as [|a c IH]; intros d Hd; simpl in Hd.
    - rewrite (nv_ext _ (fun j => 0 * 0)%Q) by (intros; simpl; ring). rewrite nv_scale.
      destruct (d =? 0); simpl; ring.
    - rewrite (nv_ext _ (fun j => a * pw H d * pw (rel j) d + pw (H * rel j) (Datatypes.S d) * poly c (H * rel j))%Q).
      + rewrite nv_add, nv_scale, moment by lia. rewrite IH by lia. simpl.
        destruct d; simpl; ring.
      + intros j. assert (X : forall a b e, (pw (a * b) e == pw a e * pw b e)%Q).
        { clear. intros a b e. induction e as [|e IH]; simpl; [ring|]. rewrite IH. ring. }
        simpl. rewrite X. ring.
  Qed.

  Lemma neville_poly (H : Q) (cs : list (list Q)) (E : nat -> list Q) k : k <= 12 ->
    (forall c, In c cs -> length c <= k + 1) ->
    (forall j, E j = map (fun c => poly c (H / inject_Z (Z.of_nat (nth j substep_numbers 0%nat)))) cs) ->
    length (neville (A := AQ) E k k) = length cs /\
    forall i, i < length cs -> (nth i (neville (A := AQ) E k k) 0 == nth 0 (nth i cs []) 0)%Q.
  Proof.
    intros Hk Hc HE. assert (L : forall j, length (E j) = length cs) by (intros; rewrite HE, map_length; auto).
    split; [apply neville_length; auto|]. intros i Hi. rewrite (neville_nth E (length cs)) by auto.
    rewrite (proj2 (Nat.ltb_lt _ _) Hi).
    rewrite <- (poly_extrapolated H k (nth i cs []) Hk 0).
    - apply nv_ext. intros j. rewrite HE.
      rewrite (nth_indep _ 0%Q (poly [] (H / inject_Z (Z.of_nat (nth j substep_numbers 0%nat))))) by (rewrite map_length; auto).
      rewrite (map_nth (fun c => poly c (H / inject_Z (Z.of_nat (nth j substep_numbers 0%nat))))).
      unfold rel.
      assert (X : forall c h h', (h == h')%Q -> (poly c h == poly c h')%Q).
      { clear. induction c as [|a c IH]; intros h h' E; simpl; [reflexivity|]. rewrite (IH _ _ E), E. reflexivity. }
      cbn [pw]. rewrite Qmult_1_l. apply X. unfold Qdiv. rewrite Qmult_1_l. reflexivity.
    - assert (length (nth i cs []) <= k + 1) by (apply Hc, nth_In; auto). lia.
  Qed.
End Exact.
