(** [eval_jacob] of drm19: the statements after the reactions.
    The definitions below are not functions of /repo. *)
From Coq Require Import List ZArith NArith QArith Qabs Qreals Reals Bool Lra Lia.
From Verif Require Import Outcome Arith MechLang MechSym MechSrc MechCall MechReal MechPoly MechChem Mechanisms
  MechSpec MechRate MechPmod MechThermo MechConc MechDydt MechRhs MechData MechExp MechLaurent MechNasa MechKin MechArr
  MechJac MechJacT MechJacS MechJacD MechJacR MechJacC MechJacW MechJacX MechFull MechFullT MechFullS MechFullD.
Import ListNotations.
Local Open Scope nat_scope.

(** ** Checks *)

(** Shapes of the arguments and sizes of the local variables. *)
Definition mid_sh (S : source) : list (var * nat) :=
  [(v_y, s_NSP S); (v_y_N, 1); (v_cp, s_NSP S); (v_jac, s_NSP S * s_NSP S)].
Definition mid_locals : list (var * nat) := [(v_cp_avg, 1); (v_working_temp, 1)].
Definition species_sh (S : source) : list (var * nat) :=
  [(v_mw_avg, 1); (v_rho, 1); (v_cp_avg, 1); (v_spec_rates, s_NSP S); (v_h, s_NSP S); (v_cp, s_NSP S); (v_jac, s_NSP S * s_NSP S)].
Definition species_locals : list (var * nat) := [(v_rho_inv, 1); (v_working_temp, 1); (v_j_temp, 1)].
Definition end_sh (S : source) : list (var * nat) :=
  [(v_T, 1); (v_y, s_NSP S); (v_y_N, 1); (v_rho, 1); (v_spec_rates, s_NSP S); (v_h, s_NSP S); (v_cp, s_NSP S); (v_cp_avg, 1);
   (v_working_temp, 1); (v_jac, s_NSP S * s_NSP S)].

(** Everything but the first entry is left alone. *)
Definition keeps (k : nat) (e : expr) : bool := (k =? 0) || expr_eqb e (Ref v_jac (N.of_nat k)).

(** The terms of a sum. *)
Fixpoint summands (e : expr) : list expr :=
  match e with Add a b => summands a ++ summands b | _ => [e] end.

(** Mean heat capacity. *)
Definition mean_ok (n : nat) (e : expr) : bool :=
  exprs_eqb (summands e) (map (fun k => Mul (y_ref n k) (Ref v_cp (N.of_nat k))) (seq 0 n)).

(** The statements before [eval_jacob_3]. *)
Definition mid_ok (m : mechanism) (l : list stmt) : bool :=
  match symbolic (mid_sh (library m)) mid_locals l with
  | None => false
  | Some s =>
      all_forms (mid_sh (library m)) mid_locals s v_jac keeps &&
      all_forms (mid_sh (library m)) mid_locals s v_cp_avg (fun _ e => mean_ok (s_NSP (library m)) e) &&
      all_forms (mid_sh (library m)) mid_locals s v_working_temp (fun _ _ => true)
  end.

(** The statements after it. *)
Definition end_ok (m : mechanism) (l : list stmt) : bool :=
  match symbolic (end_sh (library m)) [] l with
  | None => false
  | Some s => all_forms (end_sh (library m)) [] s v_jac keeps
  end.

(** Derivative of species [k] with respect to [j], with the change of the density. *)
Definition dilution_ok (m : mechanism) (ws us : list Q) (j k : nat) (e : expr) : bool :=
  let old := Ref v_jac (N.of_nat (at_jk m (j + 1) (k + 1))) in
  if inert (chem m) k then expr_eqb e old else
  match e with
  | Add _ (Mul (Mul _ (Num q)) _) =>
      expr_eqb e (Add old (Mul (Mul (Mul (Ref v_spec_rates (N.of_nat k)) (Ref v_mw_avg 0)) (Num q)) (Div (Num 1.0) (Ref v_rho 0)))) &&
      let N := length us - 1 in
      Qle_bool (Qabs (q - nth k ws 0 * (nth j us 0 - nth N us 0))%Q) (tolE * (nth k ws 0 * (nth j us 0 + nth N us 0)))%Q
  | _ => false
  end.

(** The species that react. *)
Definition active (m : mechanism) : list nat := filter (fun k => negb (inert (chem m) k)) (seq 0 (s_NSP (library m) - 1)).

(** A term of the derivative of the temperature with respect to species [j]. *)
Definition e_row (m : mechanism) (entry : nat -> expr) (w : Q) (j k : nat) : expr :=
  Mul (Ref v_h (N.of_nat k))
    (Sub (Mul (Div (Num 1.0) (Ref v_cp_avg 0)) (entry k))
      (Mul (Mul (Mul (Div (Num 1.0) (Mul (Mul (Ref v_rho 0) (Ref v_cp_avg 0)) (Ref v_cp_avg 0)))
                  (Sub (Ref v_cp (N.of_nat j)) (Ref v_cp (N.of_nat (s_NSP (library m) - 1))))) (Ref v_spec_rates (N.of_nat k))) (Num w))).

(** The literal in such a term. *)
Definition row_lit (e : expr) : Q := lit_of (opr (opr (opr e))).

(** The terms that are subtracted, the last first. *)
Fixpoint unsub (n : nat) (e : expr) : option (list expr) :=
  match n, e with
  | O, Neg a => Some [a]
  | S n', Sub a b => match unsub n' a with Some l => Some (b :: l) | None => None end
  | _, _ => None
  end.

(** The derivative of the temperature with respect to species [j]. *)
Definition row_ok (m : mechanism) (ws : list Q) (entry : nat -> expr) (j : nat) (e : expr) : bool :=
  match unsub (length (active m) - 1) e with
  | None => false
  | Some l =>
      match zip (rev (active m)) l with
      | None => false
      | Some z => forallb (fun t => expr_eqb (snd t) (e_row m entry (row_lit (snd t)) j (fst t)) &&
                                    qclose tolE (row_lit (snd t)) (nth (fst t) ws 0%Q)) z
      end
  end.

(** [eval_jacob_3]. *)
Definition species_end_ok (m : mechanism) (l : list stmt) : bool :=
  match symbolic (species_sh (library m)) species_locals l with
  | None => false
  | Some s =>
      let n := s_NSP (library m) in
      let ws := dydt_weights (library m) nitrogen in
      let us := inverse_weights (library m) in
      let f j k := formd (species_sh (library m)) species_locals s v_jac (at_jk m j k) in
      all_forms (species_sh (library m)) species_locals s v_jac (fun _ _ => true) &&
      forallb (fun k => expr_eqb (f 0 k) (Ref v_jac (N.of_nat (at_jk m 0 k)))) (seq 0 n) &&
      forallb (fun j => forallb (fun k => dilution_ok m ws us j k (f (j + 1) (k + 1))) (seq 0 (n - 1)) &&
                        row_ok m ws (fun k => f (j + 1) (k + 1)) j (f (j + 1) 0)) (seq 0 (n - 1))
  end.

(** The whole check. *)
Definition ends_ok (m : mechanism) (J : jacobian_all) : bool :=
  mid_ok m (a_mid J) && species_end_ok m (a_species J) && end_ok m (a_tail J).

Lemma ends_drm19 : ends_ok drm19 drm19_jac_all = true.
Proof. vm_compute. reflexivity. Qed.

(** ** Soundness *)

Local Open Scope R_scope.

Lemma at_jk_div m j k : (k < s_NSP (library m))%nat -> (j < s_NSP (library m))%nat -> (at_jk m j k < s_NSP (library m) * s_NSP (library m))%nat.
Proof. unfold at_jk. intros. nia. Qed.

Lemma summands_val M rho e : rval M rho e = Rsum (map (rval M rho) (summands e)).
Proof.
  assert (triv : forall x, rval M rho x = Rsum (map (rval M rho) [x])) by (intros; cbn; ring).
  induction e; try apply triv. cbn [summands]. change (rval M rho (Add e1 e2)) with (rval M rho e1 + rval M rho e2).
  rewrite IHe1, IHe2, map_app, Rsum_app. reflexivity.
Qed.

Section Ends.
  Variable M : libm RA.
  Variable m : mechanism.
  Notation S := (library m).
  Notation n := (s_NSP (library m)).

  Lemma mid_call l (T yN : R) (y cp jac : list R) : mid_ok m l = true ->
    length y = (n - 1)%nat -> length cp = n -> length jac = (n * n)%nat ->
    exists (wt : R) (jac1 : list R),
      call M l (mid_ins (A := RA) (T :: y) yN cp jac) [(v_cp_avg, 1%nat); (v_working_temp, 1%nat)] [v_cp_avg; v_working_temp; v_jac] =
      Ok [[Rsumn n (fun k => nth k cp 0 * nth k (y ++ [yN]) 0)]; [wt]; jac1] /\
      length jac1 = (n * n)%nat /\ forall k, (k < n * n)%nat -> k <> 0%nat -> nth k jac1 0 = nth k jac 0.
  Proof.
    intros H Ly Lc Lj. unfold mid_ok in H. pose proof (NSP_pos m) as HN.
    destruct (symbolic (mid_sh S) mid_locals l) as [s|] eqn:E; [|discriminate].
    apply andb_true_iff in H as [H H3]. apply andb_true_iff in H as [H1 H2].
    set (ins := mid_ins (A := RA) (T :: y) yN cp jac).
    assert (Hsh : shape ins = mid_sh S).
    { unfold ins, mid_ins, mid_sh, shape. cbn [map fst snd length]. change (@length (num RA)) with (@length R).
      rewrite Ly, Lc, Lj. replace (Datatypes.S (n - 1)) with n by lia. reflexivity. }
    fold mid_locals. rewrite (call_closed M _ ins mid_locals [v_cp_avg; v_working_temp; v_jac] s).
    2: { rewrite Hsh. exact E. }
    2: { rewrite Hsh. intros v [<-|[<-|[<-|[]]]]; eapply all_forms_weaken; eassumption. }
    rewrite Hsh. cbn [map].
    assert (Ej : N.to_nat (sizes (mid_sh S ++ mid_locals) v_jac) = (n * n)%nat) by (cbn; lia).
    assert (Ec : N.to_nat (sizes (mid_sh S ++ mid_locals) v_cp_avg) = 1%nat) by reflexivity.
    assert (Ew : N.to_nat (sizes (mid_sh S ++ mid_locals) v_working_temp) = 1%nat) by reflexivity.
    rewrite Ej, Ec, Ew. cbn [seq map]. set (a := argument ins).
    assert (aa : forall v (l : list R), find (fun x => var_eqb (fst x) v) ins = Some (v, l) ->
      forall k, a v (N.of_nat k) = nth k l 0)
      by (intros v l0 F k; unfold a, argument; rewrite F; cbn [snd]; rewrite Nat2N.id; cbn [zero lit RA]; rewrite Q2R_0; reflexivity).
    assert (Vc : val M a (formd (mid_sh S) mid_locals s v_cp_avg 0) = Rsumn n (fun k => nth k cp 0 * nth k (y ++ [yN]) 0)).
    { destruct (all_forms_in _ _ _ _ _ 0%nat H2 ltac:(rewrite Ec; lia)) as [_ Q]. unfold mean_ok in Q. apply exprs_eqb_eq in Q.
      eapply eq_trans; [apply (summands_val M a)|]. rewrite Q, map_map. unfold Rsumn. apply Rsum_ext. intros k Hk. apply in_seq in Hk.
      change (rval M a (Mul (y_ref n k) (Ref v_cp (N.of_nat k)))) with (rval M a (y_ref n k) * a v_cp (N.of_nat k)).
      rewrite (aa v_cp cp eq_refl). rewrite Rmult_comm. f_equal.
      unfold y_ref. destruct (Nat.eqb_spec k (n - 1)) as [->|N].
      - rewrite <- Ly, app_nth2, Nat.sub_diag by lia. apply (aa v_y_N [yN] eq_refl 0%nat).
      - rewrite app_nth1 by lia. change (rval M a (Ref v_y (N.of_nat (k + 1)))) with (a v_y (N.of_nat (k + 1))).
        rewrite (aa v_y (T :: y) eq_refl), Nat.add_1_r. reflexivity. }
    eexists _, _. split; [rewrite Vc; reflexivity|]. split; [rewrite map_length, seq_length; reflexivity|].
    intros k Hk N0. rewrite (nth_map_seq (fun i => val M a (formd (mid_sh S) mid_locals s v_jac i))) by exact Hk.
    destruct (all_forms_in _ _ _ _ _ k H1 ltac:(rewrite Ej; exact Hk)) as [_ Q]. unfold keeps in Q.
    rewrite (proj2 (Nat.eqb_neq k 0) N0) in Q. apply expr_eqb_eq in Q. rewrite Q. apply (aa v_jac jac eq_refl).
  Qed.

  Lemma end_call l (T yN rho cpa wt : R) (y sp h cp jac : list R) : end_ok m l = true ->
    length y = (n - 1)%nat -> length sp = n -> length h = n -> length cp = n -> length jac = (n * n)%nat ->
    exists J : list R,
      call M l (end_ins (A := RA) T (T :: y) yN rho sp h cp cpa wt jac) [] [v_jac] = Ok [J] /\
      length J = (n * n)%nat /\ forall k, (k < n * n)%nat -> k <> 0%nat -> nth k J 0 = nth k jac 0.
  Proof.
    intros H Ly Ls Lh Lc Lj. unfold end_ok in H. pose proof (NSP_pos m) as HN.
    destruct (symbolic (end_sh S) [] l) as [s|] eqn:E; [|discriminate].
    set (ins := end_ins (A := RA) T (T :: y) yN rho sp h cp cpa wt jac).
    assert (Hsh : shape ins = end_sh S).
    { unfold ins, end_ins, end_sh, shape. cbn [map fst snd length]. change (@length (num RA)) with (@length R).
      rewrite Ly, Ls, Lh, Lc, Lj. replace (Datatypes.S (n - 1)) with n by lia. reflexivity. }
    rewrite (call_closed M _ ins [] [v_jac] s).
    2: { rewrite Hsh. exact E. }
    2: { rewrite Hsh. intros v [<-|[]]; eapply all_forms_weaken; eassumption. }
    rewrite Hsh. cbn [map].
    assert (Ej : N.to_nat (sizes (end_sh S ++ []) v_jac) = (n * n)%nat) by (cbn; lia).
    rewrite Ej. set (a := argument ins).
    eexists. split; [reflexivity|]. split; [rewrite map_length, seq_length; reflexivity|].
    intros k Hk N0. rewrite (nth_map_seq (fun i => val M a (formd (end_sh S) [] s v_jac i))) by exact Hk.
    destruct (all_forms_in _ _ _ _ _ k H ltac:(rewrite Ej; exact Hk)) as [_ Q]. unfold keeps in Q.
    rewrite (proj2 (Nat.eqb_neq k 0) N0) in Q. apply expr_eqb_eq in Q. rewrite Q.
    change (val M a (Ref v_jac (N.of_nat k))) with (a v_jac (N.of_nat k)). unfold a, argument, ins, end_ins.
    cbn [find fst snd var_eqb var_id Nat.eqb]. rewrite Nat2N.id. cbn [zero lit RA]. rewrite Q2R_0. reflexivity.
  Qed.

  Lemma unsub_val (a : var -> N -> R) q : forall e l, unsub q e = Some l -> rval M a e = - Rsum (map (rval M a) l).
  Proof.
    induction q as [|q IH]; intros e l; destruct e; cbn [unsub]; try discriminate.
    - intros [= <-]. cbn [map Rsum]. change (rval M a (Neg e)) with (Q2R (-1) * rval M a e). rewrite Q2R_m1. ring.
    - destruct (unsub q e1) as [l'|] eqn:U; [|discriminate]. intros [= <-]. cbn [map Rsum].
      change (rval M a (Sub e1 e2)) with (rval M a e1 - rval M a e2). rewrite (IH _ _ U). ring.
  Qed.

  Lemma Rsum_rev {X} (f : X -> R) l : Rsum (map f (rev l)) = Rsum (map f l).
  Proof.
    induction l as [|x l IH]; [reflexivity|]. cbn [rev map Rsum]. rewrite map_app, Rsum_app, IH. cbn [map Rsum]. ring.
  Qed.

  Lemma find_first {X} (z : list (nat * X)) t : NoDup (map fst z) -> In t z -> find (fun u => (fst u =? fst t)%nat) z = Some t.
  Proof.
    induction z as [|u z IH]; intros ND [].
    - subst u. cbn [find]. rewrite Nat.eqb_refl. reflexivity.
    - cbn [map] in ND. inversion ND as [|? ? N1 N2]. subst. cbn [find]. destruct (Nat.eqb_spec (fst u) (fst t)) as [Q|Q].
      + exfalso. apply N1. rewrite Q. apply in_map. assumption.
      + apply IH; assumption.
  Qed.

  Lemma species_call l (mw rho cpa : R) (sp h cp jac : list R) : species_end_ok m l = true ->
    length sp = n -> length h = n -> length cp = n -> length jac = (n * n)%nat ->
    exists J : list R,
      call M l (species_ins (A := RA) mw rho cpa sp h cp jac) [(v_rho_inv, 1%nat); (v_working_temp, 1%nat); (v_j_temp, 1%nat)] [v_jac] = Ok [J] /\
      length J = (n * n)%nat /\
      (forall k, (k < n)%nat -> nth k J 0 = nth k jac 0) /\
      (forall j k, (j < n - 1)%nat -> (k < n - 1)%nat ->
         if inert (chem m) k then entry m J j k = entry m jac j k else
         exists d, entry m J j k = entry m jac j k + nth k sp 0 * mw * d / rho /\
           Rabs (d - W m k * (u_of m j - u_of m (n - 1))) <= Q2R tolE * (W m k * (u_of m j + u_of m (n - 1)))) /\
      (forall j, (j < n - 1)%nat -> exists ws : nat -> R,
         (forall k, (k < n)%nat -> Rabs (ws k - W m k) <= Q2R tolE * W m k) /\
         nth (at_jk m (j + 1) 0) J 0 =
         - Rsum (map (fun k => nth k h 0 * (entry m J j k / cpa - (nth j cp 0 - nth (n - 1) cp 0) * nth k sp 0 * ws k / (rho * cpa * cpa))) (active m))).
  Proof.
    intros H Ls Lh Lc Lj. unfold species_end_ok in H. pose proof (NSP_pos m) as HN.
    destruct (symbolic (species_sh S) species_locals l) as [s|] eqn:E; [|discriminate]. cbv zeta in H.
    apply andb_true_iff in H as [H H3]. apply andb_true_iff in H as [H1 H2]. rewrite forallb_forall in H2, H3.
    set (ins := species_ins (A := RA) mw rho cpa sp h cp jac).
    assert (Hsh : shape ins = species_sh S).
    { unfold ins, species_ins, species_sh, shape. cbn [map fst snd length]. change (@length (num RA)) with (@length R).
      rewrite Ls, Lh, Lc, Lj. reflexivity. }
    fold species_locals. rewrite (call_closed M _ ins species_locals [v_jac] s).
    2: { rewrite Hsh. exact E. }
    2: { rewrite Hsh. intros v [<-|[]]; eapply all_forms_weaken; eassumption. }
    rewrite Hsh. cbn [map].
    assert (Ej : N.to_nat (sizes (species_sh S ++ species_locals) v_jac) = (n * n)%nat) by (cbn; lia).
    rewrite Ej. set (a := argument ins). set (F := formd (species_sh S) species_locals s v_jac) in *.
    assert (aa : forall v (l : list R), find (fun x => var_eqb (fst x) v) ins = Some (v, l) ->
      forall k, a v (N.of_nat k) = nth k l 0)
      by (intros v l0 Q k; unfold a, argument; rewrite Q; cbn [snd]; rewrite Nat2N.id; cbn [zero lit RA]; rewrite Q2R_0; reflexivity).
    pose (J := (map (fun i => val M a (F i)) (seq 0 (n * n)) : list R)).
    assert (VJ : forall j k, (j < n)%nat -> (k < n)%nat -> nth (at_jk m j k) J 0 = rval M a (F (at_jk m j k))).
    { intros j k Hj Hk. unfold J. rewrite (nth_map_seq (fun i => val M a (F i))) by (apply at_jk_div; assumption). reflexivity. }
    assert (am : a v_mw_avg 0%N = mw) by (apply (aa v_mw_avg [mw] eq_refl 0%nat)).
    assert (ar : a v_rho 0%N = rho) by (apply (aa v_rho [rho] eq_refl 0%nat)).
    assert (ac : a v_cp_avg 0%N = cpa) by (apply (aa v_cp_avg [cpa] eq_refl 0%nat)).
    assert (one : Q2R 1.0 = 1) by (unfold Q2R; cbn; lra).
    exists J. split; [reflexivity|]. split; [unfold J; rewrite map_length, seq_length; reflexivity|].
    split; [|split].
    - intros k Hk. specialize (H2 k ltac:(apply in_seq; lia)). cbv beta in H2. apply expr_eqb_eq in H2.
      pose proof (VJ 0%nat k ltac:(lia) Hk) as V. rewrite H2 in V. unfold at_jk in V. rewrite Nat.mul_0_l, Nat.add_0_l in V.
      rewrite V. apply (aa v_jac jac eq_refl).
    - intros j k Hj Hk. specialize (H3 j ltac:(apply in_seq; lia)). cbv beta in H3. apply andb_true_iff in H3 as [H3 _].
      rewrite forallb_forall in H3. specialize (H3 k ltac:(apply in_seq; lia)). unfold dilution_ok in H3. cbv zeta in H3.
      pose proof (VJ (j + 1)%nat (k + 1)%nat ltac:(lia) ltac:(lia)) as V. fold (entry m J j k) in V.
      set (ix := at_jk m (j + 1) (k + 1)) in *.
      assert (Vo : a v_jac (N.of_nat ix) = entry m jac j k) by (apply (aa v_jac jac eq_refl)).
      destruct (inert (chem m) k).
      + apply expr_eqb_eq in H3. rewrite H3 in V. rewrite V. exact Vo.
      + destruct (F ix) as [| | |e1 e2| | | | | | | | |]; try discriminate. destruct e2 as [| | | | |e3 e4| | | | | | |]; try discriminate.
        destruct e3 as [| | | | |e5 e6| | | | | | |]; try discriminate. destruct e6 as [q| | | | | | | | | | | |]; try discriminate.
        apply andb_true_iff in H3 as [H4 H5]. apply expr_eqb_eq in H4. rewrite H4 in V. exists (Q2R q). split.
        * rewrite V.
          change (rval M a (Add (Ref v_jac (N.of_nat ix)) (Mul (Mul (Mul (Ref v_spec_rates (N.of_nat k)) (Ref v_mw_avg 0)) (Num q)) (Div (Num 1.0) (Ref v_rho 0)))))
            with (a v_jac (N.of_nat ix) + a v_spec_rates (N.of_nat k) * a v_mw_avg 0%N * Q2R q * (Q2R 1.0 / a v_rho 0%N)).
          rewrite Vo, am, ar, one, (aa v_spec_rates sp eq_refl). unfold Rdiv. ring.
        * apply Qle_bool_iff, Qle_Rle in H5. rewrite Q2R_abs, !Q2R_minus, !Q2R_mult, Q2R_minus, Q2R_plus, inverse_weights_length in H5. exact H5.
    - intros j Hj. specialize (H3 j ltac:(apply in_seq; lia)). cbv beta in H3. apply andb_true_iff in H3 as [_ H3].
      unfold row_ok in H3. pose proof (VJ (j + 1)%nat 0%nat ltac:(lia) ltac:(lia)) as V.
      destruct (unsub (length (active m) - 1) (F (at_jk m (j + 1) 0))) as [u|] eqn:U; [|discriminate].
      destruct (zip (rev (active m)) u) as [z|] eqn:Z; [|discriminate]. apply zip_spec in Z as [Z1 Z2].
      apply (unsub_val a) in U. rewrite U in V. rewrite forallb_forall in H3.
      assert (ND : NoDup (map fst z)) by (rewrite Z1; apply NoDup_rev, NoDup_filter, seq_NoDup).
      set (ws := fun k => match find (fun t => (fst t =? k)%nat) z with Some t => Q2R (row_lit (snd t)) | None => W m k end).
      assert (Wn : forall k, (k < n)%nat -> Q2R (nth k (dydt_weights S nitrogen) 0%Q) = W m k) by reflexivity.
      exists ws. split.
      + intros k Hk. unfold ws. destruct (find _ z) as [t|] eqn:Fd.
        * apply find_some in Fd as [I K]. apply Nat.eqb_eq in K. specialize (H3 t I). apply andb_true_iff in H3 as [_ H3].
          apply qclose_val in H3. rewrite K in H3. pose proof (W_positive m k Hk) as P. rewrite (Wn k Hk) in H3.
          rewrite (Rabs_pos_eq (W m k)) in H3 by lra. exact H3.
        * rewrite Rminus_diag_eq, Rabs_R0 by reflexivity. apply Rmult_le_pos; [apply tolE_val|left; apply W_positive, Hk].
      + rewrite V. f_equal. rewrite <- Z2, <- (Rsum_rev _ (active m)), <- Z1, !map_map. apply Rsum_ext. intros t It.
        specialize (H3 t It). apply andb_true_iff in H3 as [H3 _]. apply expr_eqb_eq in H3.
        assert (K : (fst t < n - 1)%nat).
        { assert (I : In (fst t) (map fst z)) by (apply in_map, It). rewrite Z1 in I. apply in_rev in I. unfold active in I.
          apply filter_In in I as [I _]. apply in_seq in I. lia. }
        assert (Ew : ws (fst t) = Q2R (row_lit (snd t))).
        { unfold ws. rewrite (find_first z t ND It). reflexivity. }
        rewrite Ew. set (w := row_lit (snd t)) in *. rewrite H3. set (k := fst t) in *.
        change (rval M a (e_row m (fun k => F (at_jk m (j + 1) (k + 1))) w j k)) with
          (a v_h (N.of_nat k) * (Q2R 1.0 / a v_cp_avg 0%N * rval M a (F (at_jk m (j + 1) (k + 1))) -
            Q2R 1.0 / (a v_rho 0%N * a v_cp_avg 0%N * a v_cp_avg 0%N) * (a v_cp (N.of_nat j) - a v_cp (N.of_nat (n - 1))) * a v_spec_rates (N.of_nat k) * Q2R w)).
        rewrite <- (VJ (j + 1)%nat (k + 1)%nat) by lia. fold (entry m J j k).
        rewrite ar, ac, one, !(aa v_cp cp eq_refl), (aa v_h h eq_refl), (aa v_spec_rates sp eq_refl). unfold Rdiv. ring.
  Qed.
End Ends.
