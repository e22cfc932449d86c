(** [eval_conc]: concentrations, density and mean weight. *)
From Coq Require Import List ZArith NArith QArith Qabs Qreals Reals Bool Lra Lia.
From Verif Require Import Outcome Arith MechLang MechSym MechSrc MechCall MechReal MechPoly MechChem Mechanisms
  MechSpec MechRate MechPmod MechThermo.
Import ListNotations.
Local Open Scope nat_scope.

(** Shape of the arguments of [eval_conc]. *)
Definition conc_sh (S : source) : list (var * nat) := [(v_T, 1); (v_pres, 1); (v_y, s_NSP S - 1)].

(** Mass fraction of species [k]: an argument, or the complement [yN]. *)
Definition y_form (n : nat) (yN : expr) (k : nat) : expr :=
  if k =? n - 1 then yN else Ref v_y (N.of_nat k).

(** Last factor of a product, if a literal. *)
Definition last_literal (e : expr) : Q := match e with Mul _ (Num w) => w | _ => 0 end.

(** Symbolic run of [eval_conc]. *)
Definition conc_run (S : source) : option smem := symbolic (conc_sh S) (conc_locals S) (s_eval_conc S).

(** Reciprocal weights, as [eval_conc] writes them. *)
Definition inverse_weights (S : source) : list Q :=
  match conc_run S with
  | Some s => map (fun k => last_literal (formd (conc_sh S) (conc_locals S) s v_conc k)) (seq 0 (s_NSP S))
  | None => []
  end.

(** The closed forms of [eval_conc]. *)
Definition conc_ok (S : source) : bool :=
  match conc_run S with
  | None => false
  | Some s =>
      let ws := inverse_weights S in
      let yN := formd (conc_sh S) (conc_locals S) s v_y_N 0 in
      let mw := formd (conc_sh S) (conc_locals S) s v_mw_avg 0 in
      let rho := formd (conc_sh S) (conc_locals S) s v_rho 0 in
      (1 <=? s_NSP S) && forallb (fun w => (0 <? Qnum w)%Z) ws &&
      all_forms (conc_sh S) (conc_locals S) s v_y_N (fun _ e =>
        peqb (norm e) ((1%Q, []) :: map (fun k => ((-1)%Q, [Ref v_y (N.of_nat k)])) (seq 0 (s_NSP S - 1)))) &&
      all_forms (conc_sh S) (conc_locals S) s v_mw_avg (fun _ e =>
        match e with
        | Div (Num c) d =>
            Qsame c 1.0 &&
            peqb (norm d) (flat_map (fun k => pscale (nth k ws 0%Q) (norm (y_form (s_NSP S) yN k))) (seq 0 (s_NSP S)))
        | _ => false
        end) &&
      all_forms (conc_sh S) (conc_locals S) s v_rho (fun _ e =>
        expr_eqb e (Div (Mul (Ref v_pres 0) mw) (Mul (Num 8.31446210e+03) (Ref v_T 0)))) &&
      all_forms (conc_sh S) (conc_locals S) s v_conc (fun k e =>
        expr_eqb e (Mul (Mul rho (y_form (s_NSP S) yN k)) (Num (nth k ws 0%Q))))
  end.

(** All mass fractions: those given and the complement. *)
Definition all_fractions (y : list R) : list R := y ++ [1 - Rsum y]%R.

(** Moles per mass. *)
Definition specific_moles (S : source) (y : list R) : R :=
  Rsumn (s_NSP S) (fun k => Q2R (nth k (inverse_weights S) 0%Q) * nth k (all_fractions y) 0)%R.

Lemma Rsum_nth l : Rsum l = Rsumn (length l) (fun k => nth k l 0%R).
Proof.
  unfold Rsumn. induction l as [|x l IH]; [reflexivity|]. cbn [length seq map Rsum nth]. f_equal.
  rewrite <- seq_shift, map_map. exact IH.
Qed.

Theorem concentrations M S (T p : R) (y : list R) : conc_ok S = true -> length y = s_NSP S - 1 ->
  exists conc : list R,
    lib_eval_conc (A := RA) M S T p y =
      Ok ((1 - Rsum y)%R, (1 / specific_moles S y)%R, (p * (1 / specific_moles S y) / (gas_constant * T))%R, conc) /\
    length conc = s_NSP S /\
    forall k, k < s_NSP S ->
      nth k conc 0%R = (p * (1 / specific_moles S y) / (gas_constant * T) * nth k (all_fractions y) 0 *
                        Q2R (nth k (inverse_weights S) 0%Q))%R.
Proof.
  unfold conc_ok. intros H Ly. destruct (conc_run S) as [s|] eqn:E; [|discriminate].
  set (ws := inverse_weights S) in *.
  set (yN := formd (conc_sh S) (conc_locals S) s v_y_N 0) in *.
  set (mw := formd (conc_sh S) (conc_locals S) s v_mw_avg 0) in *.
  set (rho := formd (conc_sh S) (conc_locals S) s v_rho 0) in *.
  cbv zeta in H.
  apply andb_true_iff in H as [H Hc]. apply andb_true_iff in H as [H Hr]. apply andb_true_iff in H as [H Hm].
  apply andb_true_iff in H as [H Hy]. apply andb_true_iff in H as [H1 _]. apply Nat.leb_le in H1.
  set (ins := [(v_T, [T] : list (num RA)); (v_pres, [p]); (v_y, y)]).
  assert (Hsh : shape ins = conc_sh S) by (unfold conc_sh; rewrite <- Ly; reflexivity).
  set (a := argument ins).
  assert (Ay : forall k, a v_y (N.of_nat k) = nth k y 0%R).
  { intros k. unfold a, argument. cbn [ins find fst snd var_eqb var_id Nat.eqb]. rewrite Nat2N.id.
    cbn [zero lit RA]. rewrite Q2R_0. reflexivity. }
  assert (VN : rval M a yN = (1 - Rsum y)%R).
  { destruct (all_forms_in _ _ _ _ _ 0 Hy) as [_ P]; [cbn; lia|]. fold yN in P.
    apply (peqb_val M a) in P. rewrite norm_val in P. rewrite P, pval_cons. cbn [fst snd]. rewrite Q2R_1.
    rewrite Rsum_nth, Ly. unfold Rsumn, pval, mval at 1. cbn [map Rprod]. rewrite map_map.
    rewrite (Rsum_ext _ (fun k => -1 * nth k y 0)%R).
    - rewrite (Rsum_scal (-1) (fun k => nth k y 0)%R). ring.
    - intros k _. cbn [fst snd]. unfold mval. cbn [map Rprod]. rewrite Q2R_m1.
      change (rval M a (Ref v_y (N.of_nat k))) with (a v_y (N.of_nat k)). rewrite Ay. ring. }
  assert (VY : forall k, k < s_NSP S -> rval M a (y_form (s_NSP S) yN k) = nth k (all_fractions y) 0%R).
  { intros k Hk. unfold y_form, all_fractions. destruct (Nat.eqb_spec k (s_NSP S - 1)) as [->|N].
    - rewrite app_nth2 by lia. replace (s_NSP S - 1 - length y) with 0 by lia. exact VN.
    - rewrite app_nth1 by lia. apply Ay. }
  assert (VM : rval M a mw = (1 / specific_moles S y)%R).
  { destruct (all_forms_in _ _ _ _ _ 0 Hm) as [_ P]; [cbn; lia|]. fold mw in P.
    destruct mw as [| | | | | |d1 d2| | | | | |]; try discriminate. destruct d1; try discriminate.
    apply andb_true_iff in P as [P1 P]. apply Qsame_eq in P1. subst q.
    apply (peqb_val M a) in P. rewrite norm_val in P.
    change (rval M a (Div (Num 1.0) d2)) with (Q2R 1.0 / rval M a d2)%R. rewrite P.
    replace (Q2R 1.0) with 1%R by (unfold Q2R; cbn; lra). f_equal.
    unfold specific_moles, Rsumn. fold ws.
    assert (G : forall l, (forall k, In k l -> k < s_NSP S) ->
      pval M a (flat_map (fun k => pscale (nth k ws 0%Q) (norm (y_form (s_NSP S) yN k))) l) =
      Rsum (map (fun k => Q2R (nth k ws 0%Q) * nth k (all_fractions y) 0)%R l)).
    { induction l as [|k l IH]; intros B; [reflexivity|]. cbn [flat_map map Rsum].
      rewrite pval_app, IH by (intros; apply B; right; assumption).
      rewrite pscale_val, norm_val, VY by (apply B; left; reflexivity). reflexivity. }
    apply G. intros k Hk. apply in_seq in Hk. lia. }
  assert (VR : rval M a rho = (p * (1 / specific_moles S y) / (gas_constant * T))%R).
  { destruct (all_forms_in _ _ _ _ _ 0 Hr) as [_ P]; [cbn; lia|]. fold rho in P. apply expr_eqb_eq in P.
    rewrite P. rewrite <- VM. reflexivity. }
  unfold lib_eval_conc. fold ins.
  rewrite (call_closed M _ ins (conc_locals S) [v_y_N; v_mw_avg; v_rho; v_conc] s).
  2: { rewrite Hsh. exact E. }
  2: { rewrite Hsh. intros v [<-|[<-|[<-|[<-|[]]]]]; eapply all_forms_weaken; eassumption. }
  assert (Ec : N.to_nat (sizes (conc_sh S ++ conc_locals S) v_conc) = s_NSP S) by (cbn; lia).
  rewrite Hsh. cbn [map]. rewrite Ec.
  replace (N.to_nat (sizes (conc_sh S ++ conc_locals S) v_y_N)) with 1 by reflexivity.
  replace (N.to_nat (sizes (conc_sh S ++ conc_locals S) v_mw_avg)) with 1 by reflexivity.
  replace (N.to_nat (sizes (conc_sh S ++ conc_locals S) v_rho)) with 1 by reflexivity.
  change (seq 0 1) with [0]. cbn [map bind]. fold yN mw rho a.
  change (@val RA M a yN) with (rval M a yN). change (@val RA M a mw) with (rval M a mw).
  change (@val RA M a rho) with (rval M a rho). rewrite VN, VM, VR.
  eexists. split; [reflexivity|]. split; [rewrite map_length, seq_length; reflexivity|].
  intros k Hk.
  rewrite (nth_map_seq (fun i => val M a (formd (conc_sh S) (conc_locals S) s v_conc i))) by exact Hk.
  destruct (all_forms_in _ _ _ _ _ k Hc) as [_ P]; [rewrite Ec; exact Hk|]. apply expr_eqb_eq in P. rewrite P.
  fold ws. rewrite <- VR, <- (VY k Hk). reflexivity.
Qed.

Theorem ideal_gas M S (T p : R) (y : list R) : conc_ok S = true -> length y = s_NSP S - 1 ->
  specific_moles S y <> 0%R ->
  exists (yN mw rho : R) (conc : list R), lib_eval_conc (A := RA) M S T p y = Ok (yN, mw, rho, conc) /\
    length conc = s_NSP S /\
    Rsumn (length conc) (fun k => nth k conc 0%R) = (p / (gas_constant * T))%R.
Proof.
  intros H Ly D. destruct (concentrations M S T p y H Ly) as (conc & E & L & G).
  do 4 eexists. split; [exact E|]. split; [exact L|]. rewrite L.
  rewrite (Rsumn_ext _ _ (fun k => p * (1 / specific_moles S y) / (gas_constant * T) *
    (Q2R (nth k (inverse_weights S) 0%Q) * nth k (all_fractions y) 0))%R)
    by (intros k Hk; rewrite (G k Hk); ring).
  unfold Rsumn. rewrite (Rsum_scal (p * (1 / specific_moles S y) / (gas_constant * T))
    (fun k => Q2R (nth k (inverse_weights S) 0%Q) * nth k (all_fractions y) 0)%R).
  change (Rsum (map (fun k => Q2R (nth k (inverse_weights S) 0%Q) * nth k (all_fractions y) 0)%R (seq 0 (s_NSP S))))
    with (specific_moles S y).
  unfold Rdiv. rewrite Rmult_1_l. replace (p * / specific_moles S y * / (gas_constant * T) * specific_moles S y)%R
    with (p * / (gas_constant * T) * (/ specific_moles S y * specific_moles S y))%R by ring.
  rewrite Rinv_l by exact D. ring.
Qed.

Lemma conc_all m : conc_ok (library m) = true.
Proof. destruct m; vm_compute; reflexivity. Qed.
