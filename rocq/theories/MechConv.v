(** Conversions between mole and mass fractions (mass_mole.c). *)
From Coq Require Import List ZArith NArith QArith Qabs Qreals Reals Bool Lra Lia.
From Verif Require Import Outcome Arith MechLang MechSym MechSrc MechCall MechReal MechPoly MechChem Mechanisms
  MechSpec MechRate MechPmod MechThermo MechConc MechDydt MechDefined MechRhs.
Import ListNotations.
Local Open Scope nat_scope.

(** Arguments and local variables of [mole2mass], [mass2mole] and [getDensity]. *)
Definition x2y_sh (S : source) : list (var * nat) := [(v_X, s_NSP S - 1)].

(** Local variables of [mole2mass]. *)
Definition x2y_locals (S : source) : list (var * nat) := [(v_X_N, 1); (v_mw_avg, 1); (v_Y, s_NSP S - 1)].

(** Arguments of [mass2mole]. *)
Definition y2x_sh (S : source) : list (var * nat) := [(v_Y, s_NSP S - 1)].

(** Local variables of [mass2mole]. *)
Definition y2x_locals (S : source) : list (var * nat) := [(v_Y_N, 1); (v_mw_avg, 1); (v_X, s_NSP S - 1)].

(** Arguments of [getDensity]. *)
Definition den_sh (S : source) : list (var * nat) := [(v_temp, 1); (v_pres, 1); (v_X, s_NSP S - 1)].

(** Local variables of [getDensity]. *)
Definition den_locals : list (var * nat) := [(v_X_N, 1); (v_mw_avg, 1); (v_ret, 1)].

(** Weights, as [mole2mass] writes them; the last one is the constant term of the mean weight. *)
Definition conv_weights (S : source) : list Q :=
  match symbolic (x2y_sh S) (x2y_locals S) (s_mole2mass S) with
  | None => []
  | Some s =>
      map (fun k => match formd (x2y_sh S) (x2y_locals S) s v_Y k with
                    | Div (Mul _ (Num w)) _ => w
                    | _ => 0%Q
                    end) (seq 0 (s_NSP S - 1)) ++
      [coefficient [] (norm (formd (x2y_sh S) (x2y_locals S) s v_mw_avg 0)) 0%Q]
  end.

(** One minus the sum of the elements of an array. *)
Definition complement (v : var) (n : nat) : poly :=
  (1%Q, []) :: map (fun k => ((-1)%Q, [Ref v (N.of_nat k)])) (seq 0 (n - 1)).

(** Linear combination of the elements of an array and the complement. *)
Definition combination (v : var) (n : nat) (ws : list Q) : poly :=
  flat_map (fun k => pscale (nth k ws 0%Q)
    (if k =? n - 1 then complement v n else [(1%Q, [Ref v (N.of_nat k)])])) (seq 0 n).

(** The closed forms of the conversions. *)
Definition conv_ok (S : source) : bool :=
  let n := s_NSP S in
  let ws := conv_weights S in
  match symbolic (x2y_sh S) (x2y_locals S) (s_mole2mass S), symbolic (y2x_sh S) (y2x_locals S) (s_mass2mole S),
        symbolic (den_sh S) den_locals (s_getDensity S) with
  | Some s, Some t, Some u =>
      (1 <=? n) && (length ws =? n) && all_positive ws &&
      all_forms (x2y_sh S) (x2y_locals S) s v_Y (fun k e =>
        match e with
        | Div (Mul x (Num w)) mw =>
            expr_eqb x (Ref v_X (N.of_nat k)) && Qsame w (nth k ws 0%Q) && peqb (norm mw) (combination v_X n ws)
        | _ => false
        end) &&
      all_forms (y2x_sh S) (y2x_locals S) t v_X (fun k e =>
        match e with
        | Div (Mul x (Div (Num c) mw)) (Num w) =>
            expr_eqb x (Ref v_Y (N.of_nat k)) && Qsame w (nth k ws 0%Q) && Qsame c 1.0 &&
            peqb (norm mw) (combination v_Y n (map Qinv ws))
        | _ => false
        end) &&
      all_forms (den_sh S) den_locals u v_ret (fun _ e =>
        match e with
        | Div (Mul q mw) r =>
            expr_eqb q (Ref v_pres 0) && expr_eqb r (Mul (Num 8.31446210e+03) (Ref v_temp 0)) &&
            peqb (norm mw) (combination v_X n ws)
        | _ => false
        end)
  | _, _, _ => false
  end.

(** Weight of species [k] in the conversions. *)
Definition wt (S : source) (k : nat) : R := Q2R (nth k (conv_weights S) 0%Q).

(** Mean weight of mole fractions [X] (without the last). *)
Definition mean_weight (S : source) (X : list R) : R :=
  Rsumn (s_NSP S) (fun k => wt S k * nth k (all_fractions X) 0)%R.

(** Reciprocal mean weight of mass fractions [Y]. *)
Definition mean_moles (S : source) (Y : list R) : R :=
  Rsumn (s_NSP S) (fun k => / wt S k * nth k (all_fractions Y) 0)%R.

Lemma combination_val M rho v n ws (x : list R) : length x = n - 1 -> 1 <= n ->
  (forall k, rho v (N.of_nat k) = nth k x 0%R) ->
  pval M rho (combination v n ws) = Rsumn n (fun k => Q2R (nth k ws 0%Q) * nth k (all_fractions x) 0)%R.
Proof.
  intros Lx Hn Hr. unfold combination, Rsumn.
  assert (B : forall k, In k (seq 0 n) -> k < n) by (intros k Hk; apply in_seq in Hk; lia).
  assert (VC : pval M rho (complement v n) = (1 - Rsum x)%R).
  { unfold complement. rewrite pval_cons. cbn [fst snd]. rewrite Q2R_1. unfold mval at 1. cbn [map Rprod].
    rewrite Rsum_nth, Lx. unfold pval, Rsumn. rewrite map_map.
    rewrite (Rsum_ext _ (fun k => -1 * nth k x 0)%R).
    - rewrite (Rsum_scal (-1) (fun k => nth k x 0)%R). ring.
    - intros k _. cbn [fst snd]. unfold mval. cbn [map Rprod]. rewrite Q2R_m1.
      change (rval M rho (Ref v (N.of_nat k))) with (rho v (N.of_nat k)). rewrite Hr. ring. }
  revert B. generalize (seq 0 n) as l. induction l as [|k l IH]; intros B; [reflexivity|].
  cbn [flat_map map Rsum]. rewrite pval_app, IH by (intros; apply B; right; assumption). f_equal.
  rewrite pscale_val. f_equal. specialize (B k (or_introl eq_refl)). unfold all_fractions.
  destruct (Nat.eqb_spec k (n - 1)) as [->|N].
  - rewrite VC, app_nth2 by lia. rewrite Lx, Nat.sub_diag. reflexivity.
  - rewrite app_nth1 by lia. unfold pval, mval. cbn [map Rsum Rprod fst snd]. rewrite Q2R_1.
    change (rval M rho (Ref v (N.of_nat k))) with (rho v (N.of_nat k)). rewrite Hr. ring.
Qed.

Lemma nth_Qinv ws k : Q2R (nth k (map Qinv ws) 0%Q) = (if Qeq_bool (nth k ws 0%Q) 0%Q then 0 else / Q2R (nth k ws 0%Q))%R.
Proof.
  change 0%Q with (Qinv 0) at 1. rewrite map_nth. destruct (Qeq_bool (nth k ws 0%Q) 0%Q) eqn:E.
  - apply Qeq_bool_eq in E. rewrite (Qeq_eqR (/ nth k ws 0%Q)%Q 0%Q); [apply Q2R_0|]. rewrite E. reflexivity.
  - apply Q2R_inv. apply Qeq_bool_neq. exact E.
Qed.

Lemma nth_eq_ext (a b : list R) : length a = length b -> (forall k, k < length a -> nth k a 0%R = nth k b 0%R) -> a = b.
Proof.
  revert b. induction a as [|x a IH]; intros [|y b] L H; try discriminate; [reflexivity|].
  f_equal; [exact (H 0 ltac:(cbn; lia))|]. apply IH; [cbn in L; lia|].
  intros k Hk. exact (H (S k) ltac:(cbn; lia)).
Qed.

Section Conversions.
  Variable M : libm RA.
  Variable S : source.
  Hypothesis H : conv_ok S = true.

  Lemma conv_parts : exists s t u,
    symbolic (x2y_sh S) (x2y_locals S) (s_mole2mass S) = Some s /\
    symbolic (y2x_sh S) (y2x_locals S) (s_mass2mole S) = Some t /\
    symbolic (den_sh S) den_locals (s_getDensity S) = Some u /\
    1 <= s_NSP S /\ (forall k, k < s_NSP S -> (0 < wt S k)%R) /\
    all_forms (x2y_sh S) (x2y_locals S) s v_Y (fun k e =>
        match e with
        | Div (Mul x (Num w)) mw =>
            expr_eqb x (Ref v_X (N.of_nat k)) && Qsame w (nth k (conv_weights S) 0%Q) &&
            peqb (norm mw) (combination v_X (s_NSP S) (conv_weights S))
        | _ => false
        end) = true /\
    all_forms (y2x_sh S) (y2x_locals S) t v_X (fun k e =>
        match e with
        | Div (Mul x (Div (Num c) mw)) (Num w) =>
            expr_eqb x (Ref v_Y (N.of_nat k)) && Qsame w (nth k (conv_weights S) 0%Q) && Qsame c 1.0 &&
            peqb (norm mw) (combination v_Y (s_NSP S) (map Qinv (conv_weights S)))
        | _ => false
        end) = true /\
    all_forms (den_sh S) den_locals u v_ret (fun _ e =>
        match e with
        | Div (Mul q mw) r =>
            expr_eqb q (Ref v_pres 0) && expr_eqb r (Mul (Num 8.31446210e+03) (Ref v_temp 0)) &&
            peqb (norm mw) (combination v_X (s_NSP S) (conv_weights S))
        | _ => false
        end) = true.
  Proof.
    pose proof H as G. unfold conv_ok in G. cbv zeta in G.
    destruct (symbolic (x2y_sh S) (x2y_locals S) (s_mole2mass S)) as [s|]; [|discriminate].
    destruct (symbolic (y2x_sh S) (y2x_locals S) (s_mass2mole S)) as [t|]; [|discriminate].
    destruct (symbolic (den_sh S) den_locals (s_getDensity S)) as [u|]; [|discriminate].
    apply andb_true_iff in G as [G G6]. apply andb_true_iff in G as [G G5]. apply andb_true_iff in G as [G G4].
    apply andb_true_iff in G as [G G3]. apply andb_true_iff in G as [G1 G2].
    apply Nat.leb_le in G1. apply Nat.eqb_eq in G2.
    exists s, t, u. repeat (split; [first [reflexivity|assumption|idtac]|]); try assumption.
    intros k Hk. apply all_positive_in; [exact G3|]. lia.
  Qed.

  Theorem mole2mass_spec (X : list R) : length X = s_NSP S - 1 ->
    exists Y : list R, lib_mole2mass (A := RA) M S X = Ok Y /\ length Y = s_NSP S - 1 /\
      forall k, k < s_NSP S - 1 -> nth k Y 0%R = (nth k X 0 * wt S k / mean_weight S X)%R.
  Proof.
    intros LX. destruct conv_parts as (s & _ & _ & E & _ & _ & Hn & _ & Hf & _).
    set (ins := [(v_X, X : list (num RA))]).
    assert (Hsh : shape ins = x2y_sh S) by (unfold x2y_sh; rewrite <- LX; reflexivity).
    unfold lib_mole2mass. fold ins. fold (x2y_locals S).
    rewrite (call_closed M _ ins (x2y_locals S) [v_Y] s).
    2: { rewrite Hsh. exact E. }
    2: { rewrite Hsh. intros v [<-|[]]; eapply all_forms_weaken; eassumption. }
    assert (En : N.to_nat (sizes (x2y_sh S ++ x2y_locals S) v_Y) = s_NSP S - 1) by (cbn; lia).
    rewrite Hsh. cbn [map]. rewrite En. cbn [bind only].
    eexists. split; [reflexivity|]. split; [rewrite map_length, seq_length; reflexivity|].
    intros k Hk. set (a := argument ins).
    assert (Aa : forall k, a v_X (N.of_nat k) = nth k X 0%R).
    { intros j. unfold a, argument. cbn [ins find fst snd var_eqb var_id Nat.eqb]. rewrite Nat2N.id.
      cbn [zero lit RA]. rewrite Q2R_0. reflexivity. }
    rewrite (nth_map_seq (fun i => val M a (formd (x2y_sh S) (x2y_locals S) s v_Y i))) by exact Hk.
    destruct (all_forms_in _ _ _ _ _ k Hf) as [_ P]; [rewrite En; exact Hk|].
    destruct (formd (x2y_sh S) (x2y_locals S) s v_Y k) as [| | | | | |e1 mw| | | | | |]; try discriminate.
    destruct e1 as [| | | | |x w| | | | | | |]; try discriminate. destruct w as [w| | | | | | | | | | | |]; try discriminate.
    apply andb_true_iff in P as [P P3]. apply andb_true_iff in P as [P1 P2].
    apply expr_eqb_eq in P1. apply Qsame_eq in P2. subst x w.
    apply (peqb_val M a) in P3. rewrite norm_val, (combination_val M a v_X _ _ X LX Hn Aa) in P3.
    change (a v_X (N.of_nat k) * wt S k / rval M a mw = nth k X 0 * wt S k / mean_weight S X)%R.
    rewrite P3, Aa. reflexivity.
  Qed.

  Theorem mass2mole_spec (Y : list R) : length Y = s_NSP S - 1 ->
    exists X : list R, lib_mass2mole (A := RA) M S Y = Ok X /\ length X = s_NSP S - 1 /\
      forall k, k < s_NSP S - 1 -> nth k X 0%R = (nth k Y 0 * (1 / mean_moles S Y) / wt S k)%R.
  Proof.
    intros LX. destruct conv_parts as (_ & s & _ & _ & E & _ & Hn & Hw & _ & Hf & _).
    set (ins := [(v_Y, Y : list (num RA))]).
    assert (Hsh : shape ins = y2x_sh S) by (unfold y2x_sh; rewrite <- LX; reflexivity).
    unfold lib_mass2mole. fold ins. fold (y2x_locals S).
    rewrite (call_closed M _ ins (y2x_locals S) [v_X] s).
    2: { rewrite Hsh. exact E. }
    2: { rewrite Hsh. intros v [<-|[]]; eapply all_forms_weaken; eassumption. }
    assert (En : N.to_nat (sizes (y2x_sh S ++ y2x_locals S) v_X) = s_NSP S - 1) by (cbn; lia).
    rewrite Hsh. cbn [map]. rewrite En. cbn [bind only].
    eexists. split; [reflexivity|]. split; [rewrite map_length, seq_length; reflexivity|].
    intros k Hk. set (a := argument ins).
    assert (Aa : forall k, a v_Y (N.of_nat k) = nth k Y 0%R).
    { intros j. unfold a, argument. cbn [ins find fst snd var_eqb var_id Nat.eqb]. rewrite Nat2N.id.
      cbn [zero lit RA]. rewrite Q2R_0. reflexivity. }
    rewrite (nth_map_seq (fun i => val M a (formd (y2x_sh S) (y2x_locals S) s v_X i))) by exact Hk.
    destruct (all_forms_in _ _ _ _ _ k Hf) as [_ P]; [rewrite En; exact Hk|].
    destruct (formd (y2x_sh S) (y2x_locals S) s v_X k) as [| | | | | |e1 w| | | | | |]; try discriminate.
    destruct e1 as [| | | | |x e2| | | | | | |]; try discriminate.
    destruct e2 as [| | | | | |c mw| | | | | |]; try discriminate. destruct c as [c| | | | | | | | | | | |]; try discriminate.
    destruct w as [w| | | | | | | | | | | |]; try discriminate.
    apply andb_true_iff in P as [P P4]. apply andb_true_iff in P as [P P3]. apply andb_true_iff in P as [P1 P2].
    apply expr_eqb_eq in P1. apply Qsame_eq in P2, P3. subst x w c.
    apply (peqb_val M a) in P4. rewrite norm_val, (combination_val M a v_Y _ _ Y LX Hn Aa) in P4.
    change (a v_Y (N.of_nat k) * (Q2R 1.0 / rval M a mw) / wt S k = nth k Y 0 * (1 / mean_moles S Y) / wt S k)%R.
    rewrite P4, Aa. replace (Q2R 1.0) with 1%R by (unfold Q2R; cbn; lra). do 3 f_equal.
    apply Rsumn_ext. intros j Hj. f_equal. rewrite nth_Qinv. specialize (Hw j Hj). unfold wt in *.
    destruct (Qeq_bool (nth j (conv_weights S) 0%Q) 0%Q) eqn:Z; [|reflexivity].
    apply Qeq_bool_eq, Qeq_eqR in Z. rewrite Z, Q2R_0 in Hw. lra.
  Qed.

  Theorem density_spec (T p : R) (X : list R) : length X = s_NSP S - 1 ->
    lib_getDensity (A := RA) M S T p X = Ok (p * mean_weight S X / (gas_constant * T))%R.
  Proof.
    intros LX. destruct conv_parts as (_ & _ & s & _ & _ & E & Hn & _ & _ & _ & Hf).
    set (ins := [(v_temp, [T] : list (num RA)); (v_pres, [p]); (v_X, X)]).
    assert (Hsh : shape ins = den_sh S) by (unfold den_sh; rewrite <- LX; reflexivity).
    unfold lib_getDensity. fold ins. fold den_locals.
    rewrite (call_closed M _ ins den_locals [v_ret] s).
    2: { rewrite Hsh. exact E. }
    2: { rewrite Hsh. intros v [<-|[]]; eapply all_forms_weaken; eassumption. }
    rewrite Hsh. replace (N.to_nat (sizes (den_sh S ++ den_locals) v_ret)) with 1 by reflexivity.
    cbn [map]. replace (N.to_nat (sizes (den_sh S ++ den_locals) v_ret)) with 1 by reflexivity.
    cbn [bind only seq map scalar]. f_equal.
    set (a := argument ins).
    assert (Aa : forall k, a v_X (N.of_nat k) = nth k X 0%R).
    { intros j. unfold a, argument. cbn [ins find fst snd var_eqb var_id Nat.eqb]. rewrite Nat2N.id.
      cbn [zero lit RA]. rewrite Q2R_0. reflexivity. }
    destruct (all_forms_in _ _ _ _ _ 0 Hf) as [_ P]; [cbn; lia|].
    destruct (formd (den_sh S) den_locals s v_ret 0) as [| | | | | |e1 r| | | | | |]; try discriminate.
    destruct e1 as [| | | | |q mw| | | | | | |]; try discriminate.
    apply andb_true_iff in P as [P P3]. apply andb_true_iff in P as [P1 P2].
    apply expr_eqb_eq in P1, P2. subst q r.
    apply (peqb_val M a) in P3. rewrite norm_val, (combination_val M a v_X _ _ X LX Hn Aa) in P3.
    change (p * rval M a mw / (gas_constant * T) = p * mean_weight S X / (gas_constant * T))%R.
    rewrite P3. reflexivity.
  Qed.

  Lemma nth_all_fractions (X : list R) k : length X = s_NSP S - 1 -> k < s_NSP S ->
    nth k (all_fractions X) 0%R = if k =? s_NSP S - 1 then (1 - Rsum X)%R else nth k X 0%R.
  Proof.
    intros L Hk. unfold all_fractions. destruct (Nat.eqb_spec k (s_NSP S - 1)) as [->|N].
    - rewrite app_nth2 by lia. rewrite L, Nat.sub_diag. reflexivity.
    - apply app_nth1. lia.
  Qed.

  (** Sum of all fractions but the last. *)
  Lemma Rsum_but_last (f : nat -> R) : 1 <= s_NSP S -> Rsumn (s_NSP S) f = (Rsumn (s_NSP S - 1) f + f (s_NSP S - 1)%nat)%R.
  Proof. intros Hn. replace (s_NSP S) with (Datatypes.S (s_NSP S - 1)) at 1 by lia. apply Rsumn_S. Qed.

  Lemma all_fractions_sum (X : list R) : length X = s_NSP S - 1 -> 1 <= s_NSP S ->
    Rsumn (s_NSP S) (fun k => nth k (all_fractions X) 0%R) = 1%R.
  Proof.
    intros L Hn. unfold all_fractions.
    replace (s_NSP S) with (length (X ++ [(1 - Rsum X)%R])) by (rewrite app_length; cbn; lia).
    rewrite <- Rsum_nth, Rsum_app. cbn. ring.
  Qed.

  Theorem mole_mass_mole (X : list R) : length X = s_NSP S - 1 -> mean_weight S X <> 0%R ->
    exists Y : list R, lib_mole2mass (A := RA) M S X = Ok Y /\ lib_mass2mole (A := RA) M S Y = Ok X.
  Proof.
    intros LX D. destruct conv_parts as (_ & _ & _ & _ & _ & _ & Hn & Hw & _).
    destruct (mole2mass_spec X LX) as (Y & EY & LY & GY). exists Y. split; [exact EY|].
    destruct (mass2mole_spec Y LY) as (X' & EX & LX' & GX). rewrite EX. f_equal.
    assert (AY : forall k, k < s_NSP S -> nth k (all_fractions Y) 0%R = (nth k (all_fractions X) 0 * wt S k / mean_weight S X)%R).
    { assert (B : forall k, k < s_NSP S - 1 -> nth k (all_fractions Y) 0%R =
        (nth k (all_fractions X) 0 * wt S k / mean_weight S X)%R).
      { intros k Hk. unfold all_fractions. rewrite !app_nth1 by lia. apply GY. exact Hk. }
      intros k Hk. destruct (Nat.eq_dec k (s_NSP S - 1)) as [->|N]; [|apply B; lia].
      pose proof (all_fractions_sum Y LY Hn) as SY. rewrite Rsum_but_last in SY by exact Hn.
      rewrite (Rsumn_ext _ _ _ B) in SY.
      assert (SX : (Rsumn (s_NSP S - 1)%nat (fun k => nth k (all_fractions X) 0 * wt S k / mean_weight S X) +
        nth (s_NSP S - 1)%nat (all_fractions X) 0 * wt S (s_NSP S - 1)%nat / mean_weight S X = 1)%R).
      { rewrite <- (Rsum_but_last (fun k => nth k (all_fractions X) 0 * wt S k / mean_weight S X)%R) by exact Hn.
        rewrite (Rsumn_ext _ _ (fun k => / mean_weight S X * (wt S k * nth k (all_fractions X) 0))%R)
          by (intros; unfold Rdiv; ring).
        unfold Rsumn. rewrite (Rsum_scal (/ mean_weight S X) (fun k => wt S k * nth k (all_fractions X) 0)%R).
        apply Rinv_l. exact D. }
      lra. }
    assert (MM : mean_moles S Y = (/ mean_weight S X)%R).
    { unfold mean_moles. rewrite (Rsumn_ext _ _ (fun k => / mean_weight S X * nth k (all_fractions X) 0)%R).
      - unfold Rsumn. rewrite (Rsum_scal (/ mean_weight S X) (fun k => nth k (all_fractions X) 0)%R).
        change (Rsum (map (fun k => nth k (all_fractions X) 0%R) (seq 0 (s_NSP S))))
          with (Rsumn (s_NSP S) (fun k => nth k (all_fractions X) 0%R)).
        rewrite (all_fractions_sum X LX Hn). ring.
      - intros k Hk. rewrite (AY k Hk). specialize (Hw k Hk). field. split; [exact D|lra]. }
    apply nth_eq_ext; [lia|]. intros k Hk. rewrite (GX k) by lia. rewrite (GY k) by lia. rewrite MM.
    specialize (Hw k ltac:(lia)). field. split; [exact D|lra].
  Qed.

  Theorem mass_mole_mass (Y : list R) : length Y = s_NSP S - 1 -> mean_moles S Y <> 0%R ->
    exists X : list R, lib_mass2mole (A := RA) M S Y = Ok X /\ lib_mole2mass (A := RA) M S X = Ok Y.
  Proof.
    intros LY D. destruct conv_parts as (_ & _ & _ & _ & _ & _ & Hn & Hw & _).
    destruct (mass2mole_spec Y LY) as (X & EX & LX & GX). exists X. split; [exact EX|].
    destruct (mole2mass_spec X LX) as (Y' & EY & LY' & GY). rewrite EY. f_equal.
    assert (AX : forall k, k < s_NSP S -> nth k (all_fractions X) 0%R = (nth k (all_fractions Y) 0 * (1 / mean_moles S Y) / wt S k)%R).
    { assert (B : forall k, k < s_NSP S - 1 -> nth k (all_fractions X) 0%R =
        (nth k (all_fractions Y) 0 * (1 / mean_moles S Y) / wt S k)%R).
      { intros k Hk. unfold all_fractions. rewrite !app_nth1 by lia. apply GX. exact Hk. }
      intros k Hk. destruct (Nat.eq_dec k (s_NSP S - 1)) as [->|N]; [|apply B; lia].
      pose proof (all_fractions_sum X LX Hn) as SX. rewrite Rsum_but_last in SX by exact Hn.
      rewrite (Rsumn_ext _ _ _ B) in SX.
      assert (SY : (Rsumn (s_NSP S - 1)%nat (fun k => nth k (all_fractions Y) 0 * (1 / mean_moles S Y) / wt S k) +
        nth (s_NSP S - 1)%nat (all_fractions Y) 0 * (1 / mean_moles S Y) / wt S (s_NSP S - 1)%nat = 1)%R).
      { rewrite <- (Rsum_but_last (fun k => nth k (all_fractions Y) 0 * (1 / mean_moles S Y) / wt S k)%R) by exact Hn.
        rewrite (Rsumn_ext _ _ (fun k => / mean_moles S Y * (/ wt S k * nth k (all_fractions Y) 0))%R)
          by (intros; unfold Rdiv; ring).
        unfold Rsumn. rewrite (Rsum_scal (/ mean_moles S Y) (fun k => / wt S k * nth k (all_fractions Y) 0)%R).
        apply Rinv_l. exact D. }
      lra. }
    assert (MM : mean_weight S X = (/ mean_moles S Y)%R).
    { unfold mean_weight. rewrite (Rsumn_ext _ _ (fun k => / mean_moles S Y * nth k (all_fractions Y) 0)%R).
      - unfold Rsumn. rewrite (Rsum_scal (/ mean_moles S Y) (fun k => nth k (all_fractions Y) 0)%R).
        change (Rsum (map (fun k => nth k (all_fractions Y) 0%R) (seq 0 (s_NSP S))))
          with (Rsumn (s_NSP S) (fun k => nth k (all_fractions Y) 0%R)).
        rewrite (all_fractions_sum Y LY Hn). ring.
      - intros k Hk. rewrite (AX k Hk). specialize (Hw k Hk). field. split; [exact D|lra]. }
    apply nth_eq_ext; [lia|]. intros k Hk. rewrite (GY k) by lia. rewrite (GX k) by lia. rewrite MM.
    specialize (Hw k ltac:(lia)). field. split; [exact D|lra].
  Qed.
End Conversions.

Lemma conv_all m : conv_ok (library m) = true.
Proof. destruct m; vm_compute; reflexivity. Qed.

Lemma conv_close m : close (1 / 10 ^ 15)%Q (conv_weights (library m)) (molWeight m) = true.
Proof. destruct m; vm_compute; reflexivity. Qed.
