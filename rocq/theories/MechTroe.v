(** [get_rxn_pres_mod]: the fall-off factors with the rate constants and Troe parameters of chem.cti. *)
From Coq Require Import List ZArith NArith QArith Qabs Qreals Reals Bool Lra Lia.
From Verif Require Import Outcome Arith MechLang MechSym MechSrc MechCall MechReal MechPoly MechChem Mechanisms
  MechSpec MechRate MechPmod MechThermo MechData MechExp MechLaurent MechNasa MechKin MechArr.
Import ListNotations.
Local Open Scope nat_scope.

(** ** What chem.cti says *)

(** Smallest argument of a logarithm: drm19/lib/src/rxn_rates_pres_mod.c:42-44 and the same in the others. *)
Definition tiny : Q := Eval vm_compute in 1.0e-300%Q.

(** Decimal logarithm, cut off below; same lines. *)
Definition log10c (x : R) : R := (ln (Rmax x (Q2R tiny)) / ln 10)%R.

(** Centre of a Troe fall-off function: [falloff=Troe(A, T3, T1, T2)] in chem.cti, e.g. drm19/chem.cti:460. *)
Definition f_cent (t : troe) (T : R) : R :=
  ((1 - Q2R (t_A t)) * exp (- T / Q2R (t_T3 t)) + Q2R (t_A t) * exp (- T / Q2R (t_T1 t)) +
   match t_T2 t with Some x => exp (- Q2R x / T) | None => 0 end)%R.

(** Broadening factor of a fall-off reaction at reduced pressure [pr]. *)
Definition broadening (t : option troe) (T pr : R) : R :=
  match t with
  | None => 1%R
  | Some t =>
      let lf := log10c (f_cent t T) in
      let lp := log10c pr in
      let a := (lp - 0.67 * lf - 0.4)%R in
      let b := (0.806 - 1.1762 * lf - 0.14 * lp)%R in
      Rpower 10 (lf / (1 + a * a / (b * b)))
  end.

(** ** Checks *)

(** exp(-T/q). *)
Definition decay_ok (q : Q) (e : expr) : bool :=
  match e with
  | Exp (Div (Neg x) (Num c)) => is_T x && Qeq_bool c q
  | _ => false
  end.

(** The centre. *)
Definition two_terms_ok (t : troe) (e : expr) : bool :=
  match e with
  | Add (Mul (Num b) x) (Mul (Num a) y) =>
      Qeq_bool b (1 - t_A t) && decay_ok (t_T3 t) x && Qeq_bool a (t_A t) && decay_ok (t_T1 t) y
  | _ => false
  end.

(** With a third term if there is one. *)
Definition fcent_ok (t : troe) (e : expr) : bool :=
  match t_T2 t with
  | None => two_terms_ok t e
  | Some q =>
      match e with
      | Add f (Exp (Div (Num c) x)) => two_terms_ok t f && is_T x && Qeq_bool c (- q)
      | _ => false
      end
  end.

(** A logarithm with cut-off. *)
Definition log_of (e : expr) : expr := Log10 (Fmax e (Num tiny)).

(** The exponent of ten, given centre and reduced pressure. *)
Definition exponent (fc pr : expr) : expr :=
  let lf := log_of fc in
  let lp := log_of pr in
  let a := Sub (Sub lp (Mul (Num 0.67) lf)) (Num 0.4) in
  let b := Sub (Sub (Num 0.806) (Mul (Num 1.1762) lf)) (Mul (Num 0.14) lp) in
  Div lf (Add (Num 1.0) (Div (Mul a a) (Mul b b))).

(** The centre of an exponent. *)
Definition centre (e : expr) : expr := match e with Div (Log10 (Fmax f _)) _ => f | _ => Num 0 end.

(** A fall-off factor. *)
Definition troe_ok (n : nat) (k : kinetics) (r : reaction) (e : expr) : bool :=
  match e with
  | Div a (Add (Num c) q) =>
      Qsame c 1.0 &&
      match q, k_low k with
      | Div (Mul k0 thd) kinf, Some low =>
          cfree k0 && cfree kinf && third_ok n r thd &&
          arr_ok low (molecules (rx_lhs r) + 1) k0 && arr_ok (k_high k) (molecules (rx_lhs r)) kinf
      | _, _ => false
      end &&
      match k_troe k, a with
      | Some t, Mul (Pow (Num b) y) q' =>
          Qsame b 10.0 && expr_eqb q q' && fcent_ok t (centre y) && expr_eqb y (exponent (centre y) q)
      | None, _ => expr_eqb q a
      | _, _ => false
      end
  | _ => false
  end.

(** All fall-off reactions. *)
Definition troe_all_ok (m : mechanism) : bool :=
  match symbolic (rate_sh (library m)) (pmod_locals (library m)) (s_get_rxn_pres_mod (library m)) with
  | None => false
  | Some s =>
      forallb (fun i =>
        match rx_kind (rxn (chem m) i) with
        | Falloff =>
            troe_ok (s_NSP (library m)) (kin m i) (rxn (chem m) i)
              (formd (rate_sh (library m)) (pmod_locals (library m)) s v_pres_mod (rank pdep (ch_reactions (chem m)) i))
        | _ => true
        end) (seq 0 (length (ch_reactions (chem m))))
  end.

Lemma troe_all m : troe_all_ok m = true.
Proof. destruct m; vm_compute; reflexivity. Qed.

(** ** Soundness *)

Lemma c_fmax_R (x y : R) : c_fmax RA x y = Rmax x y.
Proof.
  unfold c_fmax. cbn [nltb neqb RA]. unfold Rltb, Reqb, Rmax.
  destruct (Rlt_dec x y), (Rle_dec x y); try reflexivity; try lra.
  - destruct (Req_EM_T x x); lra.
  - destruct (Req_EM_T x x); [reflexivity|]. congruence.
Qed.

Lemma is_T_eq e : is_T e = true -> e = Ref v_T 0.
Proof. destruct e; try discriminate. destruct v; try discriminate. destruct i; [reflexivity|discriminate]. Qed.

Section Sound.
  Variables T p : R.
  Hypothesis HT : (0 < T)%R.
  Variable C : list R.
  Let rho := envC T p C.
  Let rv := rval exact_libm rho.

  Lemma decay_val q e : decay_ok q e = true -> rv e = exp (- T / Q2R q).
  Proof.
    unfold decay_ok. destruct e; try discriminate. destruct e; try discriminate.
    destruct e1; try discriminate. destruct e2; try discriminate. intros H.
    apply andb_true_iff in H as [H1 H2]. apply is_T_eq in H1. apply Qeq_bool_eq, Qeq_eqR in H2. subst e1.
    change (exp (Q2R (-1) * T / Q2R q0) = exp (- T / Q2R q)). rewrite H2, Q2R_m1. f_equal. f_equal. ring.
  Qed.

  Lemma two_terms_val t e : two_terms_ok t e = true ->
    rv e = ((1 - Q2R (t_A t)) * exp (- T / Q2R (t_T3 t)) + Q2R (t_A t) * exp (- T / Q2R (t_T1 t)))%R.
  Proof.
    unfold two_terms_ok. destruct e; try discriminate. destruct e1; try discriminate.
    destruct e1_1; try discriminate. destruct e2; try discriminate. destruct e2_1; try discriminate. intros H.
    apply andb_true_iff in H as [H H4]. apply andb_true_iff in H as [H H3]. apply andb_true_iff in H as [H1 H2].
    apply Qeq_bool_eq, Qeq_eqR in H1, H3. rewrite Q2R_minus, Q2R_1 in H1. apply decay_val in H2, H4.
    change (rv (Add (Mul (Num q) e1_2) (Mul (Num q0) e2_2))) with (Q2R q * rv e1_2 + Q2R q0 * rv e2_2)%R.
    rewrite H1, H2, H3, H4. reflexivity.
  Qed.

  Lemma fcent_val t e : fcent_ok t e = true -> rv e = f_cent t T.
  Proof.
    unfold fcent_ok, f_cent. destruct (t_T2 t) as [q|].
    - destruct e; try discriminate. destruct e2; try discriminate. destruct e2; try discriminate.
      destruct e2_1; try discriminate. intros H.
      apply andb_true_iff in H as [H H3]. apply andb_true_iff in H as [H1 H2].
      apply is_T_eq in H2. apply Qeq_bool_eq, Qeq_eqR in H3. rewrite Q2R_opp in H3. apply two_terms_val in H1. subst e2_2.
      change (rv e1 + exp (Q2R q0 / T) = (1 - Q2R (t_A t)) * exp (- T / Q2R (t_T3 t)) + Q2R (t_A t) * exp (- T / Q2R (t_T1 t)) +
        exp (- Q2R q / T))%R.
      rewrite H1, H3. reflexivity.
    - intros H. apply two_terms_val in H. rewrite H. ring.
  Qed.

  Lemma log_val e : rv (log_of e) = log10c (rv e).
  Proof.
    change (rv (log_of e)) with (ln (c_fmax RA (rv e) (Q2R tiny)) / ln 10)%R.
    rewrite c_fmax_R. reflexivity.
  Qed.

  Lemma exponent_val fc q : rv (exponent fc q) =
    (let lf := log10c (rv fc) in
     let lp := log10c (rv q) in
     let a := lp - 0.67 * lf - 0.4 in
     let b := 0.806 - 1.1762 * lf - 0.14 * lp in
     lf / (1 + a * a / (b * b)))%R.
  Proof.
    rewrite <- !log_val. cbv zeta.
    change (rv (exponent fc q)) with
      (rv (log_of fc) / (Q2R 1.0 +
        (rv (log_of q) - Q2R 0.67 * rv (log_of fc) - Q2R 0.4) * (rv (log_of q) - Q2R 0.67 * rv (log_of fc) - Q2R 0.4) /
        ((Q2R 0.806 - Q2R 1.1762 * rv (log_of fc) - Q2R 0.14 * rv (log_of q)) *
         (Q2R 0.806 - Q2R 1.1762 * rv (log_of fc) - Q2R 0.14 * rv (log_of q)))))%R.
    generalize (rv (log_of fc)) (rv (log_of q)). intros x y.
    replace (Q2R 1.0) with 1%R by (unfold Q2R; cbn; lra).
    replace (Q2R 0.67) with 0.67%R by (unfold Q2R; cbn; lra).
    replace (Q2R 0.4) with 0.4%R by (unfold Q2R; cbn; lra).
    replace (Q2R 0.806) with 0.806%R by (unfold Q2R; cbn; lra).
    replace (Q2R 1.1762) with 1.1762%R by (unfold Q2R; cbn; lra).
    replace (Q2R 0.14) with 0.14%R by (unfold Q2R; cbn; lra). reflexivity.
  Qed.

  (** Rate constants at low and high pressure in a fall-off factor. *)
  Definition low_high (e : expr) : R * R :=
    match e with
    | Div _ (Add _ (Div (Mul k0 _) kinf)) => (rval exact_libm (env0 T p) k0, rval exact_libm (env0 T p) kinf)
    | _ => (1, 1)%R
    end.

  Lemma low_high_close n k r e : troe_ok n k r e = true ->
    exists low, k_low k = Some low /\
    (0 < fst (low_high e) /\ 0 < snd (low_high e) /\
     Rabs (ln (fst (low_high e)) - ln (rate_arr low (molecules (rx_lhs r) + 1) T)) <= arr_err low T /\
     Rabs (ln (snd (low_high e)) - ln (rate_arr (k_high k) (molecules (rx_lhs r)) T)) <= arr_err (k_high k) T)%R.
  Proof.
    unfold troe_ok. destruct e; try discriminate. destruct e2; try discriminate. destruct e2_1; try discriminate.
    intros H. apply andb_true_iff in H as [H _]. apply andb_true_iff in H as [_ H].
    destruct e2_2; try discriminate. destruct e2_2_1; try discriminate. destruct (k_low k) as [low|]; [|discriminate].
    exists low. split; [reflexivity|]. cbn [low_high fst snd].
    apply andb_true_iff in H as [H H2]. apply andb_true_iff in H as [_ H1].
    destruct (arr_ok_val _ _ _ (env0 T p) H1 HT) as (_ & P1 & V1).
    destruct (arr_ok_val _ _ _ (env0 T p) H2 HT) as (_ & P2 & V2).
    repeat split; assumption.
  Qed.

  Lemma troe_val k r e : troe_ok (length C) k r e = true ->
    Rsumn (length C) (fun k => nth k C 0)%R = (p / (gas_constant * T))%R ->
    let pr := (fst (low_high e) * third_body r C / snd (low_high e))%R in
    rv e = (broadening (k_troe k) T pr * (pr / (1 + pr)))%R.
  Proof.
    unfold troe_ok. destruct e; try discriminate. destruct e2; try discriminate. destruct e2_1; try discriminate.
    intros H E. apply andb_true_iff in H as [H H3]. apply andb_true_iff in H as [H1 H2]. apply Qsame_eq in H1. subst q.
    destruct e2_2; try discriminate. destruct e2_2_1; try discriminate. destruct (k_low k) as [low|]; [|discriminate].
    do 2 apply andb_true_iff in H2 as [H2 _]. apply andb_true_iff in H2 as [H2 H4]. apply andb_true_iff in H2 as [H2 H5].
    cbn [low_high fst snd].
    assert (V : rv (Div (Mul e2_2_1_1 e2_2_1_2) e2_2_2) =
      (rval exact_libm (env0 T p) e2_2_1_1 * third_body r C / rval exact_libm (env0 T p) e2_2_2)%R).
    { rewrite <- (env_cfree exact_libm T p C e2_2_1_1 H2), <- (env_cfree exact_libm T p C e2_2_2 H5).
      rewrite <- (third_val exact_libm T p C r _ H4 E). reflexivity. }
    cbv zeta. set (pr := (_ * third_body r C / _)%R) in *. set (q := Div (Mul e2_2_1_1 e2_2_1_2) e2_2_2) in *.
    clearbody q pr. 
    change (rv (Div e1 (Add (Num 1.0) q))) with (rv e1 / (Q2R 1.0 + rv q))%R. rewrite V.
    replace (Q2R 1.0) with 1%R by (unfold Q2R; cbn; lra).
    destruct (k_troe k) as [t|].
    - destruct e1; try discriminate. destruct e1_1; try discriminate. destruct e1_1_1; try discriminate.
      apply andb_true_iff in H3 as [H3 H6]. apply andb_true_iff in H3 as [H3 H7]. apply andb_true_iff in H3 as [H3 H8].
      apply Qsame_eq in H3. subst q0. apply expr_eqb_eq in H8. apply expr_eqb_eq in H6. subst e1_2.
      apply fcent_val in H7. set (fc := centre e1_1_2) in *. clearbody fc. subst e1_1_2.
      change (rv (Mul (Pow (Num 10.0) (exponent fc q)) q)) with (Rpower (Q2R 10.0) (rv (exponent fc q)) * rv q)%R.
      rewrite exponent_val, V, H7. replace (Q2R 10.0) with 10%R by (unfold Q2R; cbn; lra).
      unfold broadening. unfold Rdiv. ring.
    - apply expr_eqb_eq in H3. subst e1. rewrite V. cbn [broadening]. ring.
  Qed.
End Sound.

Theorem falloff_factors m (T p : R) : (0 < T)%R -> (0 < p)%R -> exists k0 kinf : nat -> R,
  (forall i, i < length (ch_reactions (chem m)) -> rx_kind (rxn (chem m) i) = Falloff ->
     exists low, k_low (kin m i) = Some low /\ (0 < k0 i /\ 0 < kinf i)%R /\
     (Rabs (ln (k0 i) - ln (rate_arr low (molecules (rx_lhs (rxn (chem m) i)) + 1) T)) <= arr_err low T)%R /\
     (Rabs (ln (kinf i) - ln (rate_arr (k_high (kin m i)) (molecules (rx_lhs (rxn (chem m) i))) T)) <=
      arr_err (k_high (kin m i)) T)%R) /\
  forall C : list R, length C = s_NSP (library m) ->
  Rsumn (length C) (fun k => nth k C 0%R) = (p / (gas_constant * T))%R ->
  exists pm : list R, lib_get_rxn_pres_mod exact_libm (library m) T p C = Ok pm /\
  forall i, i < length (ch_reactions (chem m)) -> rx_kind (rxn (chem m) i) = Falloff ->
  forall pr, pr = (k0 i * third_body (rxn (chem m) i) C / kinf i)%R ->
  nth (rank pdep (ch_reactions (chem m)) i) pm 0%R = (broadening (k_troe (kin m i)) T pr * (pr / (1 + pr)))%R.
Proof.
  intros HT Hp. pose proof (troe_all m) as H. unfold troe_all_ok in H. pose proof (pmod_all m) as Q. unfold pmod_ok in Q.
  destruct (symbolic (rate_sh (library m)) (pmod_locals (library m)) (s_get_rxn_pres_mod (library m))) as [s|] eqn:E; [|discriminate].
  rewrite forallb_forall in H. apply andb_true_iff in Q as [L Q]. apply Nat.eqb_eq in L.
  set (S := library m) in *. set (ch := chem m) in *.
  set (f := fun i => formd (rate_sh S) (pmod_locals S) s v_pres_mod (rank pdep (ch_reactions ch) i)) in *.
  assert (K : forall i, i < length (ch_reactions ch) -> rx_kind (rxn ch i) = Falloff ->
    troe_ok (s_NSP S) (kin m i) (rxn ch i) (f i) = true).
  { intros i Hi F. specialize (H i ltac:(apply in_seq; lia)). cbv beta in H. rewrite F in H. exact H. }
  exists (fun i => fst (low_high T p (f i))), (fun i => snd (low_high T p (f i))). split.
  - intros i Hi F. destruct (low_high_close T p HT _ _ _ _ (K i Hi F)) as (low & E1 & P1 & P2 & B1 & B2).
    exists low. repeat split; assumption.
  - intros C LC EC.
    assert (Es : N.to_nat (sizes (rate_sh S ++ pmod_locals S) v_pres_mod) = s_pmod S) by (cbn; lia).
    set (ins := [(v_T, [T] : list (num RA)); (v_pres, [p]); (v_C, C)]).
    assert (Hsh : shape ins = rate_sh S) by (unfold rate_sh; rewrite <- LC; reflexivity).
    unfold lib_get_rxn_pres_mod. fold ins.
    rewrite (call_closed exact_libm _ ins (pmod_locals S) [v_pres_mod] s).
    2: { rewrite Hsh. exact E. }
    2: { rewrite Hsh. intros v [<-|[]]; eapply all_forms_weaken; eassumption. }
    rewrite Hsh. cbn [map]. rewrite Es. cbn [bind only]. eexists. split; [reflexivity|].
    intros i Hi F pr ->. specialize (K i Hi F).
    destruct (rank_nth pdep (mkRx Elementary [] [] false []) (ch_reactions ch) i Hi) as [_ B].
    { fold (rxn ch i). unfold pdep. rewrite F. reflexivity. }
    fold (selected pdep ch) in B. rewrite L in B.
    rewrite (nth_map_seq (fun i => val exact_libm (argument ins) (formd (rate_sh S) (pmod_locals S) s v_pres_mod i))) by exact B.
    rewrite <- LC in K. apply (troe_val T p C _ _ _ K EC).
Qed.
