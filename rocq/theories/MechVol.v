(** The functions for constant volume: [eval_conc_rho], [eval_u], [eval_cv]. *)
From Coq Require Import List ZArith NArith QArith Qabs Qreals Reals Bool Lra Lia.
From Verif Require Import Outcome Arith MechLang MechSym MechSrc MechCall MechReal MechPoly MechChem Mechanisms
  MechSpec MechRate MechPmod MechThermo MechConc MechExp MechLaurent MechData MechNasa MechCp
  MechDefined MechFacts Drm19Vol Gri30Vol YaoVol.
Import ListNotations.
Local Open Scope nat_scope.

(** [eval_conc_rho], chem_utils.c of a mechanism. *)
Definition eval_conc_rho (m : mechanism) : list stmt :=
  match m with drm19 => drm19_eval_conc_rho | gri30 => gri30_eval_conc_rho | yao => yao_eval_conc_rho end.

(** [eval_u], chem_utils.c of a mechanism. *)
Definition eval_u (m : mechanism) : list stmt :=
  match m with drm19 => drm19_eval_u | gri30 => gri30_eval_u | yao => yao_eval_u end.

(** [eval_cv], chem_utils.c of a mechanism. *)
Definition eval_cv (m : mechanism) : list stmt :=
  match m with drm19 => drm19_eval_cv | gri30 => gri30_eval_cv | yao => yao_eval_cv end.

(** Output arguments of [eval_conc_rho], drm19 chem_utils.c:55, gri30 and yao likewise. *)
Definition rho_locals (m : mechanism) : list (var * nat) :=
  [(v_y_N, 1); (v_mw_avg, 1); (v_pres, 1); (v_conc, s_NSP (library m))].

Section Lib.
  Context {A : Arith}.
  Variable M : libm A.
  Variable m : mechanism.

  (** [eval_conc_rho (T, rho, y, &y_N, &mw_avg, &pres, conc)], chem_utils.c: [y_N], [mw_avg], [pres]
      and [conc]. *)
  Definition lib_eval_conc_rho (T rho : num A) (y : list (num A)) : outcome (num A * num A * num A * list (num A)) :=
    let* l := call M (eval_conc_rho m) [(v_T, [T]); (v_rho, [rho]); (v_y, y)] (rho_locals m)
                [v_y_N; v_mw_avg; v_pres; v_conc] in
    match l with
    | [[yN]; [mw]; [pres]; conc] => Ok (yN, mw, pres, conc)
    | _ => UB
    end.

  (** [eval_u (T, u)], chem_utils.c. *)
  Definition lib_eval_u (T : num A) : outcome (list (num A)) :=
    let* l := call M (eval_u m) [(v_T, [T])] [(v_u, s_NSP (library m))] [v_u] in only l.

  (** [eval_cv (T, cv)], chem_utils.c. *)
  Definition lib_eval_cv (T : num A) : outcome (list (num A)) :=
    let* l := call M (eval_cv m) [(v_T, [T])] [(v_cv, s_NSP (library m))] [v_cv] in only l.
End Lib.

(** ** Concentrations from the density *)

(** The only references are to mass fractions. *)
Fixpoint only_y (e : expr) : bool :=
  match e with
  | Num _ => true
  | Ref v _ => var_eqb v v_y
  | Neg a | Exp a | Log a | Log10 a => only_y a
  | Add a b | Sub a b | Mul a b | Div a b | Pow a b | Fmax a b => only_y a && only_y b
  | Ite a b t f => only_y a && only_y b && only_y t && only_y f
  end.

Lemma only_y_val {A : Arith} (M : libm A) (a b : var -> N -> num A) e : only_y e = true ->
  (forall i, a v_y i = b v_y i) -> val M a e = val M b e.
Proof.
  intros H G. induction e; cbn in *; repeat (apply andb_true_iff in H as [H ?]);
    rewrite ?IHe, ?IHe1, ?IHe2, ?IHe3, ?IHe4 by assumption; try reflexivity.
  destruct (var_eqb_spec v v_y) as [->|]; [apply G|discriminate].
Qed.

(** Shape of the arguments of [eval_conc_rho]. *)
Definition rho_sh (m : mechanism) : list (var * nat) := [(v_T, 1); (v_rho, 1); (v_y, s_NSP (library m) - 1)].

(** The closed forms of [eval_conc_rho] are those of [eval_conc], the density being given. *)
Definition rho_ok (m : mechanism) : bool :=
  let S := library m in
  match conc_run S, symbolic (rho_sh m) (rho_locals m) (eval_conc_rho m) with
  | Some s, Some s' =>
      let yN := formd (conc_sh S) (conc_locals S) s v_y_N 0 in
      let mw := formd (conc_sh S) (conc_locals S) s v_mw_avg 0 in
      let rho := formd (conc_sh S) (conc_locals S) s v_rho 0 in
      let ws := inverse_weights S in
      (1 <=? s_NSP S) && only_y yN && only_y mw &&
      forallb (fun v => all_forms (conc_sh S) (conc_locals S) s v (fun _ _ => true)) [v_y_N; v_mw_avg; v_rho] &&
      all_forms (conc_sh S) (conc_locals S) s v_conc (fun k e =>
        expr_eqb e (Mul (Mul rho (y_form (s_NSP S) yN k)) (Num (nth k ws 0%Q)))) &&
      all_forms (rho_sh m) (rho_locals m) s' v_y_N (fun _ e => expr_eqb e yN) &&
      all_forms (rho_sh m) (rho_locals m) s' v_mw_avg (fun _ e => expr_eqb e mw) &&
      all_forms (rho_sh m) (rho_locals m) s' v_pres (fun _ e =>
        expr_eqb e (Div (Mul (Mul (Ref v_rho 0) (Num 8.31446210e+03)) (Ref v_T 0)) mw)) &&
      all_forms (rho_sh m) (rho_locals m) s' v_conc (fun k e =>
        expr_eqb e (Mul (Mul (Ref v_rho 0) (y_form (s_NSP S) yN k)) (Num (nth k ws 0%Q))))
  | _, _ => false
  end.

Lemma rho_all m : rho_ok m = true.
Proof. destruct m; vm_compute; reflexivity. Qed.

Theorem density_state {A : Arith} (M : libm A) m (T p r : num A) (y : list (num A)) :
  length y = s_NSP (library m) - 1 ->
  exists (yN mw rho : num A) (conc conc' : list (num A)),
    lib_eval_conc M (library m) T p y = Ok (yN, mw, rho, conc) /\
    lib_eval_conc_rho M m T r y = Ok (yN, mw, ndiv A (nmul A (nmul A r (lit A 8.31446210e+03)) T) mw, conc') /\
    length conc = s_NSP (library m) /\ length conc' = s_NSP (library m) /\
    (r = rho -> conc' = conc).
Proof.
  intros Ly. pose proof (rho_all m) as H. unfold rho_ok in H. set (S := library m) in *.
  destruct (conc_run S) as [s|] eqn:E; [|discriminate].
  destruct (symbolic (rho_sh m) (rho_locals m) (eval_conc_rho m)) as [s'|] eqn:E'; [|discriminate].
  set (ws := inverse_weights S) in *.
  set (yN := formd (conc_sh S) (conc_locals S) s v_y_N 0) in *.
  set (mw := formd (conc_sh S) (conc_locals S) s v_mw_avg 0) in *.
  set (rho := formd (conc_sh S) (conc_locals S) s v_rho 0) in *.
  cbv zeta in H.
  apply andb_true_iff in H as [H Kc']. apply andb_true_iff in H as [H Kp']. apply andb_true_iff in H as [H Km'].
  apply andb_true_iff in H as [H Ky']. apply andb_true_iff in H as [H Kc]. apply andb_true_iff in H as [H K].
  apply andb_true_iff in H as [H Om]. apply andb_true_iff in H as [H1 Oy]. apply Nat.leb_le in H1.
  rewrite forallb_forall in K.
  set (ins := [(v_T, [T]); (v_pres, [p]); (v_y, y)]). set (ins' := [(v_T, [T]); (v_rho, [r]); (v_y, y)]).
  assert (Hsh : shape ins = conc_sh S) by (unfold conc_sh; rewrite <- Ly; reflexivity).
  assert (Hsh' : shape ins' = rho_sh m) by (unfold rho_sh; fold S; rewrite <- Ly; reflexivity).
  assert (Ec : N.to_nat (sizes (conc_sh S ++ conc_locals S) v_conc) = s_NSP S) by (cbn; lia).
  assert (Ec' : N.to_nat (sizes (rho_sh m ++ rho_locals m) v_conc) = s_NSP S) by (cbn; fold S; lia).
  set (a := argument ins). set (b := argument ins').
  assert (Vy : forall i, b v_y i = a v_y i) by reflexivity.
  assert (VN : val M b yN = val M a yN) by (apply only_y_val; assumption).
  assert (VM : val M b mw = val M a mw) by (apply only_y_val; assumption).
  assert (VF : forall k, val M b (y_form (s_NSP S) yN k) = val M a (y_form (s_NSP S) yN k)).
  { intros k. unfold y_form. destruct (k =? s_NSP S - 1); [exact VN|reflexivity]. }
  exists (val M a yN), (val M a mw), (val M a rho),
    (map (fun i => val M a (formd (conc_sh S) (conc_locals S) s v_conc i)) (seq 0 (s_NSP S))),
    (map (fun i => val M b (formd (rho_sh m) (rho_locals m) s' v_conc i)) (seq 0 (s_NSP S))).
  split; [|split; [|split; [|split]]].
  - unfold lib_eval_conc. fold ins.
    rewrite (call_closed M _ ins (conc_locals S) [v_y_N; v_mw_avg; v_rho; v_conc] s).
    2: { rewrite Hsh. exact E. }
    2: { rewrite Hsh. intros v [<-|[<-|[<-|[<-|[]]]]]; try (apply K; cbn; auto; fail).
         eapply all_forms_weaken; eassumption. }
    rewrite Hsh. cbn [map]. rewrite Ec.
    replace (N.to_nat (sizes (conc_sh S ++ conc_locals S) v_y_N)) with 1 by reflexivity.
    replace (N.to_nat (sizes (conc_sh S ++ conc_locals S) v_mw_avg)) with 1 by reflexivity.
    replace (N.to_nat (sizes (conc_sh S ++ conc_locals S) v_rho)) with 1 by reflexivity.
    reflexivity.
  - unfold lib_eval_conc_rho. fold ins'.
    rewrite (call_closed M _ ins' (rho_locals m) [v_y_N; v_mw_avg; v_pres; v_conc] s').
    2: { rewrite Hsh'. exact E'. }
    2: { rewrite Hsh'. intros v [<-|[<-|[<-|[<-|[]]]]]; eapply all_forms_weaken; eassumption. }
    rewrite Hsh'. cbn [map]. rewrite Ec'.
    replace (N.to_nat (sizes (rho_sh m ++ rho_locals m) v_y_N)) with 1 by reflexivity.
    replace (N.to_nat (sizes (rho_sh m ++ rho_locals m) v_mw_avg)) with 1 by reflexivity.
    replace (N.to_nat (sizes (rho_sh m ++ rho_locals m) v_pres)) with 1 by reflexivity.
    change (seq 0 1) with [0]. cbn [map bind]. fold b.
    destruct (all_forms_in _ _ _ _ _ 0 Ky') as [_ P1]; [cbn; lia|]. apply expr_eqb_eq in P1.
    destruct (all_forms_in _ _ _ _ _ 0 Km') as [_ P2]; [cbn; lia|]. apply expr_eqb_eq in P2.
    destruct (all_forms_in _ _ _ _ _ 0 Kp') as [_ P3]; [cbn; lia|]. apply expr_eqb_eq in P3.
    rewrite P1, P2, P3. cbn [val]. rewrite VN, VM. reflexivity.
  - rewrite map_length, seq_length. reflexivity.
  - rewrite map_length, seq_length. reflexivity.
  - intros Er. apply map_ext_in. intros k Hk. apply in_seq in Hk.
    destruct (all_forms_in _ _ _ _ _ k Kc) as [_ P]; [rewrite Ec; lia|]. apply expr_eqb_eq in P.
    destruct (all_forms_in _ _ _ _ _ k Kc') as [_ P']; [rewrite Ec'; lia|]. apply expr_eqb_eq in P'.
    rewrite P, P'. cbn [val]. rewrite VF. change (b v_rho 0%N) with r. rewrite Er. reflexivity.
Qed.

(** From the pressure to the density and back. *)
Theorem pressure_density M m (T p : R) (y : list R) : length y = s_NSP (library m) - 1 ->
  T <> 0%R -> specific_moles (library m) y <> 0%R ->
  exists (yN mw rho : R) (conc : list R),
    lib_eval_conc (A := RA) M (library m) T p y = Ok (yN, mw, rho, conc) /\
    lib_eval_conc_rho (A := RA) M m T rho y = Ok (yN, mw, p, conc).
Proof.
  intros Ly HT HD.
  destruct (concentrations M (library m) T p y (conc_all m) Ly) as (conc & E & _).
  destruct (density_state (A := RA) M m T p (p * (1 / specific_moles (library m) y) / (gas_constant * T))%R y Ly)
    as (yN & mw & rho & c & c' & E1 & E2 & _ & _ & X).
  rewrite E in E1. injection E1 as <- <- <- <-. rewrite (X eq_refl) in E2.
  do 4 eexists. split; [exact E|]. rewrite E2. do 2 f_equal.
  change (lit RA 8.31446210e+03) with gas_constant. cbn [ndiv nmul RA].
  assert (G : gas_constant <> 0%R) by (apply Rgt_not_eq, Q2R_pos; reflexivity).
  f_equal. field. repeat split; assumption.
Qed.

(** From the density to the pressure and back. *)
Theorem density_pressure M m (T r : R) (y : list R) : length y = s_NSP (library m) - 1 ->
  T <> 0%R -> specific_moles (library m) y <> 0%R ->
  exists (yN mw p : R) (conc : list R),
    lib_eval_conc_rho (A := RA) M m T r y = Ok (yN, mw, p, conc) /\
    lib_eval_conc (A := RA) M (library m) T p y = Ok (yN, mw, r, conc).
Proof.
  intros Ly HT HD.
  set (p := (r * gas_constant * T / (1 / specific_moles (library m) y))%R).
  destruct (concentrations M (library m) T p y (conc_all m) Ly) as (conc & E & _).
  assert (G : gas_constant <> 0%R) by (apply Rgt_not_eq, Q2R_pos; reflexivity).
  replace (p * (1 / specific_moles (library m) y) / (gas_constant * T))%R with r in E.
  2: { unfold p. field. repeat split; assumption. }
  destruct (density_state (A := RA) M m T p r y Ly) as (yN & mw & rho & c & c' & E1 & E2 & _ & _ & X).
  rewrite E in E1. injection E1 as <- <- <- <-. rewrite (X eq_refl) in E2.
  do 4 eexists. split; [exact E2|]. exact E.
Qed.

(** ** Heat capacity and energy at constant volume *)

(** A sum, and the same sum with 1 taken from its first term. *)
Definition one_less (e e' : expr) : bool :=
  match e, e' with
  | Add (Num a) r, Add (Sub (Num a') (Num o)) r' => Qsame a a' && Qsame o 1.0 && expr_eqb r r'
  | _, _ => false
  end.

(** Common factor of the closed forms of a heat capacity (or an enthalpy, if [en]) at constant pressure
    and at constant volume that differ by that factor (times the temperature). *)
Fixpoint common (en : bool) (e e' : expr) : option Q :=
  match e, e' with
  | Ite a b t f, Ite a' b' t' f' =>
      if expr_eqb a a' && expr_eqb b b' then
        match common en t t', common en f f' with
        | Some c, Some d => if Qsame c d then Some c else None
        | _, _ => None
        end
      else None
  | Mul (Num c) p, Mul (Num c') p' =>
      if Qsame c c' then
        if en then
          match p, p' with
          | Add (Num b) (Mul (Ref v i) q), Add (Num b') (Mul (Ref v' i') q') =>
              if Qsame b b' && var_eqb v v_T && N.eqb i 0 && var_eqb v' v_T && N.eqb i' 0 && one_less q q'
              then Some c else None
          | _, _ => None
          end
        else if one_less p p' then Some c else None
      else None
  | _, _ => None
  end.

Lemma one_less_val M a e e' : one_less e e' = true -> rval M a e' = (rval M a e - 1)%R.
Proof.
  unfold one_less. intros H. destruct e as [| | |x r| | | | | | | | |]; try discriminate.
  destruct x; try discriminate. destruct e' as [| | |x' r'| | | | | | | | |]; try discriminate.
  destruct x' as [| | | |y z| | | | | | | |]; try discriminate. destruct y; try discriminate. destruct z; try discriminate.
  apply andb_true_iff in H as [H H3]. apply andb_true_iff in H as [H1 H2].
  apply Qsame_eq in H1, H2. apply expr_eqb_eq in H3. subst. unfold rval. cbn [val].
  change (lit RA 1.0) with (Q2R 1.0). replace (Q2R 1.0) with 1%R by (unfold Q2R; cbn; lra). cbn [nadd nsub RA]. ring.
Qed.

Lemma common_val en M a e : forall e' c, common en e e' = Some c ->
  rval M a e' = (rval M a e - Q2R c * (if en then a v_T 0%N else 1))%R.
Proof.
  induction e; intros e' c H; destruct e'; cbn [common] in H; try discriminate;
    try (destruct e1; discriminate).
  - destruct e1; try discriminate. destruct e'1; try discriminate.
    destruct (Qsame q q0) eqn:Q1; [|discriminate]. apply Qsame_eq in Q1. subst q0. destruct en.
    + destruct e2 as [| | |x r| | | | | | | | |]; try discriminate. destruct x; try discriminate.
      destruct r as [| | | | |x r| | | | | | |]; try discriminate. destruct x; try discriminate.
      destruct e'2 as [| | |x' r'| | | | | | | | |]; try discriminate. destruct x'; try discriminate.
      destruct r' as [| | | | |x' r'| | | | | | |]; try discriminate. destruct x'; try discriminate.
      destruct (Qsame q0 q1 && _ && _ && _ && _ && _) eqn:Q2; [|discriminate]. injection H as <-.
      apply andb_true_iff in Q2 as [Q2 K]. apply andb_true_iff in Q2 as [Q2 I']. apply andb_true_iff in Q2 as [Q2 V'].
      apply andb_true_iff in Q2 as [Q2 I]. apply andb_true_iff in Q2 as [Q2 V].
      apply Qsame_eq in Q2. apply N.eqb_eq in I, I'.
      destruct (var_eqb_spec v v_T) as [->|]; [|discriminate]. destruct (var_eqb_spec v0 v_T) as [->|]; [|discriminate].
      subst. apply (one_less_val M a) in K. unfold rval in *. cbn [val]. rewrite K. cbn [nadd nmul lit RA]. ring.
    + destruct (one_less e2 e'2) eqn:K; [|discriminate]. injection H as <-.
      apply (one_less_val M a) in K. unfold rval in *. cbn [val]. rewrite K. cbn [nadd nmul lit RA]. ring.
  - destruct (expr_eqb e1 e'1 && expr_eqb e2 e'2) eqn:Q1; [|discriminate].
    apply andb_true_iff in Q1 as [Q1 Q2]. apply expr_eqb_eq in Q1, Q2. subst.
    destruct (common en e3 e'3) as [c1|] eqn:C1; [|discriminate].
    destruct (common en e4 e'4) as [c2|] eqn:C2; [|discriminate].
    destruct (Qsame c1 c2) eqn:Q3; [|discriminate]. apply Qsame_eq in Q3. subst c2. injection H as <-.
    specialize (IHe3 _ _ C1). specialize (IHe4 _ _ C2). unfold rval in *. cbn [val].
    destruct (nleb RA _ _); assumption.
Qed.

(** Closed form of an element of an array after a call with the temperature as argument. *)
Definition form_of (m : mechanism) (v : var) (s : smem) (k : nat) : expr :=
  formd [(v_T, 1)] [(v, s_NSP (library m))] s v k.

(** Heat capacities and enthalpies with their counterparts at constant volume. *)
Definition volume_ok (m : mechanism) : bool :=
  let S := library m in
  let go v body := symbolic [(v_T, 1)] [(v, s_NSP S)] body in
  match go v_cp (s_eval_cp S), go v_cv (eval_cv m), go v_h (s_eval_h S), go v_u (eval_u m) with
  | Some scp, Some scv, Some sh, Some su =>
      let full v s := all_forms [(v_T, 1)] [(v, s_NSP S)] s v (fun _ _ => true) in
      full v_cp scp && full v_cv scv && full v_h sh && full v_u su &&
      forallb (fun k =>
        match common false (form_of m v_cp scp k) (form_of m v_cv scv k),
              common true (form_of m v_h sh k) (form_of m v_u su k) with
        | Some c, Some d =>
            let r := (Ru / nth k (molWeight m) 0)%Q in
            Qsame c d && Qle_bool (Qabs (c - r)) (tol1 * r) && (0 <? Qnum (nth k (molWeight m) 0%Q))%Z
        | _, _ => false
        end) (seq 0 (s_NSP S))
  | _, _, _, _ => false
  end.

Lemma volume_all m : volume_ok m = true.
Proof. destruct m; vm_compute; reflexivity. Qed.

Lemma call_array (M : libm RA) body v n s (T : R) : v <> v_T ->
  symbolic [(v_T, 1)] [(v, n)] body = Some s ->
  all_forms [(v_T, 1)] [(v, n)] s v (fun _ _ => true) = true ->
  (let* l := call (A := RA) M body [(v_T, [T])] [(v, n)] [v] in only l) =
  Ok (map (fun i => rval M (argument [(v_T, [T] : list (num RA))]) (formd [(v_T, 1)] [(v, n)] s v i)) (seq 0 n)).
Proof.
  intros Hv E W. set (ins := [(v_T, [T] : list (num RA))]).
  assert (V : var_eqb v_T v = false) by (destruct (var_eqb_spec v_T v); congruence).
  assert (Es : N.to_nat (sizes ([(v_T, 1)] ++ [(v, n)]) v) = n).
  { unfold sizes. cbn [app find fst snd]. rewrite V, var_eqb_refl. cbn [snd]. lia. }
  change [(v_T, 1)] with (shape ins) in E, W.
  rewrite (call_closed M _ ins _ [v] s).
  2: exact E.
  2: { intros w [<-|[]]. exact W. }
  cbn [map bind only]. change (shape ins ++ [(v, n)]) with ([(v_T, 1)] ++ [(v, n)]). rewrite Es. reflexivity.
Qed.

Theorem constant_volume m : exists r : nat -> R,
  (forall k, k < s_NSP (library m) -> (0 < species_W m k)%R /\
     (Rabs (r k - gas_constant / species_W m k) <= Q2R tol1 * (gas_constant / species_W m k))%R) /\
  forall (M : libm RA) (T : R), exists cp cv h u : list R,
    lib_eval_cp M (library m) T = Ok cp /\ lib_eval_cv M m T = Ok cv /\
    lib_eval_h M (library m) T = Ok h /\ lib_eval_u M m T = Ok u /\
    length cv = s_NSP (library m) /\ length u = s_NSP (library m) /\
    forall k, k < s_NSP (library m) ->
      nth k cv 0%R = (nth k cp 0 - r k)%R /\ nth k u 0%R = (nth k h 0 - r k * T)%R.
Proof.
  pose proof (volume_all m) as H. unfold volume_ok in H. set (S := library m) in *. cbv zeta in H.
  destruct (symbolic [(v_T, 1)] [(v_cp, s_NSP S)] (s_eval_cp S)) as [scp|] eqn:E1; [|discriminate].
  destruct (symbolic [(v_T, 1)] [(v_cv, s_NSP S)] (eval_cv m)) as [scv|] eqn:E2; [|discriminate].
  destruct (symbolic [(v_T, 1)] [(v_h, s_NSP S)] (s_eval_h S)) as [sh|] eqn:E3; [|discriminate].
  destruct (symbolic [(v_T, 1)] [(v_u, s_NSP S)] (eval_u m)) as [su|] eqn:E4; [|discriminate].
  apply andb_true_iff in H as [H K]. apply andb_true_iff in H as [H F4]. apply andb_true_iff in H as [H F3].
  apply andb_true_iff in H as [F1 F2]. rewrite forallb_forall in K.
  exists (fun k => match common false (form_of m v_cp scp k) (form_of m v_cv scv k) with
                   | Some c => Q2R c | None => 0%R end).
  split.
  - intros k Hk. specialize (K k ltac:(apply in_seq; lia)).
    destruct (common false _ _) as [c|]; [|discriminate]. destruct (common true _ _) as [d|]; [|discriminate].
    apply andb_true_iff in K as [K Wk]. apply andb_true_iff in K as [_ K].
    apply Q2R_pos in Wk. change (Q2R (nth k (molWeight m) 0%Q)) with (species_W m k) in Wk.
    split; [exact Wk|]. apply Qle_bool_iff, Qle_Rle in K. rewrite Q2R_abs, Q2R_minus, Q2R_mult in K.
    assert (C : Q2R (Ru / nth k (molWeight m) 0%Q) = (gas_constant / species_W m k)%R).
    { unfold Qdiv. rewrite Q2R_mult, Q2R_inv; [reflexivity|]. intros Z. apply Qeq_eqR in Z.
      unfold species_W in Wk. rewrite Z, Q2R_0 in Wk. lra. }
    rewrite C in K. exact K.
  - intros M T. set (a := argument [(v_T, [T] : list (num RA))]).
    exists (map (fun i => rval M a (form_of m v_cp scp i)) (seq 0 (s_NSP S))),
           (map (fun i => rval M a (form_of m v_cv scv i)) (seq 0 (s_NSP S))),
           (map (fun i => rval M a (form_of m v_h sh i)) (seq 0 (s_NSP S))),
           (map (fun i => rval M a (form_of m v_u su i)) (seq 0 (s_NSP S))).
    split; [exact (call_array M _ v_cp _ scp T ltac:(discriminate) E1 F1)|].
    split; [exact (call_array M _ v_cv _ scv T ltac:(discriminate) E2 F2)|].
    split; [exact (call_array M _ v_h _ sh T ltac:(discriminate) E3 F3)|].
    split; [exact (call_array M _ v_u _ su T ltac:(discriminate) E4 F4)|].
    split; [rewrite map_length, seq_length; reflexivity|]. split; [rewrite map_length, seq_length; reflexivity|].
    intros k Hk. specialize (K k ltac:(apply in_seq; lia)).
    rewrite !(nth_map_seq (fun i => rval M a _)) by exact Hk.
    destruct (common false _ _) as [c|] eqn:C1; [|discriminate]. destruct (common true _ _) as [d|] eqn:C2; [|discriminate].
    apply andb_true_iff in K as [K _]. apply andb_true_iff in K as [K _]. apply Qsame_eq in K. subst d.
    rewrite (common_val _ M a _ _ _ C1), (common_val _ M a _ _ _ C2). split; [ring|].
    change (a v_T 0%N) with T. reflexivity.
Qed.

(** Heat capacities at constant volume are positive. *)
Theorem cv_positive m (M : libm RA) (T : R) : (200 <= T <= 5000)%R -> exists cv : list R,
  lib_eval_cv M m T = Ok cv /\ length cv = s_NSP (library m) /\
  forall k, k < s_NSP (library m) -> (0 < species_W m k /\ 1.39 * gas_constant / species_W m k <= nth k cv 0)%R.
Proof.
  intros HT. destruct (constant_volume m) as (r & Hr & V). destruct (V M T) as (cp & cv & h & u & E1 & E2 & _ & _ & L & _ & G).
  destruct (cp_positive m M T HT) as (cp' & E1' & _ & P). rewrite E1 in E1'. injection E1' as <-.
  exists cv. split; [exact E2|]. split; [exact L|]. intros k Hk. destruct (P k Hk) as [Wk B]. split; [exact Wk|].
  destruct (Hr k Hk) as [_ A]. destruct (G k Hk) as [-> _].
  pose proof (ratio_pos m k Wk) as Pc. set (c := (gas_constant / species_W m k)%R) in *.
  replace (2.4 * gas_constant / species_W m k)%R with (2.4 * c)%R in B by (unfold c; field; lra).
  replace (1.39 * gas_constant / species_W m k)%R with (1.39 * c)%R by (unfold c; field; lra).
  pose proof (Rle_abs (r k - c)). assert (B1 : (Q2R tol1 <= Q2R 0.01)%R) by (apply Qle_Rle, Qle_bool_imp_le; vm_compute; reflexivity).
  apply (Rmult_le_compat_r c) in B1; [|lra]. lra.
Qed.

(** The derivative of the internal energy is the heat capacity at constant volume. *)
Theorem u_slope m (M : libm RA) (T : R) k : (0 < T)%R -> k < s_NSP (library m) ->
  T <> Q2R (n_mid (species_nasa m k)) ->
  exists d, derivable_pt_lim (element (lib_eval_u M m) k) T d /\
    (Rabs (d - gas_constant / species_W m k * (cp_R (nasa_at (species_nasa m k) T) T - 1)) <=
     Q2R tol * (gas_constant / species_W m k * (cp_R (nasa_abs (species_nasa m k) T) T + 1)))%R.
Proof.
  intros HT Hk HN. destruct (h_slope m M T k HT Hk HN) as (d & D & B).
  destruct (constant_volume m) as (r & Hr & V). destruct (Hr k Hk) as [Wk A].
  exists (d - r k)%R. split.
  - apply (derivable_pt_lim_ext (fun x => element (lib_eval_h M (library m)) k x - r k * x)%R).
    + intros x. destruct (V M x) as (cp & cv & h & u & _ & _ & E3 & E4 & _ & _ & G).
      unfold element. rewrite E3, E4. destruct (G k Hk) as [_ ->]. reflexivity.
    + apply derivable_pt_lim_minus; [exact D|].
      replace (r k) with (r k * 1)%R at 2 by ring.
      apply (derivable_pt_lim_scal (fun x => x)). apply derivable_pt_lim_id.
  - pose proof (ratio_pos m k Wk) as Pc. set (c := (gas_constant / species_W m k)%R) in *.
    set (x := cp_R (nasa_at (species_nasa m k) T) T) in *. set (z := cp_R (nasa_abs (species_nasa m k) T) T) in *.
    replace (d - r k - c * (x - 1))%R with ((d - c * x) - (r k - c))%R by ring.
    eapply Rle_trans; [apply Rabs_triang|]. rewrite Rabs_Ropp.
    rewrite tol_4 in *. pose proof tol1_range as [T0 _]. assert (0 <= Q2R tol1 * c)%R by (apply Rmult_le_pos; lra). lra.
Qed.

(** ** For all arithmetics, and with weights *)

(** The three functions initialise what they read and their outputs, within bounds. *)
Definition vol_defined (m : mechanism) : bool :=
  let n := s_NSP (library m) in
  call_ok [(v_T, 1)] [(v_u, n)] (eval_u m) [v_u] && call_ok [(v_T, 1)] [(v_cv, n)] (eval_cv m) [v_cv].

Lemma vol_defined_all m : vol_defined m = true.
Proof. destruct m; vm_compute; reflexivity. Qed.

Theorem volume_defined (A : Arith) (M : libm A) m (T : num A) :
  (exists u, lib_eval_u M m T = Ok u /\ length u = s_NSP (library m)) /\
  (exists cv, lib_eval_cv M m T = Ok cv /\ length cv = s_NSP (library m)).
Proof.
  pose proof (vol_defined_all m) as H. apply andb_true_iff in H as [H1 H2]. split.
  - destruct (call_defined1 M (eval_u m) [(v_T, [T])] [(v_u, s_NSP (library m))] v_u H1) as (u & E & L).
    exists u. unfold lib_eval_u. rewrite E. split; [reflexivity|]. rewrite L. cbn. lia.
  - destruct (call_defined1 M (eval_cv m) [(v_T, [T])] [(v_cv, s_NSP (library m))] v_cv H2) as (u & E & L).
    exists u. unfold lib_eval_cv. rewrite E. split; [reflexivity|]. rewrite L. cbn. lia.
Qed.

Theorem m_volume m : exists w, weights m w /\
  forall (M : libm RA) (T x : R) (y : list R), length y = s_NSP (library m) - 1 -> T <> 0%R ->
  Rsumn (s_NSP (library m)) (fun k => nth k (y ++ [1 - Rsum y]) 0 / w k)%R <> 0%R ->
  (exists (yN mw rho : R) (conc : list R),
     lib_eval_conc (A := RA) M (library m) T x y = Ok (yN, mw, rho, conc) /\
     lib_eval_conc_rho (A := RA) M m T rho y = Ok (yN, mw, x, conc)) /\
  (exists (yN mw p : R) (conc : list R),
     lib_eval_conc_rho (A := RA) M m T x y = Ok (yN, mw, p, conc) /\
     lib_eval_conc (A := RA) M (library m) T p y = Ok (yN, mw, x, conc)).
Proof.
  exists (conc_weight m). split; [apply weights_conc|]. intros M T x y Ly HT D.
  change (y ++ [1 - Rsum y]%R) with (all_fractions y) in D. rewrite <- specific_moles_weights in D.
  split; [apply pressure_density|apply density_pressure]; assumption.
Qed.
