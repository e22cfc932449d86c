(** The statements of PropPyJac.v in the form in which they are used there. *)
From Coq Require Import List Arith ZArith QArith Qabs Bool Lia Lqa Setoid Morphisms.
From Coq Require Import Floats.SpecFloat.
From Verif Require Import Outcome Arith Problem LoadBalancing BalancerSpec ChemistryModel ChemFacts ChemSim ChemBalance
  ChemCells ChemStep ChemSafe ChemResults MixtureFraction OdeSolver Seulex
  SeulexMono SeulexSafe SeulexRun SeulexSpec OdeFacts SeulexFacts SeulexEx SeulexCases PyJac PyJacFacts PyJacSpec
  Gauss QSum.
Import ListNotations.
Local Open Scope nat_scope.

(** ** Pressure *)

(** An equation c z = 0 for the last unknown is solved on its own. *)
Definition decouples {sm gr vg} (lap : lapack (QA sm gr vg)) (n : nat) : Prop :=
  forall a b : list Q, length a = n * n -> length b = n ->
  (forall j, j < n - 1 -> (nth (j * n + (n - 1)) a 0 == 0)%Q) -> (nth (n - 1) b 0 == 0)%Q ->
  (dgetrs lap n (dgetrf lap n a) b (n - 1) == 0)%Q.

(** The same for doubles, provided that the solution is finite. *)
Definition finite (v : spec_float) : Prop :=
  match v with S754_zero _ | S754_finite _ _ _ => True | _ => False end.
Definition decouples64 (lap : lapack F64) (n : nat) : Prop :=
  forall a b : list spec_float, length a = n * n -> length b = n ->
  (forall j, j < n - 1 -> exists s, nth_error a (j * n + (n - 1)) = Some (S754_zero s)) ->
  (exists s, nth_error b (n - 1) = Some (S754_zero s)) ->
  (forall i, i < n -> finite (dgetrs lap n (dgetrf lap n a) b i)) ->
  exists s, dgetrs lap n (dgetrf lap n a) b (n - 1) = S754_zero s.

Lemma gauss_decouples sm gr vg n : 1 <= n -> decouples (sm := sm) (gr := gr) (vg := vg) gauss_lap n.
Proof.
  intros N1 a b La Lb HR Hb. destruct n as [|n]; [lia|]. replace (S n - 1) with n in * by lia.
  change (nth n (gauss (A := QA sm gr vg) (S n) (eqns (A := QA sm gr vg) (S n) a b)) 0 == 0)%Q.
  unfold eqns. rewrite seq_S, map_app. cbn [map plus].
  apply gauss_last.
  - rewrite map_length, seq_length. reflexivity.
  - intros x Hx. apply in_app_iff in Hx as [Hx|[<-|[]]].
    + apply in_map_iff in Hx as (i & <- & _). cbn [fst]. rewrite map_length, app_length, seq_length. simpl. lia.
    + cbn [fst]. rewrite map_length, app_length, seq_length. simpl. lia.
  - intros j Hj. cbn [fst].
    change (nth j (map (fun j0 : nat => nth (j0 * S n + n) a 0) (seq 0 n ++ [n])) 0 == 0)%Q. change [n] with [0 + n]. rewrite <- seq_S.
    rewrite (nth_indep _ 0%Q (nth (0 * S n + n) a 0%Q)) by (rewrite map_length, seq_length; lia).
    rewrite (map_nth (fun j0 => nth (j0 * S n + n) a 0%Q)), seq_nth by lia. apply HR. exact Hj.
  - cbn [snd]. exact Hb.
Qed.

Lemma nth_error_combine {X Y} (l : list X) (l' : list Y) i x y :
  nth_error l i = Some x -> nth_error l' i = Some y -> nth_error (combine l l') i = Some (x, y).
Proof.
  revert l' i. induction l as [|a l IH]; intros [|b l'] [|i] E1 E2; simpl in *; try discriminate.
  - congruence.
  - auto.
Qed.

Section Rows.
  Context {A : Arith}.
  Variable mc : mech A.
  Variable ns : nat.
  Lemma nth_repeat_zero j k : nth j (repeat (zero A) k) (zero A) = zero A.
  Proof. revert j. induction k as [|k IH]; intros [|j]; simpl; auto. Qed.

  Lemma jac_last x y j : nth j (nth ns (pj_jacf mc ns x y) []) (zero A) = zero A.
  Proof.
    unfold pj_jacf. assert (Z : nth j [] (zero A) = zero A) by (destruct j; auto).
    assert (Z0 : nth j (nth ns [] []) (zero A) = zero A) by (destruct ns; auto).
    unfold pj_jac.
    destruct (to_pyJac ns y) as [[[p v] s]| | |]; cbn [bind]; auto.
    destruct (c_jacob mc (ns * ns) p v) as [l| | |]; cbn [bind]; auto.
    destruct (mapM _ _) as [rows| | |] eqn:E; cbn [bind]; auto.
    apply mapM_length in E. rewrite seq_length in E. rewrite app_nth2 by lia. rewrite E, Nat.sub_diag. cbn [nth].
    apply nth_repeat_zero.
  Qed.

  Lemma shifted_entry (J : list (list (num A))) h n i j : i < n -> j < n -> i <> j ->
    nth_error (shifted n J h) (j * n + i) = Some (nneg A (nth j (nth i J []) (zero A))).
  Proof.
    intros Hi Hj Hne. unfold shifted.
    assert (G : forall (f : nat -> nat -> num A) l, j < length l ->
      nth_error (flat_map (fun j => map (fun i => f i j) (seq 0 n)) l) (j * n + i) = Some (f i (nth j l 0))).
    { clear Hj Hne. intros f. induction j as [|j' IH]; intros [|q l] L; simpl in L; try lia.
      - cbn [flat_map]. rewrite nth_error_app1 by (rewrite map_length, seq_length; simpl; lia).
        rewrite nth_error_map. rewrite PlanFacts.nth_error_seq, (proj2 (Nat.ltb_lt _ _)) by (simpl; lia). reflexivity.
      - cbn [flat_map]. rewrite nth_error_app2 by (rewrite map_length, seq_length; simpl; lia).
        rewrite map_length, seq_length. replace (Datatypes.S j' * n + i - n) with (j' * n + i) by (simpl; lia).
        rewrite IH by lia. reflexivity. }
    rewrite (G (fun i j => let v := nneg A (nth j (nth i J []) (zero A)) in
        if i =? j then nadd A v (ndiv A (lit A 1) h) else v)) by (rewrite seq_length; auto).
    rewrite seq_nth by auto. cbv zeta. simpl. rewrite (proj2 (Nat.eqb_neq i j)) by auto. reflexivity.
  Qed.

  Lemma shifted_size (J : list (list (num A))) h n : length (shifted n J h) = n * n.
  Proof.
    unfold shifted. assert (G : forall (f : nat -> nat -> num A) l,
      length (flat_map (fun j => map (fun i => f i j) (seq 0 n)) l) = length l * n).
    { intros f. induction l as [|q l IH]; auto. cbn [flat_map]. rewrite app_length, map_length, seq_length, IH. simpl. lia. }
    rewrite (G (fun i j => let v := nneg A (nth j (nth i J []) (zero A)) in
        if i =? j then nadd A v (ndiv A (lit A 1) h) else v)), seq_length. reflexivity.
  Qed.

  Lemma increment_nth lap (J : list (list (num A))) h n b i : i < n ->
    nth_error (increment lap n J h b) i = Some (dgetrs lap n (dgetrf lap n (shifted n J h)) b i).
  Proof.
    intros Hi. unfold increment. rewrite nth_error_map, PlanFacts.nth_error_seq, (proj2 (Nat.ltb_lt _ _) Hi). reflexivity.
  Qed.

  Hypothesis HN : NSP mc = ns.
  Hypothesis N1 : 1 <= ns.

  Lemma rhs_last x y : length y = ns + 1 ->
    length (pj_rhs mc ns x y) = ns + 1 /\ nth ns (pj_rhs mc ns x y) (zero A) = zero A.
  Proof.
    intros L. destruct (ends ns N1 y L) as (T & p & E0 & E1).
    unfold pj_rhs. destruct (derivs_eq mc ns HN N1 (fun _ => None) x y T p L E0 E1) as (s' & ->).
    split; [rewrite app_length, map_length, seq_length; auto|].
    rewrite app_nth2; rewrite map_length, seq_length; auto. rewrite Nat.sub_diag. reflexivity.
  Qed.

End Rows.

Lemma is_zero (a b : Q) : a = b -> (b == 0)%Q -> (a == 0)%Q.
Proof. intros ->. auto. Qed.

Section PressureExact.
  Variables sm gr vg : Q.
  Notation AQ := (QA sm gr vg).
  Variable cm : cmath AQ.
  Variable lap : lapack AQ.
  Variable mc : mech AQ.
  Variables aTs rTs : list Q.
  Variables fuel ns : nat.
  Hypothesis HN : NSP mc = ns.
  Hypothesis N1 : 1 <= ns.
  Hypothesis HR : forall r, In r rTs -> (0 < r)%Q.
  Hypothesis NE : rTs <> [].
  Hypothesis DL : decouples lap (ns + 1).

  Lemma pressure_reach m (xs xe : Q) (y : list Q) (p dx : Q) q b :
    length y = ns + 1 -> nth_error y ns = Some p ->
    seulex_reach cm lap (pj_sys mc ns) aTs rTs fuel m xs xe y dx q b ->
    exists p', nth_error (pt_y b) ns = Some p' /\ (p' == p)%Q.
  Proof.
    intros Ly Ep R.
    assert (Hk : ns < nEqns (pj_sys mc ns)) by (simpl; lia).
    edestruct (reach_stays cm lap (pj_sys mc ns) aTs rTs fuel (pj_rhs mc ns) (pj_jacf mc ns)
      (pj_computes mc ns) (jacRedo_twice sm gr vg rTs HR NE) ns Hk (fun v : num AQ => v == p)%Q (fun v : num AQ => v == 0)%Q (fun _ => True))
      as [L St]; [..|exact Ly| |exact R|]; auto.
    - intros a z Ha Hz. change (a + z == p)%Q. rewrite Ha, Hz. ring.
    - intros c i a b0 _ _ Ha Hb. change (a + coef (A := AQ) c i * (a - b0) == p)%Q. rewrite Ha, Hb. ring.
    - intros x y0 j. apply jac_last.
    - intros x y0 L0. apply (rhs_last mc ns HN N1 x y0 L0).
    - intros J h b0 RJ Lb Zb _ z Ez. rewrite increment_nth in Ez by (simpl; lia). inversion Ez; subst z.
      cbn [nEqns pj_sys] in *. assert (X := DL (shifted (ns + 1) J h) b0). replace (ns + 1 - 1) with ns in X by lia.
      apply X; auto.
      + exact (shifted_size (A := AQ) J h (ns + 1)).
      + intros j Hj. assert (Y := shifted_entry (A := AQ) J h (ns + 1) ns j ltac:(lia) ltac:(lia) ltac:(lia)).
        rewrite RJ in Y. apply (nth_error_nth _ _ 0%Q) in Y. apply (is_zero _ _ Y). reflexivity.
      + apply (is_zero _ _ Zb). reflexivity.
    - intros _ v Ev. assert (X : Some v = Some p) by (transitivity (nth_error y ns); [symmetry; exact Ev|exact Ep]).
      inversion X. reflexivity.
    - cbn [nEqns pj_sys] in L. destruct (nth_error (pt_y b) ns) as [p'|] eqn:E.
      + exists p'. split; auto. apply St; auto. intros v _. exact I.
      + apply nth_error_None in E. lia.
  Qed.
End PressureExact.

(** ** Pressure in doubles *)
Section PressureDouble.
  Variable cm : cmath F64.
  Variable lap : lapack F64.
  Variable mc : mech F64.
  Variables aTs rTs : list spec_float.
  Variables fuel ns : nat.
  Hypothesis HN : NSP mc = ns.
  Hypothesis N1 : 1 <= ns.
  Hypothesis HJ : nltb F64 (jacRedo (A := F64) rTs) (nmul F64 (lit F64 2) (jacRedo (A := F64) rTs)) = true.
  Hypothesis DL : decouples64 lap (ns + 1).

  Lemma add_finite a b : finite (SFadd 53 1024 a b) -> finite a /\ finite b.
  Proof. destruct a as [sa|sa| |sa ma ea], b as [sb|sb| |sb mb eb]; simpl; auto; destruct sa, sb; simpl; auto. Qed.

  Lemma sub_finite a b : finite (SFsub 53 1024 a b) -> finite a /\ finite b.
  Proof. destruct a as [sa|sa| |sa ma ea], b as [sb|sb| |sb mb eb]; simpl; auto; destruct sa, sb; simpl; auto. Qed.

  Lemma mul_finite a b : finite (SFmul 53 1024 a b) -> finite b.
  Proof. destruct a as [sa|sa| |sa ma ea], b as [sb|sb| |sb mb eb]; simpl; auto. Qed.

  Definition isFin (v : spec_float) : bool := match v with S754_finite _ _ _ => true | _ => false end.

  Lemma coef_finite c i : c <= 12 -> 1 <= i <= c -> isFin (coef (A := F64) c i) = true.
  Proof.
    intros Hc Hi.
    assert (X : forallb (fun c => forallb (fun i => isFin (coef (A := F64) c i)) (seq 1 c)) (seq 0 13) = true)
      by (vm_compute; reflexivity).
    rewrite forallb_forall in X. specialize (X c ltac:(apply in_seq; lia)). rewrite forallb_forall in X.
    apply X. apply in_seq. lia.
  Qed.

  Lemma sub_self (a : spec_float) : isFin a = true -> SFsub 53 1024 a a = S754_zero false.
  Proof. destruct a; try discriminate. intros _. unfold SFsub. rewrite Z.sub_diag. reflexivity. Qed.

  Lemma pressure_double m (xs xe : spec_float) (y : list spec_float) (p dx : spec_float) q b :
    length y = ns + 1 -> nth_error y ns = Some p -> isFin p = true ->
    seulex_reach cm lap (pj_sys mc ns) aTs rTs fuel m xs xe y dx q b ->
    (forall v, In v (pt_y b) -> finite v) -> nth_error (pt_y b) ns = Some p.
  Proof.
    intros Ly Ep Fp R FB.
    assert (Hk : ns < nEqns (pj_sys mc ns)) by (simpl; lia).
    edestruct (reach_stays cm lap (pj_sys mc ns) aTs rTs fuel (pj_rhs mc ns) (pj_jacf mc ns)
      (pj_computes mc ns) HJ ns Hk (fun v : num F64 => v = p) (fun v : num F64 => exists s, v = S754_zero s) finite)
      as [L St]; [..|exact Ly| |exact R|]; auto.
    - intros a z -> (s & ->). destruct p; try discriminate. reflexivity.
    - apply add_finite.
    - intros c i a b0 Hc Hi -> ->. change (SFadd 53 1024 p (SFmul 53 1024 (coef (A := F64) c i) (SFsub 53 1024 p p)) = p).
      rewrite sub_self by auto. assert (X := coef_finite c i Hc Hi).
      destruct (coef (A := F64) c i); try discriminate X. destruct p; try discriminate Fp. reflexivity.
    - intros c i a b0 _ _ Fa. apply add_finite in Fa as [Fa Fw]. split; auto. apply mul_finite, sub_finite in Fw. apply Fw.
    - intros x y0 j. apply jac_last.
    - intros x y0 L0. apply (rhs_last mc ns HN N1 x y0 L0).
    - intros J h b0 RJ Lb Zb FI z Ez. rewrite increment_nth in Ez by (simpl; lia). inversion Ez; subst z.
      cbn [nEqns pj_sys] in *. assert (X := DL (shifted (A := F64) (ns + 1) J h) b0). replace (ns + 1 - 1) with ns in X by lia.
      apply X; auto.
      + exact (shifted_size (A := F64) J h (ns + 1)).
      + intros j Hj. assert (Y := shifted_entry (A := F64) J h (ns + 1) ns j ltac:(lia) ltac:(lia) ltac:(lia)).
        rewrite RJ in Y. exists true. exact Y.
      + exists false. rewrite (nth_error_nth' b0 (zero F64)) by (rewrite Lb; lia). f_equal. exact Zb.
      + intros i Hi. apply FI. apply nth_error_In with i. apply increment_nth. exact Hi.
    - intros _ v Ev. assert (X : Some v = Some p) by (transitivity (nth_error y ns); [symmetry; exact Ev|exact Ep]).
      inversion X. reflexivity.
    - cbn [nEqns pj_sys] in L. destruct (nth_error (pt_y b) ns) as [p'|] eqn:E.
      + f_equal. apply St; auto.
      + apply nth_error_None in E. lia.
  Qed.
End PressureDouble.

(** ** The cell solve *)
Section Cell.
  Context {A : Arith} {H : Type}.
  Variable ns : nat.
  Variable ode : H -> num A -> num A -> list (num A) -> num A -> outcome (list (num A) * num A * H).
  Hypothesis N1 : 1 <= ns.

  Lemma mapM_nth {X Y} (f : X -> outcome Y) l l' : mapM f l = Ok l' -> forall i x y,
    nth_error l i = Some x -> nth_error l' i = Some y -> f x = Ok y.
  Proof.
    revert l'. induction l as [|a l IH]; intros l' E [|i] x y Ex Ey; try discriminate Ex.
    - simpl in E. apply bind_ok in E as (b & Eb & E). apply bind_ok in E as (r & Er & E). inversion E; subst.
      simpl in *. congruence.
    - simpl in E. apply bind_ok in E as (b & Eb & E). apply bind_ok in E as (r & Er & E). inversion E; subst.
      simpl in *. eapply IH; eauto.
  Qed.

  (** What the integration gives and what becomes of it. *)
  Lemma solve_result h (x x' : kcell A) h' : length (k_c x) = ns ->
    ode_solve ns (ns + 1) ode h x = Ok (x', h') ->
    exists y' o', ode (snd h) (lit A 0) (k_dt x) (k_T x :: firstn (ns - 1) (k_c x) ++ [k_p x]) (k_sub x)
                    = Ok (y', k_sub x', o') /\ snd h' = o' /\
      nth_error y' 0 = Some (k_T x') /\ nth_error y' ns = Some (k_p x') /\
      exists cs, length cs = ns - 1 /\ k_c x' = cs ++ [nsub A (lit A 1) (nsum A cs)] /\
        (forall i, i < ns - 1 -> exists v, nth_error y' (i + 1) = Some v /\ nth_error cs i = Some (clip v)).
  Proof.
    intros L E. destruct h as [cTp h]. rewrite ode_solve_eq in E by lia. cbn [snd].
    apply bind_ok in E as ([[y' sub] o'] & Eo & E). apply bind_ok in E as (T & ET & E).
    apply bind_ok in E as (p & Ep & E). apply bind_ok in E as (cs & Ec & E). inversion E; subst x' h'. clear E.
    exists y', o'. cbn [k_sub k_T k_p k_c snd]. split; auto. split; auto.
    unfold idx in ET, Ep. destruct (nth_error y' 0) eqn:E0; inversion ET; subst.
    destruct (nth_error y' (length (k_c x))) eqn:E1; inversion Ep; subst. split; auto. split; auto.
    exists cs. assert (Lc := mapM_length _ _ _ Ec). rewrite seq_length in Lc. split; auto. split.
    - rewrite skipn_all2 by lia. reflexivity.
    - intros i Hi. destruct (nth_error cs i) as [c|] eqn:Eci; [|apply nth_error_None in Eci; lia].
      assert (X := mapM_nth _ _ _ Ec i i c).
      rewrite PlanFacts.nth_error_seq, (proj2 (Nat.ltb_lt _ _) Hi) in X. specialize (X eq_refl Eci).
      apply bind_ok in X as (v & Ev & X). inversion X; subst c. exists v. split; auto.
      unfold idx in Ev. destruct (nth_error y' (i + 1)); inversion Ev; auto.
  Qed.

  Lemma not_negative h (x x' : kcell A) h' : nltb A (lit A 0) (lit A 0) = false -> length (k_c x) = ns ->
    ode_solve ns (ns + 1) ode h x = Ok (x', h') ->
    length (k_c x') = ns /\
    forall i v, i < ns - 1 -> nth_error (k_c x') i = Some v -> nltb A v (lit A 0) = false.
  Proof.
    intros Z0 L E. destruct (solve_result h x x' h' L E) as (y' & o' & _ & _ & _ & _ & cs & Lc & -> & Hc).
    split; [rewrite app_length; simpl; lia|]. intros i v Hi Ev. rewrite nth_error_app1 in Ev by lia.
    destruct (Hc i Hi) as (w & _ & Ew). rewrite Ew in Ev. inversion Ev; subst. unfold clip, foam_max.
    destruct (nltb A w (lit A 0)) eqn:En; auto.
  Qed.
End Cell.

Section CellExact.
  Variables sm gr vg : Q.
  Notation AQ := (QA sm gr vg).
  Context {H : Type}.
  Variable ns : nat.
  Variable ode : H -> num AQ -> num AQ -> list (num AQ) -> num AQ -> outcome (list (num AQ) * num AQ * H).
  Hypothesis N1 : 1 <= ns.

  Lemma normalised h (x x' : kcell AQ) h' : length (k_c x) = ns ->
    ode_solve ns (ns + 1) ode h x = Ok (x', h') ->
    length (k_c x') = ns /\ (forall i v, i < ns - 1 -> nth_error (k_c x') i = Some v -> (0 <= v)%Q) /\
    (Qsum (k_c x') == 1)%Q.
  Proof.
    intros L E. destruct (not_negative (A := AQ) ns ode N1 h x x' h' eq_refl L E) as [Lx Hn]. split; auto. split.
    - intros i v Hi Ev. specialize (Hn i v Hi Ev). apply Qltb_false in Hn. exact Hn.
    - destruct (solve_result (A := AQ) ns ode N1 h x x' h' L E) as (y' & o' & _ & _ & _ & _ & cs & Lc & -> & _).
      rewrite Qsum_app. unfold nsub, lit. simpl. rewrite nsum_Qsum. ring.
  Qed.

  Notation kern := (ode_solve (A := AQ) ns (ns + 1) ode).

  Lemma calls_sum h t (x : kcell AQ) l x' h' : calls kern h t x l x' h' -> length (k_c x) = ns ->
    length (k_c x') = ns /\ ((sm < t /\ Qsum (k_c x') == 1)%Q \/ ((t <= sm)%Q /\ x' = x)).
  Proof.
    intros C. induction C as [h t x Ht|h t x x1 h1 l x' h' Ht E C IH]; intros L.
    - split; auto. right. split; auto. apply Qltb_false in Ht. exact Ht.
    - destruct (normalised h (mkCell (A := AQ) (k_p x) (k_T x) (k_c x) t (k_sub x)) x1 h1 L E) as (L1 & _ & S1).
      destruct (IH L1) as [L' S']. split; auto. left. split.
      + apply Qltb_true in Ht. exact Ht.
      + destruct S' as [[_ S']|[_ ->]]; auto.
  Qed.

  Lemma rate_sum (rho dt : Q) (c c0 : list Q) : length c = length c0 ->
    (Qsum (map (fun '(y, y0) => ndiv AQ (nmul AQ (nsub AQ y y0) rho) dt) (combine c c0))
     == (Qsum c - Qsum c0) * rho / dt)%Q.
  Proof.
    revert c0. induction c as [|a c IH]; intros [|b c0] L; simpl in L; try lia.
    - simpl. unfold Qdiv. ring.
    - cbn [combine map Qsum]. rewrite IH by lia. simpl. unfold Qdiv. ring.
  Qed.

  Lemma problem_length (F : fields AQ) d m i (p : problem AQ) n (k : nat) : shapeF n k F d -> problem_of F d m i p -> length (p_c p) = n.
  Proof.
    intros SF (Ep & _). assert (LY := sf_Y _ _ _ _ SF). apply (f_equal (@length _)) in Ep. rewrite !map_length in Ep. rewrite <- Ep. exact LY.
  Qed.

  (** Sum of the rates of a cell. *)
  Lemma total_rate fuel cfg dbg par sortf tms ranks outs :
    g_nSpecie cfg = ns -> g_chem cfg = true -> mapper_ok (g_nSpecie cfg) (g_mapper cfg) -> sort_contract sortf ->
    par = true \/ length ranks <= 1 ->
    solve_all kern fuel cfg dbg par sortf tms ranks = Ok outs ->
    forall q r o n, nth_error ranks q = Some r -> nth_error outs q = Some o ->
      meshed (g_nSpecie cfg) n r ->
      forall i, i < n ->
      exists j p rates, j < n /\ problem_of (r_fields r) (r_dt r) (r_state r) j p /\
        (j = i \/ mapped (g_mapper cfg) (r_fields r) j i) /\
        map (fun row => nth_error row i) (m_RR (o_state o)) = map Some rates /\
        (Qsum rates == if Qle_bool (p_deltaT p) sm then 0 else (1 - Qsum (p_c p)) * p_rho p / p_deltaT p)%Q.
  Proof.
    intros En Hch MO Hs Hpar E q r o n Hr Ho HM i Hi.
    destruct (every_cell kern fuel cfg dbg par sortf tms ranks outs Hch MO Hs Hpar E q r o n Hr Ho HM i Hi)
      as (j & p & s & k & Hj & Hp & (q' & k' & h & l & x & h' & C & Lx & Hrr & _) & (Hc & _) & Hk).
    exists j, p, (s_rr s). split; auto. split; auto. split.
    { destruct Hk as [(_ & -> & _)|[(_ & -> & _)|(_ & _ & Hm)]]; auto. }
    split; auto.
    assert (Lp : length (p_c p) = ns).
    { rewrite <- En. destruct HM as [SF _]. exact (problem_length _ _ _ _ _ _ _ SF Hp). }
    destruct (calls_sum _ _ _ _ _ _ C Lp) as [_ S]. cbn [k_c] in S. rewrite Hrr.
    destruct S as [[Ht S]|[Ht ->]].
    - destruct (Qle_bool (p_deltaT p) sm) eqn:Eq; [apply Qle_bool_iff in Eq; exfalso; apply (Qlt_not_le _ _ Ht Eq)|].
      rewrite rate_sum by exact Lx. rewrite S. reflexivity.
    - rewrite (proj2 (Qle_bool_iff _ _) Ht). rewrite rate_sum by reflexivity. cbn [k_c]. unfold Qdiv. ring.
  Qed.

  Lemma rates_cancel fuel cfg dbg par sortf tms ranks outs :
    g_nSpecie cfg = ns -> g_chem cfg = true -> mapper_ok (g_nSpecie cfg) (g_mapper cfg) -> sort_contract sortf ->
    par = true \/ length ranks <= 1 ->
    solve_all kern fuel cfg dbg par sortf tms ranks = Ok outs ->
    forall q r o n, nth_error ranks q = Some r -> nth_error outs q = Some o ->
      meshed (g_nSpecie cfg) n r ->
      (forall j Y, j < n -> map (fun y => nth_error y j) (f_Y (r_fields r)) = map Some Y -> (Qsum Y == 1)%Q) ->
      forall i, i < n ->
      exists rates, map (fun row => nth_error row i) (m_RR (o_state o)) = map Some rates /\ (Qsum rates == 0)%Q.
  Proof.
    intros En Hch MO Hs Hpar E q r o n Hr Ho HM H1 i Hi.
    destruct (total_rate fuel cfg dbg par sortf tms ranks outs En Hch MO Hs Hpar E q r o n Hr Ho HM i Hi)
      as (j & p & rates & Hj & (Hp & _) & _ & Em & S).
    exists rates. split; auto. rewrite S. destruct (Qle_bool _ _); [reflexivity|].
    rewrite (H1 j _ Hj Hp). unfold Qdiv. ring.
  Qed.
End CellExact.

(** ** The whole stack *)
Lemma start_last {A : Arith} ns (N1 : 1 <= ns) (x : kcell A) : length (k_c x) = ns ->
  nth_error (k_T x :: firstn (ns - 1) (k_c x) ++ [k_p x]) ns = Some (k_p x).
Proof.
  intros L. assert (Lf : length (firstn (ns - 1) (k_c x)) = ns - 1) by (apply firstn_length_le; lia).
  destruct ns as [|n]; [lia|]. cbn [nth_error]. rewrite nth_error_app2 by lia. rewrite Lf.
  replace (n - (S n - 1)) with 0 by lia. reflexivity.
Qed.

Lemma pressure_cell sm gr vg (cm : cmath (QA sm gr vg)) (lap : lapack (QA sm gr vg)) (mc : mech (QA sm gr vg))
  (aT rT : Q) fuel maxSteps ns h (x x' : kcell (QA sm gr vg)) h' :
  NSP mc = ns -> 1 <= ns -> (0 < rT)%Q -> decouples lap (ns + 1) -> length (k_c x) = ns ->
  pyJac_kern cm lap mc aT rT fuel maxSteps ns h x = Ok (x', h') ->
  (k_p x' == k_p x)%Q.
Proof.
  intros HN N1 HR DL L E.
  destruct (solve_result (A := QA sm gr vg) ns _ N1 h x x' h' L E) as (y' & o' & Eo & _ & _ & Ep & _).
  assert (X : exists k b, reach (fun h x y step => step_solve cm lap (pj_sys mc ns)
      (repeat aT (nEqns (pj_sys mc ns))) (repeat rT (nEqns (pj_sys mc ns))) fuel x y step h)
    (lit (QA sm gr vg) 0) (k_dt x)
    (mkPoint (snd h) (lit (QA sm gr vg) 0) (k_T x :: firstn (ns - 1) (k_c x) ++ [k_p x]) (newStep (k_sub x))) k b /\
    y' = pt_y b).
  { destruct (proj1 (range_returns _ maxSteps (snd h) (lit (QA sm gr vg) 0) (k_dt x) _ (k_sub x) y' o') (ex_intro _ _ Eo))
      as (k & b & _ & R & _ & Ey & _). eauto. }
  destruct X as (k & b & R & ->).
  destruct (pressure_reach sm gr vg cm lap mc (repeat aT (ns + 1)) (repeat rT (ns + 1)) fuel ns HN N1
    ltac:(intros r Hr; apply repeat_spec in Hr; subst; exact HR) ltac:(rewrite Nat.add_1_r; discriminate) DL
    (snd h) (lit (QA sm gr vg) 0) (k_dt x) (k_T x :: firstn (ns - 1) (k_c x) ++ [k_p x]) (k_p x) (k_sub x) k b)
    as (p' & Ep' & Hp).
  - exact (start_length (A := QA sm gr vg) ns N1 x (Nat.eq_le_incl _ _ (eq_sym L))).
  - exact (start_last ns N1 x L).
  - exact R.
  - assert (Y : Some p' = Some (k_p x')) by (transitivity (nth_error (pt_y b) ns); [symmetry; exact Ep'|exact Ep]).
    inversion Y; subst. exact Hp.
Qed.

(** ** Heat release *)
Section Heat.
  Context {A : Arith}.
  Variable mc : mech A.
  Variable ns : nat.
  Hypothesis HN : NSP mc = ns.

  Lemma construct_ok : construct mc ns true = Ok (map Some (map (h_elt mc (lit A (29815 # 100))) (seq 0 ns))).
  Proof.
    unfold construct, c_h, into. rewrite HN, Nat.leb_refl. cbn [andb Nat.leb bind]. rewrite Nat.eqb_refl, Nat.sub_diag.
    cbn [repeat]. rewrite app_nil_r. reflexivity.
  Qed.

  Lemma foldM_snoc {X Y} (f : X -> Y -> outcome X) l y x :
    foldM f x (l ++ [y]) = let* x' := foldM f x l in f x' y.
  Proof.
    revert x. induction l as [|a l IH]; intros x; simpl.
    - destruct (f x y); reflexivity.
    - destruct (f x a); simpl; auto.
  Qed.

  Lemma qdot_cells (hs : list (num A)) (RR : list (list (num A))) n :
    length hs = ns -> length RR = ns -> (forall row, In row RR -> length row = n) ->
    Qdot ns true (map Some hs) RR n =
    Ok (map (fun c => fold_left (fun v i => nsub A v (nmul A (nth i hs (zero A)) (nth c (nth i RR []) (zero A))))
                        (seq 0 ns) (zero A)) (seq 0 n)).
  Proof.
    intros Lh LR LRow. unfold Qdot.
    assert (X : forall k, k <= ns ->
      foldM (fun q i =>
               let* hi := idx (map Some hs) i in
               let* row := idx RR i in
               mapM (fun '(c, v) =>
                       let* hv := rd hi in
                       let* r := idx row c in
                       Ok (nsub A v (nmul A hv r))) (combine (seq 0 n) q))
            (repeat (zero A) n) (seq 0 k) =
      Ok (map (fun c => fold_left (fun v i => nsub A v (nmul A (nth i hs (zero A)) (nth c (nth i RR []) (zero A))))
                        (seq 0 k) (zero A)) (seq 0 n))); [|apply X; lia].
    induction k as [|k IH]; intros Hk.
    - simpl. f_equal. clear. assert (G : forall a, repeat (zero A) n = map (fun _ => zero A) (seq a n)); [|apply G].
      induction n as [|n IH]; intros a; simpl; f_equal; auto.
    - rewrite seq_S, foldM_snoc, IH by lia. cbn [bind plus].
      unfold idx at 1. rewrite nth_error_map.
      destruct (nth_error hs k) as [hv|] eqn:Eh; [|apply nth_error_None in Eh; lia]. cbn [option_map bind].
      unfold idx at 1. destruct (nth_error RR k) as [row|] eqn:Er; [|apply nth_error_None in Er; lia]. cbn [bind rd].
      assert (Lr : length row = n) by (apply LRow; eapply nth_error_In; eauto).
      set (f := fun c => fold_left _ (seq 0 k) (zero A)).
      assert (Ec : combine (seq 0 n) (map f (seq 0 n)) = map (fun c => (c, f c)) (seq 0 n)).
      { clear. generalize (seq 0 n). induction l; simpl; f_equal; auto. }
      rewrite Ec.
      assert (G : forall l, (forall c, In c l -> c < n) ->
        mapM (fun '(c, v) => let* r := idx row c in Ok (nsub A v (nmul A hv r))) (map (fun c => (c, f c)) l) =
        Ok (map (fun c => nsub A (f c) (nmul A hv (nth c row (zero A)))) l)).
      { induction l as [|c l IHl]; intros Hl; auto. cbn [map mapM].
        assert (Hc : c < n) by (apply Hl; left; auto).
        unfold idx at 1. destruct (nth_error row c) as [r|] eqn:Erc; [|apply nth_error_None in Erc; lia]. cbn [bind].
        rewrite IHl by (intros; apply Hl; right; auto). cbn [bind]. rewrite (nth_error_nth row c _ Erc). reflexivity. }
      rewrite G by (intros c Hc; apply in_seq in Hc; lia). f_equal. apply map_ext. intros c.
      rewrite fold_left_app. cbn [fold_left]. unfold f.
      rewrite (nth_error_nth _ _ (zero A) Eh), (nth_error_nth RR k [] Er). reflexivity.
  Qed.
End Heat.

Lemma heat_exact sm gr vg (mc : mech (QA sm gr vg)) ns h (RR : list (list Q)) n :
  NSP mc = ns -> construct mc ns true = Ok h ->
  length RR = ns -> (forall row, In row RR -> length row = n) ->
  exists q, Qdot (A := QA sm gr vg) ns true h RR n = Ok q /\ length q = n /\
    forall c, c < n ->
      (nth c q 0 == - Qsumf (fun i => h_elt mc (29815 # 100)%Q i * nth c (nth i RR []) 0) (seq 0 ns))%Q.
Proof.
  intros HN Eh LR LRow. rewrite (construct_ok mc ns HN) in Eh. inversion Eh; subst h. clear Eh.
  rewrite (qdot_cells (A := QA sm gr vg) mc ns HN) by (auto; rewrite map_length, seq_length; reflexivity).
  eexists. split; [reflexivity|]. split; [rewrite map_length, seq_length; reflexivity|]. intros c Hc.
  set (F := fun c => fold_left _ (seq 0 ns) _).
  assert (E : nth c (map F (seq 0 n)) 0%Q = F c).
  { rewrite (nth_indep _ 0%Q (F 0)) by (rewrite map_length, seq_length; exact Hc).
    rewrite map_nth, seq_nth by exact Hc. reflexivity. }
  transitivity (F c); [rewrite <- E; reflexivity|]. unfold F. clear E F.
  assert (G : forall (l : list nat) (z : Q), (forall i, In i l -> i < ns) ->
    (fold_left (fun (v : num (QA sm gr vg)) i => nsub (QA sm gr vg) v (nmul (QA sm gr vg)
        (nth i (map (h_elt mc (lit (QA sm gr vg) (29815 # 100))) (seq 0 ns)) (zero (QA sm gr vg)))
        (nth c (nth i RR []) (zero (QA sm gr vg))))) l z
     == z - Qsumf (fun i => h_elt mc (29815 # 100)%Q i * nth c (nth i RR []) 0) l)%Q).
  { induction l as [|i l IH]; intros z Hl.
    - simpl. unfold Qsumf. simpl. ring.
    - cbn [fold_left]. rewrite IH by (intros; apply Hl; right; auto). rewrite Qsumf_cons.
      assert (Hi : i < ns) by (apply Hl; left; auto).
      assert (En : nth i (map (h_elt mc (lit (QA sm gr vg) (29815 # 100))) (seq 0 ns)) (zero (QA sm gr vg)) = h_elt mc (29815 # 100)%Q i).
      { apply nth_error_nth. rewrite nth_error_map, PlanFacts.nth_error_seq, (proj2 (Nat.ltb_lt _ _) Hi). reflexivity. }
      rewrite En. simpl. ring. }
  rewrite G by (intros i Hi; apply in_seq in Hi; lia). simpl. ring.
Qed.

(** ** Constructor *)
Lemma construct_cases {A : Arith} (mc : mech A) ns chem :
  match construct mc ns chem with
  | Ok h => NSP mc = ns /\ length h = ns
  | Fatal => NSP mc <> ns
  | UB => chem = true /\ ns < NSP mc
  | Diverge => False
  end.
Proof.
  unfold construct, c_h, into. destruct chem; cbn [bind].
  - rewrite andb_true_r. destruct (Nat.leb_spec (NSP mc) ns) as [Hle|Hlt]; cbn [bind]; auto.
    destruct (Nat.eqb_spec ns (NSP mc)) as [->|Hne]; auto. split; auto.
    rewrite map_length, app_length, map_length, seq_length, repeat_length. lia.
  - destruct (Nat.eqb_spec ns (NSP mc)) as [->|Hne]; auto. split; auto. apply repeat_length.
Qed.

Lemma nth_error_first {X} (l : list X) k : forall i, i < k -> nth_error (firstn k l) i = nth_error l i.
Proof.
  revert k. induction l as [|a l IH]; intros [|k] [|i] Hi; try lia; simpl; auto. apply IH. lia.
Qed.

(** ** The composition on which rates and Jacobian are evaluated *)
Section Handed.
  Context {A : Arith}.
  Variable mc : mech A.
  Variable ns : nat.
  Hypothesis HN : NSP mc = ns.
  Hypothesis N1 : 1 <= ns.

  (** The composition [Y] that belongs to the state [c]. *)
  Definition composition (n : nat) (c Y : list (num A)) : Prop :=
    length Y = n /\
    (forall i v, i < n - 1 -> nth_error c (i + 1) = Some v ->
       nth_error Y i = Some (if nltb A (lit A 0) v then v else lit A 0)) /\
    nth_error Y (n - 1) = Some (nsub A (lit A 1) (nsum A (firstn (n - 1) Y))).

  Lemma handed_composition (c : list (num A)) : length c = ns + 1 ->
    composition ns c (handed (firstn (ns - 1) (tl c))).
  Proof.
    intros L. assert (Lf : length (firstn (ns - 1) (tl c)) = ns - 1) by (rewrite firstn_length; destruct c; simpl in *; lia).
    split; [rewrite handed_length; lia|]. split.
    - intros i v Hi Ev. unfold handed. rewrite nth_error_app1 by (rewrite map_length, Lf; exact Hi).
      rewrite nth_error_map. assert (E : nth_error (firstn (ns - 1) (tl c)) i = Some v).
      { rewrite (nth_error_first _ _ _ Hi). destruct c as [|c0 c]; [simpl in L; lia|].
        rewrite Nat.add_1_r in Ev. exact Ev. }
      rewrite E. reflexivity.
    - unfold handed. rewrite nth_error_app2 by (rewrite map_length; lia). rewrite map_length, Lf, Nat.sub_diag.
      rewrite firstn_app, map_length, Lf, Nat.sub_diag. cbn [firstn]. rewrite app_nil_r.
      rewrite (firstn_all2 (map _ _)) by (rewrite map_length; lia).
      reflexivity.
  Qed.

  Lemma rates_of s t (c : list (num A)) T p :
    length c = ns + 1 -> nth_error c 0 = Some T -> nth_error c ns = Some p ->
    exists Y s', composition ns c Y /\
      derivs (pj_sys mc ns) s t c = Ok (map (dydt_elt mc p (firstn ns (T :: Y))) (seq 0 ns) ++ [lit A 0], s').
  Proof.
    intros L E0 E1. destruct (derivs_eq mc ns HN N1 s t c T p L E0 E1) as (s' & E).
    exists (handed (firstn (ns - 1) (tl c))), s'. split; [apply handed_composition; auto|].
    rewrite (seen_firstn mc) by auto. exact E.
  Qed.

  Lemma jac_of s t (c : list (num A)) T p :
    length c = ns + 1 -> nth_error c 0 = Some T -> nth_error c ns = Some p ->
    exists Y dcdt J s', composition ns c Y /\
      jac (pj_sys mc ns) s t c = Ok (dcdt, J, s') /\
      dcdt = repeat (lit A 0) (ns + 1) /\ length J = ns + 1 /\
      forall i j, i < ns + 1 -> j < ns + 1 ->
        exists row, nth_error J i = Some row /\ length row = ns + 1 /\
          nth_error row j = Some (if (i <? ns) && (j <? ns) then jacob_elt mc p (firstn ns (T :: Y)) (j * ns + i) else lit A 0).
  Proof.
    intros L E0 E1. destruct (jac_eq mc ns HN N1 s t c T p L E0 E1) as (s' & E).
    exists (handed (firstn (ns - 1) (tl c))). do 2 eexists. exists s'. split; [apply handed_composition; auto|].
    split; [exact E|]. split; [reflexivity|]. split; [rewrite app_length, map_length, seq_length; auto|].
    rewrite (seen_firstn mc) by auto.
    intros i j Hi Hj. destruct (Nat.ltb_spec i ns) as [Hin|Hin]; cbn [andb].
    - eexists. split; [rewrite nth_error_app1 by (rewrite map_length, seq_length; auto);
        rewrite nth_error_map, PlanFacts.nth_error_seq, (proj2 (Nat.ltb_lt _ _) Hin); reflexivity|].
      split; [rewrite app_length, map_length, seq_length; auto|]. cbn [plus].
      destruct (Nat.ltb_spec j ns) as [Hjn|Hjn].
      + rewrite nth_error_app1 by (rewrite map_length, seq_length; auto).
        rewrite nth_error_map, PlanFacts.nth_error_seq, (proj2 (Nat.ltb_lt _ _) Hjn). reflexivity.
      + rewrite nth_error_app2 by (rewrite map_length, seq_length; auto). rewrite map_length, seq_length.
        replace (j - ns) with 0 by lia. reflexivity.
    - eexists. split; [rewrite nth_error_app2 by (rewrite map_length, seq_length; auto);
        rewrite map_length, seq_length; replace (i - ns) with 0 by lia; reflexivity|].
      split; [apply repeat_length|]. rewrite (nth_error_nth' _ (zero A)) by (rewrite repeat_length; auto).
      rewrite nth_repeat_zero. reflexivity.
  Qed.
End Handed.

Lemma composition_normalised sm gr vg ns (c Y : list Q) : 1 <= ns -> length c = ns + 1 ->
  composition (A := QA sm gr vg) ns c Y ->
  (forall i v, i < ns - 1 -> nth_error Y i = Some v -> (0 <= v)%Q) /\ (Qsum Y == 1)%Q.
Proof.
  intros N1 Lc (L & HY & Hl). split.
  - intros i v Hi Ev. destruct (nth_error c (i + 1)) as [w|] eqn:Ew; [|apply nth_error_None in Ew; exfalso; lia].
    specialize (HY i w Hi Ew).
    assert (X : Some v = Some (if Qltb 0 w then w else 0%Q)) by (transitivity (nth_error Y i); [symmetry; exact Ev|exact HY]).
    inversion X; subst. destruct (Qltb 0 w) eqn:E; [|apply Qle_refl]. apply Qltb_true in E. apply Qlt_le_weak. exact E.
  - assert (E : Y = firstn (ns - 1) Y ++ [nsub (QA sm gr vg) 1%Q (nsum (QA sm gr vg) (firstn (ns - 1) Y))]).
    { apply nth_error_split in Hl as (l1 & l2 & E & Ll). assert (l2 = []).
      { apply (f_equal (@length _)) in E. rewrite app_length in E. cbn [length] in E.
        assert (Q1 : length l1 + S (length l2) = ns) by (transitivity (length Y); [symmetry; exact E|exact L]).
        destruct l2; auto. exfalso. revert Q1 Ll N1. clear. cbn [length].
        generalize (length l1) (length l2). intros. lia. }
      subst l2. assert (F : firstn (ns - 1) Y = l1).
      { rewrite E. rewrite <- Ll. rewrite firstn_app, Nat.sub_diag. cbn [firstn]. rewrite app_nil_r. apply firstn_all. }
      exact (eq_trans E (f_equal (fun l => l ++ [nsub (QA sm gr vg) 1%Q (nsum (QA sm gr vg) (firstn (ns - 1) Y))]) (eq_sym F))). }
    rewrite E at 1. rewrite Qsum_app. simpl. rewrite nsum_Qsum. ring.
Qed.

(** ** A negative last mass fraction *)
Lemma last_negative :
  exists (mc : mech QR) (x x' : kcell QR) h h',
    (forall p y i, nth 1 y 0%Q = 1%Q -> dydt_elt mc p y i = 0%Q) /\
    (forall v, In v (k_c x) -> 0 < v)%Q /\ (Qsum (k_c x) == 1)%Q /\
    pyJac_kern (A := QR) qrmath gauss_lap mc (1 # 5)%Q (1 # 5)%Q 9 9 2 h x = Ok (x', h') /\
    exists v, nth_error (k_c x') 1 = Some v /\ (v < 0)%Q.
Proof.
  set (mc := mkMech (A := QR) 2 (fun _ y i => if i =? 1 then Qred (10 * (1 - nth 1 y 0))%Q else 0%Q)
    (fun _ _ k => if k =? 3 then (-(10))%Q else 0%Q) (fun _ _ => 0%Q)).
  set (x := mkCell (A := QR) 100000%Q 1000%Q [1 # 2; 1 # 2]%Q 1%Q 1%Q).
  set (h := (fun _ : nat => @None Q, newMem (A := QR) [1 # 10]%Q (fun _ : nat => @None Q))).
  exists mc, x.
  assert (G : forall (o : outcome (kcell QR * ((nat -> option (num QR)) * mem QR (scratch (A := QR))))),
    match o with Ok (x', _) => match nth_error (k_c x') 1 with Some v => Qltb v 0 | None => false end | _ => false end = true ->
    exists x' h', o = Ok (x', h') /\ exists v, nth_error (k_c x') 1 = Some v /\ (v < 0)%Q).
  { intros [[x' h']| | |] E; try discriminate E. exists x', h'. split; auto.
    destruct (nth_error (k_c x') 1) as [v|]; [|discriminate E]. exists v. split; auto. apply Qltb_true. exact E. }
  destruct (G (pyJac_kern (A := QR) qrmath gauss_lap mc (1 # 5)%Q (1 # 5)%Q 9 9 2 h x)) as (x' & h' & E & v & Ev & Hv).
  { vm_compute. reflexivity. }
  exists x', h, h'. split.
  { intros p y i Hy. simpl. rewrite Hy. destruct (i =? 1); reflexivity. }
  split; [intros w [<-|[<-|[]]]; reflexivity|]. split; [reflexivity|]. split; [exact E|]. exists v. auto.
Qed.

(** ** Solvers for the examples *)

(** LAPACK for diagonal matrices. *)
Definition diag_lap : lapack F64 :=
  mkLapack F64 (list spec_float) (fun _ a => a)
    (fun n a b i => SFdiv 53 1024 (nth i b S754_nan) (nth (i * n + i) a S754_nan)).

Lemma diag_decouples n : 1 <= n -> decouples64 diag_lap n.
Proof.
  intros N1 a b La Lb _ (s & Eb) F. specialize (F (n - 1) ltac:(lia)).
  change (finite (SFdiv 53 1024 (nth (n - 1) b S754_nan) (nth ((n - 1) * n + (n - 1)) a S754_nan))) in F.
  change (exists s, SFdiv 53 1024 (nth (n - 1) b S754_nan) (nth ((n - 1) * n + (n - 1)) a S754_nan) = S754_zero s).
  rewrite (nth_error_nth _ _ S754_nan Eb) in F |- *.
  destruct (nth _ a S754_nan) as [sa|sa| |sa ma ea]; simpl in *; try contradiction; eexists; reflexivity.
Qed.

(** ** The stack in a call of solve() *)
Section StackCalls.
  Context {A : Arith}.
  Variable cm : cmath A.
  Variable lap : lapack A.
  Variable mc : mech A.
  Variables aT rT : num A.
  Variables fuel maxSteps : nat.
  Variable cfg : config A.
  Hypothesis HN : NSP mc = g_nSpecie cfg.
  Hypothesis N1 : 1 <= g_nSpecie cfg.
  Hypothesis HJ : nltb A (jacRedo [rT]) (nmul A (lit A 2) (jacRedo [rT])) = true.
  Hypothesis HO : order_defined cm aT rT.
  Notation kern := (pyJac_kern cm lap mc aT rT fuel maxSteps (g_nSpecie cfg)).

  Lemma stack_same fuel' dbg b1 b2 par1 par2 sortf1 sortf2 tms1 tms2 ranks1 ranks2 outs1 outs2 :
    Forall2 same_inputs ranks1 ranks2 ->
    sort_contract sortf1 -> sort_contract sortf2 ->
    par1 = true \/ length ranks1 <= 1 -> par2 = true \/ length ranks2 <= 1 ->
    solve_all kern fuel' (with_active cfg b1) dbg par1 sortf1 tms1 ranks1 = Ok outs1 ->
    solve_all kern fuel' (with_active cfg b2) dbg par2 sortf2 tms2 ranks2 = Ok outs2 ->
    Forall2 same_results outs1 outs2.
  Proof.
    apply ChemResults.same_lemma. apply pyJac_memoryless; auto.
  Qed.

  Lemma stack_sane : sane_solver kern (g_nSpecie cfg).
  Proof.
    intros h x L. assert (P := pyJac_sane cm lap mc aT rT fuel maxSteps (g_nSpecie cfg) HN N1 HJ HO h x L).
    destruct (kern h x) as [[x' h']| | |]; auto. apply P.
  Qed.

  Lemma stack_safe fuel' dbg par sortf tms ranks :
    mapper_ok (g_nSpecie cfg) (g_mapper cfg) ->
    (forall r, In r ranks -> exists n, meshed (g_nSpecie cfg) n r) ->
    sort_contract sortf -> par = true \/ length ranks <= 1 ->
    (g_chem cfg = true -> g_active cfg = true -> forall got,
       phase_get kern fuel' cfg dbg tms ranks = Ok got ->
       updateState dbg sortf (map (fun '(ps, _, _) => ps) got) <> UB) ->
    solve_all kern fuel' cfg dbg par sortf tms ranks <> UB.
  Proof.
    intros MO HM Hs Hp HU. apply solve_all_sane; auto. apply stack_sane.
  Qed.
End StackCalls.

Lemma construct_overflow {A : Arith} (mc : mech A) ns : ns < NSP mc -> construct mc ns true = UB.
Proof.
  intros Hlt. unfold construct, c_h, into. rewrite andb_true_r. rewrite (proj2 (Nat.leb_gt _ _) Hlt). reflexivity.
Qed.
