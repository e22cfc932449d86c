(** [dydt]: the right-hand side of the library. *)
From Coq Require Import List ZArith NArith QArith Qabs Qreals Reals Bool Lra Lia.
From Verif Require Import Outcome Arith MechLang MechSym MechSrc MechCall MechReal MechPoly MechChem Mechanisms
  MechSpec MechRate MechPmod MechThermo MechConc.
Import ListNotations.
Local Open Scope nat_scope.

(** Shape of what the last part of [dydt] reads. *)
Definition dydt_sh (S : source) : list (var * nat) :=
  [(v_y, s_NSP S); (v_y_N, 1); (v_rho, 1); (v_cp, s_NSP S); (v_h, s_NSP S); (v_dy_N, 1); (v_dy, s_NSP S)].

(** Its local variables. *)
Definition dydt_locals : list (var * nat) := [(v_cp_avg, 1)].

(** Symbolic run of that part. *)
Definition dydt_run (S : source) : option smem := symbolic (dydt_sh S) dydt_locals (s_dydt S).

(** Mass fraction and production rate of species [k]. *)
Definition frac_ref (n k : nat) : expr := if k =? n - 1 then Ref v_y_N 0 else Ref v_y (N.of_nat (k + 1)).

(** Production rate of species [k]. *)
Definition prod_ref (n k : nat) : expr := if k =? n - 1 then Ref v_dy_N 0 else Ref v_dy (N.of_nat (k + 1)).

(** Coefficient of a monomial. *)
Definition coefficient (m : mono) (p : poly) (d : Q) : Q :=
  match find (fun t => mono_eqb m (snd t)) p with Some t => fst t | None => d end.

(** The sum in the closed form of the temperature derivative. *)
Definition heat_sum (e : expr) : expr := match e with Mul _ b => b | _ => Num 0 end.

(** Molecular weights, as [dydt] writes them; [d] for the last species if [dydt] does not mention it. *)
Definition dydt_weights (S : source) (d : Q) : list Q :=
  match dydt_run S with
  | None => []
  | Some s =>
      map (fun k => match formd (dydt_sh S) dydt_locals s v_dy (k + 1) with
                    | Mul _ (Div (Num w) _) => w
                    | _ => 0%Q
                    end) (seq 0 (s_NSP S - 1)) ++
      [coefficient [Ref v_dy_N 0; Ref v_h (N.of_nat (s_NSP S - 1))]
         (norm (heat_sum (formd (dydt_sh S) dydt_locals s v_dy 0))) d]
  end.

(** Species that no reaction changes. *)
Definition inert (ch : chemistry) (k : nat) : bool := forallb (fun r => Qeq_bool (net r k) 0) (ch_reactions ch).

(** The closed forms of [dydt]. *)
Definition dydt_ok (S : source) (ch : chemistry) (d : Q) : bool :=
  match dydt_run S with
  | None => false
  | Some s =>
      let ws := dydt_weights S d in
      let n := s_NSP S in
      (1 <=? n) &&
      all_forms (dydt_sh S) dydt_locals s v_dy (fun k e =>
        if k =? 0 then
          match e with
          | Mul (Div (Num c) (Mul (Ref r i) cpf)) sf =>
              Qsame c (-1.0) && var_eqb r v_rho && (i =? 0)%N &&
              peqb (norm cpf) (map (fun k => (1%Q, [Ref v_cp (N.of_nat k); frac_ref n k])) (seq 0 n)) &&
              peqb (norm sf)
                (flat_map (fun k => if inert ch k then []
                   else [(nth k ws 0%Q, [prod_ref n k; Ref v_h (N.of_nat k)])]) (seq 0 n))
          | _ => false
          end
        else expr_eqb e (Mul (Ref v_dy (N.of_nat k)) (Div (Num (nth (k - 1) ws 0%Q)) (Ref v_rho 0))))
  end.

(** [eval_h] and [eval_cp] write every element. *)
Definition thermo_ok (S : source) : bool :=
  match symbolic [(v_T, 1)] [(v_h, s_NSP S)] (s_eval_h S), symbolic [(v_T, 1)] [(v_cp, s_NSP S)] (s_eval_cp S) with
  | Some sh, Some sc =>
      all_forms [(v_T, 1)] [(v_h, s_NSP S)] sh v_h (fun _ _ => true) &&
      all_forms [(v_T, 1)] [(v_cp, s_NSP S)] sc v_cp (fun _ _ => true)
  | _, _ => false
  end.

Lemma thermo_defined {A : Arith} (M : libm A) S (T : num A) : thermo_ok S = true ->
  exists h cp, lib_eval_h M S T = Ok h /\ lib_eval_cp M S T = Ok cp /\ length h = s_NSP S /\ length cp = s_NSP S.
Proof.
  unfold thermo_ok. intros H.
  destruct (symbolic [(v_T, 1)] [(v_h, s_NSP S)] (s_eval_h S)) as [sh|] eqn:E1; [|discriminate].
  destruct (symbolic [(v_T, 1)] [(v_cp, s_NSP S)] (s_eval_cp S)) as [sc|] eqn:E2; [|discriminate].
  apply andb_true_iff in H as [H1 H2].
  unfold lib_eval_h, lib_eval_cp.
  rewrite (call_closed M _ [(v_T, [T])] [(v_h, s_NSP S)] [v_h] sh E1) by (intros v [<-|[]]; exact H1).
  rewrite (call_closed M _ [(v_T, [T])] [(v_cp, s_NSP S)] [v_cp] sc E2) by (intros v [<-|[]]; exact H2).
  cbn [map bind only]. eexists _, _. split; [reflexivity|]. split; [reflexivity|].
  rewrite !map_length, !seq_length. cbn. split; lia.
Qed.

(** Molecular weight of species [k] in [dydt]. *)
Definition weight (S : source) (d : Q) (k : nat) : R := Q2R (nth k (dydt_weights S d) 0%Q).

Lemma inert_production ch fwd rev pm k : inert ch k = true ->
  Rsumn (length (ch_reactions ch)) (fun i => nu ch i k * progress ch fwd rev pm i)%R = 0%R.
Proof.
  intros H. apply Rsum_zero. intros i Hi. apply in_seq in Hi. unfold inert in H. rewrite forallb_forall in H.
  specialize (H (rxn ch i) ltac:(apply nth_In; lia)). unfold nu. apply Qeq_bool_eq, Qeq_eqR in H.
  rewrite H, Q2R_0. ring.
Qed.

Section Dydt.
  Variable M : libm RA.
  Variables (S : source) (ch : chemistry) (d : Q).
  Hypothesis Hd : dydt_ok S ch d = true.

  (** The last part of [dydt]. *)
  Lemma dydt_tail (y cp h sp : list R) (yN rho dyN : R) :
    length y = s_NSP S -> length cp = s_NSP S -> length h = s_NSP S -> length sp = s_NSP S - 1 ->
    (forall k, k < s_NSP S -> inert ch k = true -> nth k (sp ++ [dyN]) 0%R = 0%R) ->
    exists dy,
      (let* l := call M (s_dydt S)
         [(v_y, y : list (num RA)); (v_y_N, [yN]); (v_rho, [rho]); (v_cp, cp); (v_h, h); (v_dy_N, [dyN]);
          (v_dy, zero RA :: sp)] [(v_cp_avg, 1)] [v_dy] in only l) = Ok dy /\
      length dy = s_NSP S /\
      (forall k, k < s_NSP S - 1 -> nth (k + 1) dy 0%R = (nth k sp 0 * (weight S d k / rho))%R) /\
      nth 0 dy 0%R =
        (-1 / (rho * Rsumn (s_NSP S) (fun k => nth k cp 0 * nth k (skipn 1 y ++ [yN]) 0)) *
         Rsumn (s_NSP S) (fun k => weight S d k * nth k (sp ++ [dyN]) 0 * nth k h 0))%R.
  Proof.
    intros Ly Lc Lh Ls Z. unfold dydt_ok in Hd. destruct (dydt_run S) as [s|] eqn:E; [|discriminate].
    cbv zeta in Hd. apply andb_true_iff in Hd as [H1 Hf]. apply Nat.leb_le in H1.
    set (ins := [(v_y, y : list (num RA)); (v_y_N, [yN]); (v_rho, [rho]); (v_cp, cp); (v_h, h); (v_dy_N, [dyN]);
          (v_dy, zero RA :: sp)]).
    assert (Hsh : shape ins = dydt_sh S).
    { unfold dydt_sh. transitivity [(v_y, length y); (v_y_N, 1); (v_rho, 1); (v_cp, length cp); (v_h, length h);
        (v_dy_N, 1); (v_dy, Datatypes.S (length sp))]; [reflexivity|].
      rewrite Ly, Lc, Lh, Ls. do 6 f_equal. f_equal. f_equal. lia. }
    rewrite (call_closed M _ ins [(v_cp_avg, 1)] [v_dy] s).
    2: { rewrite Hsh. exact E. }
    2: { rewrite Hsh. intros v [<-|[]]. eapply all_forms_weaken. exact Hf. }
    assert (En : N.to_nat (sizes (dydt_sh S ++ [(v_cp_avg, 1)]) v_dy) = s_NSP S) by (cbn; lia).
    rewrite Hsh. cbn [map]. rewrite En. cbn [bind only].
    eexists. split; [reflexivity|]. split; [rewrite map_length, seq_length; reflexivity|].
    set (a := argument ins).
    assert (Arg : forall v l, In (v, l) [(v_y, y); (v_cp, cp); (v_h, h); (v_dy, 0%R :: sp)] ->
      forall k, a v (N.of_nat k) = nth k l 0%R).
    { intros v l I k. unfold a, argument. cbn [zero lit RA]. rewrite Q2R_0.
      destruct I as [[= <- <-]|[[= <- <-]|[[= <- <-]|[[= <- <-]|[]]]]];
        cbn [ins find fst snd var_eqb var_id Nat.eqb]; rewrite Nat2N.id; try reflexivity.
      cbn [zero lit RA]. rewrite Q2R_0. reflexivity. }
    assert (VP : forall k, k < s_NSP S -> rval M a (prod_ref (s_NSP S) k) = nth k (sp ++ [dyN]) 0%R).
    { intros k Hk. unfold prod_ref. destruct (Nat.eqb_spec k (s_NSP S - 1)) as [->|N].
      - rewrite app_nth2 by lia. rewrite Ls, Nat.sub_diag. reflexivity.
      - rewrite app_nth1 by lia. change (a v_dy (N.of_nat (k + 1)) = nth k sp 0%R).
        rewrite (Arg v_dy (0%R :: sp)) by (right; right; right; left; reflexivity).
        rewrite Nat.add_1_r. reflexivity. }
    assert (VF : forall k, k < s_NSP S -> rval M a (frac_ref (s_NSP S) k) = nth k (skipn 1 y ++ [yN]) 0%R).
    { intros k Hk. unfold frac_ref.
      assert (Lk : length (skipn 1 y) = s_NSP S - 1) by (rewrite skipn_length; lia).
      destruct (Nat.eqb_spec k (s_NSP S - 1)) as [->|N].
      - rewrite app_nth2 by lia. rewrite Lk, Nat.sub_diag. reflexivity.
      - rewrite app_nth1 by lia. change (a v_y (N.of_nat (k + 1)) = nth k (skipn 1 y) 0%R).
        rewrite (Arg v_y y) by (left; reflexivity).
        destruct y as [|y0 y']; [destruct k; reflexivity|]. rewrite Nat.add_1_r. reflexivity. }
    split.
    - intros k Hk.
      rewrite (nth_map_seq (fun i => val M a (formd (dydt_sh S) [(v_cp_avg, 1)] s v_dy i))) by lia.
      destruct (all_forms_in _ _ _ _ _ (k + 1) Hf) as [_ P]; [change dydt_locals with [(v_cp_avg, 1)]; rewrite En; lia|].
      replace (k + 1 =? 0) with false in P by (symmetry; apply Nat.eqb_neq; lia).
      apply expr_eqb_eq in P. change dydt_locals with [(v_cp_avg, 1)] in P. rewrite P.
      replace (k + 1 - 1) with k by lia.
      change (a v_dy (N.of_nat (k + 1)) * (weight S d k / rho) = nth k sp 0 * (weight S d k / rho))%R.
      rewrite (Arg v_dy (0%R :: sp)) by (right; right; right; left; reflexivity).
      rewrite Nat.add_1_r. reflexivity.
    - rewrite (nth_map_seq (fun i => val M a (formd (dydt_sh S) [(v_cp_avg, 1)] s v_dy i))) by lia.
      destruct (all_forms_in _ _ _ _ _ 0 Hf) as [_ P]; [change dydt_locals with [(v_cp_avg, 1)]; rewrite En; lia|].
      cbn [Nat.eqb] in P. change dydt_locals with [(v_cp_avg, 1)] in P.
      destruct (formd (dydt_sh S) [(v_cp_avg, 1)] s v_dy 0) as [| | | | |e1 sf| | | | | | |]; try discriminate.
      destruct e1 as [| | | | | |e1 e2| | | | | |]; try discriminate. destruct e1 as [c| | | | | | | | | | | |]; try discriminate.
      destruct e2 as [| | | | |e2 cpf| | | | | | |]; try discriminate. destruct e2 as [|r i| | | | | | | | | | |]; try discriminate.
      apply andb_true_iff in P as [P Ps]. apply andb_true_iff in P as [P Pc]. apply andb_true_iff in P as [P Pi].
      apply andb_true_iff in P as [Pq Pr]. apply Qsame_eq in Pq. apply N.eqb_eq in Pi. subst c i.
      destruct (var_eqb_spec r v_rho) as [->|]; [|discriminate].
      change (Q2R (-1.0) / (rho * rval M a cpf) * rval M a sf =
        -1 / (rho * Rsumn (s_NSP S) (fun k => nth k cp 0 * nth k (skipn 1 y ++ [yN]) 0)) *
         Rsumn (s_NSP S) (fun k => weight S d k * nth k (sp ++ [dyN]) 0 * nth k h 0))%R.
      replace (Q2R (-1.0)) with (-1)%R by (unfold Q2R; cbn; lra).
      apply (peqb_val M a) in Pc, Ps. rewrite norm_val in Pc, Ps. rewrite Pc, Ps. f_equal; [f_equal; f_equal|].
      + unfold pval. rewrite map_map. apply Rsum_ext. intros k Hk. apply in_seq in Hk. cbn [fst snd].
        unfold mval. cbn [map Rprod]. rewrite Q2R_1, VF by lia.
        change (rval M a (Ref v_cp (N.of_nat k))) with (a v_cp (N.of_nat k)).
        rewrite (Arg v_cp cp) by (right; left; reflexivity). ring.
      + unfold Rsumn.
        assert (B : forall k, In k (seq 0 (s_NSP S)) -> k < s_NSP S) by (intros k Hk; apply in_seq in Hk; lia).
        revert B. generalize (seq 0 (s_NSP S)) as l. induction l as [|k l IH]; intros B; [reflexivity|].
        cbn [flat_map map Rsum]. rewrite pval_app, IH by (intros; apply B; right; assumption). f_equal.
        specialize (B k (or_introl eq_refl)). destruct (inert ch k) eqn:I.
        * rewrite (Z k B I). unfold pval. cbn [map Rsum]. ring.
        * unfold pval, mval. cbn [map Rsum Rprod fst snd]. rewrite VP by exact B.
          change (rval M a (Ref v_h (N.of_nat k))) with (a v_h (N.of_nat k)).
          rewrite (Arg v_h h) by (right; right; left; reflexivity). unfold weight. ring.
  Qed.
End Dydt.

Lemma dydt_all m : dydt_ok (library m) (chem m) 28.01348 = true.
Proof. destruct m; vm_compute; reflexivity. Qed.

Lemma thermo_all m : thermo_ok (library m) = true.
Proof. destruct m; vm_compute; reflexivity. Qed.
