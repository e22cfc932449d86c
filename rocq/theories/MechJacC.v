(** [eval_jacob]: the temperature column and the derivatives of the rates.
    The definitions below are not functions of /repo. *)
From Coq Require Import List ZArith NArith QArith Qabs Qreals Reals Bool Lra Lia.
From Verif Require Import Outcome Arith MechLang MechSym MechSrc MechCall MechReal MechPoly MechChem Mechanisms
  MechSpec MechRate MechPmod MechThermo MechConc MechDydt MechRhs MechData MechExp MechLaurent MechNasa MechKin MechArr MechLaw
  MechDefined MechJac MechJacT MechJacS MechJacD MechJacR MechJacE MechTroe MechJacF.
Import ListNotations.
Local Open Scope R_scope.

(** ** The last statements *)

(** Shape of the arguments of the last statements of [eval_jacob]. *)
Definition tail_sh (S : source) : list (var * nat) :=
  [(v_T, 1); (v_y, s_NSP S); (v_y_N, 1); (v_rho, 1); (v_spec_rates, s_NSP S); (v_h, s_NSP S); (v_cp, s_NSP S);
   (v_jac, s_NSP S); (v_J_nplusone, 1)]%nat.

(** Their local variables. *)
Definition tail_locals : list (var * nat) := [(v_cp_avg, 1); (v_working_temp, 1)]%nat.

(** They change only the first element. *)
Definition tail_keeps (m : mechanism) : bool :=
  match symbolic (tail_sh (library m)) tail_locals (j_tail (jac_T m)) with
  | None => false
  | Some s =>
      all_forms (tail_sh (library m)) tail_locals s v_jac
        (fun k e => (k =? 0)%nat || expr_eqb e (Ref v_jac (N.of_nat k)))
  end.

Lemma tail_keeps_all m : tail_keeps m = true.
Proof. destruct m; vm_compute; reflexivity. Qed.

Lemma tail_call m (M : libm RA) (T yN rho J1 : R) (y sp h cp jac : list R) :
  length y = s_NSP (library m) -> length sp = s_NSP (library m) -> length h = s_NSP (library m) ->
  length cp = s_NSP (library m) -> length jac = s_NSP (library m) ->
  exists J : list R,
    call M (j_tail (jac_T m)) (tail_ins (A := RA) T y yN rho sp h cp jac J1) [(v_cp_avg, 1%nat); (v_working_temp, 1%nat)] [v_jac] = Ok [J] /\
    length J = s_NSP (library m) /\ forall k, (0 < k)%nat -> nth k J 0 = nth k jac 0.
Proof.
  intros Ly Ls Lh Lc Lj. pose proof (tail_keeps_all m) as H. unfold tail_keeps in H.
  destruct (symbolic (tail_sh (library m)) tail_locals (j_tail (jac_T m))) as [s|] eqn:E; [|discriminate].
  set (ins := tail_ins (A := RA) T y yN rho sp h cp jac J1).
  assert (Hsh : shape ins = tail_sh (library m)).
  { unfold ins, tail_ins, shape, tail_sh. cbn [map fst snd length].
    change (@length (num RA)) with (@length R). rewrite Ly, Ls, Lh, Lc, Lj. reflexivity. }
  rewrite (call_closed M _ ins tail_locals [v_jac] s).
  2: { rewrite Hsh. exact E. }
  2: { rewrite Hsh. intros v [<-|[]]. eapply all_forms_weaken; eassumption. }
  rewrite Hsh. cbn [map]. set (a := argument ins).
  assert (Ej : N.to_nat (sizes (tail_sh (library m) ++ tail_locals) v_jac) = s_NSP (library m)) by (cbn; lia).
  rewrite Ej. eexists. split; [reflexivity|]. split; [rewrite map_length, seq_length; reflexivity|].
  intros k Hk. destruct (Nat.lt_ge_cases k (s_NSP (library m))) as [B|B].
  - rewrite (nth_map_seq (fun i => val M a (formd (tail_sh (library m)) tail_locals s v_jac i))) by exact B.
    destruct (all_forms_in _ _ _ _ _ k H) as [_ P]; [rewrite Ej; exact B|].
    destruct (Nat.eqb_spec k 0) as [|_]; [lia|]. apply expr_eqb_eq in P. rewrite P.
    change (val M a (Ref v_jac (N.of_nat k))) with (a v_jac (N.of_nat k)).
    unfold a, ins, argument, tail_ins. cbn [find fst snd var_eqb var_id Nat.eqb]. rewrite Nat2N.id.
    cbn [zero lit RA]. rewrite Q2R_0. reflexivity.
  - rewrite !nth_overflow; [reflexivity|lia|rewrite map_length, seq_length; exact B].
Qed.

(** ** The column *)

(** Sum of the forward and reverse rates of reaction [i] with its pressure modification, over the density. *)
Definition gross_rate (m : mechanism) (p : R) (y : list R) (i : nat) (t : R) : R :=
  match lib_eval_conc (A := RA) exact_libm (library m) t p y with
  | Ok (_, _, rho, conc) =>
      match lib_eval_rxn_rates (A := RA) exact_libm (library m) t p conc, lib_get_rxn_pres_mod (A := RA) exact_libm (library m) t p conc with
      | Ok (fwd, rev), Ok pm =>
          (nth i fwd 0 + (if rx_rev (rxn (chem m) i) then nth (rank rx_rev (ch_reactions (chem m)) i) rev 0 else 0)) *
          (if pdep (rxn (chem m) i) then nth (rank pdep (ch_reactions (chem m)) i) pm 0 else 1) / rho
      | _, _ => 0
      end
  | _ => 0
  end.

Lemma rxn_kind m i : rx_kind (rxn (chem m) i) = ThreeBody -> pdep (rxn (chem m) i) = true.
Proof. unfold pdep. intros ->. reflexivity. Qed.

Lemma derivable_inv (c x : R) : 0 < x -> derivable_pt_lim (fun t => c / t) x (- (c / x) / x).
Proof.
  intros Hx. replace (- (c / x) / x) with ((0 * x - 1 * c) / Rsqr x) by (unfold Rsqr; field; lra).
  apply (derivable_pt_lim_div (fun _ => c) (fun t => t)); [apply derivable_pt_lim_const|apply derivable_pt_lim_id|lra].
Qed.

Theorem temperature_column m (T p : R) (y dB0 : list R) :
  length y = (s_NSP (library m) - 1)%nat -> 0 < T -> 0 < p -> (forall k, (k < length y)%nat -> 0 <= nth k y 0) -> Rsum y <= 1 ->
  no_switch m T -> length dB0 = s_NSP (library m) ->
  exists (J : list R) (j : nat -> R),
    lib_jacob_T (A := RA) exact_libm (library m) (jac_T m) p (T :: y) (repeat 0 (s_NSP (library m))) dB0 = Ok J /\
    length J = s_NSP (library m) /\
    (forall k, (k < s_NSP (library m) - 1)%nat ->
       nth (k + 1) J 0 = W m k * Rsumn (length (ch_reactions (chem m))) (fun i => nu (chem m) i k * j i)) /\
    (forall i, (i < length (ch_reactions (chem m)))%nat -> rx_kind (rxn (chem m) i) <> Falloff ->
      exists d : R, derivable_pt_lim (specific_rate m p y i) T d /\
        Rabs (j i - d) <= 4 * Q2R tolE * (gross_rate m p y i T / T) * terms_size m T i) /\
    (forall i, (i < length (ch_reactions (chem m)))%nat -> rx_kind (rxn (chem m) i) = Falloff ->
      (gross_rate m p y i T = 0 -> j i = 0) /\
      exists low c e U : _, k_low (kin m i) = Some low /\ near_ratio low (k_high (kin m i)) c e /\
        derivable_pt_lim (unmodified m p y i) T U /\
        match k_troe (kin m i) with
        | None => 0 < pr_at m p y i low c e T ->
            exists D, derivable_pt_lim (fun t => ln (pr_at m p y i low c e t / (1 + pr_at m p y i low c e t))) T D /\
              Rabs (j i - modifier m p y i T * (U + unmodified m p y i T * D)) <=
              Q2R tolE * gross_rate m p y i T *
              (4 * terms_size m T i / T + 3 * (lp_size T low (k_high (kin m i)) e / T / (1 + pr_at m p y i low c e T)))
        | Some t => exists z, near_centre t z /\
            (Q2R tiny < centre_at z T -> Q2R tiny < pr_at m p y i low c e T -> troe_B (centre_at z T) (pr_at m p y i low c e T) <> 0 ->
             exists D, derivable_pt_lim (fun t => ln (broad (centre_at z t) (pr_at m p y i low c e t) *
                 (pr_at m p y i low c e t / (1 + pr_at m p y i low c e t)))) T D /\
               Rabs (j i - modifier m p y i T * (U + unmodified m p y i T * D)) <=
               Q2R tolE * gross_rate m p y i T *
               (4 * terms_size m T i / T +
                3 * troe_size (centre_at z T) (pr_at m p y i low c e T) (centre_size z T) (lp_size T low (k_high (kin m i)) e / T)))
        end).
Proof.
  intros Ly HT Hp H1 H2 HN LB. pose proof (NSP_pos m) as HS.
  pose proof (rho1_pos m p y Hp Ly H1 H2) as HR. set (rho := rho1 m p y) in *.
  destruct (rates_at m p y Hp Ly H1 H2 T HT) as (conc & fwd & rev & pm & E1 & LC & E2 & Lf & Lr & E3 & Lp & CN & SC & V).
  fold rho in E1, V.
  destruct (production exact_libm (library m) (chem m) fwd rev pm (spec_all m) Lf Lr Lp) as (sp & dyN & E4 & Lsp & _).
  destruct (head_call m T p dB0 HT LB) as (dB & E5 & LdB & HB).
  set (ws := dydt_weights (library m) nitrogen).
  set (mm := p / (gas_constant * T)) in *. set (mw := 1 / specific_moles (library m) y) in *.
  assert (Lsp' : length (sp ++ [dyN]) = s_NSP (library m)).
  { rewrite app_length. cbn [length]. change (@length (num RA)) with (@length R) in *. lia. }
  destruct (parts_call exact_libm m ws T p mm mw (rho / T) conc fwd rev pm (sp ++ [dyN]) dB LC Lf Lr Lp Lsp' LdB
    (j_parts (jac_T m)) 0 (repeat 0 (s_NSP (library m))) 0 (parts_all m)) as (jac & J1 & j & E6 & Lj & _ & Sj & Tj).
  { apply repeat_length. }
  { intros k _. apply nth_repeat. }
  destruct (eval_cp_defined exact_libm (library m) (library_all m) T) as (cp & E8 & Lcp).
  destruct (eval_h_defined exact_libm (library m) (library_all m) T) as (h & E7 & Lh).
  destruct (tail_call m exact_libm T (1 - Rsum y) (rho / T) J1 (T :: y) (sp ++ [dyN]) h cp jac) as (J & E9 & LJ & KJ); try assumption.
  { cbn [length]. lia. }
  exists J, j.
  split.
  { unfold lib_jacob_T. cbn [idx nth_error bind skipn].
    rewrite E1. cbn [bind]. rewrite E2. cbn [bind]. rewrite E3. cbn [bind]. rewrite E4. cbn [bind].
    rewrite E5. cbn [bind].
    assert (Z0 : zero RA = 0) by (cbn [zero lit RA]; rewrite Q2R_0; reflexivity). rewrite Z0.
    eapply eq_trans; [eapply (f_equal (fun o => bind o _)); exact E6|]. cbn [bind]. rewrite E7. cbn [bind]. rewrite E8. cbn [bind]. 
    eapply eq_trans; [eapply (f_equal (fun o => bind o _)); exact E9|]. reflexivity. }
  split; [exact LJ|]. split.
  - intros k Hk. rewrite KJ by lia. rewrite (Sj k Hk), nth_repeat, Rplus_0_l, Nat.sub_0_r.
    unfold Rsumn. rewrite <- Rsum_scal. unfold involved.
    generalize (seq 0 (length (ch_reactions (chem m)))). intros l. induction l as [|i l IH]; [reflexivity|].
    cbn [filter map Rsum]. destruct (Qnum (net (rxn (chem m) i) k) =? 0)%Z eqn:Z; cbn [negb].
    + rewrite IH. unfold nu. rewrite (Qnum_0 _ Z). ring.
    + cbn [map Rsum]. rewrite IH. f_equal. unfold coef, nu, W, weight. rewrite Q2R_mult. fold ws. ring.
  - split; intros i Hi Kf; destruct (Tj i ltac:(lia)) as (jc & J2 & e & TO & ->);
    destruct (V i Hi) as (VS & VU & VM & Pf & Vf & Vr & Vt);
    destruct (unmodified_derive m p y Hp Ly H1 H2 T i HT HN Hi conc fwd rev E1 E2) as (Df & Dr & DU & BDf & BDr); fold rho in DU;
    set (r := rxn (chem m) i) in *;
    set (f := nth i fwd 0) in *;
    set (g := if rx_rev r then nth (rank rx_rev (ch_reactions (chem m)) i) rev 0 else 0) in *;
    (assert (Pg : 0 <= g) by (unfold g; destruct (rx_rev r) eqn:Rv; [apply Vr; reflexivity|lra]));
    set (q := nth (rank pdep (ch_reactions (chem m)) i) pm 0) in *;
    set (a := env T p mm mw (rho / T) conc fwd rev pm (sp ++ [dyN]) dB jc J2);
    (assert (aa : forall v (l : list R), find (fun x => var_eqb (fst x) v) (part_ins (A := RA) T p conc fwd rev pm (sp ++ [dyN]) mm mw (rho / T) dB jc J2) = Some (v, l) ->
      forall n, a v (N.of_nat n) = nth n l 0)
      by (intros v l F n; unfold a, env, argument; rewrite F; cbn [snd]; rewrite Nat2N.id; cbn [zero lit RA]; rewrite Q2R_0; reflexivity));
    (assert (Prho : 0 < rho / T) by (apply Rdiv_lt_0_compat; assumption));
    (assert (af : a v_fwd_rates (N.of_nat i) = f) by (apply (aa v_fwd_rates fwd eq_refl)));
    (assert (ag : rx_rev r = true -> a v_rev_rates (N.of_nat (rank rx_rev (ch_reactions (chem m)) i)) = g)
      by (intros Rv; unfold g; rewrite Rv; apply (aa v_rev_rates rev eq_refl)));
    (assert (g0 : rx_rev r = false -> g = 0) by (intros Rv; unfold g; rewrite Rv; reflexivity));
    (assert (aq : a v_pres_mod (N.of_nat (rank pdep (ch_reactions (chem m)) i)) = q) by (apply (aa v_pres_mod pm eq_refl)));
    (assert (GR : gross_rate m p y i T = (f + g) * (if pdep r then q else 1) / (rho / T))
      by (unfold gross_rate; rewrite E1, E2, E3; reflexivity)).
    {
    pose proof (contribution m T (rho / T) a i HT Prho eq_refl eq_refl Hi dB (fun k _ => aa v_dBdT dB eq_refl k) HB
      f g (if pdep r then q else 1) Df Dr af ag g0) as CB.
    fold r in CB. destruct (rx_kind r) eqn:K; [| |contradiction].
    + assert (Pd : pdep r = false) by (unfold pdep; rewrite K; reflexivity). rewrite Pd in *.
      exists ((f * Df - g * Dr) / T / (rho / T)). split.
      * apply (derivable_pt_lim_locally_ext (unmodified m p y i) _ T 0 (T + 1)); [lra| |exact DU].
        intros t Ht. destruct (rates_at m p y Hp Ly H1 H2 t ltac:(lra)) as (c' & f' & r' & pm' & _ & _ & _ & _ & _ & _ & _ & _ & _ & V').
        destruct (V' i Hi) as (VS' & VU' & _). rewrite VS', VU'. unfold progress. fold r. rewrite Pd, Rmult_1_r. reflexivity.
      * rewrite GR, Rmult_1_r. replace ((f + g) / (rho / T) / T) with ((f + g) / (rho / T * T)) by (field; lra).
        apply CB; try assumption; try congruence; lra.
    + assert (Pd : pdep r = true) by (unfold pdep; rewrite K; reflexivity). rewrite Pd in *.
      destruct (Vt eq_refl) as [Pq Vq].
      exists ((f * Df - g * Dr) / T / (rho / T) * q + (f - g) / (rho / T) * (- q / T)). split.
      * apply (derivable_pt_lim_locally_ext (mult_fct (unmodified m p y i) (fun t => third1 m p y r / t)) _ T 0 (T + 1)); [lra| |].
        -- intros t Ht. destruct (rates_at m p y Hp Ly H1 H2 t ltac:(lra)) as (c' & f' & r' & pm' & _ & _ & _ & _ & _ & _ & _ & _ & _ & V').
           destruct (V' i Hi) as (VS' & VU' & _ & _ & _ & _ & Vt'). fold r in VU', Vt'. specialize (Vt' K). destruct Vt' as [_ Vt'].
           unfold mult_fct. rewrite VS', VU', <- Vt'. unfold progress. fold r. rewrite Pd. unfold Rdiv. ring.
        -- rewrite Vq. replace ((f - g) / (rho / T)) with (unmodified m p y i T).
           apply derivable_pt_lim_mult; [exact DU|]. apply derivable_inv, HT.
      * rewrite GR. replace ((f + g) * q / (rho / T) / T) with (q * (f + g) / (rho / T * T)) by (field; lra).
        apply CB; try assumption; try congruence. }
    assert (Pd : pdep r = true) by (unfold pdep; rewrite Kf; reflexivity). rewrite Pd in GR, VM.
    assert (Pq : 0 <= q).
    { assert (HE : forall x : R, 0 < m_exp exact_libm x) by (intros x; apply exp_pos).
      assert (HW : forall x z : R, 0 < x -> 0 < m_pow exact_libm x z) by (intros x z _; apply exp_pos).
      destruct (pressure_modifications exact_libm (library m) (chem m) T p (pmod_all m) HE HW HT Hp) as (ra & Pra & PM).
      destruct (PM conc LC SC) as (pm' & E3' & _ & VP). rewrite E3 in E3'. injection E3' as <-.
      specialize (VP i Hi). fold r in VP. rewrite Kf in VP. destruct VP as (F & PF & VP). unfold q. rewrite VP.
      pose proof (third_body_nonneg m i conc CN) as TB. fold r in TB. pose proof (Rmult_le_pos _ _ (Rlt_le _ _ (Pra i Hi)) TB) as PX.
      apply Rmult_le_pos; [lra|]. apply Rmult_le_pos; [exact PX|]. left. apply Rinv_0_lt_compat. lra. }
    assert (TO' : fall_ok m i e = true) by (unfold term_ok in TO; fold r in TO; rewrite Kf in TO; exact TO).
    destruct (fall_val m T (rho / T) a i HT Prho eq_refl eq_refl Hi dB (fun k _ => aa v_dBdT dB eq_refl k) HB
      f g q Df Dr af ag g0 aq Pf Pg Pq BDf BDr e TO') as (x & XO & Z & FB).
    split.
    { rewrite GR. intros Z0. apply Z. apply Rmult_integral in Z0 as [Z0|Z0]; [lra|]. pose proof (Rinv_0_lt_compat _ Prho). lra. }
    assert (aM : a v_m 0%N = Rsumn (length conc) (fun k => nth k conc 0)) by (rewrite SC; apply (aa v_m [mm] eq_refl 0%nat)).
    destruct (x_val m T a i conc HT eq_refl LC (aa v_conc conc eq_refl) aM x XO) as (low & c & ee & KL & NR & XV).
    exists low, c, ee, ((f * Df - g * Dr) / T / (rho / T)). split; [exact KL|]. split; [exact NR|]. split; [exact DU|].
    assert (EP : pr_at m p y i low c ee T = reduced c (exponent_T low (k_high (kin m i))) ee (third_body r conc) T).
    { unfold pr_at, collider. rewrite E1. reflexivity. }
    pose proof (pr_derive m p y Hp Ly H1 H2 i low c ee T HT) as DP.
    set (Pt := pr_at m p y i low c ee) in *. specialize (XV (Pt T) EP).
    assert (GQ : q * (f + g) / (rho / T) = gross_rate m p y i T) by (rewrite GR; unfold Rdiv; ring).
    rewrite GQ in FB. fold r in VU. fold g in VU. rewrite VM, VU.
    destruct (k_troe (kin m i)) as [t|].
    + destruct XV as (z & NZ & XV). exists z. split; [exact NZ|]. intros PF PP PB.
      assert (T0 : 0 < Q2R tiny) by (unfold Q2R, tiny; cbn [Qnum Qden]; apply Rmult_lt_0_compat; [apply IZR_lt; reflexivity|apply Rinv_0_lt_compat, IZR_lt; reflexivity]).
      eexists. split; [apply (troe_derive (centre_at z) Pt T _ _ (centre_derive z T HT) DP PF PP PB)|].
      apply FB, XV; try assumption; lra.
    + intros PP. eexists. split; [apply (lindemann_derive Pt T _ DP PP)|]. apply FB, XV, PP.
Qed.

Theorem temperature_reactions m (T p : R) (y dB0 : list R) :
  length y = (s_NSP (library m) - 1)%nat -> 0 < T -> 0 < p -> (forall k, (k < length y)%nat -> 0 <= nth k y 0) -> Rsum y <= 1 ->
  no_switch m T -> length dB0 = s_NSP (library m) ->
  exists (J : list R) (j : nat -> R),
    lib_jacob_T (A := RA) exact_libm (library m) (jac_T m) p (T :: y) (repeat 0 (s_NSP (library m))) dB0 = Ok J /\
    length J = s_NSP (library m) /\
    (forall k, (k < s_NSP (library m) - 1)%nat ->
       nth (k + 1) J 0 = W m k * Rsumn (length (ch_reactions (chem m))) (fun i => nu (chem m) i k * j i)) /\
    forall i, (i < length (ch_reactions (chem m)))%nat -> rx_kind (rxn (chem m) i) <> Falloff ->
      exists d : R, derivable_pt_lim (specific_rate m p y i) T d /\
        Rabs (j i - d) <= 4 * Q2R tolE * (gross_rate m p y i T / T) * terms_size m T i.
Proof.
  intros Ly HT Hp H1 H2 HN LB.
  destruct (temperature_column m T p y dB0 Ly HT Hp H1 H2 HN LB) as (J & j & E & L & S & D & F).
  exists J, j. repeat (split; [assumption|]). exact D.
Qed.

Theorem temperature_falloff m (T p : R) (y dB0 : list R) :
  length y = (s_NSP (library m) - 1)%nat -> 0 < T -> 0 < p -> (forall k, (k < length y)%nat -> 0 <= nth k y 0) -> Rsum y <= 1 ->
  no_switch m T -> length dB0 = s_NSP (library m) ->
  exists (J : list R) (j : nat -> R),
    lib_jacob_T (A := RA) exact_libm (library m) (jac_T m) p (T :: y) (repeat 0 (s_NSP (library m))) dB0 = Ok J /\
    length J = s_NSP (library m) /\
    (forall k, (k < s_NSP (library m) - 1)%nat ->
       nth (k + 1) J 0 = W m k * Rsumn (length (ch_reactions (chem m))) (fun i => nu (chem m) i k * j i)) /\
    forall i, (i < length (ch_reactions (chem m)))%nat -> rx_kind (rxn (chem m) i) = Falloff ->
      (gross_rate m p y i T = 0 -> j i = 0) /\
      exists low c e U : _, k_low (kin m i) = Some low /\ near_ratio low (k_high (kin m i)) c e /\
        derivable_pt_lim (unmodified m p y i) T U /\
        match k_troe (kin m i) with
        | None => 0 < pr_at m p y i low c e T ->
            exists D, derivable_pt_lim (fun t => ln (pr_at m p y i low c e t / (1 + pr_at m p y i low c e t))) T D /\
              Rabs (j i - modifier m p y i T * (U + unmodified m p y i T * D)) <=
              Q2R tolE * gross_rate m p y i T *
              (4 * terms_size m T i / T + 3 * (lp_size T low (k_high (kin m i)) e / T / (1 + pr_at m p y i low c e T)))
        | Some t => exists z, near_centre t z /\
            (Q2R tiny < centre_at z T -> Q2R tiny < pr_at m p y i low c e T -> troe_B (centre_at z T) (pr_at m p y i low c e T) <> 0 ->
             exists D, derivable_pt_lim (fun t => ln (broad (centre_at z t) (pr_at m p y i low c e t) *
                 (pr_at m p y i low c e t / (1 + pr_at m p y i low c e t)))) T D /\
               Rabs (j i - modifier m p y i T * (U + unmodified m p y i T * D)) <=
               Q2R tolE * gross_rate m p y i T *
               (4 * terms_size m T i / T +
                3 * troe_size (centre_at z T) (pr_at m p y i low c e T) (centre_size z T) (lp_size T low (k_high (kin m i)) e / T)))
        end.
Proof.
  intros Ly HT Hp H1 H2 HN LB.
  destruct (temperature_column m T p y dB0 Ly HT Hp H1 H2 HN LB) as (J & j & E & L & S & D & F).
  exists J, j. repeat (split; [assumption|]). exact F.
Qed.

(** ** Derivatives of the right-hand side *)

(** Element [k] of [dydt] at temperature [t], pressure [p] and mass fractions [y]. *)
Definition dydt_at (m : mechanism) (p : R) (y : list R) (k : nat) (t : R) : R :=
  match lib_dydt (A := RA) exact_libm (library m) p (t :: y) with Ok dy => nth k dy 0 | _ => 0 end.

Lemma dydt_at_sum m (p : R) (y : list R) k t :
  length y = (s_NSP (library m) - 1)%nat -> 0 < t -> 0 < p -> (forall k, (k < length y)%nat -> 0 <= nth k y 0) -> Rsum y <= 1 ->
  (k < s_NSP (library m) - 1)%nat ->
  dydt_at m p y (k + 1) t = W m k * Rsumn (length (ch_reactions (chem m))) (fun i => nu (chem m) i k * specific_rate m p y i t).
Proof.
  intros Ly Ht Hp H1 H2 Hk.
  destruct (right_hand_side exact_libm m p t y Ly) as (s & K & Gk & _). pose proof (stages_rates s K k ltac:(lia)) as SR.
  destruct K as ((yN & mw & E1 & _) & LC & E2 & E3 & _ & _ & _ & _ & Lsp & _ & _ & _ & _ & E & _).
  unfold dydt_at. rewrite E. eapply eq_trans; [exact (Gk k Hk)|].
  rewrite app_nth1 in SR by (change (@length (num RA)) with (@length R) in *; lia).
  eapply eq_trans; [apply (f_equal (fun x => Rmult x _)); exact SR|]. unfold Rdiv. rewrite Rmult_comm, Rmult_assoc. f_equal. unfold Rsumn. rewrite <- Rsum_scal. apply Rsum_ext.
  intros i _. unfold specific_rate. rewrite E1, E2, E3. unfold Rdiv. ring.
Qed.

Lemma sum_derive (c : nat -> R) (F : nat -> R -> R) (j b : nat -> R) T l :
  (forall i, In i l -> c i <> 0 -> exists d, derivable_pt_lim (F i) T d /\ Rabs (j i - d) <= b i) ->
  exists D, derivable_pt_lim (fun t => Rsum (map (fun i => c i * F i t) l)) T D /\
    Rabs (Rsum (map (fun i => c i * j i) l) - D) <= Rsum (map (fun i => Rabs (c i) * b i) l).
Proof.
  induction l as [|i l IH]; intros H.
  - exists 0. cbn [map Rsum]. split; [apply derivable_pt_lim_const|]. rewrite Rminus_0_r, Rabs_R0. lra.
  - destruct IH as (D & D1 & D2); [intros; apply H; [right|]; assumption|]. cbn [map Rsum].
    destruct (Req_dec (c i) 0) as [Z|Z].
    + exists D. split.
      * apply (derivable_pt_lim_locally_ext (fun t => Rsum (map (fun i => c i * F i t) l)) _ T (T - 1) (T + 1)); [lra| |exact D1].
        intros t _. rewrite Z. ring.
      * rewrite Z, !Rmult_0_l, Rabs_R0, Rmult_0_l, !Rplus_0_l. exact D2.
    + destruct (H i (or_introl eq_refl) Z) as (d & d1 & d2). exists (c i * d + D). split.
      * apply (derivable_pt_lim_plus (fun t => c i * F i t)); [|exact D1]. apply (derivable_pt_lim_scal (F i)), d1.
      * replace (c i * j i + Rsum (map (fun i => c i * j i) l) - (c i * d + D)) with
          (c i * (j i - d) + (Rsum (map (fun i => c i * j i) l) - D)) by ring.
        eapply Rle_trans; [apply Rabs_triang|]. rewrite Rabs_mult. apply Rplus_le_compat; [|exact D2].
        apply Rmult_le_compat_l; [apply Rabs_pos|exact d2].
Qed.

(** A species of one side of a reaction is absent. *)
Definition absent (y : list R) (l : list (nat * nat)) : Prop :=
  exists s, In s l /\ (0 < snd s)%nat /\ nth (fst s) (all_fractions y) 0 = 0.

(** Neither direction of a reaction runs for lack of a reactant. *)
Definition idle (m : mechanism) (y : list R) (i : nat) : Prop :=
  absent y (rx_lhs (rxn (chem m) i)) /\ (rx_rev (rxn (chem m) i) = true -> absent y (rx_rhs (rxn (chem m) i))).

Lemma absent_product m p y l : absent y l -> conc_product (conc1 m p y) l = 0.
Proof.
  intros (s & I & P & Z). unfold conc_product. induction l as [|x l IH]; [destruct I|].
  cbn [map Rprod]. destruct I as [-> |I]; [|rewrite (IH I); ring].
  destruct (Nat.lt_ge_cases (fst s) (s_NSP (library m))) as [B|B].
  - unfold conc1 at 1. rewrite (nth_map_seq (fun k => rho1 m p y * nth k (all_fractions y) 0 * Q2R (nth k (inverse_weights (library m)) 0%Q))) by exact B.
    rewrite Z, Rmult_0_r, Rmult_0_l, pow_i by exact P. ring.
  - rewrite (nth_overflow (conc1 m p y)) by (unfold conc1; rewrite map_length, seq_length; exact B). rewrite pow_i by exact P. ring.
Qed.

Lemma idle_rates m (p : R) (y : list R) i t :
  length y = (s_NSP (library m) - 1)%nat -> 0 < t -> 0 < p -> (forall k, (k < length y)%nat -> 0 <= nth k y 0) -> Rsum y <= 1 ->
  (i < length (ch_reactions (chem m)))%nat -> idle m y i -> specific_rate m p y i t = 0 /\ gross_rate m p y i t = 0.
Proof.
  intros Ly Ht Hp H1 H2 Hi [I1 I2].
  destruct (rates_at m p y Hp Ly H1 H2 t Ht) as (c & f & r & pm & E1 & _ & E2 & _ & _ & E3 & _ & _ & _ & V).
  destruct (V i Hi) as (VS & _ & _ & _ & Vf & Vr & _).
  assert (F : nth i f 0 = 0) by (eapply eq_trans; [exact Vf|]; rewrite absent_product by exact I1; ring).
  assert (B : (if rx_rev (rxn (chem m) i) then nth (rank rx_rev (ch_reactions (chem m)) i) r 0 else 0) = 0).
  { destruct (rx_rev (rxn (chem m) i)); [|reflexivity]. destruct (Vr eq_refl) as [_ Q]. eapply eq_trans; [exact Q|]. rewrite absent_product by (apply I2; reflexivity). ring. }
  split.
  - rewrite VS. unfold progress. change (@nth (num RA)) with (@nth R) in *. rewrite F, B. unfold Rdiv. ring.
  - unfold gross_rate. rewrite E1, E2, E3. change (@nth (num RA)) with (@nth R) in *. rewrite F, B. unfold Rdiv. ring.
Qed.

(** The contribution of a reaction that does not run. *)
Lemma idle_derive m (p : R) (y : list R) i T :
  length y = (s_NSP (library m) - 1)%nat -> 0 < T -> 0 < p -> (forall k, (k < length y)%nat -> 0 <= nth k y 0) -> Rsum y <= 1 ->
  (i < length (ch_reactions (chem m)))%nat -> idle m y i -> derivable_pt_lim (specific_rate m p y i) T 0.
Proof.
  intros Ly HT Hp H1 H2 Hi I.
  apply (derivable_pt_lim_locally_ext (fun _ => 0) _ T 0 (T + 1)); [lra| |apply derivable_pt_lim_const].
  intros t Ht. symmetry. apply (idle_rates m p y i t); try assumption. lra.
Qed.

Theorem species_derivatives m (T p : R) (y dB0 : list R) :
  length y = (s_NSP (library m) - 1)%nat -> 0 < T -> 0 < p -> (forall k, (k < length y)%nat -> 0 <= nth k y 0) -> Rsum y <= 1 ->
  no_switch m T -> length dB0 = s_NSP (library m) ->
  exists J : list R,
    lib_jacob_T (A := RA) exact_libm (library m) (jac_T m) p (T :: y) (repeat 0 (s_NSP (library m))) dB0 = Ok J /\
    length J = s_NSP (library m) /\
    forall k, (k < s_NSP (library m) - 1)%nat ->
      (forall i, (i < length (ch_reactions (chem m)))%nat -> nu (chem m) i k <> 0 -> rx_kind (rxn (chem m) i) = Falloff -> idle m y i) ->
      exists D : R, derivable_pt_lim (dydt_at m p y (k + 1)) T D /\
        Rabs (nth (k + 1) J 0 - D) <=
        4 * Q2R tolE * W m k / T *
        Rsumn (length (ch_reactions (chem m))) (fun i => Rabs (nu (chem m) i k) * (gross_rate m p y i T * terms_size m T i)).
Proof.
  intros Ly HT Hp H1 H2 HN LB.
  destruct (temperature_column m T p y dB0 Ly HT Hp H1 H2 HN LB) as (J & j & E & L & S & D & F).
  exists J. split; [exact E|]. split; [exact L|]. intros k Hk NF.
  destruct (sum_derive (fun i => nu (chem m) i k) (specific_rate m p y) j
    (fun i => 4 * Q2R tolE * (gross_rate m p y i T / T) * terms_size m T i) T (seq 0 (length (ch_reactions (chem m)))))
    as (D0 & D1 & D2).
  { intros i Hi Hn. apply in_seq in Hi. assert (B : (i < length (ch_reactions (chem m)))%nat) by lia.
    destruct (rx_kind (rxn (chem m) i)) eqn:K; [apply D; [exact B|congruence]..|].
    specialize (NF i B Hn K). destruct (idle_rates m p y i T Ly HT Hp H1 H2 B NF) as [_ G0].
    destruct (F i B K) as [Z _]. exists 0. split; [apply idle_derive; assumption|].
    rewrite (Z G0), G0, Rminus_0_r, Rabs_R0. right. unfold Rdiv. ring. }
  exists (W m k * D0). split.
  - apply (derivable_pt_lim_locally_ext (fun t => W m k * Rsumn (length (ch_reactions (chem m))) (fun i => nu (chem m) i k * specific_rate m p y i t)) _ T 0 (T + 1)).
    + lra.
    + intros t Ht. symmetry. apply dydt_at_sum; try assumption. lra.
    + apply (derivable_pt_lim_scal (fun t => Rsumn (length (ch_reactions (chem m))) (fun i => nu (chem m) i k * specific_rate m p y i t))), D1.
  - rewrite (S k Hk), <- Rmult_minus_distr_l, Rabs_mult. pose proof (W_positive m k ltac:(lia)) as WP.
    rewrite (Rabs_pos_eq (W m k)) by lra.
    apply (Rmult_le_compat_l (W m k)) in D2; [|lra]. eapply Rle_trans; [exact D2|]. right.
    unfold Rsumn. rewrite <- !Rsum_scal. apply Rsum_ext. intros i _. unfold Rdiv. ring.
Qed.
