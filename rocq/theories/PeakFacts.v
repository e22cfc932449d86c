(** Predicted loads after balancing (exact arithmetic); used for C12. *)
From Coq Require Import List Arith ZArith QArith Qabs Qminmax Lqa Lia Bool Permutation Sorted.
From Verif Require Import Outcome Arith Problem LoadBalancing BalancerSpec SweepFacts
  PlanFacts QSum QSweep PlanQ SliceFacts BalancerProofs Comm CommFacts BalanceFacts.
Import ListNotations.
Local Open Scope nat_scope.

(** ** Specification vocabulary *)

(** Total measured time of some problems: their predicted load. *)
Definition load_time {sm gr vg} (ps : list (problem (QA sm gr vg))) : Q :=
  Qsum (map (fun p => p_cpuTime p) ps).

(** ** Proofs *)

Lemma Forall2_map_r {S T U} (R : S -> U -> Prop) (f : T -> U) l l' :
  Forall2 R l (map f l') -> Forall2 (fun a b => R a (f b)) l l'.
Proof.
  revert l. induction l' as [|y l' IH]; intros l H; inversion H; subst; constructor; auto.
Qed.

Section Peak.
  Context (sm gr vg : Q) (Hsm : (0 < sm)%Q).
  Notation AQ := (QA sm gr vg).
  Notation problem := (problem AQ).
  Notation operation := (operation AQ).
  Local Open Scope Q_scope.

  Lemma load_time_app (a b : list problem) : load_time (a ++ b) == load_time a + load_time b.
  Proof. unfold load_time. rewrite map_app. apply Qsum_app. Qed.

  Lemma load_time_concat (l : list (list problem)) :
    load_time (concat l) == Qsumf load_time l.
  Proof.
    induction l; [reflexivity|]. cbn [concat]. rewrite load_time_app, Qsumf_cons, IHl. reflexivity.
  Qed.

  Lemma load_time_nonneg (l : list problem) :
    (forall p, In p l -> 0 <= p_cpuTime p) -> 0 <= load_time l.
  Proof. intros H. apply (Qsumf_nonneg (fun p : problem => p_cpuTime p)). auto. Qed.

  Lemma computeLoad_time i (ps : list problem) : (l_value (computeLoad i ps) : Q) == load_time ps.
  Proof.
    unfold computeLoad. simpl. change (fold_left (fun s (p : problem) => s + p_cpuTime p) ps 0 == load_time ps).
    rewrite fold_left_Qsumf. apply Qplus_0_l.
  Qed.

  Lemma load_time_cons (p : problem) ps :
    load_time (p :: ps) == (p_cpuTime p : Q) + load_time ps.
  Proof. reflexivity. Qed.

  Lemma count_time (t : Q) : forall (ps : list problem) (z : Q), z <= t ->
    z + load_time (firstn (count_while (A := AQ) z t ps) ps) <= t.
  Proof.
    induction ps as [|p ps IH]; intros z Hz; cbn [count_while].
    - cbn [firstn]. unfold load_time. simpl. lra.
    - change (nleb AQ (nadd AQ z (p_cpuTime p)) t) with (Qle_bool (z + (p_cpuTime p : Q)) t).
      destruct (Qle_bool (z + (p_cpuTime p : Q)) t) eqn:E; cbn [firstn].
      + apply Qle_bool_iff in E. specialize (IH _ E).
        change (nadd AQ z (p_cpuTime p)) with (z + (p_cpuTime p : Q)). rewrite load_time_cons. lra.
      + unfold load_time. simpl. lra.
  Qed.

  Lemma cut_times : forall (times : list Q) (ps : list problem),
    (forall t, In t times -> 0 <= t) ->
    Forall2 (fun s t => load_time s <= t)
      (cut (timesToProblemCounts (A := AQ) times ps) ps) times.
  Proof.
    induction times as [|t ts IH]; intros ps H; simpl; constructor.
    - assert (C := count_time t ps 0 (H t (or_introl eq_refl))). simpl in *. lra.
    - apply IH. intros; apply H; right; auto.
  Qed.

  Lemma Forall2_sum {S T} (f : S -> Q) (g : T -> Q) l1 l2 :
    Forall2 (fun a b => f a <= g b) l1 l2 -> Qsumf f l1 <= Qsumf g l2.
  Proof.
    induction 1; [apply Qle_refl|]. rewrite !Qsumf_cons. lra.
  Qed.

  Lemma peak_lemma dbg sortf (probs : list (list problem)) sts
    {K} (enc : list problem -> list K) dec :
    (forall x rest, dec (enc x ++ rest) = Some (x, rest)) ->
    sort_contract sortf -> updateState dbg sortf probs = Ok sts ->
    (forall ps p, In ps probs -> In p ps -> 0 <= p_cpuTime p) ->
    exists guests, balance enc dec true sts probs = Ok guests /\
      length guests = length probs /\
      let m := Qmean (map load_time probs) in
      forall a st ps gs, nth_error sts a = Some st -> nth_error probs a = Some ps ->
        nth_error guests a = Some gs ->
        exists own, getRemaining st ps = Ok own /\
          let after := load_time own + load_time (concat gs) in
          (destinations st <> [] -> m <= after <= load_time ps) /\
          (sources st <> [] -> load_time ps <= after <= m) /\
          (destinations st = [] -> sources st = [] -> after == load_time ps) /\
          exists b ps', nth_error probs b = Some ps' /\ after <= load_time ps'.
  Proof.
    intros HC Hs HU Hnn.
    assert (SP := update_sym _ _ _ _ Hs HU).
    destruct (wellformed_lemma _ _ _ _ Hs HU) as [L _].
    destruct (update_slices dbg sortf probs sts probs Hs HU eq_refl) as (sl & rest & S1 & S2 & S3 & S4).
    destruct (balance_ok enc dec HC true sts probs sl SP (eq_sym L) S1 (or_introl eq_refl))
      as (guests & G1 & G2 & G3).
    exists guests. split; auto. split; [lia|]. intros m a st ps gs Ha Hp Hg.
    assert (Hne : probs <> []) by (intros ->; destruct a; discriminate).
    set (loads := rank_loads probs).
    assert (Hlr : ranks loads = seq 0 (length probs)) by apply ranks_rank_loads.
    assert (Hlne : loads <> []).
    { intros E. apply Hne. assert (LL := rank_loads_length probs). fold loads in LL.
      rewrite E in LL. destruct probs; auto; discriminate. }
    destruct (updateState_spec sortf probs Hs (comparable_Q sm gr vg _) Hne)
      as (P & x & S & g & HR & PKg & PK & U). fold loads in HR, PK, U.
    rewrite U in HU. destruct (dbg && _); [discriminate|]. inversion HU as [Hsts]. clear HU U.
    set (c := (1 # 100) * (getMean loads : Q)).
    set (Kp := filter_large (getMean loads) g) in *.
    assert (EK : Kp = filter (fun op : operation => Qltb c (o_value op)) g) by reflexivity.
    (* means *)
    assert (Lv : Forall2 (fun x y => x == y) (load_values loads) (map load_time probs)).
    { unfold load_values, loads, rank_loads. rewrite map_map. rewrite <- (map_snd_enum probs) at 2.
      rewrite map_map. clear. induction (enum probs); constructor; auto.
      exact (computeLoad_time (fst a) (snd a)). }
    assert (Em : (getMean loads : Q) == m).
    { rewrite getMean_Q. unfold m, Qmean.
      assert (LL := Forall2_len _ _ _ Lv). rewrite LL.
      apply Qmult_comp; [|reflexivity]. clear -Lv. induction Lv; simpl; [reflexivity|]. rewrite H, IHLv. reflexivity. }
    assert (Hm : 0 <= m).
    { apply Qmean_nonneg. intros y Hy. apply in_map_iff in Hy as (ps' & <- & Hin).
      apply load_time_nonneg. intros; eapply Hnn; eauto. }
    assert (Hc : 0 <= c) by (unfold c; rewrite Em; lra).
    assert (Kpos : forall op, In op Kp -> 0 < o_value op).
    { intros op Hop. rewrite EK in Hop. apply filter_In in Hop as [_ Hop].
      apply Qltb_true in Hop. lra. }
    set (la := computeLoad a ps).
    assert (Hla : In la loads).
    { apply (nth_error_In _ a). unfold loads. rewrite nth_error_rank_loads, Hp. reflexivity. }
    destruct (kept_bounds sm gr vg Hsm sortf Hs loads (length probs) Hlr Hlne c P x S g la Hc HR Hla)
      as [B1 B2].
    assert (Ela : qv sm gr vg la == load_time ps) by apply computeLoad_time.
    rewrite Ela, Em in B1, B2. unfold sentK, recvK, vsum in B1, B2.
    change (l_rank la) with a in B1, B2.
    assert (F1 : filter (fun op => from_is a op && keptb sm gr vg c op) g = filter (from_is a) Kp).
    { rewrite EK, filter_filter. apply filter_ext. intros op. apply andb_comm. }
    assert (F2 : filter (fun op => to_is a op && keptb sm gr vg c op) g = filter (to_is a) Kp).
    { rewrite EK, filter_filter. apply filter_ext. intros op. apply andb_comm. }
    rewrite F1 in B1. rewrite F2 in B2.
    (* slices *)
    assert (Hplan : forall b sb psb, nth_error sts b = Some sb -> nth_error probs b = Some psb ->
              sb = plan_of Kp b psb).
    { intros b sb psb Hb Hpb. rewrite <- Hsts in Hb. apply plan_of_nth in Hb as (ps' & E1 & ->).
      rewrite E1 in Hpb. injection Hpb as ->. reflexivity. }
    clear Hsts.
    assert (Slb : forall b sb psb, nth_error sts b = Some sb -> nth_error probs b = Some psb ->
              nth_error sl b = Some (cut (nProblems sb) psb) /\
              Forall2 (fun s (op : operation) => load_time s <= o_value op)
                (cut (nProblems sb) psb) (filter (from_is b) Kp)).
    { intros b sb psb Hb Hpb. assert (E := Hplan _ _ _ Hb Hpb).
      assert (Hcb : nth_error (combine sts probs) b = Some (sb, psb))
        by (rewrite nth_error_combine, Hb, Hpb; auto).
      destruct (Forall2_nth_error _ _ _ S1 b _ Hcb) as (s & E1 & E1').
      assert (LD : length (destinations sb) = length (nProblems sb)).
      { rewrite E. simpl. rewrite counts_length, !map_length. auto. }
      rewrite LD, mapM_sendbuffer in E1' by (rewrite E; simpl; apply counts_le).
      inversion E1'; subst s. split; auto.
      rewrite E. simpl.
      assert (CT := cut_times (map (fun op : operation => o_value op) (filter (from_is b) Kp)) psb).
      assert (Hpos : forall t, In t (map (fun op : operation => o_value op) (filter (from_is b) Kp)) -> 0 <= t).
      { intros t Ht. apply in_map_iff in Ht as (op & <- & Ht). apply filter_In in Ht as [Ht _].
        apply Qlt_le_weak. auto. }
      specialize (CT Hpos).
      apply (Forall2_map_r (fun s t => load_time s <= t) (fun op : operation => o_value op : Q)).
      exact CT. }
    destruct (Slb _ _ _ Ha Hp) as [Sa1 Sa2].
    assert (Hca : nth_error (combine sts probs) a = Some (st, ps))
      by (rewrite nth_error_combine, Ha, Hp; auto).
    destruct (Forall2_nth_error _ _ _ S2 a _ Hca) as (own & O1 & O2).
    destruct (Forall2_nth_error _ _ _ S3 a _ Hp) as ([s' r'] & E3 & E3').
    rewrite nth_error_combine, Sa1, O1 in E3. inversion E3; subst s' r'. clear E3.
    exists own. split; auto. intros after.
    (* sent *)
    assert (Sent : Qsumf load_time (cut (nProblems st) ps) <= Qsumf (qo sm gr vg) (filter (from_is a) Kp)).
    { apply Forall2_sum. exact Sa2. }
    assert (Sent0 : 0 <= Qsumf load_time (cut (nProblems st) ps)).
    { rewrite <- load_time_concat. apply load_time_nonneg. intros p Hin.
      apply (Hnn ps p); [eapply nth_error_In; eauto|]. rewrite <- E3'. apply in_app_iff; auto. }
    assert (Split : load_time ps == Qsumf load_time (cut (nProblems st) ps) + load_time own).
    { rewrite <- load_time_concat, <- load_time_app, E3'. reflexivity. }
    (* received *)
    assert (Eg : nth a guests [] = gs) by (apply nth_error_nth; auto).
    assert (Est := Hplan _ _ _ Ha Hp).
    assert (Recv : Forall2 (fun v (op : operation) => load_time v <= o_value op) gs (filter (to_is a) Kp)).
    { specialize (G3 a). rewrite Eg, (nth_map_sources _ _ _ Ha) in G3.
      rewrite Est in G3. simpl in G3.
      assert (Sub : forall op, In op (filter (to_is a) Kp) -> In op Kp /\ o_to op = a).
      { intros op Hop. apply filter_In in Hop as [H1 H2]. split; auto. apply Nat.eqb_eq in H2. auto. }
      revert G3 Sub. clear Eg Hg. generalize (filter (to_is a) Kp). intros ops. revert gs after.
      induction ops as [|op ops IH]; intros gs after F Sub; inversion F; subst; constructor.
      - destruct (Sub op (or_introl eq_refl)) as [Hin Hto].
        destruct H1 as (i & I1 & I2).
        set (s := o_from op) in *.
        assert (Hs1 : (s < length sts)%nat).
        { rewrite L. apply (pk_range _ _ PK op Hin). }
        destruct (nth_error sts s) as [ss|] eqn:Es; [|apply nth_error_None in Es; lia].
        destruct (nth_error probs s) as [pss|] eqn:Eps; [|apply nth_error_None in Eps; lia].
        destruct (Slb _ _ _ Es Eps) as [Q1 Q2].
        rewrite (nth_map_dests _ _ _ Es) in I1.
        rewrite (nth_error_nth _ _ _ Q1) in I2.
        destruct (Forall2_nth_error _ _ _ Q2 i _ I2) as (op' & R1 & R2).
        assert (Hop' : In op' (filter (from_is s) Kp)) by (eapply nth_error_In; eauto).
        apply filter_In in Hop' as [Hin' Hfr]. apply Nat.eqb_eq in Hfr.
        assert (Hto' : o_to op' = a).
        { rewrite (Hplan _ _ _ Es Eps) in I1. cbn [destinations plan_of] in I1.
          rewrite nth_error_map, R1 in I1. simpl in I1. congruence. }
        assert (op' = op).
        { assert (ND := pk_nodup _ _ PK). clear -ND Hin Hin' Hto Hto' Hfr.
          revert ND Hin Hin'. generalize Kp. intros l. induction l as [|z l IH]; simpl; [tauto|].
          intros ND H1 H2. inversion ND as [|? ? N1 N2]; subst.
          assert (Pr : (o_from op', o_to op') = (o_from op, o_to op)).
          { rewrite Hto'. f_equal; auto. }
          destruct H1 as [->|H1], H2 as [->|H2]; auto.
          - exfalso. apply N1. rewrite <- Pr. apply (in_map (fun op : operation => (o_from op, o_to op))). auto.
          - exfalso. apply N1. rewrite Pr. apply (in_map (fun op : operation => (o_from op, o_to op))). auto. }
        subst op'. exact R2.
      - apply IH; auto. intros; apply Sub; right; auto. }
    assert (RecvS : Qsumf load_time gs <= Qsumf (qo sm gr vg) (filter (to_is a) Kp)).
    { apply Forall2_sum. exact Recv. }
    assert (Recv0 : 0 <= Qsumf load_time gs).
    { apply Qsumf_nonneg. intros v Hv. apply load_time_nonneg. intros p Hin.
      apply In_nth_error in Hv as [j Hj].
      specialize (G3 a). rewrite Eg in G3.
      destruct (Forall2_nth_error_r _ _ _ G3 j _ Hj) as (s & X1 & (i & I1 & I2)).
      destruct (nth_error sl s) as [sls|] eqn:Es; [|rewrite nth_overflow in I2 by (apply nth_error_None; auto); destruct i; discriminate].
      assert (Hin2 : In p (concat sls)).
      { apply in_concat. exists v. split; auto. rewrite (nth_error_nth _ _ _ Es) in I2.
        eapply nth_error_In; eauto. }
      assert (Lrest : length rest = length sl).
      { apply Forall2_len in S1. apply Forall2_len in S2. congruence. }
      destruct (nth_error rest s) as [rs|] eqn:Er.
      2:{ apply nth_error_None in Er. assert ((s < length sl)%nat) by (apply nth_error_Some; congruence). lia. }
      assert (Hcs : nth_error (combine sl rest) s = Some (sls, rs)) by (rewrite nth_error_combine, Es, Er; auto).
      destruct (Forall2_nth_error_r _ _ _ S3 s _ Hcs) as (pss & Y1 & Y2).
      apply (Hnn pss p); [eapply nth_error_In; eauto|]. rewrite <- Y2. apply in_app_iff. auto. }
    assert (Af : after == load_time own + Qsumf load_time gs).
    { unfold after. rewrite load_time_concat. reflexivity. }
    (* roles *)
    assert (Dst : destinations st <> [] -> filter (to_is a) Kp = [] /\
              0 < Qsumf (qo sm gr vg) (filter (from_is a) Kp)).
    { intros Hd. rewrite Est in Hd. simpl in Hd.
      destruct (filter (from_is a) Kp) as [|op l] eqn:F; [simpl in Hd; congruence|].
      assert (Hop : In op Kp /\ o_from op = a).
      { assert (In op (filter (from_is a) Kp)) by (rewrite F; left; auto).
        apply filter_In in H as [? H]. apply Nat.eqb_eq in H. auto. }
      split.
      - apply filter_none. intros o Ho. apply Nat.eqb_neq. intros E.
        apply (pk_roles _ _ PK op o); [apply Hop|auto|]. destruct Hop; congruence.
      - rewrite <- F. apply Qsumf_strict; [|rewrite F; discriminate].
        intros o Ho. apply filter_In in Ho as [Ho _]. apply Kpos; auto. }
    assert (Src : sources st <> [] -> filter (from_is a) Kp = [] /\
              0 < Qsumf (qo sm gr vg) (filter (to_is a) Kp)).
    { intros Hd. rewrite Est in Hd. simpl in Hd.
      destruct (filter (to_is a) Kp) as [|op l] eqn:F; [simpl in Hd; congruence|].
      assert (Hop : In op Kp /\ o_to op = a).
      { assert (In op (filter (to_is a) Kp)) by (rewrite F; left; auto).
        apply filter_In in H as [? H]. apply Nat.eqb_eq in H. auto. }
      split.
      - apply filter_none. intros o Ho. apply Nat.eqb_neq. intros E.
        apply (pk_roles _ _ PK o op); [auto|apply Hop|]. destruct Hop; congruence.
      - rewrite <- F. apply Qsumf_strict; [|rewrite F; discriminate].
        intros o Ho. apply filter_In in Ho as [Ho _]. apply Kpos; auto. }
    assert (Z0 : forall l : list operation, l = [] -> Qsumf (qo sm gr vg) l == 0)
      by (intros ? ->; reflexivity).
    assert (C1 : destinations st <> [] -> m <= after <= load_time ps).
    { intros Hd. destruct (Dst Hd) as [D1 D2]. apply Z0 in D1.
      destruct (Q.max_spec 0 (load_time ps - m)) as [[Y1 Y2]|[Y1 Y2]]; rewrite Y2 in B1; split; lra. }
    assert (C2 : sources st <> [] -> load_time ps <= after <= m).
    { intros Hd. destruct (Src Hd) as [D1 D2]. apply Z0 in D1.
      destruct (Q.max_spec 0 (m - load_time ps)) as [[Y1 Y2]|[Y1 Y2]]; rewrite Y2 in B2; split; lra. }
    assert (C3 : destinations st = [] -> sources st = [] -> after == load_time ps).
    { intros Hd Hsr. rewrite Est in Hd, Hsr. simpl in Hd, Hsr.
      apply map_eq_nil in Hd. apply map_eq_nil in Hsr. apply Z0 in Hd. apply Z0 in Hsr. lra. }
    split; auto. split; auto. split; auto.
    (* the maximum is at least the mean *)
    assert (Max : exists b ps', nth_error probs b = Some ps' /\ m <= load_time ps').
    { assert (G : forall l : list Q, l <> [] -> exists y, In y l /\ Qmean l <= y).
      { clear. intros l Hl. 
        assert (M : exists y, In y l /\ forall z, In z l -> z <= y).
        { induction l as [|z l IH]; [congruence|]. destruct l as [|z' l].
          - exists z. split; [left; auto|]. intros w [->|[]]. apply Qle_refl.
          - destruct IH as (y & Y1 & Y2); [discriminate|].
            destruct (Qlt_le_dec z y).
            + exists y. split; [right; auto|]. intros w [->|Hw]; [lra|auto].
            + exists z. split; [left; auto|]. intros w [->|Hw]; [lra|]. specialize (Y2 w Hw). lra. }
        destruct M as (y & Y1 & Y2). exists y. split; auto.
        unfold Qmean. apply Qle_shift_div_r.
        { apply inject_nat_pos. destruct l; [congruence|simpl; lia]. }
        rewrite Qmult_comm, <- (Qsumf_const y l).
        assert (Qsumf (fun w => w) l <= Qsumf (fun _ => y) l) by (apply Qsumf_le; auto).
        unfold Qsumf in *. rewrite map_id in H. exact H. }
      destruct (G (map load_time probs)) as (y & Y1 & Y2).
      { destruct probs; [congruence|discriminate]. }
      apply in_map_iff in Y1 as (ps' & <- & Hin). apply In_nth_error in Hin as [b Hb].
      exists b, ps'. auto. }
    destruct (destinations st) eqn:Ed.
    - destruct (sources st) eqn:Es.
      + exists a, ps. split; auto. rewrite (C3 eq_refl eq_refl). apply Qle_refl.
      + destruct Max as (b & ps' & M1 & M2). exists b, ps'. split; auto.
        assert (n :: l <> []) by discriminate. specialize (C2 H). lra.
    - exists a, ps. split; auto. assert (n :: l <> []) by discriminate. specialize (C1 H). lra.
  Qed.
End Peak.
