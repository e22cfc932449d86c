(** balance and unbalance under a plan computed by updateState. *)
From Coq Require Import List Arith Bool ZArith Lia.
From Verif Require Import Outcome Arith Problem LoadBalancing BalancerSpec PlanFacts SliceFacts
  BalancerProofs Comm CommFacts.
Import ListNotations.
Local Open Scope nat_scope.

Lemma nth_map_sources (sts : list bstate) p st :
  nth_error sts p = Some st -> nth p (map sources sts) [] = sources st.
Proof. intros H. apply nth_error_nth. rewrite nth_error_map, H. auto. Qed.

Lemma nth_map_dests (sts : list bstate) p st :
  nth_error sts p = Some st -> nth p (map destinations sts) [] = destinations st.
Proof. intros H. apply nth_error_nth. rewrite nth_error_map, H. auto. Qed.

Lemma occ_in b l : In b l <-> 0 < occurrences b l.
Proof. apply (count_occ_In Nat.eq_dec). Qed.

Lemma update_sym {A} dbg sortf (probs : list (list (problem A))) sts :
  sort_contract sortf -> updateState dbg sortf probs = Ok sts ->
  sym_plan (map sources sts) (map destinations sts).
Proof.
  intros Hs H. destruct (wellformed_lemma _ _ _ _ Hs H) as [L W].
  assert (Sy := fun a b sa sb => symmetry_lemma dbg sortf probs sts a b sa sb Hs H).
  assert (Pr : forall a sa, nth_error sts a = Some sa -> exists ps, nth_error probs a = Some ps).
  { intros a sa Ha. destruct (nth_error probs a) eqn:E; eauto.
    apply nth_error_None in E. assert (nth_error sts a <> None) by congruence.
    apply nth_error_Some in H0. lia. }
  assert (Out : forall q, nth_error sts q = None ->
            nth q (map sources sts) [] = [] /\ nth q (map destinations sts) [] = []).
  { intros q E. apply nth_error_None in E. rewrite !nth_overflow; rewrite ?map_length; auto. }
  split.
  - rewrite !map_length. auto.
  - intros q s Hin. rewrite map_length, L. destruct (nth_error sts q) as [sq|] eqn:E.
    + rewrite (nth_map_sources _ _ _ E) in Hin. destruct (Pr _ _ E) as (ps & Hp).
      apply (W q sq ps E Hp). auto.
    + destruct (Out _ E) as [E1 E2]. rewrite E1 in Hin. contradiction.
  - intros q s Hin. rewrite map_length, L. destruct (nth_error sts q) as [sq|] eqn:E.
    + rewrite (nth_map_dests _ _ _ E) in Hin. destruct (Pr _ _ E) as (ps & Hp).
      apply (W q sq ps E Hp). auto.
    + destruct (Out _ E) as [E1 E2]. rewrite E2 in Hin. contradiction.
  - intros q. destruct (nth_error sts q) as [sq|] eqn:E.
    + rewrite (nth_map_sources _ _ _ E). destruct (Pr _ _ E) as (ps & Hp).
      apply (W q sq ps E Hp).
    + destruct (Out _ E) as [-> _]. constructor.
  - intros q. destruct (nth_error sts q) as [sq|] eqn:E.
    + rewrite (nth_map_dests _ _ _ E). destruct (Pr _ _ E) as (ps & Hp).
      apply (W q sq ps E Hp).
    + destruct (Out _ E) as [_ ->]. constructor.
  - intros p q.
    destruct (nth_error sts p) as [sp|] eqn:Ep, (nth_error sts q) as [sq|] eqn:Eq.
    + rewrite (nth_map_dests _ _ _ Ep), (nth_map_sources _ _ _ Eq).
      rewrite !occ_in. destruct (Sy p q sp sq Ep Eq) as [-> _]. tauto.
    + rewrite (nth_map_dests _ _ _ Ep). destruct (Out _ Eq) as [-> _].
      destruct (Pr _ _ Ep) as (ps & Hp). split; [|intros []].
      intros Hin. destruct (W p sp ps Ep Hp) as (B & _).
      destruct (B q (or_introl Hin)). apply nth_error_None in Eq. lia.
    + rewrite (nth_map_sources _ _ _ Eq). destruct (Out _ Ep) as [_ ->].
      destruct (Pr _ _ Eq) as (ps & Hp). split; [intros []|].
      intros Hin. destruct (W q sq ps Eq Hp) as (B & _).
      destruct (B p (or_intror Hin)). apply nth_error_None in Ep. lia.
    + destruct (Out _ Ep) as [_ ->]. destruct (Out _ Eq) as [-> _]. tauto.
Qed.

Lemma update_serial {A} dbg sortf (probs : list (list (problem A))) sts :
  sort_contract sortf -> updateState dbg sortf probs = Ok sts -> length probs <= 1 ->
  forall st, In st sts -> sources st = [] /\ destinations st = [].
Proof.
  intros Hs H Hn st Hin. destruct (wellformed_lemma _ _ _ _ Hs H) as [L W].
  apply In_nth_error in Hin as (a & Ha).
  assert (Hp : exists ps, nth_error probs a = Some ps).
  { destruct (nth_error probs a) eqn:E; eauto.
    apply nth_error_None in E. assert (nth_error sts a <> None) by congruence.
    apply nth_error_Some in H0. lia. }
  destruct Hp as (ps & Hp). destruct (W a st ps Ha Hp) as (B & _).
  assert (a < length probs) by (apply nth_error_Some; congruence).
  split.
  - destruct (sources st) as [|b l] eqn:E; auto.
    destruct (B b (or_intror (or_introl eq_refl))). lia.
  - destruct (destinations st) as [|b l] eqn:E; auto.
    destruct (B b (or_introl (or_introl eq_refl))). lia.
Qed.

Section Ex.
  Context {T K : Type}.
  Variable encl : list T -> list K.
  Variable decl : list K -> option (list T * list K).
  Hypothesis Hcodec : forall x rest, decl (encl x ++ rest) = Some (x, rest).

  (** [exchange] on a symmetric plan whose send buffers are [bufs]. *)
  Lemma exchange_ok par (args : list ((nat -> outcome (list T)) * list nat * list nat)) bufs :
    sym_plan (map (fun '(_, s, _) => s) args) (map (fun '(_, _, d) => d) args) ->
    Forall2 (fun '(buf, _, dests) b => length b = length dests /\
               forall i v, nth_error b i = Some v -> buf i = Ok v) args bufs ->
    par = true \/ (forall q, nth q (map (fun '(_, s, _) => s) args) [] = []) ->
    exists res, exchange encl decl par args = Ok res /\ length res = length args /\
      forall q, Forall2 (fun s v => slot (map (fun '(_, _, d) => d) args) bufs s q v)
                  (nth q (map (fun '(_, s, _) => s) args) []) (nth q res []).
  Proof.
    intros SP HB Hpar.
    set (srcs := map (fun '(_, s, _) => s) args) in *.
    set (dests := map (fun '(_, _, d) => d) args) in *.
    assert (HL : map (@length _) bufs = map (@length _) dests).
    { unfold dests. clear -HB. induction HB as [|[[buf s] d] b args bufs [H _] HB IH]; simpl; auto.
      rewrite H, IH. auto. }
    destruct (sendRecv_sym encl decl Hcodec par srcs dests bufs SP HL Hpar)
      as (res & R1 & R2 & R3).
    exists res. split; [|split; auto; rewrite R2; unfold srcs; apply map_length].
    unfold exchange. fold srcs. destruct par.
    - assert (E : mapM (fun '(buf, _, d) => outbox_of buf d) args
                  = Ok (map (fun db => combine (fst db) (snd db)) (combine dests bufs))).
      { unfold dests. clear -HB.
        induction HB as [|[[buf s] d] b args bufs [H1 H2] HB IH]; simpl; auto.
        rewrite (outbox_of_ok buf d b H1 H2). simpl. rewrite IH. reflexivity. }
      rewrite E. simpl. exact R1.
    - simpl. simpl in R1. rewrite <- R1. reflexivity.
  Qed.
End Ex.

Section Balance.
  Context {T K : Type}.
  Variable encl : list T -> list K.
  Variable decl : list K -> option (list T * list K).
  Hypothesis Hcodec : forall x rest, decl (encl x ++ rest) = Some (x, rest).

  (** The slices of each rank's values, as [SendBuffer] gives them. *)
  Definition slices_ok (sts : list bstate) (values : list (list T)) (sl : list (list (list T))) :=
    Forall2 (fun '(st, vs) b =>
      mapM (sendbuffer_at vs (nProblems st)) (seq 0 (length (destinations st))) = Ok b)
      (combine sts values) sl.

  Lemma map_combine_l {S V} (f : S -> V) (l : list S) {W} (l' : list W) :
    length l = length l' -> map (fun '(s, _) => f s) (combine l l') = map f l.
  Proof.
    revert l'. induction l; intros [|]; simpl; intros; auto; try discriminate. f_equal. auto.
  Qed.

  Lemma balance_ok par sts values sl :
    sym_plan (map sources sts) (map destinations sts) ->
    length values = length sts -> slices_ok sts values sl ->
    par = true \/ (forall st, In st sts -> sources st = []) ->
    exists res, balance encl decl par sts values = Ok res /\ length res = length sts /\
      forall q, Forall2 (fun s v => slot (map destinations sts) sl s q v)
                  (nth q (map sources sts) []) (nth q res []).
  Proof.
    intros SP L HS Hpar. unfold balance.
    set (args := map _ (combine sts values)).
    assert (E1 : map (fun '(_, s, _) => s) args = map sources sts).
    { unfold args. rewrite map_map. rewrite <- (map_combine_l sources sts values) by auto.
      apply map_ext. intros [st vs]. reflexivity. }
    assert (E2 : map (fun '(_, _, d) => d) args = map destinations sts).
    { unfold args. rewrite map_map. rewrite <- (map_combine_l destinations sts values) by auto.
      apply map_ext. intros [st vs]. reflexivity. }
    assert (LA : length args = length sts).
    { unfold args. rewrite map_length, combine_length. lia. }
    rewrite <- LA, <- E1, <- E2. apply exchange_ok; auto.
    - rewrite E1, E2. auto.
    - unfold args. unfold slices_ok in HS. clear -HS.
      induction HS as [|[st vs] b l sl H HS IH]; simpl; constructor; auto.
      assert (Lb := mapM_length _ _ _ H). rewrite seq_length in Lb. split; auto.
      intros i v Hv. apply mapM_ok in H.
      assert (Hi : i < length (destinations st))
        by (rewrite <- Lb; apply nth_error_Some; congruence).
      clear -H Hv Hi. assert (G : forall k l (b : list (list T)),
        Forall2 (fun a b => sendbuffer_at vs (nProblems st) a = Ok b) (seq k l) b ->
        forall i v, nth_error b i = Some v -> sendbuffer_at vs (nProblems st) (k + i) = Ok v).
      { intros k l. revert k. induction l; intros k b0 F i0 v0 E; simpl in F; inversion F; subst;
          [destruct i0; discriminate|].
        destruct i0; simpl in E.
        - rewrite Nat.add_0_r. congruence.
        - replace (k + S i0) with (S k + i0) by lia. eauto. }
      apply (G 0 _ _ H i v Hv).
    - destruct Hpar as [Hpar|Hpar]; auto. right. intros q. rewrite E1.
      destruct (nth_error sts q) as [st|] eqn:Eq.
      + rewrite (nth_map_sources _ _ _ Eq). apply Hpar. eapply nth_error_In; eauto.
      + apply nth_overflow. rewrite map_length. apply nth_error_None. auto.
  Qed.

  Lemma unbalance_ok par sts (values : list (list (list T))) :
    sym_plan (map sources sts) (map destinations sts) ->
    map (@length _) values = map (fun st => length (sources st)) sts ->
    par = true \/ (forall st, In st sts -> destinations st = []) ->
    exists res, unbalance encl decl par sts values = Ok res /\ length res = length sts /\
      forall p, Forall2 (fun d v => slot (map sources sts) values d p v)
                  (nth p (map destinations sts) []) (nth p res []).
  Proof.
    intros SP HL Hpar. unfold unbalance.
    assert (L : length values = length sts).
    { rewrite <- (map_length (@length _) values), HL, map_length. auto. }
    set (args := map _ (combine sts values)).
    assert (E1 : map (fun '(_, s, _) => s) args = map destinations sts).
    { unfold args. rewrite map_map. rewrite <- (map_combine_l destinations sts values) by auto.
      apply map_ext. intros [st vs]. reflexivity. }
    assert (E2 : map (fun '(_, _, d) => d) args = map sources sts).
    { unfold args. rewrite map_map. rewrite <- (map_combine_l sources sts values) by auto.
      apply map_ext. intros [st vs]. reflexivity. }
    assert (LA : length args = length sts).
    { unfold args. rewrite map_length, combine_length. lia. }
    rewrite <- LA, <- E1, <- E2. apply exchange_ok; auto.
    - rewrite E1, E2. apply sym_plan_flip. auto.
    - unfold args. clear -HL. revert values HL.
      induction sts as [|st sts IH]; intros [|v values] HL; simpl in *; try discriminate;
        constructor.
      + inversion HL. split; auto. intros i w Hw. unfold idx. rewrite Hw. auto.
      + apply IH. inversion HL. auto.
    - destruct Hpar as [Hpar|Hpar]; auto. right. intros q. rewrite E1.
      destruct (nth_error sts q) as [st|] eqn:Eq.
      + rewrite (nth_map_dests _ _ _ Eq). apply Hpar. eapply nth_error_In; eauto.
      + apply nth_overflow. rewrite map_length. apply nth_error_None. auto.
  Qed.
End Balance.

(** The slices under a plan of updateState exist, for any values of the same lengths. *)
Lemma update_slices {A T} dbg sortf (probs : list (list (problem A))) sts (values : list (list T)) :
  sort_contract sortf -> updateState dbg sortf probs = Ok sts ->
  map (@length _) values = map (@length _) probs ->
  exists sl rest, slices_ok sts values sl /\
    Forall2 (fun '(st, vs) r => getRemaining st vs = Ok r) (combine sts values) rest /\
    Forall2 (fun vs '(s, r) => concat s ++ r = vs) values (combine sl rest) /\
    map (fun b => map (@length _) b) sl = map nProblems sts.
Proof.
  intros Hs H HL. destruct (wellformed_lemma _ _ _ _ Hs H) as [L _].
  assert (LV : length values = length probs).
  { rewrite <- (map_length (@length _) values), HL, map_length. auto. }
  assert (Pl := fun a sa ps vs => @partition_lemma A dbg sortf probs sts a sa ps T vs Hs H).
  assert (G : forall a st vs, nth_error sts a = Some st -> nth_error values a = Some vs ->
    exists slices rest,
      mapM (sendbuffer_at vs (nProblems st)) (seq 0 (length (destinations st))) = Ok slices /\
      getRemaining st vs = Ok rest /\ map (@length T) slices = nProblems st /\
      concat slices ++ rest = vs).
  { intros a st vs Ha Hv. destruct (nth_error probs a) as [ps|] eqn:Ep.
    - apply (Pl a st ps vs Ha Ep).
      assert (E : nth_error (map (@length _) values) a = nth_error (map (@length _) probs) a)
        by (rewrite HL; auto).
      rewrite !nth_error_map, Hv, Ep in E. simpl in E. congruence.
    - apply nth_error_None in Ep. assert (nth_error sts a <> None) by congruence.
      apply nth_error_Some in H0. lia. }
  clear -G L LV. assert (LS : length sts = length values) by lia. clear L LV.
  unfold slices_ok.
  revert values LS G. induction sts as [|st sts IH]; intros [|vs values] LS G; simpl in LS;
    try discriminate.
  - exists [], []. repeat constructor.
  - destruct (G 0 st vs eq_refl eq_refl) as (s & r & G1 & G2 & G3 & G4).
    destruct (IH values) as (sl & rest & I1 & I2 & I3 & I4); [lia|intros a; apply (G (S a))|].
    exists (s :: sl), (r :: rest). simpl. repeat split; try constructor; auto. congruence.
Qed.

Lemma Forall2_nth_error {S T} (R : S -> T -> Prop) l1 l2 :
  Forall2 R l1 l2 -> forall i a, nth_error l1 i = Some a ->
  exists b, nth_error l2 i = Some b /\ R a b.
Proof.
  induction 1; intros [|i] x0 Hx; simpl in *; try discriminate.
  - inversion Hx; subst. eauto.
  - eauto.
Qed.

Lemma Forall2_nth_error_r {S T} (R : S -> T -> Prop) l1 l2 :
  Forall2 R l1 l2 -> forall i b, nth_error l2 i = Some b ->
  exists a, nth_error l1 i = Some a /\ R a b.
Proof.
  induction 1; intros [|i] x0 Hx; simpl in *; try discriminate.
  - inversion Hx; subst. eauto.
  - eauto.
Qed.

(** Where a slice goes and where its answer comes from. *)
Lemma roundtrip {T S} srcs dests (sl guests : list (list T)) (sols back : list (list S)) :
  sym_plan srcs dests ->
  (forall q, Forall2 (fun s v => slot dests sl s q v) (nth q srcs []) (nth q guests [])) ->
  (forall p, Forall2 (fun d w => slot srcs sols d p w) (nth p dests []) (nth p back [])) ->
  forall p i d, nth_error (nth p dests []) i = Some d ->
    exists j v w, nth_error (nth d srcs []) j = Some p /\
      nth_error (nth p sl []) i = Some v /\ nth_error (nth d guests []) j = Some v /\
      nth_error (nth d sols []) j = Some w /\ nth_error (nth p back []) i = Some w.
Proof.
  intros SP HG HB p i d Hd.
  destruct (Forall2_nth_error _ _ _ (HB p) i d Hd) as (w & W1 & (j & J1 & J2)).
  destruct (Forall2_nth_error _ _ _ (HG d) j p J1) as (v & V1 & (i' & I1 & I2)).
  assert (i' = i).
  { assert (ND := sp_nodst _ _ SP p). rewrite NoDup_nth_error in ND. apply ND; [|congruence].
    apply nth_error_Some. congruence. }
  subst i'. exists j, v, w. auto.
Qed.

Lemma nth_enum_map {T S} (F : nat -> T -> S) (l : list T) q d d' :
  q < length l ->
  nth q (map (fun '(i, x) => F i x) (enum l)) d' = F q (nth q l d).
Proof.
  intros H. apply nth_error_nth. rewrite nth_error_map, nth_error_enum.
  rewrite (nth_error_nth' l d H). reflexivity.
Qed.

Lemma return_lemma {A T S K} (encT : list T -> list K) decT (encS : list S -> list K) decS
  (f : nat -> T -> S) par dbg sortf (probs : list (list (problem A))) sts (values : list (list T)) :
  (forall x rest, decT (encT x ++ rest) = Some (x, rest)) ->
  (forall x rest, decS (encS x ++ rest) = Some (x, rest)) ->
  sort_contract sortf -> updateState dbg sortf probs = Ok sts ->
  par = true \/ length probs <= 1 ->
  map (@length _) values = map (@length _) probs ->
  exists guests back,
    balance encT decT par sts values = Ok guests /\
    unbalance encS decS par sts (map (fun '(q, g) => map (map (f q)) g) (enum guests)) = Ok back /\
    length back = length probs /\
    forall p st vs, nth_error sts p = Some st -> nth_error values p = Some vs ->
      exists sl r,
        mapM (sendbuffer_at vs (nProblems st)) (seq 0 (length (destinations st))) = Ok sl /\
        getRemaining st vs = Ok r /\ concat sl ++ r = vs /\
        nth_error back p =
          Some (map (fun '(d, s) => map (f d) s) (combine (destinations st) sl)).
Proof.
  intros CT CS Hs HU Hpar HL.
  assert (SP := update_sym _ _ _ _ Hs HU).
  destruct (wellformed_lemma _ _ _ _ Hs HU) as [L _].
  assert (LV : length values = length sts).
  { rewrite L. rewrite <- (map_length (@length _) values), HL, map_length. auto. }
  destruct (update_slices dbg sortf probs sts values Hs HU HL) as (sl & rest & S1 & S2 & S3 & S4).
  assert (Ser : length probs <= 1 -> forall st, In st sts -> sources st = [] /\ destinations st = [])
    by (intros; eapply update_serial; eauto).
  destruct (balance_ok encT decT CT par sts values sl SP LV S1) as (guests & G1 & G2 & G3).
  { destruct Hpar as [|Hp]; auto. right. intros. apply Ser; auto. }
  set (sols := map (fun '(q, g) => map (map (f q)) g) (enum guests)).
  assert (LS : length sols = length sts).
  { unfold sols. rewrite map_length, enum_length. auto. }
  assert (Nsols : forall q, q < length sts -> nth q sols [] = map (map (f q)) (nth q guests [])).
  { intros q Hq. unfold sols. rewrite (nth_enum_map (fun q g => map (map (f q)) g) guests q []).
    - reflexivity.
    - lia. }
  destruct (unbalance_ok encS decS CS par sts sols SP) as (back & B1 & B2 & B3).
  { apply nth_error_ext. intros q. rewrite !nth_error_map.
    destruct (nth_error sts q) as [st|] eqn:Eq.
    - assert (Hq : q < length sts) by (apply nth_error_Some; congruence).
      assert (Hq' : q < length sols) by lia.
      rewrite (nth_error_nth' sols [] Hq'). simpl. f_equal.
      rewrite Nsols, map_length by auto. specialize (G3 q).
      rewrite (nth_map_sources _ _ _ Eq) in G3. apply Forall2_len in G3. auto.
    - apply nth_error_None in Eq. rewrite (proj2 (nth_error_None sols q)) by lia. auto. }
  { destruct Hpar as [|Hp]; auto. right. intros. apply Ser; auto. }
  exists guests, back. split; auto. split; auto. split; [lia|].
  intros p st vs Hp Hv.
  assert (Hpl : p < length sts) by (apply nth_error_Some; congruence).
  assert (Hc : nth_error (combine sts values) p = Some (st, vs)).
  { rewrite nth_error_combine, Hp, Hv. auto. }
  destruct (Forall2_nth_error _ _ _ S1 p _ Hc) as (s & E1 & E1').
  destruct (Forall2_nth_error _ _ _ S2 p _ Hc) as (r & E2 & E2').
  destruct (Forall2_nth_error _ _ _ S3 p _ Hv) as ([s' r'] & E3 & E3').
  rewrite nth_error_combine, E1, E2 in E3. inversion E3; subst s' r'.
  exists s, r. split; auto. split; auto. split; auto.
  assert (Hpb : p < length back) by lia.
  rewrite (nth_error_nth' back [] Hpb). f_equal.
  assert (Ls := mapM_length _ _ _ E1'). rewrite seq_length in Ls.
  assert (RT := roundtrip _ _ sl guests sols back SP G3 B3 p).
  rewrite (nth_map_dests _ _ _ Hp), (nth_error_nth _ _ _ E1) in RT.
  assert (LB : length (nth p back []) = length (destinations st)).
  { specialize (B3 p). rewrite (nth_map_dests _ _ _ Hp) in B3. apply Forall2_len in B3. auto. }
  apply nth_error_ext. intros i. rewrite nth_error_map, nth_error_combine.
  destruct (nth_error (destinations st) i) as [d|] eqn:Ed.
  - destruct (RT i d Ed) as (j & v & w & R1 & R2 & R3 & R4 & R5).
    rewrite R2, R5. simpl. f_equal.
    assert (Hd : d < length sts).
    { assert (B := sp_dst _ _ SP p d). rewrite map_length in B. apply B.
      rewrite (nth_map_dests _ _ _ Hp). eapply nth_error_In; eauto. }
    rewrite Nsols in R4 by auto. rewrite nth_error_map, R3 in R4. simpl in R4. congruence.
  - apply nth_error_None in Ed. simpl. apply nth_error_None. lia.
Qed.

(** The concurrent exchange under a plan of updateState. *)
Lemma plan_exchange_lemma {A T K} (enc : list T -> list K) dec eager
  dbg sortf (probs : list (list (problem A))) sts (bufs : list (list (list T))) :
  (forall x rest, dec (enc x ++ rest) = Some (x, rest)) ->
  sort_contract sortf -> updateState dbg sortf probs = Ok sts ->
  map (@length _) bufs = map (fun st => length (destinations st)) sts ->
  let outs := map (fun db => combine (fst db) (snd db)) (combine (map destinations sts) bufs) in
  let srcs := map sources sts in
  exists res, length res = length probs /\
    (forall c, steps enc dec eager (init outs srcs) c ->
       Acc (fun c' c => step enc dec eager c c') c /\
       (forall i r, nth_error (rks c) i = Some r -> ph r <> PFail) /\
       ((exists c', step enc dec eager c c') \/ (finished c /\ map got (rks c) = res))) /\
    (forall q sq, nth_error sts q = Some sq ->
       exists got_q, nth_error res q = Some got_q /\
         Forall2 (fun s v => exists st_s buf_s i,
             nth_error sts s = Some st_s /\ nth_error bufs s = Some buf_s /\
             nth_error (destinations st_s) i = Some q /\ nth_error buf_s i = Some v)
           (sources sq) got_q).
Proof.
  intros HC Hs HU HL outs srcs.
  assert (SP := update_sym _ _ _ _ Hs HU).
  destruct (wellformed_lemma _ _ _ _ Hs HU) as [L _].
  assert (LB : length bufs = length sts).
  { rewrite <- (map_length (@length _) bufs), HL, map_length. auto. }
  assert (HL' : map (@length _) bufs = map (@length _) (map destinations sts))
    by (rewrite map_map; auto).
  destruct (sendRecv_sym enc dec HC true srcs (map destinations sts) bufs SP HL' (or_introl eq_refl))
    as (res & R1 & R2 & R3).
  exists res. split; [rewrite R2; unfold srcs; rewrite map_length; auto|]. split.
  - apply exchange_concurrent; auto. unfold outs, srcs.
    rewrite !map_length, combine_length, map_length. lia.
  - intros q sq Hq. assert (Hql : q < length sts) by (apply nth_error_Some; congruence).
    exists (nth q res []). split.
    { apply nth_error_nth'. rewrite R2. unfold srcs. rewrite map_length. auto. }
    specialize (R3 q). unfold srcs in R3. rewrite (nth_map_sources _ _ _ Hq) in R3.
    assert (Src : forall s, In s (sources sq) -> s < length sts).
    { intros s Hin. assert (B := sp_src _ _ SP q s). rewrite map_length in B. apply B.
      rewrite (nth_map_sources _ _ _ Hq). auto. }
    revert R3 Src. generalize (nth q res []). generalize (sources sq).
    intros l l' F. induction F as [|s v l l' Hsv F IH]; intros Src; constructor.
    + assert (Hs' := Src s (or_introl eq_refl)). destruct Hsv as (j & J1 & J2).
      destruct (nth_error sts s) as [ss|] eqn:Es; [|apply nth_error_None in Es; lia].
      destruct (nth_error bufs s) as [bs|] eqn:Eb; [|apply nth_error_None in Eb; lia].
      exists ss, bs, j. rewrite (nth_map_dests _ _ _ Es) in J1.
      rewrite (nth_error_nth _ _ _ Eb) in J2. auto.
    + apply IH. intros; apply Src; right; auto.
Qed.
