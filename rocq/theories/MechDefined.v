(** The functions of the libraries are defined for all arguments, in every arithmetic. *)
From Coq Require Import List NArith QArith Bool Lia.
From Verif Require Import Outcome Arith MechLang MechSym MechSrc MechCall MechChem Mechanisms.
Import ListNotations.
Local Open Scope nat_scope.

(** A call initialises everything it reads and all its outputs, within bounds. *)
Definition call_ok (sh locals : list (var * nat)) (body : list stmt) (outs : list var) : bool :=
  match symbolic sh locals body with
  | Some s => forallb (fun v => all_forms sh locals s v (fun _ _ => true)) outs
  | None => false
  end.

Lemma call_defined {A : Arith} (M : libm A) body (ins : list (var * list (num A))) locals outs :
  call_ok (shape ins) locals body outs = true ->
  exists r, call M body ins locals outs = Ok r /\
    map (@length _) r = map (fun v => N.to_nat (sizes (shape ins ++ locals) v)) outs.
Proof.
  unfold call_ok. intros H. destruct (symbolic (shape ins) locals body) as [s|] eqn:E; [|discriminate].
  rewrite forallb_forall in H. rewrite (call_closed M body ins locals outs s E H).
  eexists. split; [reflexivity|]. rewrite map_map. apply map_ext. intros v.
  rewrite map_length, seq_length. reflexivity.
Qed.

(** All functions of a library. *)
Definition library_ok (S : source) : bool :=
  let n := s_NSP S in
  (1 <=? n) &&
  call_ok [(v_T, 1); (v_pres, 1); (v_y, n - 1)] (conc_locals S) (s_eval_conc S) [v_y_N; v_mw_avg; v_rho; v_conc] &&
  call_ok [(v_T, 1)] [(v_h, n)] (s_eval_h S) [v_h] &&
  call_ok [(v_T, 1)] [(v_cp, n)] (s_eval_cp S) [v_cp] &&
  call_ok [(v_T, 1); (v_pres, 1); (v_C, n)] (rate_locals S) (s_eval_rxn_rates S) [v_fwd_rxn_rates; v_rev_rxn_rates] &&
  call_ok [(v_T, 1); (v_pres, 1); (v_C, n)] (pmod_locals S) (s_get_rxn_pres_mod S) [v_pres_mod] &&
  call_ok [(v_fwd_rates, s_fwd S); (v_rev_rates, s_rev S); (v_pres_mod, s_pmod S)] (spec_locals S)
    (s_eval_spec_rates S) [v_sp_rates; v_dy_N] &&
  call_ok [(v_y, n); (v_y_N, 1); (v_rho, 1); (v_cp, n); (v_h, n); (v_dy_N, 1); (v_dy, n)] [(v_cp_avg, 1)]
    (s_dydt S) [v_dy] &&
  call_ok [(v_X, n - 1)] [(v_X_N, 1); (v_mw_avg, 1); (v_Y, n - 1)] (s_mole2mass S) [v_Y] &&
  call_ok [(v_Y, n - 1)] [(v_Y_N, 1); (v_mw_avg, 1); (v_X, n - 1)] (s_mass2mole S) [v_X] &&
  call_ok [(v_temp, 1); (v_pres, 1); (v_X, n - 1)] [(v_X_N, 1); (v_mw_avg, 1); (v_ret, 1)] (s_getDensity S) [v_ret].

Lemma call_defined1 {A : Arith} (M : libm A) body (ins : list (var * list (num A))) locals v :
  call_ok (shape ins) locals body [v] = true ->
  exists a, call M body ins locals [v] = Ok [a] /\ length a = N.to_nat (sizes (shape ins ++ locals) v).
Proof.
  intros H. destruct (call_defined M body ins locals [v] H) as ([|a [|]] & E & L); try discriminate.
  exists a. split; [exact E|]. injection L as ->. reflexivity.
Qed.

Lemma call_defined2 {A : Arith} (M : libm A) body (ins : list (var * list (num A))) locals v w :
  call_ok (shape ins) locals body [v; w] = true ->
  exists a b, call M body ins locals [v; w] = Ok [a; b] /\
    length a = N.to_nat (sizes (shape ins ++ locals) v) /\ length b = N.to_nat (sizes (shape ins ++ locals) w).
Proof.
  intros H. destruct (call_defined M body ins locals [v; w] H) as ([|a [|b [|]]] & E & L); try discriminate.
  exists a, b. split; [exact E|]. injection L as -> ->. auto.
Qed.

Lemma call_defined4 {A : Arith} (M : libm A) body (ins : list (var * list (num A))) locals v w x z :
  call_ok (shape ins) locals body [v; w; x; z] = true ->
  exists a b c d, call M body ins locals [v; w; x; z] = Ok [a; b; c; d] /\
    length a = N.to_nat (sizes (shape ins ++ locals) v) /\ length b = N.to_nat (sizes (shape ins ++ locals) w) /\
    length c = N.to_nat (sizes (shape ins ++ locals) x) /\ length d = N.to_nat (sizes (shape ins ++ locals) z).
Proof.
  intros H. destruct (call_defined M body ins locals [v; w; x; z] H) as ([|a [|b [|c [|d [|]]]]] & E & L); try discriminate.
  exists a, b, c, d. split; [exact E|]. injection L as -> -> -> ->. auto.
Qed.

Lemma one_element {X} (l : list X) : length l = 1 -> exists x, l = [x].
Proof. destruct l as [|x [|]]; try discriminate. eauto. Qed.

Section Defined.
  Context {A : Arith}.
  Variable M : libm A.
  Variable S : source.
  Hypothesis H : library_ok S = true.

  Ltac start := pose proof H as G; unfold library_ok in G; cbv zeta in G;
    apply andb_true_iff in G as [G Kden]; apply andb_true_iff in G as [G Km2x]; apply andb_true_iff in G as [G Kx2m];
    apply andb_true_iff in G as [G Kdydt]; apply andb_true_iff in G as [G Kspec]; apply andb_true_iff in G as [G Kpm];
    apply andb_true_iff in G as [G Krate]; apply andb_true_iff in G as [G Kcp]; apply andb_true_iff in G as [G Kh];
    apply andb_true_iff in G as [G Kconc]; apply Nat.leb_le in G.

  Lemma eval_conc_defined T p y : length y = s_NSP S - 1 ->
    exists yN mw rho conc, lib_eval_conc M S T p y = Ok (yN, mw, rho, conc) /\ length conc = s_NSP S.
  Proof.
    intros Ly. start. rewrite <- Ly in Kconc.
    destruct (call_defined4 M (s_eval_conc S) [(v_T, [T]); (v_pres, [p]); (v_y, y)] _ _ _ _ _ Kconc)
      as (a & b & c & d & E & La & Lb & Lc & Ld).
    cbn in La, Lb, Lc, Ld. apply one_element in La as [x ->], Lb as [x' ->], Lc as [x'' ->].
    unfold lib_eval_conc. rewrite E. cbn [bind]. do 4 eexists. split; [reflexivity|]. rewrite Ld. lia.
  Qed.

  Lemma eval_h_defined T : exists h, lib_eval_h M S T = Ok h /\ length h = s_NSP S.
  Proof.
    start. destruct (call_defined1 M (s_eval_h S) [(v_T, [T])] _ _ Kh) as (a & E & L).
    unfold lib_eval_h. rewrite E. cbn [bind only]. exists a. split; [reflexivity|]. rewrite L. cbn. lia.
  Qed.

  Lemma eval_cp_defined T : exists cp, lib_eval_cp M S T = Ok cp /\ length cp = s_NSP S.
  Proof.
    start. destruct (call_defined1 M (s_eval_cp S) [(v_T, [T])] _ _ Kcp) as (a & E & L).
    unfold lib_eval_cp. rewrite E. cbn [bind only]. exists a. split; [reflexivity|]. rewrite L. cbn. lia.
  Qed.

  Lemma eval_rxn_rates_defined T p C : length C = s_NSP S ->
    exists fwd rev, lib_eval_rxn_rates M S T p C = Ok (fwd, rev) /\ length fwd = s_fwd S /\ length rev = s_rev S.
  Proof.
    intros LC. start. rewrite <- LC in Krate.
    destruct (call_defined2 M (s_eval_rxn_rates S) [(v_T, [T]); (v_pres, [p]); (v_C, C)] _ _ _ Krate)
      as (a & b & E & La & Lb).
    unfold lib_eval_rxn_rates. rewrite E. cbn [bind]. exists a, b. split; [reflexivity|].
    rewrite La, Lb. cbn. lia.
  Qed.

  Lemma get_rxn_pres_mod_defined T p C : length C = s_NSP S ->
    exists pm, lib_get_rxn_pres_mod M S T p C = Ok pm /\ length pm = s_pmod S.
  Proof.
    intros LC. start. rewrite <- LC in Kpm.
    destruct (call_defined1 M (s_get_rxn_pres_mod S) [(v_T, [T]); (v_pres, [p]); (v_C, C)] _ _ Kpm) as (a & E & L).
    unfold lib_get_rxn_pres_mod. rewrite E. cbn [bind only]. exists a. split; [reflexivity|]. rewrite L. cbn. lia.
  Qed.

  Lemma eval_spec_rates_defined fwd rev pm : length fwd = s_fwd S -> length rev = s_rev S -> length pm = s_pmod S ->
    exists sp dyN, lib_eval_spec_rates M S fwd rev pm = Ok (sp, dyN) /\ length sp = s_NSP S - 1.
  Proof.
    intros L1 L2 L3. start. rewrite <- L1, <- L2, <- L3 in Kspec.
    destruct (call_defined2 M (s_eval_spec_rates S) [(v_fwd_rates, fwd); (v_rev_rates, rev); (v_pres_mod, pm)] _ _ _ Kspec)
      as (a & b & E & La & Lb).
    cbn in La, Lb. apply one_element in Lb as [x ->].
    unfold lib_eval_spec_rates. rewrite E. cbn [bind]. exists a, x. split; [reflexivity|]. rewrite La. lia.
  Qed.

  Theorem dydt_defined p y : length y = s_NSP S ->
    exists dy, lib_dydt M S p y = Ok dy /\ length dy = s_NSP S.
  Proof.
    intros Ly. start. destruct y as [|T y]; [cbn in Ly; lia|].
    assert (Ly' : length y = s_NSP S - 1) by (cbn in Ly; lia).
    unfold lib_dydt. cbn [idx nth_error bind skipn].
    destruct (eval_conc_defined T p y Ly') as (yN & mw & rho & C & E1 & LC).
    destruct (eval_rxn_rates_defined T p C LC) as (f & r & E2 & Lf & Lr).
    destruct (get_rxn_pres_mod_defined T p C LC) as (pm & E3 & Lpm).
    destruct (eval_spec_rates_defined f r pm Lf Lr Lpm) as (sp & dyN & E4 & Lsp).
    destruct (eval_cp_defined T) as (cp & E5 & Lcp). destruct (eval_h_defined T) as (h & E6 & Lh).
    rewrite E1. cbn [bind]. rewrite E2. cbn [bind]. rewrite E3. cbn [bind]. rewrite E4. cbn [bind].
    rewrite E5. cbn [bind]. rewrite E6. cbn [bind].
    set (ins := [(v_y, T :: y); (v_y_N, [yN]); (v_rho, [rho]); (v_cp, cp); (v_h, h); (v_dy_N, [dyN]);
                 (v_dy, zero A :: sp)]).
    assert (Hsh : shape ins = [(v_y, s_NSP S); (v_y_N, 1); (v_rho, 1); (v_cp, s_NSP S); (v_h, s_NSP S); (v_dy_N, 1);
      (v_dy, s_NSP S)]).
    { unfold ins, shape. cbn [map fst snd length]. rewrite Ly', Lcp, Lh, Lsp.
      replace (Datatypes.S (s_NSP S - 1)) with (s_NSP S) by lia. reflexivity. }
    rewrite <- Hsh in Kdydt.
    destruct (call_defined1 M (s_dydt S) ins _ _ Kdydt) as (a & E & L).
    rewrite E. cbn [bind only]. exists a. split; [reflexivity|]. rewrite L, Hsh. cbn. lia.
  Qed.

  Theorem mole_mass_defined X : length X = s_NSP S - 1 ->
    (exists Y, lib_mole2mass M S X = Ok Y /\ length Y = s_NSP S - 1) /\
    (exists Y, lib_mass2mole M S X = Ok Y /\ length Y = s_NSP S - 1) /\
    forall T p, exists d, lib_getDensity M S T p X = Ok d.
  Proof.
    intros LX. start. rewrite <- LX in Kx2m, Km2x, Kden. split; [|split].
    - destruct (call_defined1 M (s_mole2mass S) [(v_X, X)] _ _ Kx2m) as (a & E & L).
      unfold lib_mole2mass. rewrite <- LX, E. cbn [bind only]. exists a. split; [reflexivity|]. rewrite L. cbn. lia.
    - destruct (call_defined1 M (s_mass2mole S) [(v_Y, X)] _ _ Km2x) as (a & E & L).
      unfold lib_mass2mole. rewrite <- LX, E. cbn [bind only]. exists a. split; [reflexivity|]. rewrite L. cbn. lia.
    - intros T p.
      destruct (call_defined1 M (s_getDensity S) [(v_temp, [T]); (v_pres, [p]); (v_X, X)] _ _ Kden) as (a & E & L).
      cbn in L. apply one_element in L as [x ->].
      unfold lib_getDensity. rewrite E. cbn [bind only scalar]. eauto.
  Qed.
End Defined.

Lemma library_all m : library_ok (library m) = true.
Proof. destruct m; vm_compute; reflexivity. Qed.
