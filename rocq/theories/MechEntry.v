(** [eval_jacob] in any arithmetic: it is defined; what of the values that its arrays have on entry shows in the result.
    The definitions below are not functions of /repo. *)
From Coq Require Import List NArith PArith QArith Bool Lia.
From Verif Require Import Outcome Arith MechLang MechSrc MechCall MechDefined MechChem Mechanisms MechDydt MechJac MechFull MechSlice MechSliceT MechInit.
Import ListNotations.
Local Open Scope nat_scope.

(** Every element counts. *)
Definition none (p : place) : bool := false.
(** All elements of an array. *)
Definition all_of (v : var) (n : nat) : list place := map (fun i => (v, N.of_nat i)) (seq 0 n).
(** Those of one array. *)
Definition of_array (v : var) (d : list place) : list place := filter (fun p => var_eqb (fst p) v) d.
(** No element of an array is in [d]. *)
Definition clean (d : list place) (v : var) (n : nat) : bool := forallb (fun i => vis none d (v, N.of_nat i)) (seq 0 n).
(** All statements. *)
Definition every (l : list stmt) : list (bool * stmt) := map (pair true) l.

Lemma mapM_nth {X Y} (f : X -> outcome Y) l : forall r, mapM f l = Ok r -> forall k x, nth_error l k = Some x -> exists z, nth_error r k = Some z /\ f x = Ok z.
Proof.
  induction l as [|a l IH]; intros r E k x H; [destruct k; discriminate|]. cbn [mapM] in E.
  destruct (f a) as [b| | |] eqn:F; try discriminate. cbn [bind] in E. destruct (mapM f l) as [r'| | |]; try discriminate. cbn [bind] in E. injection E as <-.
  destruct k as [|k]; cbn [nth_error] in *; [injection H as <-; eauto|]. exact (IH r' eq_refl k x H).
Qed.

Lemma vis_of_array v d i : vis none (of_array v d) (v, i) = true -> vis none d (v, i) = true.
Proof.
  unfold vis, of_array. cbn [none negb andb]. intros H. apply negb_true_iff. apply negb_true_iff in H.
  destruct (existsb (place_eqb (v, i)) d) eqn:E; [|reflexivity]. exfalso. apply existsb_exists in E as (p & I & E). apply place_eqb_eq in E. subst p.
  assert (existsb (place_eqb (v, i)) (filter (fun p => var_eqb (fst p) v) d) = true); [|congruence].
  apply existsb_exists. exists (v, i). split; [|apply place_eqb_refl]. apply filter_In. split; [exact I|apply var_eqb_refl].
Qed.

Lemma clean_nth {X} d v n (a b : list X) : clean d v n = true -> length a = n -> length b = n ->
  (forall i, vis none d (v, N.of_nat i) = true -> nth_error a i = nth_error b i) -> a = b.
Proof.
  intros C La Lb H. unfold clean in C. rewrite forallb_forall in C. apply nth_error_ext. intros i.
  destruct (Nat.lt_ge_cases i n) as [L|L]; [apply H, C, in_seq; lia|]. rewrite !(proj2 (nth_error_None _ _)) by lia. reflexivity.
Qed.

Section Two.
  Context {A : Arith}.
  Variable M : libm A.

  (** Two calls with arguments that agree but for [d]. *)
  Lemma agree_call body (ins1 ins2 : list (var * list (num A))) locals outs r1 r2 d d' :
    shape ins1 = shape ins2 -> (forall v i, vis none d (v, i) = true -> given ins1 v i = given ins2 v i) ->
    slice none d (every body) = Some d' -> call M body ins1 locals outs = Ok r1 -> call M body ins2 locals outs = Ok r2 ->
    forall k v l1 l2, nth_error outs k = Some v -> nth_error r1 k = Some l1 -> nth_error r2 k = Some l2 ->
    forall i, vis none d' (v, N.of_nat i) = true -> nth_error l1 i = nth_error l2 i.
  Proof.
    intros SH G S E1 E2 k v l1 l2 Hk H1 H2 i V. unfold call in *. rewrite <- SH in E2. set (len := sizes (shape ins1 ++ locals)) in *.
    destruct (run M len (given ins1) body) as [m1| | |] eqn:R1; try discriminate. cbn [bind] in E1.
    destruct (slice_run none M len len (fun _ _ _ => eq_refl) (every body) d d' (given ins1) (given ins2) m1) as (m2 & R2 & SM);
      [exact G|exact S|unfold every; rewrite snd_pair; exact R1|].
    unfold every in R2. rewrite kept_true in R2. rewrite R2 in E2. cbn [bind] in E2.
    destruct (mapM_nth _ _ _ E1 k v Hk) as (a & A1 & A2). destruct (mapM_nth _ _ _ E2 k v Hk) as (b & B1 & B2).
    assert (a = l1) by congruence. assert (b = l2) by congruence. subst a b.
    destruct (read_at len m1 v l1 A2) as [L1 V1]. destruct (read_at len m2 v l2 B2) as [L2 V2].
    destruct (Nat.lt_ge_cases i (length l1)) as [L|L].
    - rewrite <- V1, <- V2 by lia. apply SM, V.
    - rewrite !(proj2 (nth_error_None _ _)) by lia. reflexivity.
  Qed.

  (** An element that a function does not set. *)
  Lemma frame_call body (ins : list (var * list (num A))) locals outs r i k v l :
    untouched (v, N.of_nat i) body = true -> call M body ins locals outs = Ok r -> nth_error outs k = Some v -> nth_error r k = Some l ->
    i < length l -> nth_error l i = given ins v (N.of_nat i).
  Proof.
    intros U E Hk Hl Hi. unfold call in E. set (len := sizes (shape ins ++ locals)) in *.
    destruct (run M len (given ins) body) as [m| | |] eqn:R; try discriminate. cbn [bind] in E.
    destruct (mapM_nth _ _ _ E k v Hk) as (a & A1 & A2). assert (a = l) by congruence. subst a.
    destruct (read_at len m v l A2) as [L V]. rewrite <- V by exact Hi. apply (run_frame M len body v (N.of_nat i) _ _ R U).
  Qed.

  Lemma call_set1 body (ins : list (var * list (num A))) locals v : call_set (shape ins) locals body [v] = true ->
    exists a, call M body ins locals [v] = Ok [a] /\ length a = N.to_nat (sizes (shape ins ++ locals) v).
  Proof.
    intros H. destruct (call_set_defined M body ins locals [v] H) as ([|a [|]] & E & L); try discriminate. injection L as L. eauto.
  Qed.

  Lemma call_set2 body (ins : list (var * list (num A))) locals v w : call_set (shape ins) locals body [v; w] = true ->
    exists a b, call M body ins locals [v; w] = Ok [a; b] /\ length a = N.to_nat (sizes (shape ins ++ locals) v) /\ length b = N.to_nat (sizes (shape ins ++ locals) w).
  Proof.
    intros H. destruct (call_set_defined M body ins locals [v; w] H) as ([|a [|b [|]]] & E & L); try discriminate. injection L as L1 L2. eauto 6.
  Qed.

  Lemma call_set3 body (ins : list (var * list (num A))) locals v w x : call_set (shape ins) locals body [v; w; x] = true ->
    exists a b c, call M body ins locals [v; w; x] = Ok [a; b; c] /\ length a = N.to_nat (sizes (shape ins ++ locals) v) /\
      length b = N.to_nat (sizes (shape ins ++ locals) w) /\ length c = N.to_nat (sizes (shape ins ++ locals) x).
  Proof.
    intros H. destruct (call_set_defined M body ins locals [v; w; x] H) as ([|a [|b [|c [|]]]] & E & L); try discriminate. injection L as L1 L2 L3. eauto 9.
  Qed.
End Two.

(** Shapes of the arguments; [z] the size of [jac]. *)
Definition head_shape (S : source) : list (var * nat) := [(v_T, 1); (v_pres, 1); (v_dBdT, s_NSP S)].
Definition part_shape (S : source) (z : nat) : list (var * nat) :=
  [(v_T, 1); (v_pres, 1); (v_conc, s_NSP S); (v_fwd_rates, s_fwd S); (v_rev_rates, s_rev S); (v_pres_mod, s_pmod S);
   (v_spec_rates, s_NSP S); (v_m, 1); (v_mw_avg, 1); (v_rho, 1); (v_dBdT, s_NSP S); (v_jac, z)].
Definition tail_shape (S : source) : list (var * nat) :=
  [(v_T, 1); (v_y, s_NSP S); (v_y_N, 1); (v_rho, 1); (v_spec_rates, s_NSP S); (v_h, s_NSP S); (v_cp, s_NSP S); (v_jac, s_NSP S); (v_J_nplusone, 1)].
Definition mid_shape (S : source) (z : nat) : list (var * nat) := [(v_y, s_NSP S); (v_y_N, 1); (v_cp, s_NSP S); (v_jac, z)].
Definition species_shape (S : source) (z : nat) : list (var * nat) :=
  [(v_mw_avg, 1); (v_rho, 1); (v_cp_avg, 1); (v_spec_rates, s_NSP S); (v_h, s_NSP S); (v_cp, s_NSP S); (v_jac, z)].
Definition end_shape (S : source) (z : nat) : list (var * nat) :=
  [(v_T, 1); (v_y, s_NSP S); (v_y_N, 1); (v_rho, 1); (v_spec_rates, s_NSP S); (v_h, s_NSP S); (v_cp, s_NSP S); (v_cp_avg, 1); (v_working_temp, 1); (v_jac, z)].

(** [eval_jacob] is defined: the temperature column; the whole. *)
Definition column_set (S : source) (J : jacobian) : bool :=
  call_set (head_shape S) [(v_m, 1); (v_logT, 1)] (j_head J) [v_m; v_dBdT] &&
  forallb (fun p => call_set (part_shape S (s_NSP S) ++ [(v_J_nplusone, 1)]) part_locals (snd p) [v_jac; v_J_nplusone]) (j_parts J) &&
  call_set (tail_shape S) [(v_cp_avg, 1); (v_working_temp, 1)] (j_tail J) [v_jac].
Definition whole_set (S : source) (J : jacobian_all) (z : nat) : bool :=
  call_set (head_shape S) [(v_m, 1); (v_logT, 1)] (a_head J) [v_m; v_dBdT] &&
  forallb (fun p => call_set (part_shape S z) part_locals (snd p) [v_jac]) (a_parts J) &&
  call_set (mid_shape S z) [(v_cp_avg, 1); (v_working_temp, 1)] (a_mid J) [v_cp_avg; v_working_temp; v_jac] &&
  call_set (species_shape S z) [(v_rho_inv, 1); (v_working_temp, 1); (v_j_temp, 1)] (a_species J) [v_jac] &&
  call_set (end_shape S z) [] (a_tail J) [v_jac].

(** What may still differ in [jac] after the functions eval_jacob_*. *)
Fixpoint agree_parts (dB dj : list place) (l : list (nat * list stmt)) : option (list place) :=
  match l with
  | [] => Some dj
  | p :: l' =>
      match slice none (dB ++ dj) (every (snd p)) with
      | Some d => if vis none d (v_J_nplusone, 0%N) then agree_parts dB (of_array v_jac d) l' else None
      | None => None
      end
  end.

(** Nothing of the entry values of dBdT and of the elements [dj] of [jac] shows in the result. *)
Definition column_agree (S : source) (J : jacobian) (dj : list place) : bool :=
  match slice none (all_of v_dBdT (s_NSP S)) (every (j_head J)) with
  | Some d => vis none d (v_m, 0%N) &&
      match agree_parts (of_array v_dBdT d) dj (j_parts J) with
      | Some d1 => match slice none d1 (every (j_tail J)) with Some d2 => clean d2 v_jac (s_NSP S) | None => false end
      | None => false
      end
  | None => false
  end.
Definition whole_agree (S : source) (J : jacobian_all) (z : nat) (dj : list place) : bool :=
  match slice none (all_of v_dBdT (s_NSP S)) (every (a_head J)) with
  | Some d => vis none d (v_m, 0%N) &&
      match agree_parts (of_array v_dBdT d) dj (a_parts J) with
      | Some d1 =>
          match slice none d1 (every (a_mid J)) with
          | Some d2 => vis none d2 (v_cp_avg, 0%N) && vis none d2 (v_working_temp, 0%N) &&
              match slice none (of_array v_jac d2) (every (a_species J)) with
              | Some d3 => match slice none (of_array v_jac d3) (every (a_tail J)) with Some d4 => clean d4 v_jac z | None => false end
              | None => false
              end
          | None => false
          end
      | None => false
      end
  | None => false
  end.

(** Element [i] of an array is in the row of a species that takes part in no reaction ([n] rows). *)
Definition inert_row (ch : chemistry) (n i : nat) : bool := match i mod n with O => false | S k => inert ch k end.
(** The other elements of [jac]. *)
Definition other_rows (ch : chemistry) (n z : nat) : list place := filter (fun p => negb (inert_row ch n (N.to_nat (snd p)))) (all_of v_jac z).

Lemma column_set_all : forallb (fun m => column_set (library m) (jac_T m)) [drm19; gri30; yao] = true.
Proof. vm_compute. reflexivity. Qed.
Lemma whole_set_drm19 : whole_set (library drm19) drm19_jac_all 441 = true.
Proof. vm_compute. reflexivity. Qed.
Lemma column_agree_all : forallb (fun m => column_agree (library m) (jac_T m) (other_rows (chem m) (s_NSP (library m)) (s_NSP (library m)))) [drm19; gri30; yao] = true.
Proof. vm_compute. reflexivity. Qed.
Lemma whole_agree_drm19 : whole_agree (library drm19) drm19_jac_all 441 (other_rows (chem drm19) 21 441) = true.
Proof. vm_compute. reflexivity. Qed.
(** The statements do not set the rows of species that take part in no reaction. *)
Definition leaves (ch : chemistry) (n z : nat) (l : list (list stmt)) : bool :=
  forallb (fun i => negb (inert_row ch n i) || forallb (untouched (v_jac, N.of_nat i)) l) (seq 0 z).
Lemma column_leaves_all : forallb (fun m => leaves (chem m) (s_NSP (library m)) (s_NSP (library m)) (map snd (j_parts (jac_T m)) ++ [j_tail (jac_T m)])) [drm19; gri30; yao] = true.
Proof. vm_compute. reflexivity. Qed.
Lemma whole_leaves_drm19 : leaves (chem drm19) 21 441
  (map snd (a_parts drm19_jac_all) ++ [a_mid drm19_jac_all; a_species drm19_jac_all; a_tail drm19_jac_all]) = true.
Proof. vm_compute. reflexivity. Qed.
