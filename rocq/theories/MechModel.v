(** The chemistry model of PyJac.v linked with a mechanism library. *)
From Coq Require Import List NArith PArith QArith Qreals Reals Bool Lra Lia.
From Verif Require Import Outcome Arith MechLang MechSrc MechReal MechChem MechDefined Mechanisms MechDydt MechJac MechFull MechEntryP PyJac PyJacSpec.
Import ListNotations.
Local Open Scope nat_scope.

(** What a function leaves in its array; not a function of /repo. *)
Definition left_in {X} (o : outcome (list X)) : list X := match o with Ok l => l | _ => [] end.

Section Linked.
  Context {A : Arith}.
  Variable M : libm A.

  (** A library with the interface of pyJacInclude/{dydt,jacob,chem_utils}.h: [PYJAC_NSP], [dydt] and [eval_h] of mechanism [m]
      (lib/src/dydt.c, chem_utils.c); [jac] is what its [eval_jacob] writes. *)
  Definition lib_mech (m : mechanism) (jac : num A -> list (num A) -> list (num A)) : mech A :=
    mkMech (s_NSP (library m))
      (fun p y i => nth i (left_in (lib_dydt M (library m) p y)) (zero A))
      (fun p y i => nth i (jac p y) (zero A))
      (fun T i => nth i (left_in (lib_eval_h M (library m) T)) (zero A)).

  (** [eval_jacob] of drm19 on the zeroed vector that [jacobian] passes (pjCM.C:84); what dBdT holds does not matter (C81). *)
  Definition drm19_jac_of (p : num A) (y : list (num A)) : list (num A) :=
    left_in (lib_jacob M (library drm19) drm19_jac_all p y (repeat (zero A) (21 * 21)) (repeat (zero A) 21)).
  (** The library of drm19 (utilities/mechanisms/drm19/lib/src). *)
  Definition drm19_mech : mech A := lib_mech drm19 drm19_jac_of.

  (** Mass fractions as the mechanism gets them, pjCM.C:131-133. *)
  Definition cut (ys : list (num A)) : list (num A) := map (fun v => if nltb A (zero A) v then v else zero A) ys.

  Lemma nth_seq_self {X} (l : list X) d n : length l = n -> map (fun i => nth i l d) (seq 0 n) = l.
  Proof.
    intros <-. induction l as [|x l IH]; [reflexivity|]. cbn [length seq map nth]. f_equal. rewrite <- seq_shift, map_map. exact IH.
  Qed.

  Lemma state_ends (T p : num A) ys n : length ys = n - 1 -> 1 <= n ->
    length (T :: ys ++ [p]) = n + 1 /\ nth_error (T :: ys ++ [p]) 0 = Some T /\ nth_error (T :: ys ++ [p]) n = Some p /\
    firstn (n - 1) (handed (firstn (n - 1) (tl (T :: ys ++ [p])))) = cut ys.
  Proof.
    intros L N. cbn [length tl]. rewrite app_length. cbn [length]. split; [lia|]. split; [reflexivity|]. destruct n as [|n]; [lia|]. cbn [nth_error].
    replace (S n - 1) with n in * by lia. split.
    - rewrite nth_error_app2 by lia. replace (n - length ys) with 0 by lia. reflexivity.
    - rewrite firstn_app. replace (n - length ys) with 0 by lia. cbn [firstn]. rewrite app_nil_r, (firstn_all2 ys) by lia.
      change (handed ys) with (cut ys ++ [nsub A (lit A 1) (nsum A (cut ys))]). assert (LC : length (cut ys) = n) by (unfold cut; rewrite map_length; exact L).
      rewrite firstn_app, LC, Nat.sub_diag, app_nil_r. apply firstn_all2. lia.
  Qed.

  Lemma nth_map_at {Y} (f : nat -> Y) n i d : i < n -> nth i (map f (seq 0 n)) d = f i.
  Proof. intros H. rewrite nth_indep with (d' := f 0) by (rewrite map_length, seq_length; exact H). rewrite map_nth, seq_nth by exact H. reflexivity. Qed.

  Lemma nth_repeat_zero {Y} (d : Y) n j : nth j (repeat d n) d = d.
  Proof. revert j. induction n as [|n IH]; intros [|j]; cbn; auto. Qed.

  (** [derivatives]: the rates of the library at the mass fractions cut off at zero; the pressure stays. *)
  Theorem linked_rhs m jac s t (T p : num A) ys : length ys = s_NSP (library m) - 1 ->
    exists dy s', lib_dydt M (library m) p (T :: cut ys) = Ok dy /\ length dy = s_NSP (library m) /\
      pj_derivs (lib_mech m jac) (s_NSP (library m)) s t (T :: ys ++ [p]) = Ok (dy ++ [zero A], s').
  Proof.
    intros L. assert (N : 1 <= s_NSP (library m)) by (destruct m; vm_compute; repeat constructor).
    destruct (state_ends T p ys _ L N) as (L0 & E0 & E1 & E2).
    destruct (derivs_eq (lib_mech m jac) (s_NSP (library m)) eq_refl N s t _ T p L0 E0 E1) as [s' E].
    destruct (dydt_defined M (library m) (library_all m) p (T :: cut ys)) as (dy & D & LD).
    { cbn [length]. unfold cut. rewrite map_length. lia. }
    exists dy, s'. split; [exact D|]. split; [exact LD|]. rewrite E, E2. cbn [lib_mech dydt_elt]. rewrite D. cbn [left_in]. rewrite nth_seq_self by exact LD. reflexivity.
  Qed.

  (** [jacobian] of drm19: element (i, j) is element i of column j of [eval_jacob]; no row or column for the pressure. *)
  Theorem linked_jacobian s t (T p : num A) ys dB0 : length ys = 20 -> length dB0 = 21 ->
    exists J rows s', lib_jacob M (library drm19) drm19_jac_all p (T :: cut ys) (repeat (zero A) (21 * 21)) dB0 = Ok J /\ length J = 21 * 21 /\
      pj_jac drm19_mech 21 s t (T :: ys ++ [p]) = Ok (repeat (zero A) 22, rows, s') /\ length rows = 22 /\
      (forall i, i < 22 -> length (nth i rows []) = 22) /\
      (forall i j, i < 21 -> j < 21 -> nth j (nth i rows []) (zero A) = nth (j * 21 + i) J (zero A)) /\
      (forall i, nth 21 (nth i rows []) (zero A) = zero A) /\ (forall j, nth j (nth 21 rows []) (zero A) = zero A).
  Proof.
    intros L LB. destruct (state_ends T p ys 21 L ltac:(lia)) as (L0 & E0 & E1 & E2).
    destruct (jac_eq drm19_mech 21 eq_refl ltac:(lia) s t _ T p L0 E0 E1) as [s' E]. rewrite E2 in E.
    assert (LZ : length (repeat (zero A) (21 * 21)) = 21 * 21) by apply repeat_length.
    assert (LC : length (T :: cut ys) = 21) by (cbn [length]; unfold cut; rewrite map_length; lia).
    destruct (whole_rows M p (T :: cut ys) _ dB0 LC LZ LB) as (J & EJ & LJ & _ & G).
    assert (EJ0 : drm19_jac_of p (T :: cut ys) = J) by (unfold drm19_jac_of; rewrite (G _ _ LZ (repeat_length _ _)) by reflexivity; reflexivity).
    set (rows := map _ (seq 0 21) ++ _) in E. exists J, rows, s'. split; [exact EJ|]. split; [exact LJ|]. split; [exact E|].
    assert (LR : length rows = 22) by (unfold rows; rewrite app_length, map_length, seq_length; reflexivity). split; [exact LR|].
    assert (RI : forall i, i < 21 -> nth i rows [] = map (fun j => nth (j * 21 + i) J (zero A)) (seq 0 21) ++ [zero A]).
    { intros i Hi. unfold rows. rewrite app_nth1 by (rewrite map_length, seq_length; exact Hi).
      rewrite nth_map_at by exact Hi. cbn [drm19_mech lib_mech jacob_elt]. rewrite EJ0. reflexivity. }
    assert (RL : nth 21 rows [] = repeat (zero A) 22) by (unfold rows; rewrite app_nth2 by (rewrite map_length, seq_length; lia); rewrite map_length, seq_length; reflexivity).
    split; [|split; [|split]].
    - intros i Hi. destruct (Nat.eq_dec i 21) as [->|Ne]; [rewrite RL; apply repeat_length|]. rewrite RI by lia. rewrite app_length, map_length, seq_length. reflexivity.
    - intros i j Hi Hj. rewrite RI by exact Hi. rewrite app_nth1 by (rewrite map_length, seq_length; exact Hj). rewrite nth_map_at by exact Hj. reflexivity.
    - intros i. destruct (Nat.lt_ge_cases i 21) as [Hi|Hi].
      + rewrite RI by exact Hi. rewrite app_nth2 by (rewrite map_length, seq_length; lia). rewrite map_length, seq_length. reflexivity.
      + destruct (Nat.eq_dec i 21) as [->|Ne]; [rewrite RL; apply nth_repeat_zero|]. rewrite nth_overflow with (l := rows) by lia. reflexivity.
    - intros j. rewrite RL. apply nth_repeat_zero.
  Qed.
End Linked.
