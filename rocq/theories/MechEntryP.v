(** [eval_jacob] in any arithmetic: the statements by rows and columns. *)
From Coq Require Import List NArith PArith QArith Bool Lia.
From Verif Require Import Outcome Arith MechLang MechSrc MechChem Mechanisms MechDydt MechJac MechFull MechSliceT MechEntry MechEntryT MechEntryW.
Import ListNotations.
Local Open Scope nat_scope.

Lemma inert_row_inv ch n i : inert_row ch n i = true -> 0 < n -> exists j k, i = n * j + S k /\ S k < n /\ inert ch k = true.
Proof.
  unfold inert_row. intros H N. destruct (i mod n) as [|k] eqn:E; [discriminate|]. exists (i / n), k.
  pose proof (Nat.div_mod i n ltac:(lia)) as D. pose proof (Nat.mod_upper_bound i n ltac:(lia)). split; [lia|]. split; [lia|exact H].
Qed.

Lemma inert_row_at ch n j k : S k < n -> inert ch k = true -> inert_row ch n (n * j + S k) = true.
Proof.
  intros L H. unfold inert_row. replace (n * j + S k) with (S k + j * n) by lia. rewrite Nat.mod_add by lia. rewrite Nat.mod_small by lia. exact H.
Qed.

Section Statements.
  Context {A : Arith}.
  Variable M : libm A.

  Theorem column_rows m (p : num A) y jac0 dB0 : length y = s_NSP (library m) -> length jac0 = s_NSP (library m) -> length dB0 = s_NSP (library m) ->
    exists J, lib_jacob_T M (library m) (jac_T m) p y jac0 dB0 = Ok J /\ length J = s_NSP (library m) /\
      (forall k, S k < s_NSP (library m) -> inert (chem m) k = true -> nth_error J (S k) = nth_error jac0 (S k)) /\
      forall jac0' dB0', length jac0' = s_NSP (library m) -> length dB0' = s_NSP (library m) ->
        (forall k, S k < s_NSP (library m) -> inert (chem m) k = true -> nth_error jac0' (S k) = nth_error jac0 (S k)) ->
        lib_jacob_T M (library m) (jac_T m) p y jac0' dB0' = Ok J.
  Proof.
    intros L1 L2 L3. destruct (column_entry M m p y jac0 dB0 L1 L2 L3) as (J & E & L & F & G). exists J. do 2 (split; [assumption|]).
    assert (N : 0 < s_NSP (library m)) by (destruct m; vm_compute; repeat constructor). split.
    - intros k Hk I. apply F. exact (inert_row_at (chem m) _ 0 k Hk I) || (replace (S k) with (s_NSP (library m) * 0 + S k) by lia; apply inert_row_at; assumption).
    - intros j d Lj Ld H. apply G; [exact Lj|exact Ld|]. intros i R. destruct (inert_row_inv _ _ _ R N) as (c & k & -> & Hk & I).
      destruct c as [|c]; [rewrite Nat.mul_0_r; apply H; assumption|]. rewrite !(proj2 (nth_error_None _ _)) by (rewrite ?Lj, ?L2; nia). reflexivity.
  Qed.

  Theorem whole_rows (p : num A) y jac0 dB0 : length y = 21 -> length jac0 = 21 * 21 -> length dB0 = 21 ->
    exists J, lib_jacob M (library drm19) drm19_jac_all p y jac0 dB0 = Ok J /\ length J = 21 * 21 /\
      (forall j k, j < 21 -> k < 20 -> inert (chem drm19) k = true -> nth_error J (21 * j + S k) = nth_error jac0 (21 * j + S k)) /\
      forall jac0' dB0', length jac0' = 21 * 21 -> length dB0' = 21 ->
        (forall j k, j < 21 -> k < 20 -> inert (chem drm19) k = true -> nth_error jac0' (21 * j + S k) = nth_error jac0 (21 * j + S k)) ->
        lib_jacob M (library drm19) drm19_jac_all p y jac0' dB0' = Ok J.
  Proof.
    intros L1 L2 L3. destruct (whole_entry M p y jac0 dB0 L1 L2 L3) as (J & E & L & F & G). exists J. split; [exact E|]. split; [exact L|]. split.
    - intros j k Hj Hk I. apply F. apply inert_row_at; [lia|exact I].
    - intros j d Lj Ld H. apply G; [exact Lj|exact Ld|]. intros i R. destruct (inert_row_inv _ _ _ R ltac:(lia)) as (c & k & -> & Hk & I).
      destruct (Nat.lt_ge_cases c 21) as [C|C]; [apply H; [exact C|lia|exact I]|]. rewrite !(proj2 (nth_error_None _ _)) by (rewrite ?Lj, ?L2; lia). reflexivity.
  Qed.

  (** The temperature column of the whole. *)
  Theorem whole_column (p : num A) y jac0 dB0 dB0' : length y = 21 -> length jac0 = 21 * 21 -> length dB0 = 21 -> length dB0' = 21 ->
    exists J, lib_jacob M (library drm19) drm19_jac_all p y jac0 dB0 = Ok J /\
      lib_jacob_T M (library drm19) (jac_T drm19) p y (firstn 21 jac0) dB0' = Ok (firstn 21 J).
  Proof.
    intros L1 L2 L3 L4. destruct (whole_rows p y jac0 dB0 L1 L2 L3) as (J & E & L & _). exists J. split; [exact E|].
    assert (L0 : 21 <= length jac0) by lia. pose proof (temperature_slice M p y jac0 dB0 J L0 E) as Q.
    assert (LF : length (firstn 21 jac0) = 21) by (apply firstn_length_le; exact L0).
    destruct (column_rows drm19 p y (firstn 21 jac0) dB0 L1 LF L3) as (J' & E' & _ & _ & G). rewrite (G _ _ LF L4) by reflexivity. congruence.
  Qed.

  (** What [jac] holds on entry shows in the result. *)
  Theorem entry_shows (p : num A) y dB0 : length y = 21 -> length dB0 = 21 -> one A <> zero A ->
    exists jac0 jac0' J J', length jac0 = 21 * 21 /\ length jac0' = 21 * 21 /\
      lib_jacob M (library drm19) drm19_jac_all p y jac0 dB0 = Ok J /\ lib_jacob M (library drm19) drm19_jac_all p y jac0' dB0 = Ok J' /\ J <> J'.
  Proof.
    intros L1 L3 D. assert (LZ : forall x : num A, length (repeat x (21 * 21)) = 21 * 21) by (intros; apply repeat_length).
    destruct (whole_rows p y (repeat (zero A) (21 * 21)) dB0 L1 (LZ _) L3) as (J & E & _ & F & _).
    destruct (whole_rows p y (repeat (one A) (21 * 21)) dB0 L1 (LZ _) L3) as (J' & E' & _ & F' & _).
    exists (repeat (zero A) (21 * 21)), (repeat (one A) (21 * 21)), J, J'. do 4 (split; [solve [apply LZ|assumption]|]). intros ->.
    assert (I : inert (chem drm19) 19 = true) by (vm_compute; reflexivity).
    specialize (F 0 19 ltac:(lia) ltac:(lia) I). specialize (F' 0 19 ltac:(lia) ltac:(lia) I). rewrite F' in F. cbn in F. congruence.
  Qed.
End Statements.
