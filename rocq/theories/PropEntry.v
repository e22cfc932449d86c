(** Property C81: [eval_jacob] in any arithmetic, doubles included, and the values that its arrays have on entry.
    Vocabulary: [lib_jacob_T] (MechJac.v) is [eval_jacob] of the three mechanisms up to the temperature column, [lib_jacob] (MechFull.v) the
    whole of it for drm19; [jac0] and [dB0] are the values on entry of the argument [jac] and of the local array dBdT;
    [inert (chem m) k]: species k takes part in no reaction of chem.cti (MechDydt.v). *)
From Coq Require Import List ZArith NArith QArith Bool Lia.
From Verif Require Import Outcome Arith Ieee MechLang MechSrc MechChem Mechanisms MechDydt MechJac MechFull MechEntryP PropMech.
Import ListNotations.
Local Open Scope nat_scope.

(** ** C81: defined whatever the arguments; only the rows of inert species keep their entry values *)

(** The temperature column, all three mechanisms: no access out of bounds, no variable read before it is set; the elements of the
    inert species are those on entry; nothing else that [jac] and dBdT hold on entry shows. *)
Theorem C81_column : forall (A : Arith) (M : libm A) m (p : num A) y jac0 dB0,
  length y = s_NSP (library m) -> length jac0 = s_NSP (library m) -> length dB0 = s_NSP (library m) ->
  exists J, lib_jacob_T M (library m) (jac_T m) p y jac0 dB0 = Ok J /\ length J = s_NSP (library m) /\
    (forall k, S k < s_NSP (library m) -> inert (chem m) k = true -> nth_error J (S k) = nth_error jac0 (S k)) /\
    forall jac0' dB0', length jac0' = s_NSP (library m) -> length dB0' = s_NSP (library m) ->
      (forall k, S k < s_NSP (library m) -> inert (chem m) k = true -> nth_error jac0' (S k) = nth_error jac0 (S k)) ->
      lib_jacob_T M (library m) (jac_T m) p y jac0' dB0' = Ok J.
Proof. exact @column_rows. Qed.
Print Assumptions C81_column.

(** The whole array of drm19 (column j begins at 21 j). *)
Theorem C81_whole : forall (A : Arith) (M : libm A) (p : num A) y jac0 dB0,
  length y = 21 -> length jac0 = 21 * 21 -> length dB0 = 21 ->
  exists J, lib_jacob M (library drm19) drm19_jac_all p y jac0 dB0 = Ok J /\ length J = 21 * 21 /\
    (forall j k, j < 21 -> k < 20 -> inert (chem drm19) k = true -> nth_error J (21 * j + S k) = nth_error jac0 (21 * j + S k)) /\
    forall jac0' dB0', length jac0' = 21 * 21 -> length dB0' = 21 ->
      (forall j k, j < 21 -> k < 20 -> inert (chem drm19) k = true -> nth_error jac0' (21 * j + S k) = nth_error jac0 (21 * j + S k)) ->
      lib_jacob M (library drm19) drm19_jac_all p y jac0' dB0' = Ok J.
Proof. exact @whole_rows. Qed.
Print Assumptions C81_whole.

(** The temperature column of the whole is the one of [lib_jacob_T]: C75-C77 speak of it. *)
Theorem C81_temperature : forall (A : Arith) (M : libm A) (p : num A) y jac0 dB0 dB0',
  length y = 21 -> length jac0 = 21 * 21 -> length dB0 = 21 -> length dB0' = 21 ->
  exists J, lib_jacob M (library drm19) drm19_jac_all p y jac0 dB0 = Ok J /\
    lib_jacob_T M (library drm19) (jac_T drm19) p y (firstn 21 jac0) dB0' = Ok (firstn 21 J).
Proof. exact @whole_column. Qed.
Print Assumptions C81_temperature.

(** [eval_jacob] does not overwrite all of [jac]: the caller has to set it to zero. *)
Theorem C81_overwrites_refuted : forall (A : Arith) (M : libm A) (p : num A) y dB0,
  length y = 21 -> length dB0 = 21 -> one A <> zero A ->
  exists jac0 jac0' J J', length jac0 = 21 * 21 /\ length jac0' = 21 * 21 /\
    lib_jacob M (library drm19) drm19_jac_all p y jac0 dB0 = Ok J /\ lib_jacob M (library drm19) drm19_jac_all p y jac0' dB0 = Ok J' /\ J <> J'.
Proof. exact @entry_shows. Qed.
Print Assumptions C81_overwrites_refuted.

(** The inert species are argon (and, in drm19 and yao, the last species, nitrogen, which has no row). *)
Example C81_argon : map (fun m => filter (inert (chem m)) (seq 0 (s_NSP (library m)))) [drm19; gri30; yao] = [[19; 20]; [47]; [0; 53]].
Proof. vm_compute. reflexivity. Qed.

(** In doubles, with dBdT full of NaN and NaN in [jac] outside the row of argon. *)
Definition ex_nan : num F64 := ndiv F64 (zero F64) (zero F64).
Definition ex_dirty : list (num F64) := map (fun i => if Nat.eqb (i mod 21) 20 then zero F64 else ex_nan) (seq 0 (21 * 21)).

Example C81_case : forall (M : libm F64) (p : num F64) y, length y = 21 ->
  exists J, lib_jacob M (library drm19) drm19_jac_all p y ex_dirty (repeat ex_nan 21) = Ok J /\
    lib_jacob M (library drm19) drm19_jac_all p y (repeat (zero F64) (21 * 21)) (repeat (zero F64) 21) = Ok J /\ nth_error J 20 = Some (zero F64).
Proof.
  intros M p y L. assert (LD : length ex_dirty = 21 * 21) by (unfold ex_dirty; rewrite map_length; apply seq_length).
  destruct (C81_whole F64 M p y ex_dirty (repeat ex_nan 21) L LD (repeat_length _ _)) as (J & E & _ & F & G). exists J. split; [exact E|].
  assert (I : forall k, k < 20 -> inert (chem drm19) k = true -> k = 19).
  { intros k Hk I. do 20 (destruct k as [|k]; [first [reflexivity|exfalso; vm_compute in I; discriminate I]|]). lia. }
  split.
  - apply G; [apply repeat_length|apply repeat_length|]. intros j k Hj Hk Ik. rewrite (I k Hk Ik). unfold ex_dirty.
    rewrite nth_error_map, nth_error_repeat by lia. rewrite (nth_error_nth' _ 0) by (rewrite seq_length; lia). cbn [option_map]. rewrite seq_nth by lia.
    replace (0 + (21 * j + 20)) with (20 + j * 21) by lia. rewrite Nat.mod_add by lia. reflexivity.
  - exact (F 0 19 ltac:(lia) ltac:(lia) eq_refl).
Qed.
Example C81_case_refuted : one F64 <> zero F64.
Proof. vm_compute. discriminate. Qed.
