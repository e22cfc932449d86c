(** Reading back what was written. *)
From Coq Require Import List ZArith Bool Arith Lia.
From Verif Require Import Outcome Arith Problem Streams.
Import ListNotations.

Section Facts.
  Context {A : Arith}.
  Notation toks := (list (tok A)).

  (** Specification: reading gives back what was written and stops exactly there. *)
  Definition codec {T} (wr : T -> toks) (rdr : reader (A := A) T) : Prop :=
    forall x rest, rdr (wr x ++ rest) = Some (x, rest).

  Lemma codec_field : codec wr_field rd_field.
  Proof.
    intros l rest. destruct l as [|x l]; [reflexivity|].
    unfold wr_field. simpl app. unfold rd_field. simpl length. cbv iota.
    rewrite Nat.eqb_refl. reflexivity.
  Qed.

  Lemma codec_n {T} (wr : T -> toks) rdr l rest :
    codec wr rdr -> rd_n rdr (length l) (concat (map wr l) ++ rest) = Some (l, rest).
  Proof.
    intros H. revert rest. induction l as [|x l IH]; intros rest; [reflexivity|].
    simpl. rewrite <- app_assoc. unfold rbind. rewrite H, IH. reflexivity.
  Qed.

  Lemma codec_list {T} (wr : T -> toks) rdr : codec wr rdr -> codec (wr_list wr) (rd_list rdr).
  Proof.
    intros H l rest. unfold wr_list, rd_list, rbind. simpl.
    rewrite <- app_assoc. rewrite (codec_n wr rdr) by auto. reflexivity.
  Qed.

  Lemma codec_load : codec wr_load rd_load.
  Proof. intros [r v] rest. reflexivity. Qed.

  Lemma codec_problem : codec wr_problem rd_problem.
  Proof.
    intros [c T p rho dtc dt cpu cell] rest. unfold wr_problem, rd_problem, rbind. simpl p_c.
    rewrite <- app_assoc, codec_field. reflexivity.
  Qed.

  Lemma codec_solution : codec wr_solution rd_solution.
  Proof.
    intros [rr dtc cpu cell rho] rest. unfold wr_solution, rd_solution, rbind. simpl s_rr.
    rewrite <- app_assoc, codec_field. reflexivity.
  Qed.
End Facts.
