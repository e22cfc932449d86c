(** Facts about the mixture fraction (exact arithmetic). *)
From Coq Require Import List Arith ZArith QArith Qabs Lqa Lia Bool.
From Verif Require Import Outcome Arith MixtureFraction QSum.
Import ListNotations.
Local Open Scope nat_scope.

(** ** Specification vocabulary *)

(** Number of atoms of an element in a species; 0 when not listed. *)
Definition atoms {A} (k : option Z * option Z * option Z -> option Z) (s : speciesData A) : Q :=
  match sp_elements s with
  | Some e => inject_Z (match k e with Some n => n | None => 0%Z end)
  | None => 0
  end.

(** The entries for carbon, hydrogen and oxygen. *)
Definition elC (e : option Z * option Z * option Z) := fst (fst e).
(** See [elC]. *)
Definition elH (e : option Z * option Z * option Z) := snd (fst e).
(** See [elC]. *)
Definition elO (e : option Z * option Z * option Z) := snd e.

(** Element mass fraction, mixtureFraction.H:41-43: sum over species of
    a_{k,i} W_k / W_i * Y_i. *)
Definition element_fraction {sm gr vg} k (Wk : Q) (sp : list (speciesData (QA sm gr vg)))
  (Y : list Q) : Q :=
  Qsum (map (fun sy : speciesData (QA sm gr vg) * Q => atoms k (fst sy) * Wk / sp_W (fst sy) * snd sy)%Q (combine sp Y)).

(** Bilger's conserved scalar, mixtureFraction.H:36-38. *)
Definition bilger {sm gr vg} (WC WH WO : Q) (sp : list (speciesData (QA sm gr vg)))
  (Y : list Q) : Q :=
  (2 * (element_fraction elC WC sp Y / WC) + (1 # 2) * (element_fraction elH WH sp Y / WH)
   - 1 * (element_fraction elO WO sp Y / WO))%Q.

(** Mass fractions of a stream as listed in its dictionary, absent species being 0. *)
Definition stream {sm gr vg} (get : speciesData (QA sm gr vg) -> option Q)
  (sp : list (speciesData (QA sm gr vg))) : list Q :=
  map (fun s => match get s with Some y => y | None => 0%Q end) sp.

(** Mixing two compositions in proportion [t] to [1-t]. *)
Definition mix (t : Q) (Y1 Y2 : list Q) : list Q :=
  map (fun yy => t * fst yy + (1 - t) * snd yy)%Q (combine Y1 Y2).

(** ** Proofs *)
Section Exact.
  Context (sm gr vg : Q).
  Notation AQ := (QA sm gr vg).
  Notation speciesData := (speciesData AQ).
  Local Open Scope Q_scope.

  Definition qdot (al ys : list Q) : Q := Qsumf (fun ay => fst ay * snd ay) (combine al ys).

  Lemma dot_qdot (al ys : list Q) : (dot (A := AQ) al ys : Q) == qdot al ys.
  Proof.
    unfold dot, qdot. change (zero AQ) with 0.
    change (fold_left (fun s ay => s + fst ay * snd ay) (combine al ys) 0 ==
            Qsumf (fun ay => fst ay * snd ay) (combine al ys)).
    rewrite (fold_left_Qsumf (fun ay : Q * Q => fst ay * snd ay)). apply Qplus_0_l.
  Qed.

  Lemma qdot_mix t : forall (al Y1 Y2 : list Q), length Y1 = length Y2 ->
    qdot al (mix t Y1 Y2) == t * qdot al Y1 + (1 - t) * qdot al Y2.
  Proof.
    unfold qdot. induction al as [|a al IH]; intros [|y1 Y1] [|y2 Y2] HL; simpl in HL; try discriminate;
      try (unfold Qsumf; simpl; lra).
    cbn [mix map combine]. rewrite !Qsumf_cons. unfold mix in IH. rewrite IH by lia.
    simpl. lra.
  Qed.

  Lemma init_ok (sp : list speciesData) mf :
    initialize sp = Ok mf ->
    mapM alpha_of sp = Ok (mf_alpha mf) /\
    mf_beta mf = [dot (mf_alpha mf) (map y_ox sp); dot (mf_alpha mf) (map y_fu sp)] /\
    length (mf_alpha mf) = length sp.
  Proof.
    unfold initialize. intros H. apply bind_ok in H as (al & E & H).
    destruct (_ || _); [discriminate|]. inversion H; subst; simpl. split; auto. split; auto.
    eapply mapM_length; eauto.
  Qed.

  Lemma alpha_val (s : speciesData) (a : num AQ) :
    alpha_of s = Ok a ->
    (a : Q) == 2 * atoms elC s / sp_W s + (1 # 2) * atoms elH s / sp_W s + (-1) * atoms elO s / sp_W s.
  Proof.
    unfold alpha_of, atoms. destruct (sp_elements s) as [[[c h] o]|]; [|discriminate].
    intros H. inversion H. clear H. simpl. unfold ofZ, or_default. simpl.
    destruct c, h, o; simpl; reflexivity.
  Qed.

  Lemma alpha_bilger WC WH WO : ~ WC == 0 -> ~ WH == 0 -> ~ WO == 0 ->
    forall (sp : list speciesData) al Y, mapM alpha_of sp = Ok al ->
    (forall s, In s sp -> ~ sp_W s == 0) ->
    qdot al Y == bilger WC WH WO sp Y.
  Proof.
    intros HC HH HO. induction sp as [|s sp IH]; intros al Y HM HW.
    - inversion HM; subst. unfold qdot, bilger, element_fraction. simpl.
      unfold Qsumf. simpl. field. auto.
    - simpl in HM. apply bind_ok in HM as (a & Ha & HM). apply bind_ok in HM as (al' & Hal & HM).
      inversion HM; subst. destruct Y as [|y Y].
      + unfold qdot, bilger, element_fraction. simpl. unfold Qsumf. simpl. field. auto.
      + specialize (IH al' Y Hal (fun s Hs => HW s (or_intror Hs))).
        unfold qdot in *. cbn [combine]. rewrite Qsumf_cons, IH. cbn [fst snd].
        rewrite (alpha_val s a Ha).
        unfold bilger, element_fraction. cbn [combine map Qsum fst snd].
        assert (Hs : ~ (sp_W s : Q) == 0) by (apply HW; left; auto).
        set (W := sp_W s : Q) in *.
        change (sp_W s) with W.
        field. auto.
  Qed.

  Lemma Z_formula (sp : list speciesData) mf Y (z : num AQ) :
    initialize sp = Ok mf -> massFractionToMixtureFraction mf Y = Ok z ->
    (z : Q) == (qdot (mf_alpha mf) Y - qdot (mf_alpha mf) (stream (fun s => sp_ox s) sp))
             / (qdot (mf_alpha mf) (stream (fun s => sp_fu s) sp)
                - qdot (mf_alpha mf) (stream (fun s => sp_ox s) sp)).
  Proof.
    intros HI. apply init_ok in HI as (_ & HB & _).
    unfold massFractionToMixtureFraction. destruct (_ <=? _)%nat; [|discriminate].
    rewrite HB. cbn [idx nth_error bind]. intros H. injection H as <-.
    change (ndiv AQ) with Qdiv. change (nsub AQ) with Qminus.
    rewrite !dot_qdot. reflexivity.
  Qed.

  Lemma Z_total (sp : list speciesData) mf Y :
    initialize sp = Ok mf -> (length Y <= length sp)%nat ->
    exists z, massFractionToMixtureFraction mf Y = Ok z.
  Proof.
    intros HI HL. apply init_ok in HI as (_ & HB & HLa).
    unfold massFractionToMixtureFraction. rewrite HLa.
    apply Nat.leb_le in HL. rewrite HL, HB. cbn [idx nth_error bind]. eauto.
  Qed.

  Lemma stream_length get (sp : list speciesData) : length (stream get sp) = length sp.
  Proof. apply map_length. Qed.

  Lemma mix_length t Y1 Y2 : length Y1 = length Y2 -> length (mix t Y1 Y2) = length Y1.
  Proof. intros H. unfold mix. rewrite map_length, combine_length. lia. Qed.

  (** C31 *)
  Lemma normalised_lemma (sp : list speciesData) mf WC WH WO :
    ~ WC == 0 -> ~ WH == 0 -> ~ WO == 0 -> (forall s, In s sp -> ~ sp_W s == 0) ->
    initialize sp = Ok mf ->
    let ox := stream (fun s => sp_ox s) sp in
    let fu := stream (fun s => sp_fu s) sp in
    ~ bilger WC WH WO sp ox == bilger WC WH WO sp fu ->
    (exists z : Q, massFractionToMixtureFraction (A := AQ) mf ox = Ok z /\ z == 0) /\
    (exists z : Q, massFractionToMixtureFraction (A := AQ) mf fu = Ok z /\ z == 1) /\
    (forall (t : Q) (Y1 Y2 : list Q), length Y1 = length sp -> length Y2 = length sp ->
       exists z1 z2 z : Q,
         massFractionToMixtureFraction (A := AQ) mf Y1 = Ok z1 /\
         massFractionToMixtureFraction (A := AQ) mf Y2 = Ok z2 /\
         massFractionToMixtureFraction (A := AQ) mf (mix t Y1 Y2) = Ok z /\
         z == t * z1 + (1 - t) * z2).
  Proof.
    intros HC HH HO HW HI ox fu Hne.
    destruct (init_ok _ _ HI) as (HM & _ & _).
    assert (B := fun Y => alpha_bilger WC WH WO HC HH HO sp (mf_alpha mf) Y HM HW).
    assert (Hd : ~ qdot (mf_alpha mf) fu - qdot (mf_alpha mf) ox == 0).
    { rewrite !B. intros E. apply Hne. fold ox fu. lra. }
    split; [|split].
    - destruct (Z_total sp mf ox HI) as (z & Hz). { apply Nat.eq_le_incl, stream_length. }
      exists z. split; auto. rewrite (Z_formula sp mf ox z HI Hz). fold ox fu. field. auto.
    - destruct (Z_total sp mf fu HI) as (z & Hz). { apply Nat.eq_le_incl, stream_length. }
      exists z. split; auto. rewrite (Z_formula sp mf fu z HI Hz). fold ox fu. field. auto.
    - intros t Y1 Y2 L1 L2.
      destruct (Z_total sp mf Y1 HI) as (z1 & H1); [apply Nat.eq_le_incl, L1|].
      destruct (Z_total sp mf Y2 HI) as (z2 & H2); [apply Nat.eq_le_incl, L2|].
      destruct (Z_total sp mf (mix t Y1 Y2) HI) as (z & H3).
      { apply Nat.eq_le_incl. etransitivity; [apply mix_length|exact L1]. rewrite L1, L2. reflexivity. }
      exists z1, z2, z. split; auto. split; auto. split; auto.
      rewrite (Z_formula sp mf _ z HI H3), (Z_formula sp mf _ z1 HI H1), (Z_formula sp mf _ z2 HI H2).
      fold ox fu. rewrite qdot_mix by (rewrite L1, L2; reflexivity). field. auto.
  Qed.

  (** C32 *)
  Lemma bilger_lemma (sp : list speciesData) mf WC WH WO Y (z : num AQ) :
    ~ WC == 0 -> ~ WH == 0 -> ~ WO == 0 -> (forall s, In s sp -> ~ sp_W s == 0) ->
    initialize sp = Ok mf -> massFractionToMixtureFraction mf Y = Ok z ->
    let beta := bilger WC WH WO sp in
    (z : Q) == (beta Y - beta (stream (fun s => sp_ox s) sp))
               / (beta (stream (fun s => sp_fu s) sp) - beta (stream (fun s => sp_ox s) sp)).
  Proof.
    intros HC HH HO HW HI Hz beta.
    destruct (init_ok _ _ HI) as (HM & _ & _).
    assert (B := fun Y => alpha_bilger WC WH WO HC HH HO sp (mf_alpha mf) Y HM HW).
    rewrite (Z_formula sp mf Y z HI Hz), !B. reflexivity.
  Qed.

  Lemma conserved_lemma (sp : list speciesData) mf WC WH WO Y1 Y2 (z1 z2 : num AQ) :
    ~ WC == 0 -> ~ WH == 0 -> ~ WO == 0 -> (forall s, In s sp -> ~ sp_W s == 0) ->
    initialize sp = Ok mf ->
    massFractionToMixtureFraction mf Y1 = Ok z1 ->
    massFractionToMixtureFraction mf Y2 = Ok z2 ->
    element_fraction elC WC sp Y1 == element_fraction elC WC sp Y2 ->
    element_fraction elH WH sp Y1 == element_fraction elH WH sp Y2 ->
    element_fraction elO WO sp Y1 == element_fraction elO WO sp Y2 ->
    (z1 : Q) == z2.
  Proof.
    intros HC HH HO HW HI H1 H2 EC EH EO.
    rewrite (bilger_lemma sp mf WC WH WO Y1 z1), (bilger_lemma sp mf WC WH WO Y2 z2); auto.
    assert (E : bilger WC WH WO sp Y1 == bilger WC WH WO sp Y2).
    { unfold bilger. rewrite EC, EH, EO. reflexivity. }
    rewrite E. reflexivity.
  Qed.

  (** C33 *)
  Lemma nsum_Qsum (l : list Q) : (nsum AQ l : Q) == Qsum l.
  Proof.
    unfold nsum, sum_from. change (zero AQ) with 0. change (nadd AQ) with Qplus.
    assert (G := fold_left_Qsumf (fun x : Q => x) l 0). unfold Qsumf in G. rewrite map_id in G.
    rewrite G. apply Qplus_0_l.
  Qed.

  Lemma reject_lemma (sp : list speciesData) :
    (forall s, In s sp -> sp_elements s <> None) ->
    let bad l := sm < Qabs (1 - Qsum l) in
    (initialize sp = Fatal <->
       bad (stream (fun s => sp_ox s) sp) \/ bad (stream (fun s => sp_fu s) sp)) /\
    (initialize sp <> Fatal -> exists mf, initialize sp = Ok mf).
  Proof.
    intros He bad. unfold initialize.
    assert (HM : exists al, mapM alpha_of sp = Ok al).
    { clear bad. induction sp as [|s sp IH]; [exists []; reflexivity|].
      destruct IH as (al & E). { intros; apply He; right; auto. }
      cbn [mapM]. unfold alpha_of at 1. specialize (He s (or_introl eq_refl)).
      destruct (sp_elements s) as [[[c h] o]|]; [|congruence]. cbn [bind].
      rewrite E. cbn [bind]. eauto. }
    destruct HM as (al & ->). cbn [bind].
    assert (E : forall l, nltb AQ (small AQ) (nabs AQ (nsub AQ (one AQ) (nsum AQ l))) = true <-> bad l).
    { intros l. change (Qltb sm (Qabs (1 - (nsum AQ l : Q))) = true <-> bad l).
      rewrite Qltb_true. unfold bad. rewrite nsum_Qsum. reflexivity. }
    change (stream (fun s => sp_ox s) sp) with (map (@y_ox AQ) sp).
    change (stream (fun s => sp_fu s) sp) with (map (@y_fu AQ) sp).
    destruct (nltb AQ _ _) eqn:E1; cbn [orb].
    - apply E in E1. split; [tauto|]. congruence.
    - destruct (nltb AQ _ _) eqn:E2 in |- *.
      + apply E in E2. split; [tauto|]. congruence.
      + split; [|eauto]. split; [discriminate|]. intros [Hb|Hb]; apply E in Hb; congruence.
  Qed.
End Exact.
