(** Properties C31-C34 of the mixture fraction.
    Vocabulary: MixtureFraction.v (model of the code), the head of MixtureFacts.v
    ([bilger], [element_fraction], [stream], [mix], [elC], [elH], [elO]). *)
From Coq Require Import List Arith ZArith QArith Qabs Bool Floats.SpecFloat.
From Verif Require Import Outcome Arith MixtureFraction QSum MixtureFacts.
Import ListNotations.
Local Open Scope nat_scope.

(** ** Test data *)

(** Methane, oxygen, carbon dioxide, water, nitrogen; air against pure methane. *)
Definition ex_species : list (speciesData QAD) :=
  [ @mkSpecies QAD (Some (Some 1%Z, Some 4%Z, None)) 16%Q None (Some 1%Q);
    @mkSpecies QAD (Some (None, None, Some 2%Z)) 32%Q (Some (23#100)%Q) None;
    @mkSpecies QAD (Some (Some 1%Z, None, Some 2%Z)) 44%Q None None;
    @mkSpecies QAD (Some (None, Some 2%Z, Some 1%Z)) 18%Q None None;
    @mkSpecies QAD (Some (None, None, None)) 28%Q (Some (77#100)%Q) None ].

Example ex_species_ok : exists mf, initialize ex_species = Ok mf.
Proof. eexists. vm_compute. reflexivity. Qed.

(** ** C31: normalisation and linearity *)
Theorem C31_normalised_and_affine :
  forall sm gr vg (sp : list (speciesData (QA sm gr vg))) mf WC WH WO,
    ~ (WC == 0)%Q -> ~ (WH == 0)%Q -> ~ (WO == 0)%Q ->
    (forall s, In s sp -> ~ (sp_W s == 0)%Q) ->
    initialize sp = Ok mf ->
    let ox := stream (fun s => sp_ox s) sp in
    let fu := stream (fun s => sp_fu s) sp in
    ~ (bilger WC WH WO sp ox == bilger WC WH WO sp fu)%Q ->
    (exists z : Q, massFractionToMixtureFraction (A := QA sm gr vg) mf ox = Ok z /\ (z == 0)%Q) /\
    (exists z : Q, massFractionToMixtureFraction (A := QA sm gr vg) mf fu = Ok z /\ (z == 1)%Q) /\
    (forall (t : Q) (Y1 Y2 : list Q), length Y1 = length sp -> length Y2 = length sp ->
       exists z1 z2 z : Q,
         massFractionToMixtureFraction (A := QA sm gr vg) mf Y1 = Ok z1 /\
         massFractionToMixtureFraction (A := QA sm gr vg) mf Y2 = Ok z2 /\
         massFractionToMixtureFraction (A := QA sm gr vg) mf (mix t Y1 Y2) = Ok z /\
         (z == t * z1 + (1 - t) * z2)%Q).
Proof. exact normalised_lemma. Qed.
Print Assumptions C31_normalised_and_affine.

Example C31_case :
  (forall s, In s ex_species -> ~ (sp_W s == 0)%Q) /\
  ~ (bilger 12 1 16 ex_species (stream (fun s => sp_ox s) ex_species)
     == bilger 12 1 16 ex_species (stream (fun s => sp_fu s) ex_species))%Q.
Proof.
  split.
  - intros s H. simpl in H.
    repeat (destruct H as [<-|H]; [intros E; discriminate E|]). contradiction.
  - intros E. vm_compute in E. discriminate E.
Qed.

(** ** C32: the documented formula; a conserved scalar *)

(** It is Bilger's mixture fraction, whatever atomic weights one uses. *)
Theorem C32_bilger_formula :
  forall sm gr vg (sp : list (speciesData (QA sm gr vg))) mf WC WH WO Y (z : num (QA sm gr vg)),
    ~ (WC == 0)%Q -> ~ (WH == 0)%Q -> ~ (WO == 0)%Q ->
    (forall s, In s sp -> ~ (sp_W s == 0)%Q) ->
    initialize sp = Ok mf -> massFractionToMixtureFraction mf Y = Ok z ->
    let beta := bilger WC WH WO sp in
    (z == (beta Y - beta (stream (fun s => sp_ox s) sp))
          / (beta (stream (fun s => sp_fu s) sp) - beta (stream (fun s => sp_ox s) sp)))%Q.
Proof. exact bilger_lemma. Qed.
Print Assumptions C32_bilger_formula.

(** Compositions with the same elements have the same mixture fraction. *)
Theorem C32_conserved :
  forall sm gr vg (sp : list (speciesData (QA sm gr vg))) mf WC WH WO Y1 Y2
         (z1 z2 : num (QA sm gr vg)),
    ~ (WC == 0)%Q -> ~ (WH == 0)%Q -> ~ (WO == 0)%Q ->
    (forall s, In s sp -> ~ (sp_W s == 0)%Q) ->
    initialize sp = Ok mf ->
    massFractionToMixtureFraction mf Y1 = Ok z1 ->
    massFractionToMixtureFraction mf Y2 = Ok z2 ->
    (element_fraction elC WC sp Y1 == element_fraction elC WC sp Y2)%Q ->
    (element_fraction elH WH sp Y1 == element_fraction elH WH sp Y2)%Q ->
    (element_fraction elO WO sp Y1 == element_fraction elO WO sp Y2)%Q ->
    (z1 == z2)%Q.
Proof. exact conserved_lemma. Qed.
Print Assumptions C32_conserved.

(** Burning 16 g of CH4 with 64 g of O2 to 44 g of CO2 and 36 g of H2O (of 100 g). *)
Example C32_case :
  let Y1 := [16#100; 64#100; 0; 0; 20#100]%Q in
  let Y2 := [0; 0; 44#100; 36#100; 20#100]%Q in
  (element_fraction elC 12 ex_species Y1 == element_fraction elC 12 ex_species Y2)%Q /\
  (element_fraction elH 1 ex_species Y1 == element_fraction elH 1 ex_species Y2)%Q /\
  (element_fraction elO 16 ex_species Y1 == element_fraction elO 16 ex_species Y2)%Q /\
  exists mf z, initialize ex_species = Ok mf /\
    massFractionToMixtureFraction (A := QAD) mf Y1 = Ok z /\ (z == 23 # 423)%Q.
Proof.
  repeat (split; [vm_compute; reflexivity|]).
  do 2 eexists. split; [vm_compute; reflexivity|]. split; [vm_compute; reflexivity|].
  vm_compute. reflexivity.
Qed.

(** ** C33: streams that do not sum to one are rejected *)
Theorem C33_streams_checked :
  forall sm gr vg (sp : list (speciesData (QA sm gr vg))),
    (forall s, In s sp -> sp_elements s <> None) ->
    let bad l := (sm < Qabs (1 - Qsum l))%Q in
    (initialize sp = Fatal <->
       bad (stream (fun s => sp_ox s) sp) \/ bad (stream (fun s => sp_fu s) sp)) /\
    (initialize sp <> Fatal -> exists mf, initialize sp = Ok mf).
Proof. exact reject_lemma. Qed.
Print Assumptions C33_streams_checked.

Example C33_case_bad :
  initialize (A := QAD)
    [ @mkSpecies QAD (Some (Some 1%Z, Some 4%Z, None)) 16%Q (Some (1#10)%Q) (Some 1%Q);
      @mkSpecies QAD (Some (None, None, Some 2%Z)) 32%Q (Some (8#10)%Q) None ] = Fatal.
Proof. vm_compute. reflexivity. Qed.

(** In IEEE doubles the claim fails: mass fractions summing to NaN are accepted. *)
Theorem C33_nan_rejected_refuted :
  exists sp : list (speciesData F64),
    (forall s, In s sp -> sp_elements s <> None) /\
    nsum F64 (map y_ox sp) = S754_nan /\
    exists mf, initialize sp = Ok mf.
Proof.
  exists [ @mkSpecies F64 (Some (Some 1%Z, None, None)) (one F64) (Some S754_nan) (Some (one F64)) ].
  split; [intros s [<-|[]] E; discriminate E|]. split; [vm_compute; reflexivity|].
  match goal with |- exists mf, ?X = Ok mf =>
    assert (H : match X with Ok _ => true | _ => false end = true) by (vm_compute; reflexivity);
    destruct X as [mf| | |]; [exists mf; reflexivity|discriminate H..] end.
Qed.
Print Assumptions C33_nan_rejected_refuted.

(** ** C34: degenerate streams are not diagnosed *)

(** Refuted: fuel and oxidiser with the same Bilger value are accepted; the mixture
    fraction is then a division by zero, and cells are mapped because it is -infinity. *)
Theorem C34_degenerate_diagnosed_refuted :
  exists (sp : list (speciesData F64)) mf b Y mp,
    initialize sp = Ok mf /\ mf_beta mf = [b; b] /\
    nsum F64 (map y_ox sp) = one F64 /\ nsum F64 (map y_fu sp) = one F64 /\
    massFractionToMixtureFraction mf Y = Ok (S754_infinity true) /\
    newMapper (Some true) None None sp = Ok mp /\ shouldMap mp Y = Ok true.
Proof.
  (* streams of pure methane and of pure methane, composition pure oxygen *)
  set (sp := [ @mkSpecies F64 (Some (Some 1%Z, Some 4%Z, None)) (lit F64 16) (Some (one F64)) (Some (one F64));
               @mkSpecies F64 (Some (None, None, Some 2%Z)) (lit F64 32) None None ]).
  set (Y := [zero F64; one F64]).
  assert (H : match initialize sp, newMapper (Some true) None None sp with
              | Ok mf, Ok mp =>
                match mf_beta mf, massFractionToMixtureFraction mf Y, shouldMap mp Y with
                | [b; c], Ok (S754_infinity true), Ok true =>
                  match SFcompare b c with Some Eq => true | _ => false end
                | _, _, _ => false
                end
              | _, _ => false
              end = true) by (vm_compute; reflexivity).
  assert (Hb : match initialize sp with
               | Ok mf => hd (zero F64) (mf_beta mf) = nth 1 (mf_beta mf) (zero F64)
               | _ => True
               end) by (vm_compute; reflexivity).
  destruct (initialize sp) as [mf| | |] eqn:E1; [|discriminate H..].
  destruct (newMapper (Some true) None None sp) as [mp| | |] eqn:E2; [|discriminate H..].
  destruct (mf_beta mf) as [|b [|c [|? ?]]] eqn:E3;
    [discriminate H|discriminate H| |discriminate H]. cbn [hd nth] in Hb.
  destruct (massFractionToMixtureFraction mf Y) as [z| | |] eqn:E4; [|discriminate H..].
  destruct z as [?|[]| |?]; [discriminate H| |discriminate H..].
  destruct (shouldMap mp Y) as [[]| | |] eqn:E5; [|discriminate H..].
  exists sp, mf, b, Y, mp. subst c.
  split; [exact E1|]. split; [exact E3|]. split; [vm_compute; reflexivity|].
  split; [vm_compute; reflexivity|]. auto.
Qed.
Print Assumptions C34_degenerate_diagnosed_refuted.
