(** Model of refMapping/mixtureFraction.[HC] and refMapping/mixtureFractionRefMapper.[HC]
    (in src/thermophysicalModels/chemistryModel). *)
From Coq Require Import List Arith ZArith QArith Bool.
From Verif Require Import Outcome Arith.
Import ListNotations.
Local Open Scope nat_scope.

Section Model.
  Context {A : Arith}.

  (** What [initialize] reads about one species (mixtureFraction.C:42-50): the optional
      entries C, H, O of [<species>.elements] ([None] for the triple: the sub-dictionary is
      missing) and the molecular weight [thermo.Wi(i)].
      Dictionaries are keyed by species name in the code, by position here; the
      dictionaries oxidizerMassFractions and fuelMassFractions themselves are assumed
      to be present (else a FatalIOError). *)
  Record speciesData := mkSpecies {
    sp_elements : option (option Z * option Z * option Z);
    sp_W : num A;
    sp_ox : option (num A);   (* oxidizerMassFractions.<species> *)
    sp_fu : option (num A)    (* fuelMassFractions.<species> *)
  }.

  (** Data members [alpha_], [beta_] of mixtureFraction, mixtureFraction.H:113-114. *)
  Record mixfrac := mkMix { mf_alpha : list (num A); mf_beta : list (num A) }.

  (** [mixtureFraction() = default], mixtureFraction.H:101. *)
  Definition mix_default : mixfrac := mkMix [] [].

  (** [dictionary::lookupOrDefault]. *)
  Definition or_default {T} (o : option T) (d : T) : T :=
    match o with Some x => x | None => d end.

  (** A label converted to scalar; mixtureFraction.C:45-49. *)
  Definition ofZ (z : Z) : num A := lit A (inject_Z z).

  (** One iteration of the loop at mixtureFraction.C:40-51; a missing sub-dictionary is a
      FatalIOError. *)
  Definition alpha_of (s : speciesData) : outcome (num A) :=
    match sp_elements s with
    | None => Fatal
    | Some (c, h, o) =>
      let a0 := ndiv A (nmul A (lit A 2) (ofZ (or_default c 0%Z))) (sp_W s) in
      let a1 := ndiv A (nmul A (lit A (1 # 2)) (ofZ (or_default h 0%Z))) (sp_W s) in
      let a2 := ndiv A (nmul A (lit A (-1)) (ofZ (or_default o 0%Z))) (sp_W s) in
      Ok (nadd A (nadd A a0 a1) a2)
    end.

  (** Oxidizer row of [Yconst], mixtureFraction.C:53-57. *)
  Definition y_ox (s : speciesData) : num A := or_default (sp_ox s) (zero A).

  (** Fuel row of [Yconst], mixtureFraction.C:58-60. *)
  Definition y_fu (s : speciesData) : num A := or_default (sp_fu s) (zero A).

  (** [sum += alpha[i]*Y[i]] in increasing [i] starting from zero;
      mixtureFraction.C:77-81 and 96-100. *)
  Definition dot (al ys : list (num A)) : num A :=
    fold_left (fun s ay => nadd A s (nmul A (fst ay) (snd ay))) (combine al ys) (zero A).

  (** [mixtureFraction::initialize], mixtureFraction.C:38-89, called by the constructor at
      lines 30-36.  The stoichiometric value (lines 85-87) is only printed and left out. *)
  Definition initialize (sp : list speciesData) : outcome mixfrac :=
    let* alpha := mapM alpha_of sp in
    let oxTot := nsum A (map y_ox sp) in
    let fuTot := nsum A (map y_fu sp) in
    if nltb A (small A) (nabs A (nsub A (one A) oxTot))
       || nltb A (small A) (nabs A (nsub A (one A) fuTot))
    then Fatal
    else Ok (mkMix alpha [dot alpha (map y_ox sp); dot alpha (map y_fu sp)]).

  (** [mixtureFraction::massFractionToMixtureFraction], mixtureFraction.C:93-106.
      [alpha_[iField]] beyond the number of species is out of range. *)
  Definition massFractionToMixtureFraction (mf : mixfrac) (Y : list (num A))
    : outcome (num A) :=
    if length Y <=? length (mf_alpha mf) then
      let beta := dot (mf_alpha mf) Y in
      let* b0 := idx (mf_beta mf) 0 in
      let* b1 := idx (mf_beta mf) 1 in
      Ok (ndiv A (nsub A beta b0) (nsub A b1 b0))
    else UB.

  (** Data members of mixtureFractionRefMapper, mixtureFractionRefMapper.H:115-125. *)
  Record mapper := mkMapper {
    mp_active : bool;
    mp_Ztol : num A;
    mp_Ttol : num A;
    mp_mix : mixfrac
  }.

  (** [mixtureFractionRefMapper::mixtureFractionRefMapper], mixtureFractionRefMapper.H:78-92;
      [active], [tolerance], [deltaT] are the optional dictionary entries. *)
  Definition newMapper (active : option bool) (tolerance deltaT : option (num A))
    (sp : list speciesData) : outcome mapper :=
    let act := or_default active false in
    let ztol := or_default tolerance (lit A (1 # 10 ^ 4)) in
    let ttol := or_default deltaT (vgreat A) in
    if act then let* mf := initialize sp in Ok (mkMapper act ztol ttol mf)
    else Ok (mkMapper act ztol ttol mix_default).

  (** [mixtureFractionRefMapper::shouldMap], mixtureFractionRefMapper.C:29-41. *)
  Definition shouldMap (mp : mapper) (Y : list (num A)) : outcome bool :=
    if mp_active mp then
      let* Z := massFractionToMixtureFraction (mp_mix mp) Y in
      Ok (nltb A Z (mp_Ztol mp))
    else Ok false.

  (** [mixtureFractionRefMapper::temperatureWithinRange],
      mixtureFractionRefMapper.C:45-48.  [abs] is taken to be the floating-point
      absolute value. *)
  Definition temperatureWithinRange (mp : mapper) (Ti Tref : num A) : bool :=
    nltb A (nabs A (nsub A Ti Tref)) (mp_Ttol mp).
End Model.
Arguments speciesData A : clear implicits.
Arguments mixfrac A : clear implicits.
Arguments mapper A : clear implicits.
