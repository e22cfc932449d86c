(** Calls of mechanism functions through their closed forms. *)
From Coq Require Import List NArith PArith QArith Bool Lia FMapPositive.
From Verif Require Import Outcome Arith MechLang MechSym MechSrc.
Import ListNotations.
Local Open Scope nat_scope.

(** Values of the arguments of a call. *)
Definition argument {A : Arith} (ins : list (var * list (num A))) (v : var) (i : N) : num A :=
  nth (N.to_nat i) (match find (fun p => var_eqb (fst p) v) ins with Some p => snd p | None => [] end) (zero A).

(** The variables of a list. *)
Definition among (sh : list (var * nat)) (v : var) : bool := existsb (fun p => var_eqb (fst p) v) sh.

(** Symbolic run of a call with arguments of the given shape. *)
Definition symbolic (sh locals : list (var * nat)) (body : list stmt) : option smem :=
  srun (sizes (sh ++ locals)) (among sh) (PositiveMap.empty expr) body.

(** Closed form of an element after the call. *)
Definition form (sh locals : list (var * nat)) (s : smem) (v : var) (i : nat) : option expr :=
  look (sizes (sh ++ locals)) (among sh) s v (N.of_nat i).

(** The same with a default. *)
Definition formd (sh locals : list (var * nat)) (s : smem) (v : var) (i : nat) : expr :=
  match form sh locals s v i with Some e => e | None => Num 0 end.

(** Every element of an array has a closed form, which passes a test. *)
Definition all_forms (sh locals : list (var * nat)) (s : smem) (v : var) (f : nat -> expr -> bool) : bool :=
  forallb (fun i => match form sh locals s v i with Some e => f i e | None => false end)
    (seq 0 (N.to_nat (sizes (sh ++ locals) v))).

Lemma all_forms_in sh locals s v f i : all_forms sh locals s v f = true ->
  i < N.to_nat (sizes (sh ++ locals) v) ->
  form sh locals s v i = Some (formd sh locals s v i) /\ f i (formd sh locals s v i) = true.
Proof.
  intros H Hi. unfold all_forms in H. rewrite forallb_forall in H.
  specialize (H i ltac:(apply in_seq; lia)). unfold formd. destruct (form sh locals s v i); [auto|discriminate].
Qed.

Lemma all_forms_weaken sh locals s v f : all_forms sh locals s v f = true ->
  all_forms sh locals s v (fun _ _ => true) = true.
Proof.
  unfold all_forms. rewrite !forallb_forall. intros H i Hi. specialize (H i Hi).
  destruct (form sh locals s v i); [reflexivity|discriminate].
Qed.

Section Calls.
  Context {A : Arith}.
  Variable M : libm A.

  Lemma find_app {X} f (a b : list X) :
    find f (a ++ b) = match find f a with Some x => Some x | None => find f b end.
  Proof. induction a as [|x a IH]; cbn; [reflexivity|]. destruct (f x); auto. Qed.

  Lemma sizes_shape (ins : list (var * list (num A))) locals v : among (shape ins) v = true ->
    sizes (shape ins ++ locals) v =
    N.of_nat (length (match find (fun p => var_eqb (fst p) v) ins with Some p => snd p | None => [] end)).
  Proof.
    unfold sizes, among. rewrite find_app. intros H.
    assert (E : find (fun p => var_eqb (fst p) v) (shape ins) =
      match find (fun p => var_eqb (fst p) v) ins with Some p => Some (fst p, length (snd p)) | None => None end).
    { clear H. induction ins as [|p ins IH]; cbn; [reflexivity|]. destruct (var_eqb (fst p) v); auto. }
    rewrite E. destruct (find (fun p => var_eqb (fst p) v) ins) as [p|] eqn:F; [reflexivity|].
    exfalso. apply existsb_exists in H as (q & Hq & K).
    pose proof (find_none _ _ E q Hq) as N. cbn in N. congruence.
  Qed.

  Lemma call_closed body (ins : list (var * list (num A))) locals outs s :
    symbolic (shape ins) locals body = Some s ->
    (forall v, In v outs -> all_forms (shape ins) locals s v (fun _ _ => true) = true) ->
    call M body ins locals outs =
    Ok (map (fun v => map (fun i => val M (argument ins) (formd (shape ins) locals s v i))
                        (seq 0 (N.to_nat (sizes (shape ins ++ locals) v)))) outs).
  Proof.
    intros H W. unfold call.
    destruct (closed_forms (sizes (shape ins ++ locals)) (among (shape ins)) M (argument ins) (given ins) body s)
      as (m & -> & G).
    - intros v i I L. rewrite (sizes_shape _ _ _ I) in L. unfold given, argument.
      destruct (find (fun p => var_eqb (fst p) v) ins) as [p|] eqn:F.
      + apply nth_error_nth'. lia.
      + cbn in L. lia.
    - exact H.
    - cbn [bind]. revert W. induction outs as [|v outs IH]; intros W; cbn [mapM map]; [reflexivity|].
      rewrite (read_closed _ _ M (argument ins) m s v (formd (shape ins) locals s v) G).
      + cbn [bind]. rewrite IH by (intros; apply W; right; assumption). reflexivity.
      + intros i Hi. apply (all_forms_in _ _ _ _ _ _ (W v (or_introl eq_refl)) Hi).
  Qed.
End Calls.
