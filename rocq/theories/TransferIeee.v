(** What the sweep of LoadBalancer::getOperations asks each rank to give and to take, in IEEE doubles. *)
From Coq Require Import List Arith ZArith QArith Bool Lia Permutation Sorted Reals Lra Psatz.
From Flocq Require Import Core BinarySingleNaN.
From Verif Require Import Outcome Arith Problem LoadBalancing BalancerSpec SweepFacts Ieee SweepIeee.
Import ListNotations.
Local Open Scope R_scope.

Local Notation load := (load F64).
Local Notation operation := (operation F64).

(** Sum of the positive values of the operations that take load from, and bring load to, rank [k]; not functions of /repo. *)
Definition gives (k : nat) (ops : list operation) : R :=
  Rsum (map (fun op : operation => Rmax 0 (val (o_value op))) (filter (fun op => Nat.eqb (o_from op) k) ops)).
Definition takes (k : nat) (ops : list operation) : R :=
  Rsum (map (fun op : operation => Rmax 0 (val (o_value op))) (filter (fun op => Nat.eqb (o_to op) k) ops)).

Lemma gives_snoc k g op : gives k (g ++ [op]) = gives k g + (if Nat.eqb (o_from op) k then Rmax 0 (val (o_value op)) else 0).
Proof. unfold gives. rewrite filter_app, map_app, Rsum_app. cbn [filter]. destruct (o_from op =? k)%nat; cbn [map Rsum]; lra. Qed.

Lemma takes_snoc k g op : takes k (g ++ [op]) = takes k g + (if Nat.eqb (o_to op) k then Rmax 0 (val (o_value op)) else 0).
Proof. unfold takes. rewrite filter_app, map_app, Rsum_app. cbn [filter]. destruct (o_to op =? k)%nat; cbn [map Rsum]; lra. Qed.

Lemma gives_none k g : (forall op, In op g -> o_from op <> k) -> gives k g = 0.
Proof.
  intros H. unfold gives. induction g as [|op g IH]; [reflexivity|]. cbn [filter].
  destruct (Nat.eqb_spec (o_from op) k) as [E|E]; [exfalso; apply (H op); [left; reflexivity|exact E]|]. apply IH. intros o Ho. apply H. right. exact Ho.
Qed.

Lemma takes_none k g : (forall op, In op g -> o_to op <> k) -> takes k g = 0.
Proof.
  intros H. unfold takes. induction g as [|op g IH]; [reflexivity|]. cbn [filter].
  destruct (Nat.eqb_spec (o_to op) k) as [E|E]; [exfalso; apply (H op); [left; reflexivity|exact E]|]. apply IH. intros o Ho. apply H. right. exact Ho.
Qed.

Section Books.
  Variable mean : num F64.
  Hypothesis Hmean : fin64 mean.
  Let m : R := val mean.
  Let sm : R := val (small F64).
  Let w : R := u * m.
  Hypothesis Hm : 0 < m.
  Hypothesis Hsmall : fin64 (small F64).
  Hypothesis Hsm : 0 < sm.
  Variable n : nat.
  Let N : R := INR n.
  Variable D0 : R.
  Hypothesis HD0 : 0 <= D0.
  Hypothesis Hdel : D0 + N * (w * (N + 8) + sm) <= m / 8.
  Hypothesis Hw : w <= m / 1000.
  Hypothesis Hbig : (N + 4) * m <= bpow radix2 1000.

  Variable init : list load.
  Hypothesis Hstart : finv mean n D0 [] init [].
  Hypothesis Hnd : NoDup (ranks init).
  Hypothesis Hne : init <> [].
  (** The load a rank starts with; not a function of /repo. *)
  Variable I : nat -> R.
  Hypothesis HI : forall l, In l init -> secs l = I (l_rank l).

  (** What holds of receiver [a], untouched loads [M] and sender [b] after [k] operations. *)
  Record front (k : nat) (g : list operation) (a : load) (M : list load) (b : load) : Prop := {
    fr_M : forall x, In x M -> secs x = I (l_rank x);
    fr_a : takes (l_rank a) g + Rmin (I (l_rank a)) m <= secs a + 10 * INR k * w \/ (forall x, In x (M ++ [b]) -> secs x <= m);
    fr_b : gives (l_rank b) g + secs b <= Rmax (I (l_rank b)) m + INR k * (N + 8) * w \/ (forall x, In x (a :: M) -> m <= secs x)
  }.

  Record books (W : list load) (g : list operation) : Prop := {
    bk_takes : forall r, takes r g <= m - Rmin (I r) m + (10 * INR (length g) + 7) * w;
    bk_gives : forall r, gives r g <= Rmax (I r) m - m + INR (length g) * (N + 8) * w;
    bk_front : forall a M b, W = a :: M ++ [b] -> front (length g) g a M b
  }.

  Lemma wpos : 0 < w.
  Proof. unfold w. apply Rmult_lt_0_compat; [apply u_pos|exact Hm]. Qed.

  Lemma fl_pos_lt x y : 0 < fl (x - y) -> repr x -> repr y -> y < x.
  Proof.
    intros H Rx Ry. destruct (Rlt_le_dec y x) as [L|L]; [exact L|]. exfalso.
    assert (fl (x - y) <= 0) by (apply fl_le_repr; [apply repr_0|lra]). lra.
  Qed.

  (** One iteration, common part. *)
  Lemma books_step P a M b S g : finv mean n D0 P (a :: M ++ [b]) S -> struct_inv P (a :: M ++ [b]) S g -> NoDup (ranks (P ++ (a :: M ++ [b]) ++ S)) ->
    books (a :: M ++ [b]) g ->
    let g' := g ++ [xop mean a b] in
    let v := val (xfer mean a b) in
    (forall r, takes r g' <= m - Rmin (I r) m + (10 * INR (length g') + 7) * w) /\
    (forall r, gives r g' <= Rmax (I r) m - m + INR (length g') * (N + 8) * w) /\
    (forall x, In x M -> secs x = I (l_rank x) /\ takes (l_rank x) g' = 0 /\ gives (l_rank x) g' = 0) /\
    (takes (l_rank a) g' + Rmin (I (l_rank a)) m <= secs (recv' mean a b) + 10 * INR (length g') * w \/ (forall x, In x M -> secs x <= m)) /\
    (gives (l_rank b) g' + secs (send' mean a b) <= Rmax (I (l_rank b)) m + INR (length g') * (N + 8) * w \/ (forall x, In x M -> m <= secs x)).
  Proof.
    intros FI SI ND [BT BG BF] g' v. destruct (BF a M b eq_refl) as [FM FA FB]. assert (W0 := wpos). assert (N0 : 0 <= N) by apply pos_INR. assert (U := u_pos).
    destruct (finv_step mean Hmean Hm Hsm n D0 HD0 Hdel Hw Hbig P a M b S FI) as (ST & _).
    destruct ST as [_ _ _ St Sc (X1 & X2 & X3 & X4 & X5) _]. fold m w N v in St, Sc, X1, X2, X3, X4, X5.
    apply Rabs_le_inv in X1. apply Rabs_le_inv in X2.
    destruct FI as [_ _ HW _ _]. destruct HW as (a1 & R & E & La & Ha & HRR). injection E as <- <-.
    destruct HRR as [HRR|(M1 & b1 & E & Lb & _ & _ & Htop & Hlow)]; [destruct M; discriminate|]. apply app_inj_tail in E as [<- <-]. fold m w in Htop, Hlow.
    assert (Rm : repr m) by (apply val_repr; exact Hmean). assert (Ra : repr (secs a)) by (apply val_repr; exact La). assert (Rb : repr (secs b)) by (apply val_repr; exact Lb).
    assert (SEND : m <= secs (send' mean a b)) by (destruct Sc as [[-> _]|[Q _]]; lra).
    assert (K : INR (length g') = INR (length g) + 1) by (unfold g'; rewrite app_length, plus_INR; reflexivity).
    assert (K0 : 0 <= INR (length g)) by apply pos_INR.
    assert (NW : 0 <= (N + 8) * w) by (apply Rmult_le_pos; lra). assert (KW : 0 <= INR (length g) * w) by (apply Rmult_le_pos; lra).
    assert (POS : 0 < v -> secs a < m /\ m < secs b).
    { intros V. split; apply fl_pos_lt; auto; lra. }
    assert (TA : takes (l_rank a) g' = takes (l_rank a) g + Rmax 0 v) by (unfold g'; rewrite takes_snoc; cbn [o_to xop o_value]; rewrite Nat.eqb_refl; reflexivity).
    assert (GB : gives (l_rank b) g' = gives (l_rank b) g + Rmax 0 v) by (unfold g'; rewrite gives_snoc; cbn [o_from xop o_value]; rewrite Nat.eqb_refl; reflexivity).
    assert (A1 : 0 < v -> takes (l_rank a) g + v + Rmin (I (l_rank a)) m <= secs (recv' mean a b) + 4 * w + 10 * INR (length g) * w).
    { intros V. destruct (POS V) as [P1 P2]. destruct FA as [FA|FA]; [lra|]. exfalso. specialize (FA b ltac:(apply in_or_app; right; left; reflexivity)). lra. }
    assert (B1 : 0 < v -> gives (l_rank b) g + v + secs (send' mean a b) <= Rmax (I (l_rank b)) m + INR (length g) * (N + 8) * w + (N + 4) * w).
    { intros V. destruct (POS V) as [P1 P2]. destruct FB as [FB|FB]; [lra|]. exfalso. specialize (FB a (or_introl eq_refl)). lra. }
    split; [|split; [|split; [|split]]].
    - intros r. rewrite K. assert (B := BT r). unfold g'. rewrite takes_snoc. cbn [o_to xop o_value]. fold v. destruct (Nat.eqb_spec (l_rank a) r) as [<-|_]; [|lra].
      unfold Rmax. destruct (Rle_dec 0 v) as [V|V]; [|lra]. destruct V as [V|<-]; [specialize (A1 V); lra|lra].
    - intros r. rewrite K. assert (B := BG r). unfold g'. rewrite gives_snoc. cbn [o_from xop o_value]. fold v. destruct (Nat.eqb_spec (l_rank b) r) as [<-|_]; [|lra].
      unfold Rmax at 1. destruct (Rle_dec 0 v) as [V|V]; [|lra]. destruct V as [V|<-]; [specialize (B1 V); lra|lra].
    - intros x Hx. split; [apply FM, Hx|].
      assert (NDx : ~ In (l_rank x) (ranks P) /\ ~ In (l_rank x) (ranks S) /\ l_rank x <> l_rank a /\ l_rank x <> l_rank b).
      { apply in_split in Hx as (M1 & M2 & ->).
        assert (Q : ~ In (l_rank x) (ranks ((P ++ a :: M1) ++ (M2 ++ [b] ++ S)))).
        { unfold ranks in *. rewrite map_app. apply NoDup_remove_2. replace (map l_rank (P ++ a :: M1) ++ l_rank x :: map l_rank (M2 ++ [b] ++ S)) with (map l_rank (P ++ (a :: (M1 ++ x :: M2) ++ [b]) ++ S)); [exact ND|].
          change (l_rank x :: map l_rank (M2 ++ [b] ++ S)) with (map l_rank (x :: M2 ++ [b] ++ S)). rewrite <- map_app. f_equal. lapp. }
        assert (G : forall y, In y ((P ++ a :: M1) ++ (M2 ++ [b] ++ S)) -> l_rank x <> l_rank y) by (intros y Hy Ey; apply Q; rewrite Ey; apply in_map; exact Hy).
        split; [|split; [|split]].
        - intros Z. apply in_map_iff in Z as (y & Ey & Hy). apply (G y); [apply in_or_app; left; apply in_or_app; left; exact Hy|congruence].
        - intros Z. apply in_map_iff in Z as (y & Ey & Hy). apply (G y); [apply in_or_app; right; apply in_or_app; right; right; exact Hy|congruence].
        - apply G. apply in_or_app; left; apply in_or_app; right; left; reflexivity.
        - apply G. apply in_or_app; right; apply in_or_app; right; left; reflexivity. }
      destruct NDx as (N1 & N2 & N3 & N4). destruct SI as [SL _ _ _].
      unfold g'. rewrite takes_snoc, gives_snoc. cbn [o_to o_from xop]. destruct (Nat.eqb_spec (l_rank a) (l_rank x)) as [Q|_]; [congruence|]. destruct (Nat.eqb_spec (l_rank b) (l_rank x)) as [Q|_]; [congruence|].
      rewrite takes_none, gives_none; [split; lra| |].
      + intros op Ho Q. destruct (SL op Ho) as [[L|L] _]; [rewrite Q in L; contradiction|]. rewrite last_ranks_window in L. congruence.
      + intros op Ho Q. destruct (SL op Ho) as [_ [L|L]]; [rewrite Q in L; contradiction|]. cbn in L. congruence.
    - rewrite TA, K. unfold Rmax. destruct (Rle_dec 0 v) as [V|V].
      + destruct V as [V|V]; [left; specialize (A1 V); lra|]. rewrite <- V in *. destruct FA as [FA|FA]; [left; lra|].
        right. intros x Hx. apply FA, in_or_app. left. exact Hx.
      + destruct FA as [FA|FA]; [|right; intros x Hx; apply FA, in_or_app; left; exact Hx].
        destruct X5 as [[_ XV]|[XR _]].
        * right. assert (BM : secs b < m). { destruct (Rlt_le_dec (secs b) m) as [Q|Q]; [exact Q|]. exfalso. assert (0 <= fl (secs b - m)) by (apply fl_ge_repr; [apply repr_0|lra]). lra. }
          destruct Htop as [Ht|Ht]; [|lra]. intros x Hx. specialize (Ht x Hx). lra.
        * left. apply Rabs_le_inv in XR. assert (B := BT (l_rank a)). lra.
    - rewrite GB, K. unfold Rmax at 1. destruct (Rle_dec 0 v) as [V|V].
      + destruct V as [V|V]; [left; specialize (B1 V); lra|]. rewrite <- V in *. destruct FB as [FB|FB]; [left; lra|].
        right. intros x Hx. apply FB. right. exact Hx.
      + destruct FB as [FB|FB]; [|right; intros x Hx; apply FB; right; exact Hx].
        destruct X5 as [[XS _]|[_ XV]].
        * left. rewrite XS. assert (B := BG (l_rank b)). lra.
        * assert (AM : m < secs a). { destruct (Rlt_le_dec m (secs a)) as [Q|Q]; [exact Q|]. exfalso. assert (0 <= fl (m - secs a)) by (apply fl_ge_repr; [apply repr_0|lra]). lra. }
          destruct Hlow as [Hl|[Hl _]]; [left|right; intros x Hx; specialize (Hl x Hx); lra].
          assert (EV : Rabs (fl (m - secs a) - (m - secs a)) <= u * Rabs (m - secs a)) by (apply fl_sub_err; assumption).
          assert (AB : Rabs (m - secs a) <= 3 * w) by (apply Rabs_le; lra).
          assert (u * Rabs (m - secs a) <= w). { apply Rle_trans with (u * (3 * w)); [apply Rmult_le_compat_l; lra|]. assert (u * (3 * w) <= / 1000 * (3 * w)); [|lra]. apply Rmult_le_compat_r; [lra|]. apply Rmult_le_reg_r with m; [exact Hm|]. unfold w in Hw. lra. }
          apply Rabs_le_inv in EV. lra.
  Qed.

  Lemma reach_books P W S g : reach mean init P W S g -> books W g.
  Proof.
    intros HR. assert (W0 := wpos). assert (N0 : 0 <= N) by apply pos_INR.
    induction HR as [|P a M b S g HR IH D|P a M b S g HR IH D].
    - split.
      + intros r. cbn. assert (Rmin (I r) m <= m) by apply Rmin_r. lra.
      + intros r. cbn. assert (m <= Rmax (I r) m) by apply Rmax_r. lra.
      + intros a M b E. split.
        * intros x Hx. apply HI. rewrite E. right. apply in_or_app. left. exact Hx.
        * left. cbn. rewrite (HI a) by (rewrite E; left; reflexivity). assert (Rmin (I (l_rank a)) m <= I (l_rank a)) by apply Rmin_l. lra.
        * left. cbn. rewrite (HI b) by (rewrite E; right; apply in_or_app; right; left; reflexivity). assert (I (l_rank b) <= Rmax (I (l_rank b)) m) by apply Rmax_l. lra.
    - assert (FI := reach_finv mean Hmean Hm Hsmall Hsm n D0 HD0 Hdel Hw Hbig init P _ S g Hstart HR).
      assert (SI := reach_struct mean init P _ S g Hnd Hne HR). assert (ND := Hnd). rewrite <- (reach_ranks mean init P _ S g HR) in ND.
      destruct (books_step P a M b S g FI SI ND IH) as (T' & G' & FM & FA & FB).
      split; [exact T'|exact G'|]. intros a' M' b' E. injection E as <- ->. split.
      + intros x Hx. apply FM, in_or_app. left. exact Hx.
      + exact FA.
      + left. destruct (FM b' ltac:(apply in_or_app; right; left; reflexivity)) as (Q1 & _ & Q2). rewrite Q2, Q1.
        assert (I (l_rank b') <= Rmax (I (l_rank b')) m) by apply Rmax_l. assert (0 <= INR (length (g ++ [xop mean a b])) * (N + 8) * w) by (apply Rmult_le_pos; [apply Rmult_le_pos; [apply pos_INR|lra]|lra]). lra.
    - assert (FI := reach_finv mean Hmean Hm Hsmall Hsm n D0 HD0 Hdel Hw Hbig init P _ S g Hstart HR).
      assert (SI := reach_struct mean init P _ S g Hnd Hne HR). assert (ND := Hnd). rewrite <- (reach_ranks mean init P _ S g HR) in ND.
      destruct (books_step P a M b S g FI SI ND IH) as (T' & G' & FM & FA & FB).
      split; [exact T'|exact G'|]. intros a' M' b' E. change (a' :: M' ++ [b']) with ((a' :: M') ++ [b']) in E. apply app_inj_tail in E as [-> <-]. split.
      + intros x Hx. apply FM. right. exact Hx.
      + left. destruct (FM a' (or_introl eq_refl)) as (Q1 & Q2 & _). rewrite Q2, Q1.
        assert (Rmin (I (l_rank a')) m <= I (l_rank a')) by apply Rmin_l. assert (0 <= 10 * INR (length (g ++ [xop mean a b])) * w) by (apply Rmult_le_pos; [apply Rmult_le_pos; [lra|apply pos_INR]|lra]). lra.
      + exact FB.
  Qed.

  Lemma reach_fin P W S g : reach mean init P W S g -> forall op, In op g -> fin64 (o_value op).
  Proof.
    assert (ST : forall P a M b S g, reach mean init P (a :: M ++ [b]) S g -> fin64 (xfer mean a b)).
    { intros P' a M b S' g' HR. assert (FI := reach_finv mean Hmean Hm Hsmall Hsm n D0 HD0 Hdel Hw Hbig init P' _ S' g' Hstart HR).
      destruct (finv_step mean Hmean Hm Hsm n D0 HD0 Hdel Hw Hbig P' a M b S' FI) as (ST & _). apply ST. }
    induction 1 as [|P a M b S g HR IH D|P a M b S g HR IH D]; [intros op []| |]; intros op Hop; apply in_app_or in Hop as [Hop|[<-|[]]]; auto; cbn [o_value xop]; eapply ST; exact HR.
  Qed.

  (** At most one operation per rank but one. *)
  Lemma reach_count P W S g : reach mean init P W S g -> (length g + length W = length init)%nat.
  Proof.
    induction 1 as [|P a M b S g HR IH D|P a M b S g HR IH D]; [reflexivity|..]; cbn [length] in *; rewrite ?app_length in *; cbn [length] in *; lia.
  Qed.
End Books.

(** ** The operations of one rank *)

(** Time that the operations take from, and bring to, rank [k]; not functions of /repo. *)
Definition given64 (k : nat) (ops : list operation) : R :=
  Rsum (map (fun op : operation => val (o_value op)) (filter (fun op => Nat.eqb (o_from op) k) ops)).
Definition taken64 (k : nat) (ops : list operation) : R :=
  Rsum (map (fun op : operation => val (o_value op)) (filter (fun op => Nat.eqb (o_to op) k) ops)).

(** Leaving operations out. *)
Lemma filtered_le (f p : operation -> bool) ops :
  Rsum (map (fun op : operation => val (o_value op)) (filter f (filter p ops))) <= Rsum (map (fun op : operation => Rmax 0 (val (o_value op))) (filter f ops)).
Proof.
  induction ops as [|op ops IH]; [cbn; lra|]. cbn [filter]. assert (0 <= Rmax 0 (val (o_value op))) by apply Rmax_l. assert (val (o_value op) <= Rmax 0 (val (o_value op))) by apply Rmax_r.
  destruct (p op); cbn [filter]; destruct (f op); cbn [map Rsum]; lra.
Qed.

(** The loads a sweep starts from, by rank. *)
Lemma load_of (loads : list load) : NoDup (map l_rank loads) -> exists I : nat -> R, forall x, In x loads -> secs x = I (l_rank x).
Proof.
  intros NDl. exists (fun r => match find (fun x : load => Nat.eqb (l_rank x) r) loads with Some x => secs x | None => 0 end).
  intros x Hx. destruct (find (fun y : load => l_rank y =? l_rank x)%nat loads) as [y|] eqn:Ef.
  - apply find_some in Ef as [Hy Ey]. apply Nat.eqb_eq in Ey. f_equal.
    clear -NDl Hx Hy Ey. induction loads as [|z zs IH]; [destruct Hx|]. cbn in NDl. inversion NDl as [|? ? N1 N2]; subst.
    destruct Hx as [<-|Hx], Hy as [<-|Hy]; auto; exfalso; apply N1; [rewrite <- Ey|rewrite Ey]; apply in_map; assumption.
  - apply find_none with (x := x) in Ef; [|exact Hx]. rewrite Nat.eqb_refl in Ef. discriminate.
Qed.

Lemma reach_transfers sortf (loads : list load) k l P x S g :
  sort_contract sortf -> sane_loads loads -> / 1000000 <= true_mean loads -> map l_rank loads = seq 0 k -> In l loads ->
  reach (getMean loads) (sortf loads) P [x] S g ->
  let N := INR (length loads) in
  let T := true_mean loads in
  (forall op, In op g -> fin64 (o_value op)) /\
  gives (l_rank l) g <= Rmax 0 (val (l_value l) - T) + 30 * N * N * u * T /\
  takes (l_rank l) g <= Rmax 0 (T - val (l_value l)) + 40 * N * u * T.
Proof.
  intros Hsort Hsane HT Hr Hl HR N T. assert (U := u_pos).
  destruct (sweep_start sortf loads Hsort Hsane HT) as (D0 & Fm & M0 & Fsm & S0 & D00 & HD8 & Hw & HB & HI & ME & TM & HN & _ & Hperm & Hne). fold N T in HD8, HB, ME, TM, HN.
  set (m := val (getMean loads)) in *.
  assert (HL : length (sortf loads) = length loads) by (symmetry; apply Permutation_length; exact Hperm).
  assert (NDl : NoDup (map l_rank loads)) by (rewrite Hr; apply seq_NoDup).
  assert (ND : NoDup (ranks (sortf loads))) by (eapply Permutation_NoDup; [apply Permutation_map; exact Hperm|exact NDl]).
  destruct (load_of loads NDl) as [I HI2].
  assert (BK := reach_books (getMean loads) Fm M0 Fsm S0 (length loads) D0 D00 HD8 Hw HB (sortf loads) HI ND Hne I
    (fun y Hy => HI2 y (Permutation_in _ (Permutation_sym Hperm) Hy)) P [x] S g HR).
  split; [exact (reach_fin (getMean loads) Fm M0 Fsm S0 (length loads) D0 D00 HD8 Hw HB (sortf loads) HI P [x] S g HR)|].
  assert (CG := reach_count (getMean loads) (sortf loads) P [x] S g HR). cbn [length] in CG.
  assert (GN : INR (length g) <= N - 1).
  { unfold N. replace (length loads) with (length g + 1)%nat by lia. rewrite plus_INR. cbn [INR]. lra. }
  destruct BK as [BT BG _]. specialize (BT (l_rank l)). specialize (BG (l_rank l)). fold m N in BT, BG. rewrite <- (HI2 l Hl) in BT, BG.
  assert (T0 : 0 < T) by (unfold T; lra). apply Rabs_le_inv in ME. set (w := u * m) in *.
  assert (W0 : 0 < w) by (apply Rmult_lt_0_compat; lra). assert (WT : w <= 2 * (u * T)) by (unfold w; nra). assert (K0 : 0 <= INR (length g)) by apply pos_INR.
  assert (UT : 0 < u * T) by (apply Rmult_lt_0_compat; lra).
  assert (NT : u * T <= N * (u * T) <= N * N * (u * T)) by nra.
  change (val (l_value l)) with (secs l). split.
  - eapply Rle_trans; [exact BG|].
    assert (R1 : Rmax (secs l) m - m <= Rmax 0 (secs l - T) + 4 * N * u * T) by (unfold Rmax; destruct (Rle_dec (secs l) m), (Rle_dec 0 (secs l - T)); nra).
    assert (R2 : INR (length g) * (N + 8) * w <= (N - 1) * (9 * N) * (2 * (u * T))).
    { apply Rmult_le_compat; try lra; [apply Rmult_le_pos; lra|]. apply Rmult_le_compat; lra. }
    nra.
  - eapply Rle_trans; [exact BT|].
    assert (R1 : m - Rmin (secs l) m <= Rmax 0 (T - secs l) + 4 * N * u * T) by (unfold Rmin, Rmax; destruct (Rle_dec (secs l) m), (Rle_dec 0 (T - secs l)); nra).
    assert (R2 : (10 * INR (length g) + 7) * w <= (10 * N) * (2 * (u * T))) by (apply Rmult_le_compat; lra).
    nra.
Qed.

Theorem transfers64 dbg sortf (loads : list load) k l ops :
  sort_contract sortf -> sane_loads loads -> / 1000000 <= true_mean loads -> map l_rank loads = seq 0 k -> In l loads ->
  getOperations dbg sortf loads (l_rank l) = Ok ops ->
  let N := INR (length loads) in
  let T := true_mean loads in
  given64 (l_rank l) ops <= Rmax 0 (val (l_value l) - T) + 30 * N * N * u * T /\
  taken64 (l_rank l) ops <= Rmax 0 (T - val (l_value l)) + 40 * N * u * T.
Proof.
  intros Hsort Hsane HT Hr Hl E N T.
  destruct (sweep_start sortf loads Hsort Hsane HT) as (D0 & _ & _ & _ & _ & _ & _ & _ & _ & _ & _ & _ & _ & _ & Hperm & Hne).
  unfold getOperations in E. destruct (negb (comparable loads)); [discriminate|].
  destruct (sweep_total (getMean loads) (sortf loads) Hne) as (P & x & S & g & HR & Hok & _).
  destruct (length (sortf loads)) as [|last] eqn:EL; [discriminate|]. rewrite Nat.sub_succ, Nat.sub_0_r in Hok.
  rewrite (Hok (l_rank l) (Datatypes.S last)) in E by lia. cbn [bind] in E.
  destruct (runtime_assert dbg _) as [_t| | |]; try discriminate. cbn [bind] in E. destruct (runtime_assert dbg _) as [_t2| | |]; try discriminate. cbn [bind] in E.
  injection E as <-.
  destruct (reach_transfers sortf loads k l P x S g Hsort Hsane HT Hr Hl HR) as (_ & BG & BT). fold N T in BG, BT.
  assert (FG : given64 (l_rank l) (filter_large (getMean loads) (filter (involves (l_rank l)) g)) <= gives (l_rank l) g).
  { unfold given64, gives, filter_large. eapply Rle_trans; [apply filtered_le|]. apply Req_le. f_equal. f_equal.
    clear. induction g as [|op g IH]; [reflexivity|]. cbn [filter]. unfold involves at 1. destruct (Nat.eqb_spec (o_from op) (l_rank l)) as [Q|Q]; cbn [orb filter]; rewrite ?(proj2 (Nat.eqb_eq _ _) Q), ?(proj2 (Nat.eqb_neq _ _) Q).
    - f_equal. exact IH.
    - destruct (o_to op =? l_rank l)%nat; cbn [filter]; rewrite ?(proj2 (Nat.eqb_neq _ _) Q); exact IH. }
  assert (FT : taken64 (l_rank l) (filter_large (getMean loads) (filter (involves (l_rank l)) g)) <= takes (l_rank l) g).
  { unfold taken64, takes, filter_large. eapply Rle_trans; [apply filtered_le|]. apply Req_le. f_equal. f_equal.
    clear. induction g as [|op g IH]; [reflexivity|]. cbn [filter]. unfold involves at 1. destruct (Nat.eqb_spec (o_to op) (l_rank l)) as [Q|Q]; rewrite ?orb_true_r, ?orb_false_r; cbn [filter].
    - rewrite ?(proj2 (Nat.eqb_eq _ _) Q). f_equal. exact IH.
    - destruct (o_from op =? l_rank l)%nat; cbn [filter]; rewrite ?(proj2 (Nat.eqb_neq _ _) Q); exact IH. }
  split; eapply Rle_trans; eauto.
Qed.
