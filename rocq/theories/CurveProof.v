(** Proofs about the curves: least squares. *)
From Coq Require Import String List Bool Reals Lra Lia ZArith Arith.
From Verif Require Import Base Pyf PyfOps FbModel LsqfbModel LsqfbSpec LsqfbProof LsqfbProof2 LsqfbProof3 LsqfbProof4 CurveModel CurveSpec.
Import ListNotations.
Open Scope string_scope.
Open Scope list_scope.
Open Scope R_scope.

Lemma fromkeys_into_snoc l x : forall seen,
  fromkeys_into seen (l ++ [x]) =
  if inb String.eqb x (seen ++ l) then fromkeys_into seen l else fromkeys_into seen l ++ [x].
Proof.
  induction l as [|y l IH]; intros seen; cbn [fromkeys_into app].
  - rewrite app_nil_r. now destruct (inb String.eqb x seen).
  - destruct (inb String.eqb y seen) eqn:I.
    + rewrite IH. replace (inb String.eqb x (seen ++ y :: l)) with (inb String.eqb x (seen ++ l)); [reflexivity|].
      apply eq_true_iff_eq. rewrite !(inb_In String.eqb string_eqb_spec), !in_app_iff. cbn.
      apply (inb_In String.eqb string_eqb_spec) in I. split; [tauto|]. intros [?|[->|?]]; tauto.
    + rewrite IH. replace (inb String.eqb x (seen ++ y :: l)) with (inb String.eqb x ((y :: seen) ++ l)).
      { now destruct (inb String.eqb x ((y :: seen) ++ l)). }
      apply eq_true_iff_eq. rewrite !(inb_In String.eqb string_eqb_spec), !in_app_iff. cbn. tauto.
Qed.

Lemma fromkeys_order l : in_order l (fromkeys l).
Proof.
  induction l as [|x l IH] using rev_ind; [constructor|]. unfold fromkeys in *. rewrite fromkeys_into_snoc.
  cbn [app]. destruct (inb String.eqb x l) eqn:I.
  - apply io_old; [exact IH|]. apply (proj2 (fromkeys_spec l)). now apply (inb_In String.eqb string_eqb_spec).
  - apply io_new; [exact IH|]. intros J. apply (proj2 (fromkeys_spec l)) in J.
    apply (inb_In String.eqb string_eqb_spec) in J. congruence.
Qed.

Lemma in_order_unique l ks : in_order l ks -> ks = fromkeys l.
Proof.
  induction 1 as [|l ks x H IH I|l ks x H IH I]; [reflexivity| |]; unfold fromkeys; rewrite fromkeys_into_snoc; cbn [app]; fold (fromkeys l).
  - rewrite IH in I. apply (proj2 (fromkeys_spec l)) in I. apply (inb_In String.eqb string_eqb_spec) in I. now rewrite I.
  - destruct (inb String.eqb x l) eqn:J; [|now rewrite <- IH].
    exfalso. apply I. rewrite IH. apply (proj2 (fromkeys_spec l)). now apply (inb_In String.eqb string_eqb_spec).
Qed.

Lemma flog_pos x : 0 < x -> flog (FNum x) = FNum (ln x).
Proof. intros H. cbn. destruct (Rlt_dec 0 x); [reflexivity|contradiction]. Qed.

Lemma fdiv_num a b : b <> 0 -> fdiv (FNum a) (FNum b) = FNum (a / b).
Proof. intros H. cbn. destruct (Req_EM_T b 0); [contradiction|reflexivity]. Qed.

Lemma ln_neq0 b : 0 < b -> b <> 1 -> ln b <> 0.
Proof. intros B N E. apply N. apply ln_inv; [exact B|lra|]. now rewrite ln_1. Qed.

Lemma mapM_seq {A} (f : nat -> res A) (P : nat -> A -> Prop) n : forall k,
  (forall i, (k <= i < k + n)%nat -> exists x, f i = Ok x /\ P i x) ->
  exists l, mapM f (seq k n) = Ok l /\ Forall2 P (seq k n) l.
Proof.
  induction n as [|n IH]; intros k H; cbn [seq mapM].
  - exists []. split; [reflexivity|constructor].
  - destruct (H k) as (x & E & PX); [lia|]. destruct (IH (S k)) as (l & EL & FL).
    { intros i I. apply H. lia. }
    rewrite E. cbn [bind]. rewrite EL. cbn [bind]. exists (x :: l). split; [reflexivity|]. now constructor.
Qed.

Lemma Forall2_seq_nth {A} (P : nat -> A -> Prop) n : forall k l, Forall2 P (seq k n) l ->
  forall i x, nth_error l i = Some x -> P (k + i)%nat x.
Proof.
  induction n as [|n IH]; intros k l F i x H; cbn [seq] in F; inversion F as [|? y ? l' P1 F1]; subst.
  - now destruct i.
  - destruct i as [|i]; cbn in H.
    + injection H as <-. now rewrite Nat.add_0_r.
    + replace (k + S i)%nat with (S k + i)%nat by lia. exact (IH _ _ F1 _ _ H).
Qed.

Lemma Forall2_nth {A B} (P : A -> B -> Prop) l : forall m, List.length l = List.length m ->
  (forall i a b, nth_error l i = Some a -> nth_error m i = Some b -> P a b) -> Forall2 P l m.
Proof.
  induction l as [|x l IH]; intros [|y m] L H; cbn in L; try discriminate; constructor.
  - exact (H 0%nat x y eq_refl eq_refl).
  - apply IH; [lia|]. intros i a b. exact (H (S i) a b).
Qed.

Lemma Forall2_concat {A B} (P : A -> B -> Prop) l m : Forall2 (Forall2 P) l m -> Forall2 P (concat l) (concat m).
Proof. induction 1 as [|a b l m H F IH]; cbn; [constructor|]. now apply Forall2_app. Qed.

Lemma item_some {A} (l : list A) i x : nth_error l i = Some x -> item l i = Ok x.
Proof. unfold item. now intros ->. Qed.

Lemma combine_app2 {A B} (a1 : list A) : forall (b1 : list B) a2 b2, List.length a1 = List.length b1 ->
  combine (a1 ++ a2) (b1 ++ b2) = combine a1 b1 ++ combine a2 b2.
Proof. induction a1; intros [|y b1] a2 b2 L; cbn in *; try discriminate; [reflexivity|]. f_equal. apply IHa1. lia. Qed.

(** ** Residuals of the free inversion *)
Section F.
  Variable o : lopts.
  Variable st : wstate.
  Variables (g0 : pyf) (a : list (list pyf)) (bs rs : list pyf) (gc : list (list pyf)) (gb : list pyf).
  Hypothesis AL : aligned st.
  Hypothesis LS : least_squares (l_wls o).
  Hypothesis WP : good_weights o st.
  Hypothesis BU : build o st = Ok (a, bs, rs).
  Hypothesis GR : greens o st g0 (pairs st) (w_ecoda st) (w_tcoda st) = Ok (gc, gb).
  Hypothesis GB : good_band st gc gb.
  Hypothesis CN : l_coda_norm o = false.
  Hypothesis FS : l_fix_sites o = None.
  Hypothesis FX : l_fix o = false.
  Hypothesis R0 : 0 < l_R0 o.

  Lemma times_finite : Forall (fun s => stime s = FNum (tof s)) (samples st).
  Proof.
    assert (F : Forall finite (times st)).
    { unfold times. apply Forall_app. split; [|apply GB]. apply Forall_forall. intros x I.
      apply in_concat in I. destruct I as (l & I1 & I2). apply in_map_iff in I1. destruct I1 as (t & <- & _).
      apply in_map_iff in I2. destruct I2 as (r & <- & _). now exists r. }
    destruct (samples_columns st AL) as [ST _]. rewrite <- ST in F. apply Forall_forall. intros s I.
    rewrite Forall_forall in F. destruct (F (stime s)) as (r & E); [now apply in_map|]. unfold tof. now rewrite E.
  Qed.

  Lemma Forall_concat_ {A} (P : A -> Prop) l : Forall (Forall P) l -> Forall P (concat l).
  Proof. induction 1; cbn; [constructor|]. now apply Forall_app. Qed.

  Lemma energies_positive : Forall positive (concat (w_ecoda st) ++ w_ebulk st).
  Proof. destruct GB as (G1 & G2 & _). apply Forall_app. split; [now apply Forall_concat_|exact G2]. Qed.

  Lemma greens_positive : Forall positive (concat gc ++ gb).
  Proof. destruct GB as (_ & _ & _ & G1 & G2 & _). apply Forall_app. split; [now apply Forall_concat_|exact G2]. Qed.

  Definition numr (x : pyf) : R := match x with FNum r => r | _ => 0 end.

  Lemma log_quotients l : forall g z, Forall positive l -> Forall positive g ->
    zip_op fsub (map flog l) (map flog g) = Ok z ->
    List.length g = List.length l /\ z = map FNum (map (fun p => ln (numr (fst p)) - ln (numr (snd p))) (combine l g)).
  Proof.
    induction l as [|x l IH]; intros [|y g] z F1 F2 H; cbn [map zip_op] in H; try discriminate.
    - injection H as <-. auto.
    - inversion F1 as [|? ? (u & -> & U) F1']; subst. inversion F2 as [|? ? (v & -> & V) F2']; subst.
      destruct (zip_op fsub (map flog l) (map flog g)) as [r|] eqn:E; [|discriminate]. cbn [bind] in H. injection H as <-.
      destruct (IH _ _ F1' F2' E) as [L ->]. cbn. rewrite L. destruct (Rlt_dec 0 u); [|contradiction]. destruct (Rlt_dec 0 v); [|contradiction]. cbn. auto.
  Qed.

  (** the residual of a sample *)
  Definition resid (f : fit) (b : R) (sg : sample * pyf) (d : R) : Prop :=
    exists t e g r w, snd (fst sg) = (FNum t, FNum e) /\ snd sg = FNum g /\ 0 < e /\ 0 < g /\
      value (stations st) (f_R f) (snd (fst (fst sg))) r /\ value (eventids st) (f_W f) (fst (fst (fst sg))) w /\
      0 < r /\ 0 < w /\ d = ln e - ln g - (ln r + ln w - b * t).

  Lemma sse_wss rows : forall b ws c, List.length b = List.length rows ->
    sse rows b ws c = wss ws (map (fun p => snd p - dotr (fst p) c) (combine rows b)).
  Proof.
    induction rows as [|r rows IH]; intros [|y b] ws c L; cbn in L; try discriminate; destruct ws as [|w ws]; cbn; try reflexivity.
    rewrite IH by lia. ring.
  Qed.

  Lemma bulk_length : List.length gb = List.length (if l_bulk o then pairs st else []).
  Proof.
    clear - GR. revert gc gb GR. generalize (w_tcoda st) (w_ecoda st). induction (pairs st) as [|p ps IH]; intros tc ec gc gb H; cbn [greens] in H.
    - injection H as <- <-. now destruct (l_bulk o).
    - destruct ec as [|e ec]; [discriminate|]. destruct (Nat.eqb (List.length e) 0); [discriminate|].
      destruct (dget pair_eqb (w_distances st) p); [|discriminate]. destruct tc as [|t tc]; [discriminate|].
      destruct (l_gcoda o _ t g0); [|discriminate]. cbn [bind] in H.
      destruct (l_bulk o) eqn:B.
      + destruct (dget pair_eqb (w_tbulk_window st) p) as [t12|]; [|discriminate].
        destruct (l_gbulk o _ t12 g0); [|discriminate]. cbn [bind] in H.
        destruct (greens o st g0 ps ec tc) as [[gcs gbs]|] eqn:E; [|discriminate]. cbn [bind] in H. injection H as <- <-.
        cbn [app List.length]. now rewrite (IH _ _ _ _ E).
      + cbn [bind] in H. destruct (greens o st g0 ps ec tc) as [[gcs gbs]|] eqn:E; [|discriminate]. cbn [bind] in H. injection H as <- <-.
        cbn [app List.length]. now rewrite (IH _ _ _ _ E).
  Qed.

  Lemma solution_shape f : solve_at o st a bs rs g0 None false = Ok f ->
    exists b ds m, f_b f = FNum b /\ f_g0 f = g0 /\
      List.length (f_W f) = List.length (eventids st) /\ List.length (f_R f) = List.length (stations st) /\
      (f_err f = FPInf \/ f_err f = fsqrt (FNum m)) /\
      List.length (concat gc ++ gb) = List.length (samples st) /\
      Forall2 (resid f b) (combine (samples st) (concat gc ++ gb)) ds /\
      exists dof, 0 < dof /\ m = wss (sample_weights (l_bulk o) st) ds / dof.
  Proof.
    intros H. pose proof times_finite as TN.
    unfold solve_at in H. rewrite FX in H.
    destruct (rhs o st g0 None false bs) as [z|] eqn:E; [|discriminate]. cbn [bind] in H.
    unfold rhs in E. rewrite GR in E. cbn [bind nonzero] in E.
    destruct (zip_op fsub _ (map flog (concat gc ++ gb))) as [z0|] eqn:EZ; [|discriminate]. cbn [bind] in E. injection E as <-.
    destruct (log_quotients _ _ _ energies_positive greens_positive EZ) as [LG ->].
    set (y := map (fun p => ln (numr (fst p)) - ln (numr (snd p))) (combine (concat (w_ecoda st) ++ w_ebulk st) (concat gc ++ gb))) in *.
    assert (LEN : List.length (samples st) = List.length (concat (w_ecoda st) ++ w_ebulk st)) by exact (samples_length st AL).
    assert (LY : List.length y = List.length (samples st)).
    { unfold y. rewrite map_length, combine_length, LG, LEN. lia. }
    destruct (l_wls o (map FNum y) a (weights o st (map FNum y))) as [[c mse]|] eqn:W; [|discriminate]. cbn [bind] in H.
    destruct (rows_of o st AL a bs rs CN FS TN BU) as (rows & EA & G).
    destruct (good_lengths o st rows G) as [LR LL]. rewrite EA in W.
    destruct (LS (width o st) rows y _ c mse LR ltac:(congruence) W) as (c' & dof & EC & LC & DP & _ & EM).
    assert (LCS : List.length c' = (List.length (stations st) + List.length (eventids st))%nat).
    { rewrite LC. unfold width, fix01, Ns, Ne. rewrite FX. pose proof (Ns_pos st AL). lia. }
    destruct (system_free o st AL a bs rs c' CN FS FX R0 BU LCS) as (Ws & Rs & D & F & LW & LRs & _).
    assert (CNE : c' <> []).
    { intros Q. rewrite Q in LCS. cbn in LCS. pose proof (Ns_pos st AL). unfold Ns in *. lia. }
    assert (EB : last c FNan = FNum (last c' 0)).
    { rewrite EC. clear - CNE. induction c' as [|x c' IH]; [contradiction|]. destruct c' as [|x' c']; [reflexivity|].
      apply IH. discriminate. }
    destruct c as [|c0 c]; [destruct c'; [contradiction|discriminate]|]. cbn [bind] in H.
    rewrite EB in H. rewrite EC, D in H. injection H as <-.
    exists (last c' 0), (map (fun p => snd p - dotr (fst p) c') (combine rows y)), (sse rows y (match weights o st (map FNum y) with None => repeat 1 (List.length rows) | Some w => w end) c' / dof).
    cbn [f_b f_g0 f_W f_R f_err].
    split; [reflexivity|]. split; [reflexivity|]. split; [exact LW|]. split; [exact LRs|]. split.
    { rewrite EM. match goal with |- context [if ?x then FPInf else _] => destruct x end; [now left|now right]. }
    split; [now rewrite LG, LEN|]. split.
    - destruct (samples_columns st AL) as [_ SE].
      pose proof energies_positive as EP. rewrite <- SE in EP. pose proof greens_positive as GP.
      assert (GL : List.length (concat gc ++ gb) = List.length (samples st)) by now rewrite LG, LEN.
      unfold y. rewrite <- SE. rewrite EA in F. clear - F TN EP GP GL LL. revert rows F LL TN EP GL. generalize (samples st) as ss.
      induction (concat gc ++ gb) as [|g gg IH]; intros [|s ss] rows F LL TN EP GL; cbn in GL; try discriminate; destruct rows as [|row rows]; cbn in LL; try discriminate; cbn [combine map].
      { constructor. }
      inversion F as [|? ? ? ? F1 F2]; subst. inversion TN as [|? ? T1 T2]; subst. inversion EP as [|? ? (e & E1 & E2) EP2]; subst.
      inversion GP as [|? ? (g' & -> & G2) GP2]; subst. constructor; [|apply (IH GP2); auto].
      destruct (F1 (tof s) T1) as (row' & r & w & Q1 & Q2 & V1 & V2 & P1 & P2 & DR).
      exists (tof s), e, g', r, w. unfold stime, senergy in *. cbn [fst snd f_R f_W]. split; [|split; [reflexivity|]].
      { rewrite (surjective_pairing (snd s)). now rewrite T1, E1. }
      split; [exact E2|]. split; [exact G2|]. split; [exact V1|]. split; [exact V2|]. split; [exact P1|]. split; [exact P2|].
      rewrite E1. cbn [numr]. rewrite <- DR. f_equal. f_equal. clear - Q1. revert row' Q1.
      induction row; intros [|? row'] Q; cbn in Q; try discriminate; [reflexivity|]. injection Q as -> Q. f_equal. auto.
    - exists dof. split; [exact DP|]. f_equal. rewrite sse_wss by congruence. f_equal.
      unfold weights, sample_weights. destruct (l_bulk o) eqn:B.
      + destruct (WP B) as [_ LW2]. rewrite map_length, LY, LEN, app_length, LW2.
        replace (_ + _ - _)%nat with (List.length (concat (w_ecoda st))) by lia. f_equal. clear. induction (concat (w_ecoda st)); cbn; congruence.
      + pose proof bulk_length as BL. rewrite B in BL. destruct gb as [|? ?]; [|discriminate].
        assert (CL : List.length (concat gc) = List.length (concat (w_ecoda st))).
        { destruct GB as (_ & _ & _ & _ & _ & GL). clear - GL. induction GL as [|e g l m H F IH]; cbn; [reflexivity|].
          rewrite !app_length. lia. }
        rewrite app_nil_r, app_length in LG. assert (EB0 : List.length (w_ebulk st) = 0%nat) by lia.
        rewrite app_nil_r, LL, LEN, app_length, EB0, Nat.add_0_r. clear. induction (concat (w_ecoda st)); cbn; congruence.
  Qed.
End F.
