From Coq Require Import String List Bool Reals Lra Lia ZArith Arith.
From Verif Require Import Base Pyf PyfOps StatModel SmoothModel SmoothSpec SmoothProof RtModel RtSpec RtProof RtProof2 RtProof4 FbModel LsqfbModel LsqfbSpec LsqfbProof3 LsqfbProof4 GreenModel GreenSpec GreenProof.
Import ListNotations.
Open Scope string_scope.
Open Scope list_scope.
Open Scope R_scope.

(** ** Bulk window *)
Lemma linspace_spaced t1 t2 num : evenly_spaced (linspace t1 t2 num) t1 ((t2 - t1) / INR (num - 1)).
Proof.
  intros i I. unfold linspace in *. rewrite map_length, seq_length in I. now rewrite nth_map_seq.
Qed.
Lemma linspace_length t1 t2 num : List.length (linspace t1 t2 num) = num.
Proof. unfold linspace. now rewrite map_length, seq_length. Qed.

Lemma step_pos t1 t2 num : t1 < t2 -> (2 <= num)%nat -> 0 < (t2 - t1) / INR (num - 1).
Proof. intros T N. apply Rdiv_lt_0_compat; [lra|]. apply lt_0_INR. lia. Qed.

(** the sample with the impulse *)
Lemma impulse_ex l x : nth 0 l 0 < x -> x <= nth (List.length l - 1) l 0 -> exists k, impulse_sample l x k.
Proof.
  intros A B.
  assert (H : forall m, (m < List.length l)%nat -> x <= nth m l 0 -> exists k, impulse_sample l x k).
  { induction m as [|m IH]; intros M X; [lra|].
    destruct (Rle_dec x (nth m l 0)) as [Q|Q]; [apply IH; [lia|exact Q]|].
    exists (S m). split; [lia|]. replace (S m - 1)%nat with m by lia. lra. }
  destruct l as [|a l]; [cbn in *; lra|]. apply (H (List.length (a :: l) - 1)%nat); [cbn; lia|exact B].
Qed.

Lemma rsum_nth l : rsum l = total (List.length l) (fun k => nth k l 0).
Proof.
  rewrite <- total_rsum. f_equal. clear. induction l as [|x l IH]; [reflexivity|]. cbn [List.length seq map nth]. f_equal.
  rewrite <- seq_shift, map_map. rewrite IH at 1. reflexivity.
Qed.
Lemma total_zero n g : (forall k, (k < n)%nat -> g k = 0) -> total n g = 0.
Proof. intros H. induction n as [|n IH]; cbn [total]; [reflexivity|]. rewrite IH, H by auto. lra. Qed.
Lemma total_split n m g : total (n + m) g = total n g + total m (fun k => g (n + k)%nat).
Proof.
  induction m as [|m IH]; [rewrite Nat.add_0_r; cbn; lra|]. rewrite Nat.add_succ_r. cbn [total]. rewrite IH. lra.
Qed.

Lemma bulk_values ty r t1 t2 num c g0 g : In ty documented_types -> 0 < r -> 0 < c -> 0 < g0 -> (2 <= num)%nat ->
  t1 < r / c -> r / c <= t2 -> green_values ty r c g0 g ->
  let dt := (t2 - t1) / INR (num - 1) in
  exists k x, bulk_green (G_plugin ty) r t1 t2 num c g0 = Ok x /\
    (t1 + INR (k - 1) * dt < r / c <= t1 + INR k * dt /\ (0 < k < num)%nat) /\
    x * INR num = direct_energy ty (r / c) c g0 / dt / c
                  + total (num - 1 - k) (fun j => g (t1 + INR (k + 1 + j) * dt)).
Proof.
  intros T HR C G N F1 F2 GV dt. assert (L := linspace_length t1 t2 num). assert (E := linspace_spaced t1 t2 num). fold dt in E.
  assert (D : 0 < dt) by (apply step_pos; [lra|exact N]).
  assert (I := spaced_increasing _ _ _ E D). set (ts := linspace t1 t2 num) in *.
  assert (NN : 0 < INR (num - 1)) by (apply lt_0_INR; lia).
  destruct (impulse_ex ts (r / c)) as (k & K).
  { rewrite E by lia. cbn. lra. }
  { rewrite E by lia. rewrite L. unfold dt. replace (t1 + INR (num - 1) * ((t2 - t1) / INR (num - 1))) with t2 by (field; lra). exact F2. }
  destruct (G_times_spec ty r ts c g0 true T C ltac:(lia) I) as (gs & Gc & Gd & GT & SE & LG & B & A & Q & _).
  exists k. unfold bulk_green, G_plugin. fold ts. rewrite GT. cbn [bind]. eexists. split; [reflexivity|].
  destruct K as [K1 K2]. rewrite !E in K2 by lia. split; [split; [exact K2|lia]|].
  replace (rsum gs / INR (List.length gs) * INR num) with (rsum gs).
  2:{ rewrite LG, L. field. apply not_0_INR. lia. }
  rewrite rsum_nth, LG, L. replace num with (k + (1 + (num - 1 - k)))%nat at 1 by lia.
  rewrite !total_split. rewrite total_zero.
  2:{ intros j J. apply B; [lia|]. rewrite E by lia.
      assert (INR j <= INR (k - 1)) by (apply le_INR; lia). assert (INR j * dt <= INR (k - 1) * dt) by (apply Rmult_le_compat_r; lra). lra. }
  cbn [total]. rewrite Nat.add_0_r. rewrite (Q k) by (split; [lia|rewrite !E by lia; exact K2]).
  rewrite (select_direct ty Gc Gd (r / c) c g0 SE C G) by (apply Rdiv_lt_0_compat; assumption).
  rewrite !E by lia. change (INR 0) with 0. change (INR 1) with 1.
  replace (t1 + 1 * dt - (t1 + 0 * dt)) with dt by lra. rewrite !Rplus_0_l. f_equal. apply total_ext. intros j J.
  replace (k + (1 + j))%nat with (k + 1 + j)%nat by lia.
  rewrite A.
  - assert (FJ : r / c < t1 + INR (k + 1 + j) * dt).
    { assert (INR k < INR (k + 1 + j)) by (apply lt_INR; lia). assert (INR k * dt < INR (k + 1 + j) * dt) by (apply Rmult_lt_compat_r; lra). lra. }
    specialize (GV _ FJ). unfold G_scalar in GV. rewrite SE in GV. destruct (Rlt_dec _ _); [lra|]. rewrite E by lia. congruence.
  - lia.
  - replace (k + 1 + j - 1)%nat with (k + j)%nat by lia. rewrite E by lia.
    assert (INR k <= INR (k + j)) by (apply le_INR; lia). assert (INR k * dt <= INR (k + j) * dt) by (apply Rmult_le_compat_r; lra). lra.
Qed.

Lemma bulk_used ty r t1 t2 num c g0 g : In ty documented_types -> 0 < r -> 0 < c -> 0 < g0 -> (2 <= num)%nat ->
  t1 < r / c -> r / c <= t2 -> green_values ty r c g0 g ->
  let dt := (t2 - t1) / INR (num - 1) in
  exists k x, bulk_greens ty num c r (t1, t2) (FNum g0) = Ok (FNum x) /\
    (t1 + INR (k - 1) * dt < r / c <= t1 + INR k * dt /\ (0 < k < num)%nat) /\
    x * INR num = direct_energy ty (r / c) c g0 / dt / c
                  + total (num - 1 - k) (fun j => g (t1 + INR (k + 1 + j) * dt)).
Proof.
  intros T HR C G N F1 F2 GV dt. destruct (bulk_values ty r t1 t2 num c g0 g T HR C G N F1 F2 GV) as (k & x & E & H).
  exists k, x. split; [|exact H]. unfold bulk_greens. cbn [fst snd]. now rewrite E.
Qed.

(** ** Right hand side *)
Lemma greens_blocks o st g0 ps : forall ec tc gc gb,
  greens o st g0 ps ec tc = Ok (gc, gb) ->
  List.length gc = List.length ps /\
  (forall i p, nth_error ps i = Some p -> exists r t e gs, dget pair_eqb (w_distances st) p = Some r /\
     nth_error tc i = Some t /\ nth_error ec i = Some e /\ e <> [] /\ nth_error gc i = Some gs /\ l_gcoda o r t g0 = Ok gs) /\
  (forall x, In x gb -> exists r w, l_gbulk o r w g0 = Ok x).
Proof.
  induction ps as [|p ps IH]; intros ec tc gc gb H; cbn [greens] in H.
  - injection H as <- <-. split; [reflexivity|]. split; [intros [|i]; discriminate|intros x []].
  - destruct ec as [|e ec]; [discriminate|]. destruct (Nat.eqb_spec (List.length e) 0) as [|NE]; [discriminate|].
    destruct (dget pair_eqb (w_distances st) p) as [r|] eqn:D; [|discriminate].
    destruct tc as [|t tc]; [discriminate|].
    destruct (l_gcoda o r t g0) as [g|] eqn:G; [|discriminate]. cbn [bind] in H.
    destruct (if l_bulk o then _ else _) as [gb1|] eqn:B; [|discriminate]. cbn [bind] in H.
    destruct (greens o st g0 ps ec tc) as [[gcs gbs]|] eqn:GS; [|discriminate]. cbn [bind] in H.
    injection H as <- <-. destruct (IH _ _ _ _ GS) as (L & K & Q). cbn [List.length]. split; [lia|]. split.
    + intros [|i] q HQ; cbn [nth_error] in *.
      * injection HQ as <-. exists r, t, e, g. repeat split; auto. intros ->. now apply NE.
      * exact (K i q HQ).
    + intros x X. apply in_app_iff in X. destruct X as [X|X]; [|auto].
      destruct (l_bulk o); [|injection B as <-; destruct X].
      destruct (dget pair_eqb (w_tbulk_window st) p) as [w|]; [|discriminate].
      destruct (l_gbulk o r w g0) as [y|] eqn:Y; [|discriminate]. cbn [bind] in B. injection B as <-. destruct X as [<-|[]]. eauto.
Qed.

Lemma concat_at {A} (l : list (list A)) : forall i b j, nth_error l i = Some b -> (j < List.length b)%nat ->
  nth_error (concat l) (List.length (concat (firstn i l)) + j) = nth_error b j.
Proof.
  induction l as [|x l IH]; intros [|i] b j H J; try discriminate; cbn [nth_error firstn concat] in *.
  - injection H as <-. cbn [List.length Nat.add]. now apply nth_error_app1.
  - rewrite app_length, <- Nat.add_assoc, nth_error_app2 by lia.
    replace (List.length x + (List.length (concat (firstn i l)) + j) - List.length x)%nat with (List.length (concat (firstn i l)) + j)%nat by lia.
    now apply IH.
Qed.

Lemma concat_lengths {A B} (l : list (list A)) (m : list (list B)) :
  Forall2 (fun a b => List.length a = List.length b) l m -> forall i, List.length (concat (firstn i l)) = List.length (concat (firstn i m)).
Proof.
  induction 1 as [|a b l m H _ IH]; intros [|i]; cbn [firstn concat]; auto. rewrite !app_length, H. now rewrite IH.
Qed.

Lemma nth_error_combine {A B} (l : list A) : forall (m : list B) i x y, nth_error l i = Some x -> nth_error m i = Some y ->
  nth_error (combine l m) i = Some (x, y).
Proof.
  induction l as [|a l IH]; intros [|b m] [|i] x y H1 H2; cbn in *; try discriminate; [congruence|auto].
Qed.

Lemma coda_plain ty window v0 r t g0 gs : In ty documented_types -> 0 <= r -> 0 < v0 -> 0 < g0 -> increasing t -> r / v0 < nth 0 t 0 ->
  coda_greens ty None window v0 r t (FNum g0) = Ok gs ->
  List.length gs = List.length t /\ nth_error gs 0 = Some (FNum 0) /\ forall x, In x gs -> exists y, x = FNum y /\ 0 <= y.
Proof.
  intros T HR V G I F H. cbn [coda_greens] in H.
  destruct (le_lt_dec 2 (List.length t)) as [L|L].
  2:{ unfold Gsmooth, smooth_func_array, G_plugin, G_times in H. destruct t as [|a [|b t]]; cbn in L, H; try lia; discriminate. }
  destruct (green_plain ty r t v0 g0 window T HR V G L I F) as (ys & E & LY & Z & P). rewrite E in H. cbn [bind] in H. injection H as <-.
  rewrite map_length. split; [exact LY|]. split.
  - destruct ys as [|y ys]; [cbn in LY; lia|]. cbn in Z |- *. now rewrite Z.
  - intros x X. apply in_map_iff in X. destruct X as (y & <- & Y). exists y. split; [reflexivity|].
    destruct (In_nth ys y 0 Y) as (k & K & <-). destruct k as [|k]; [rewrite Z; lra|]. destruct (P (S k) ltac:(lia)) as [Q _]. lra.
Qed.

Section B.
  Variables (o : lopts) (st : wstate) (ty window : string) (v0 : R).
  Hypothesis AL : LsqfbSpec.aligned st.
  Hypothesis T : In ty documented_types.
  Hypothesis V : 0 < v0.
  Hypothesis GC : forall r t g, l_gcoda o r t g = coda_greens ty None window v0 r t g.
  Hypothesis BF : behind_front st v0.
  Hypothesis PE : forall e, In e (w_ecoda st) -> positive_numbers e.

  Lemma greens_plain g0 gc gb : 0 < g0 -> greens o st (FNum g0) (pairs st) (w_ecoda st) (w_tcoda st) = Ok (gc, gb) ->
    Forall2 (fun e g => List.length e = List.length g) (w_ecoda st) gc /\
    (forall i g, nth_error gc i = Some g -> nth_error g 0 = Some (FNum 0)) /\
    (forall x, In x (concat gc) -> exists y, x = FNum y /\ 0 <= y).
  Proof.
    intros G GR. destruct (greens_blocks _ _ _ _ _ _ _ _ GR) as (LG & K & _). destruct AL as (_ & LE & FT & _).
    assert (KK : forall i p, nth_error (pairs st) i = Some p -> exists t e gs, nth_error (w_tcoda st) i = Some t /\
      nth_error (w_ecoda st) i = Some e /\ nth_error gc i = Some gs /\ List.length gs = List.length e /\ nth_error gs 0 = Some (FNum 0) /\
      forall x, In x gs -> exists y, x = FNum y /\ 0 <= y).
    { intros i p P. destruct (K i p P) as (r & t & e & gs & D & HT & HE & _ & HG & L). rewrite GC in L.
      destruct (BF i p t P HT) as (r' & D' & R0 & I & F). rewrite D in D'. injection D' as <-.
      destruct (coda_plain _ _ _ _ _ _ _ T R0 V G I F L) as (L1 & L2 & L3). exists t, e, gs.
      assert (LT : List.length t = List.length e).
      { clear -FT HT HE. revert i HT HE. induction FT as [|a b l m Q _ IH]; intros [|i] HT HE; cbn in *; try discriminate; [congruence|eauto]. }
      rewrite L1, LT. auto 10. }
    assert (KG : forall i g, nth_error gc i = Some g -> exists p, nth_error (pairs st) i = Some p).
    { intros i g HG. assert (i < List.length gc)%nat by (apply nth_error_Some; congruence). rewrite LG in *.
      destruct (nth_error (pairs st) i) eqn:P; [eauto|]. apply nth_error_None in P. lia. }
    split; [|split].
    - assert (LL : List.length (w_ecoda st) = List.length gc) by lia.
      assert (Q : forall i e g, nth_error (w_ecoda st) i = Some e -> nth_error gc i = Some g -> List.length e = List.length g).
      { intros i e g HE HG. destruct (KG i g HG) as (p & P). destruct (KK i p P) as (t & e' & g' & _ & E1 & E2 & L & _). congruence. }
      clear -LL Q. revert gc LL Q. induction (w_ecoda st) as [|e l IH]; intros [|g gc] LL Q; cbn in LL; try discriminate; constructor.
      + exact (Q 0%nat e g eq_refl eq_refl).
      + apply IH; [lia|]. intros i. exact (Q (S i)).
    - intros i g HG. destruct (KG i g HG) as (p & P). destruct (KK i p P) as (t & e' & g' & _ & E1 & E2 & _ & Z & _). congruence.
    - intros x X. apply in_concat in X. destruct X as (g & IG & X). destruct (In_nth_error _ _ IG) as (i & HG).
      destruct (KG i g HG) as (p & P). destruct (KK i p P) as (t & e' & g' & _ & E1 & E2 & _ & _ & Q). apply Q. congruence.
  Qed.

  Lemma rhs_infinite g0 bf bs b : 0 < g0 -> (forall x, bf = Some x -> exists y, x = FNum y) ->
    rhs o st (FNum g0) bf false bs = Ok b ->
    forall i e, nth_error (w_ecoda st) i = Some e -> nth_error b (List.length (concat (firstn i (w_ecoda st)))) = Some FPInf.
  Proof.
    intros G FB H i e HE. unfold rhs in H.
    destruct (greens _ _ _ _ _ _) as [[gc gb]|] eqn:GR; [|discriminate]. cbn [bind] in H.
    destruct (greens_plain g0 gc gb G GR) as (FL & Z & _).
    destruct (zip_op fsub _ _) as [b0|] eqn:E0; [|discriminate]. cbn [bind] in H. destruct (zip_op_spec _ _ _ _ E0) as [_ EB].
    assert (HG : exists g, nth_error gc i = Some g).
    { assert (i < List.length (w_ecoda st))%nat by (apply nth_error_Some; congruence).
      assert (LL : List.length (w_ecoda st) = List.length gc) by (clear -FL; induction FL; cbn; congruence).
      destruct (nth_error gc i) eqn:Q; [eauto|]. apply nth_error_None in Q. lia. }
    destruct HG as (g & HG). assert (Z0 := Z i g HG). set (k := List.length (concat (firstn i (w_ecoda st)))) in *.
    assert (KG : k = List.length (concat (firstn i gc))) by (apply (concat_lengths _ _ FL)).
    assert (LG : (0 < List.length g)%nat) by (destruct g; [discriminate|cbn; lia]).
    assert (LE : List.length e = List.length g).
    { clear -FL HE HG. revert i HE HG. induction FL as [|a b l m Q _ IH]; intros [|i] HE HG; cbn in *; try discriminate; [congruence|eauto]. }
    assert (NG : nth_error (concat gc) k = Some (FNum 0)).
    { rewrite KG, <- Z0. rewrite <- (Nat.add_0_r (List.length (concat (firstn i gc)))). now apply concat_at. }
    assert (NE : nth_error (concat (w_ecoda st)) k = nth_error e 0).
    { unfold k. rewrite <- (Nat.add_0_r (List.length (concat (firstn i (w_ecoda st))))). apply concat_at; [exact HE|lia]. }
    destruct e as [|x e]; [cbn in LE; lia|]. cbn [nth_error] in NE.
    destruct (PE (x :: e) (nth_error_In _ _ HE) x (or_introl eq_refl)) as (y & -> & Y).
    assert (N0 : nth_error b0 k = Some FPInf).
    { rewrite EB, nth_error_map. rewrite (nth_error_combine _ _ k (FNum (ln y)) FNInf).
      - reflexivity.
      - rewrite nth_error_map, nth_error_app1 by (apply nth_error_Some; congruence). rewrite NE. cbn [option_map flog].
        destruct (Rlt_dec 0 y); [reflexivity|lra].
      - rewrite nth_error_map, nth_error_app1 by (apply nth_error_Some; congruence). rewrite NG. cbn [option_map flog].
        destruct (Rlt_dec 0 0); [lra|]. reflexivity. }
    destruct (nonzero bf) as [x|] eqn:NZ; [|cbn [bind] in H; congruence].
    assert (X : exists z, x = FNum z).
    { apply FB. unfold nonzero in NZ. destruct bf as [[]|]; try congruence. destruct (Req_EM_T _ _); congruence. }
    destruct X as (z & ->). destruct (zip_op fadd b0 _) as [b1|] eqn:E1; [|discriminate]. cbn [bind] in H. injection H as <-.
    destruct (zip_op_spec _ _ _ _ E1) as [L1 ->]. rewrite nth_error_map.
    assert (KT : exists t, nth_error (times st) k = Some (FNum t)).
    { unfold times. rewrite <- concat_map. assert (LT : (k < List.length (map FNum (concat (w_tcoda st))))%nat).
      { rewrite map_length. destruct AL as (_ & _ & FT & _).
        assert (Q := concat_lengths _ _ FT (List.length (w_tcoda st))). rewrite firstn_all in Q. rewrite Q.
        assert (L : List.length (w_tcoda st) = List.length (w_ecoda st)) by (clear -FT; induction FT; cbn; congruence).
        rewrite L, firstn_all. apply nth_error_Some. congruence. }
      rewrite nth_error_app1 by exact LT. destruct (nth_error (map FNum _) k) as [f|] eqn:Q; [|apply nth_error_None in Q; lia].
      apply nth_error_In, in_map_iff in Q. destruct Q as (t & <- & _). eauto. }
    destruct KT as (t & KT). rewrite (nth_error_combine _ _ k FPInf (FNum (z * t))); [reflexivity|exact N0|].
    rewrite nth_error_map, KT. reflexivity.
  Qed.
End B.

(** ** No result *)
Definition bad (x : pyf) : Prop := forall r, x <> FNum r.
Lemma fadd_bad x y : bad x \/ bad y -> bad (fadd x y).
Proof.
  intros H r E. destruct x, y; cbn in E; try discriminate. destruct H as [H|H]; [exact (H _ eq_refl)|exact (H _ eq_refl)].
Qed.
Lemma fmul_inf_bad a : bad (fmul (FNum a) FPInf).
Proof. intros r. cbn. unfold finf. destruct (Rlt_dec 0 a); [discriminate|]. destruct (Rlt_dec a 0); discriminate. Qed.
Lemma fsum_bad l x : In x l -> bad x -> bad (fsum l).
Proof.
  unfold fsum. induction l as [|y l IH]; [intros []|]. cbn [fold_right]. intros [->|I] B; apply fadd_bad; auto.
Qed.

Lemma exists_last_in {A} (l : list A) d : l <> [] -> In (last l d) l.
Proof.
  induction l as [|x l IH]; [congruence|]. intros _. destruct l as [|y l]; [now left|]. right. apply IH. discriminate.
Qed.

Section N.
  Variables (o : lopts) (st : wstate) (ty window : string) (v0 : R).
  Hypothesis AL : LsqfbSpec.aligned st.
  Hypothesis T : In ty documented_types.
  Hypothesis V : 0 < v0.
  Hypothesis GC : forall r t g, l_gcoda o r t g = coda_greens ty None window v0 r t g.
  Hypothesis BF : behind_front st v0.
  Hypothesis PE : forall e, In e (w_ecoda st) -> positive_numbers e.
  Hypothesis PB : positive_numbers (w_ebulk st).
  Hypothesis GB : forall r w g x, l_gbulk o r w g = Ok x -> exists y, x = FNum y /\ 0 <= y.
  Hypothesis LS : linear_solver (l_wls o).

  Lemma rhs_no_nan g0 bs b : 0 < g0 -> rhs o st (FNum g0) None false bs = Ok b -> ~ In FNan b.
  Proof.
    intros G H. unfold rhs in H.
    destruct (greens _ _ _ _ _ _) as [[gc gb]|] eqn:GR; [|discriminate]. cbn [bind] in H.
    destruct (greens_plain o st ty window v0 AL T V GC BF g0 gc gb G GR) as (_ & _ & N).
    destruct (greens_blocks _ _ _ _ _ _ _ _ GR) as (_ & _ & NB).
    destruct (zip_op fsub _ _) as [b0|] eqn:E0; [|discriminate]. cbn in H. injection H as <-.
    destruct (zip_op_spec _ _ _ _ E0) as [_ ->]. rewrite in_map_iff. intros ([x y] & Q & I).
    assert (X := in_combine_l _ _ _ _ I). assert (Y := in_combine_r _ _ _ _ I).
    apply in_map_iff in X. destruct X as (x0 & <- & X). apply in_map_iff in Y. destruct Y as (y0 & <- & Y).
    assert (PX : exists u, x0 = FNum u /\ 0 < u).
    { apply in_app_iff in X. destruct X as [X|X]; [|exact (PB x0 X)]. apply in_concat in X. destruct X as (e & IE & X). exact (PE e IE x0 X). }
    assert (PY : exists u, y0 = FNum u /\ 0 <= u).
    { apply in_app_iff in Y. destruct Y as [Y|Y]; [exact (N y0 Y)|]. destruct (NB y0 Y) as (r & w & L). exact (GB _ _ _ _ L). }
    destruct PX as (u & -> & U), PY as (u' & -> & U'). cbn [fst snd flog] in Q.
    destruct (Rlt_dec 0 u); [|lra]. destruct (Rlt_dec 0 u'); [discriminate|].
    destruct (Rlt_dec u' 0); [lra|discriminate].
  Qed.

  Lemma solve_at_bad a bs rs g0 f : l_fix o = false -> pairs st <> [] -> 0 < g0 ->
    solve_at o st a bs rs (FNum g0) None false = Ok f -> bad (f_b f).
  Proof.
    intros FX NE G H. unfold solve_at in H.
    destruct (rhs _ _ _ _ _ _) as [b|] eqn:RH; [|discriminate]. cbn [bind] in H.
    destruct (l_wls o b a _) as [[c mse]|] eqn:W; [|discriminate]. cbn [bind] in H. rewrite FX in H.
    destruct c as [|c0 c]; [discriminate|]. cbn [bind] in H.
    destruct (decode o st (c0 :: c) false rs). assert (EF : f_b f = last (c0 :: c) FNan) by (injection H as <-; reflexivity). rewrite EF. clear EF H. remember (last (c0 :: c) FNan) as la eqn:EL.
    destruct (LS _ _ _ _ _ W (rhs_no_nan g0 bs b G RH)) as (P & FP & EC).
    assert (HB : nth_error b 0 = Some FPInf).
    { assert (Q := rhs_infinite o st ty window v0 AL T V GC BF PE g0 None bs b G ltac:(discriminate) RH 0%nat).
      destruct AL as (_ & LE & _). destruct (w_ecoda st) as [|e ll] eqn:EE.
      - destruct (pairs st); [contradiction|cbn in LE; discriminate].
      - exact (Q e eq_refl). }
    destruct b as [|b0 b]; [discriminate|]. injection HB as ->.
    assert (IL : In la (c0 :: c)) by (rewrite EL; apply exists_last_in; discriminate). clear EL.
    rewrite EC in IL. apply in_map_iff in IL. destruct IL as (row & <- & IR).
    rewrite Forall_forall in FP. specialize (FP row IR). destruct row as [|x row]; [discriminate|]. cbn [combine map].
    apply (fsum_bad _ (fmul (FNum x) FPInf)); [now left|apply fmul_inf_bad].
  Qed.

  Lemma no_result lo hi glo ghi r s v : l_fix o = false -> l_b_bounds o = Some (lo, hi) -> l_g0_bounds o = Some (glo, ghi) -> 0 <= glo ->
    invert_band o st v = Ok (r, s) -> r = None.
  Proof.
    intros FX B GB0 GP H. destruct r as [r|]; [exfalso|reflexivity].
    assert (NE : pairs st <> []) by (intros E; unfold invert_band in H; rewrite E in H; discriminate).
    assert (CH : exists s0 f, choose o st = Ok (Some (s0, f))).
    { unfold invert_band in H. destruct (pairs st); [contradiction|].
      destruct (choose o st) as [[[s0 f]|]|]; cbn [bind] in H; try discriminate. eauto. }
    destruct CH as (s0 & f & CH).
    assert (S0 : s = s0).
    { unfold invert_band in H. destruct (pairs st); [contradiction|]. rewrite CH in H. cbn [bind] in H.
      destruct (_ || _)%bool in H; [discriminate|]. congruence. }
    subst s0.
    destruct (proj1 (accepted_iff o st v s f CH NE)) as [WB WG]; [eauto|].
    destruct (WB lo hi B) as (b & EB & _). destruct (WG glo ghi GB0) as (g & EG & G1 & _).
    destruct (choose_cases o st _ CH) as (a & bs & rs & BD & [[F _]|[_ (s1 & g1 & L)]]); [congruence|].
    unfold lstsq in L. destruct (solve_at o st a bs rs g1 None false) as [f1|] eqn:SA; [|discriminate]. cbn [bind] in L.
    assert (f1 = f) by congruence. subst f1. assert (Q := solve_at_g0 _ _ _ _ _ _ _ _ _ SA). rewrite EG in Q. subst g1.
    apply (solve_at_bad a bs rs g f FX NE ltac:(lra) SA b EB).
  Qed.
End N.
