(** Lemmas about SNR times, windows and local minima. *)
From Coq Require Import String Ascii List Bool Arith ZArith QArith Qabs Lia Lqa Sorted.
From Verif Require Import Base PyStr TimesModel TimesSpec TimesProof.
Import ListNotations.
Open Scope string_scope.
Open Scope list_scope.

Lemma qltb_true a b : qltb a b = true <-> (a < b)%Q.
Proof.
  unfold qltb. rewrite negb_true_iff. split; intros H.
  - destruct (Qlt_le_dec a b) as [L|L]; auto. apply Qle_bool_iff in L. congruence.
  - destruct (Qle_bool b a) eqn:E; auto. apply Qle_bool_iff in E. lra.
Qed.

Lemma qltb_false a b : qltb a b = false <-> (b <= a)%Q.
Proof.
  split; intros H.
  - destruct (Qlt_le_dec a b) as [L|L]; auto. apply qltb_true in L. congruence.
  - destruct (qltb a b) eqn:E; auto. apply qltb_true in E. lra.
Qed.

Lemma first_below_spec thr l :
  first_index (fun j => (nth j l 0 < thr)%Q) (List.length l) (first_below thr l).
Proof.
  unfold first_index. induction l as [|x l IH]; cbn [first_below List.length].
  - repeat split; intros; lia.
  - destruct (qltb x thr) eqn:E.
    + repeat split; intros; try lia. cbn. now apply qltb_true.
    + destruct IH as (A & B & C). repeat split; try lia.
      * intros [|j] H; cbn.
        -- apply qltb_false in E. lra.
        -- apply B. lia.
      * intros H. cbn. apply C. lia.
Qed.

(** the samples of the slice if the start is a sample *)
Lemma slice_grid tr k :
  (0 < dt tr)%Z -> (k <= List.length (data tr))%nat ->
  slice_from tr (t0 tr + Z.of_nat k * dt tr) = skipn k (data tr).
Proof.
  intros D K. unfold slice_from.
  assert (E : ((2 * (t0 tr + Z.of_nat k * dt tr - t0 tr) + dt tr) / (2 * dt tr))%Z = Z.of_nat k).
  { symmetry. apply (Z.div_unique_pos _ _ _ (dt tr)); [lia|ring]. }
  rewrite E. destruct (Z.leb (Z.of_nat k) 0) eqn:Z0.
  - apply Z.leb_le in Z0. assert (k = 0)%nat by lia. subst. reflexivity.
  - now rewrite Nat2Z.id.
Qed.

(** the samples of the slice from the nearest sample *)
Lemma slice_any tr st : (0 < dt tr)%Z -> (t0 tr <= st)%Z ->
  exists k, slice_from tr st = skipn k (data tr) /\
    (2 * Z.abs (st - (t0 tr + Z.of_nat k * dt tr)) <= dt tr)%Z.
Proof.
  intros D S. unfold slice_from.
  set (k := ((2 * (st - t0 tr) + dt tr) / (2 * dt tr))%Z).
  assert (K : (2 * dt tr * k <= 2 * (st - t0 tr) + dt tr < 2 * dt tr * (k + 1))%Z).
  { unfold k. split; [apply Z.mul_div_le; lia|]. rewrite Z.add_1_r. apply Z.mul_succ_div_gt. lia. }
  clearbody k. assert (K0 : (0 <= k)%Z) by nia. exists (Z.to_nat k).
  rewrite Z2Nat.id by exact K0. split; [|lia].
  destruct (Z.leb k 0) eqn:Z0; [|reflexivity]. apply Z.leb_le in Z0.
  assert (k = 0)%Z by lia. subst k. reflexivity.
Qed.

Lemma nth_skipn_q k j (l : list Q) : nth j (skipn k l) 0%Q = nth (k + j) l 0%Q.
Proof.
  revert l. induction k as [|k IH]; intros l; [reflexivity|].
  destruct l as [|x l]; cbn; [now destruct j|apply IH].
Qed.

Section S.
  Variable pyfloat : string -> option Q.
  Notation time2utc := (time2utc pyfloat).

  Lemma has_char_snr : has_char ">" "snr" = false.
  Proof. reflexivity. Qed.

  Lemma snr_unfold text b tr st :
    py_lower text = (b ++ "snr")%string -> has_char ">" b = false ->
    time2utc text tr (Some st) = snr_time pyfloat (b ++ "snr") tr st.
  Proof.
    intros E N. unfold TimesModel.time2utc. rewrite E, ends_with_app.
    rewrite has_char_app, N, has_char_snr. reflexivity.
  Qed.

  (** C43: start at a sample *)
  Lemma snr_grid text b tr x nl k :
    py_lower text = (b ++ "snr")%string -> has_char ">" b = false ->
    pyfloat b = Some x -> noise_level tr = Some nl ->
    (0 < dt tr)%Z -> (k <= List.length (data tr))%nat ->
    exists i,
      time2utc text tr (Some (t0 tr + Z.of_nat k * dt tr)%Z)
        = Ok (t0 tr + Z.of_nat i * dt tr)%Z /\
      (k <= i <= List.length (data tr))%nat /\
      (forall j, (k <= j < i)%nat -> ~ (nth j (data tr) 0 < x * nl)%Q) /\
      ((i < List.length (data tr))%nat -> (nth i (data tr) 0 < x * nl)%Q).
  Proof.
    intros E N F NL D K. rewrite (snr_unfold text b) by auto.
    unfold snr_time, to_float.
    change 3%nat with (String.length "snr"). rewrite drop_last_app, F. cbn [bind].
    rewrite NL, slice_grid by auto.
    destruct (first_below_spec (x * nl) (skipn k (data tr))) as (A & B & C).
    set (i := first_below (x * nl) (skipn k (data tr))) in *.
    rewrite skipn_length in A, C.
    exists (k + i)%nat. split; [f_equal; lia|]. split; [lia|]. split.
    - intros j H G. apply (B (j - k)%nat); [lia|]. rewrite nth_skipn_q.
      replace (k + (j - k))%nat with j by lia. exact G.
    - intros H. rewrite <- nth_skipn_q. apply C. lia.
  Qed.

  (** C43: any start *)
  Lemma snr_any text b tr x nl st :
    py_lower text = (b ++ "snr")%string -> has_char ">" b = false ->
    pyfloat b = Some x -> noise_level tr = Some nl ->
    (0 < dt tr)%Z -> (t0 tr <= st)%Z ->
    exists k i,
      (2 * Z.abs (st - (t0 tr + Z.of_nat k * dt tr)) <= dt tr)%Z /\
      time2utc text tr (Some st) = Ok (st + (Z.of_nat i - Z.of_nat k) * dt tr)%Z /\
      (k <= i)%nat /\
      (forall j, (k <= j < i)%nat -> (j < List.length (data tr))%nat /\ ~ (nth j (data tr) 0 < x * nl)%Q) /\
      ((i < List.length (data tr))%nat -> (nth i (data tr) 0 < x * nl)%Q).
  Proof.
    intros E N F NL D S. rewrite (snr_unfold text b) by auto.
    unfold snr_time, to_float.
    change 3%nat with (String.length "snr"). rewrite drop_last_app, F. cbn [bind].
    destruct (slice_any tr st D S) as (k & SL & K). rewrite NL, SL.
    destruct (first_below_spec (x * nl) (skipn k (data tr))) as (A & B & C).
    set (i := first_below (x * nl) (skipn k (data tr))) in *.
    rewrite skipn_length in A, C.
    exists k, (k + i)%nat. split; [exact K|]. split; [f_equal; lia|]. split; [lia|]. split.
    - intros j H. split; [lia|]. intros G. apply (B (j - k)%nat); [lia|]. rewrite nth_skipn_q.
      replace (k + (j - k))%nat with j by lia. exact G.
    - intros H. rewrite <- nth_skipn_q. apply C. lia.
  Qed.

  (** C43: never before the start *)
  Lemma snr_after text b tr st t :
    py_lower text = (b ++ "snr")%string -> has_char ">" b = false ->
    (0 <= dt tr)%Z ->
    time2utc text tr (Some st) = Ok t -> (st <= t)%Z.
  Proof.
    intros E N D R. rewrite (snr_unfold text b) in R by auto. unfold snr_time in R.
    destruct (to_float pyfloat _) as [x|]; [|discriminate]. cbn [bind] in R.
    destruct (noise_level tr) as [nl|]; [|discriminate]. injection R as <-. nia.
  Qed.

  (** C43: a start in front of '>' replaces the start of the window *)
  Lemma snr_own_start text a b tr st st' :
    py_lower text = (a ++ ">" ++ b ++ "snr")%string ->
    a <> "" -> has_char ">" a = false -> has_char ">" b = false ->
    ends_with "snr" a = false ->
    time2utc a tr None = Ok st' ->
    time2utc text tr (Some st) = time2utc (b ++ "snr")%string tr (Some st').
  Proof.
    intros E NE A B SN R.
    assert (LA : py_lower a = a /\ py_lower b = b).
    { assert (I := py_lower_idem text). rewrite E in I. unfold py_lower in I.
      rewrite !string_map_app in I.
      assert (La : forall u, String.length (string_map lower_ascii u) = String.length u).
      { induction u; cbn; auto. }
      assert (I2 : (string_map lower_ascii a ++ ">" ++ string_map lower_ascii b ++ "snr"
                   = a ++ ">" ++ b ++ "snr")%string) by exact I.
      rewrite <- !app_assoc_s in I2.
      apply app_inj_tail_s in I2; [|reflexivity]. destruct I2 as [I2 _].
      apply app_inj_tail_s in I2; [|now rewrite La]. destruct I2 as [I2 I3].
      apply app_inj_tail_s in I2; [|reflexivity]. destruct I2 as [I2 _].
      split; assumption. }
    destruct LA as [LA LB].
    assert (R2 : time_before pyfloat a tr = Ok st').
    { unfold time_before. rewrite SN. unfold TimesModel.time2utc in R. rewrite LA, SN in R. exact R. }
    assert (SPL : split_on ">" (a ++ ">" ++ b ++ "snr")%string = [a; b ++ "snr"]%string).
    { change (">" ++ b ++ "snr")%string with (String ">" (b ++ "snr")).
      rewrite split_app_sep by auto. f_equal. apply split_free.
      now rewrite has_char_app, B. }
    assert (LS : py_lower (b ++ "snr") = (b ++ "snr")%string).
    { unfold py_lower in *. now rewrite string_map_app, LB. }
    rewrite (snr_unfold (b ++ "snr") b) by auto.
    unfold TimesModel.time2utc. rewrite E.
    assert (EW : ends_with "snr" (a ++ ">" ++ b ++ "snr") = true).
    { rewrite <- !app_assoc_s. apply ends_with_app. }
    assert (HC : has_char ">" (a ++ ">" ++ b ++ "snr") = true).
    { rewrite has_char_app. cbn. now rewrite orb_true_r. }
    rewrite EW, HC, SPL. apply String.eqb_neq in NE. rewrite NE, R2. reflexivity.
  Qed.

  Lemma snr_bare text b tr st :
    py_lower text = (">" ++ b ++ "snr")%string -> has_char ">" b = false ->
    time2utc text tr (Some st) = time2utc (b ++ "snr")%string tr (Some st).
  Proof.
    intros E B.
    assert (LB : py_lower b = b).
    { assert (I := py_lower_idem text). rewrite E in I. unfold py_lower in I.
      rewrite !string_map_app in I. injection I as I.
      apply app_inj_tail_s in I; [|reflexivity]. now destruct I. }
    assert (SPL : split_on ">" (">" ++ b ++ "snr")%string = [""; b ++ "snr"]%string).
    { change (">" ++ b ++ "snr")%string with ("" ++ String ">" (b ++ "snr"))%string.
      rewrite split_app_sep by auto. f_equal. apply split_free.
      now rewrite has_char_app, B. }
    assert (LS : py_lower (b ++ "snr") = (b ++ "snr")%string).
    { unfold py_lower in *. now rewrite string_map_app, LB. }
    rewrite (snr_unfold (b ++ "snr") b) by auto.
    unfold TimesModel.time2utc. rewrite E.
    assert (EW : ends_with "snr" (">" ++ b ++ "snr") = true).
    { rewrite <- !app_assoc_s. apply ends_with_app. }
    assert (HC : has_char ">" (">" ++ b ++ "snr") = true) by reflexivity.
    rewrite EW, HC, SPL. reflexivity.
  Qed.

  (** C44 *)
  Lemma fold_max_z l x : (forall y, In y (x :: l) -> (y <= fold_left Z.max l x)%Z) /\
                         In (fold_left Z.max l x) (x :: l).
  Proof.
    revert x. induction l as [|m l IH]; intros n; cbn [fold_left].
    - split; [intros x [<-|[]]; lia|now left].
    - destruct (IH (Z.max n m)) as [A B]. split.
      + intros x [<-|[<-|H]].
        * specialize (A (Z.max n m) (or_introl eq_refl)). lia.
        * specialize (A (Z.max n m) (or_introl eq_refl)). lia.
        * apply A. now right.
      + destruct B as [B|B]; [|right; now right].
        rewrite <- B. destruct (Z.max_spec n m) as [[_ E]|[_ E]]; rewrite E;
          [right; now left|now left].
  Qed.

  Lemma fold_min_z l x : (forall y, In y (x :: l) -> (fold_left Z.min l x <= y)%Z) /\
                         In (fold_left Z.min l x) (x :: l).
  Proof.
    revert x. induction l as [|m l IH]; intros n; cbn [fold_left].
    - split; [intros x [<-|[]]; lia|now left].
    - destruct (IH (Z.min n m)) as [A B]. split.
      + intros x [<-|[<-|H]].
        * specialize (A (Z.min n m) (or_introl eq_refl)). lia.
        * specialize (A (Z.min n m) (or_introl eq_refl)). lia.
        * apply A. now right.
      + destruct B as [B|B]; [|right; now right].
        rewrite <- B. destruct (Z.min_spec n m) as [[_ E]|[_ E]]; rewrite E;
          [now left|right; now left].
  Qed.

  Lemma mapM_in {A B} (f : A -> res B) l r :
    mapM f l = Ok r ->
    (forall a, In a l -> exists b, f a = Ok b /\ In b r) /\
    (forall b, In b r -> exists a, In a l /\ f a = Ok b).
  Proof.
    revert r. induction l as [|a l IH]; intros r E; cbn in E.
    - injection E as <-. split; intros x [].
    - destruct (f a) as [b|] eqn:F; [|discriminate]. cbn in E.
      destruct (mapM f l) as [bs|] eqn:M; [|discriminate]. cbn in E. injection E as <-.
      destruct (IH bs eq_refl) as [P Q]. split.
      + intros x [<-|H]; [exists b; split; auto; now left|].
        destruct (P x H) as (y & Y1 & Y2). exists y. split; auto. now right.
      + intros x [<-|H]; [exists a; split; auto; now left|].
        destruct (Q x H) as (y & Y1 & Y2). exists y. split; auto. now right.
  Qed.

  Lemma window_start v tr s :
    window_end pyfloat v tr None = Ok s ->
    (exists x, In x (texts v) /\ time2utc x tr None = Ok s) /\
    (forall x, In x (texts v) -> exists t, time2utc x tr None = Ok t /\ (t <= s)%Z).
  Proof.
    destruct v as [x|l]; cbn [window_end texts]; intros E.
    - split; [exists x; split; auto; now left|]. intros y [<-|[]]. exists s. split; [auto|lia].
    - destruct (mapM _ l) as [ts|] eqn:M; [|discriminate]. cbn [bind] in E.
      destruct (mapM_in _ _ _ M) as [P Q]. destruct ts as [|t ts]; [discriminate|].
      cbn [max_time] in E. injection E as <-. destruct (fold_max_z ts t) as [U V]. split.
      + destruct (Q _ V) as (a & A1 & A2). eauto.
      + intros x H. destruct (P x H) as (y & Y1 & Y2). exists y. auto.
  Qed.

  Lemma window_stop v tr st e :
    window_end pyfloat v tr (Some st) = Ok e ->
    (exists x, In x (texts v) /\ time2utc x tr (Some st) = Ok e) /\
    (forall x, In x (texts v) -> exists t, time2utc x tr (Some st) = Ok t /\ (e <= t)%Z).
  Proof.
    destruct v as [x|l]; cbn [window_end texts]; intros E.
    - split; [exists x; split; auto; now left|]. intros y [<-|[]]. exists e. split; [auto|lia].
    - destruct (mapM _ l) as [ts|] eqn:M; [|discriminate]. cbn [bind] in E.
      destruct (mapM_in _ _ _ M) as [P Q]. destruct ts as [|t ts]; [discriminate|].
      cbn [min_time] in E. injection E as <-. destruct (fold_min_z ts t) as [U V]. split.
      + destruct (Q _ V) as (a & A1 & A2). eauto.
      + intros x H. destruct (P x H) as (y & Y1 & Y2). exists y. auto.
  Qed.

  Lemma window_ok tw tr s e :
    tw2utc pyfloat tw tr = Ok (s, e) ->
    ((exists x, In x (texts (fst tw)) /\ time2utc x tr None = Ok s) /\
     (forall x, In x (texts (fst tw)) -> exists t, time2utc x tr None = Ok t /\ (t <= s)%Z)) /\
    ((exists x, In x (texts (snd tw)) /\ time2utc x tr (Some s) = Ok e) /\
     (forall x, In x (texts (snd tw)) -> exists t, time2utc x tr (Some s) = Ok t /\ (e <= t)%Z)).
  Proof.
    unfold tw2utc. intros E.
    destruct (window_end pyfloat (fst tw) tr None) as [s'|] eqn:W1; [|discriminate]. cbn [bind] in E.
    destruct (window_end pyfloat (snd tw) tr (Some s')) as [e'|] eqn:W2; [|discriminate].
    cbn [bind] in E. injection E as <- <-.
    split; [now apply window_start|now apply window_stop].
  Qed.

  Lemma mapM_total {A B} (f : A -> res B) l :
    (forall a, In a l -> exists b, f a = Ok b) -> exists r, mapM f l = Ok r /\ List.length r = List.length l.
  Proof.
    induction l as [|a l IH]; intros H; [now exists []|].
    destruct (H a (or_introl eq_refl)) as (b & F).
    destruct IH as (r & M & L); [intros; apply H; now right|].
    exists (b :: r). cbn. rewrite F. cbn. rewrite M. cbn. auto.
  Qed.

  Lemma window_total tw tr :
    texts (fst tw) <> [] -> texts (snd tw) <> [] ->
    (forall x, In x (texts (fst tw)) -> exists t, time2utc x tr None = Ok t) ->
    (forall x s, In x (texts (snd tw)) -> exists t, time2utc x tr (Some s) = Ok t) ->
    exists s e, tw2utc pyfloat tw tr = Ok (s, e).
  Proof.
    intros N1 N2 H1 H2. unfold tw2utc.
    assert (W : forall v st, texts v <> [] ->
              (forall x, In x (texts v) -> exists t, time2utc x tr st = Ok t) ->
              exists t, window_end pyfloat v tr st = Ok t).
    { intros [x|l] st N H; cbn [window_end texts] in *.
      - apply H. now left.
      - destruct (mapM_total _ _ H) as (r & M & L). rewrite M. cbn [bind].
        destruct r as [|t r]; [destruct l; [congruence|discriminate]|].
        destruct st; eexists; reflexivity. }
    destruct (W (fst tw) None N1 H1) as (s & ->). cbn [bind].
    destruct (W (snd tw) (Some s) N2) as (e & ->); [intros; now apply H2|].
    cbn [bind]. eauto.
  Qed.
End S.

(** C46 *)
Lemma check_times_ok start end_ tw tol :
  check_times start end_ tw tol = None <->
  (start < fst tw + tol /\ snd tw - tol < end_)%Z.
Proof.
  unfold check_times. destruct (Z.ltb 0 (fst tw - start + tol)) eqn:A;
    destruct (Z.ltb 0 (end_ - snd tw + tol)) eqn:B; cbn [andb];
    rewrite ?Z.ltb_lt, ?Z.ltb_ge in A, B; split; intros H; try discriminate; try lia; auto.
Qed.

(** C47 *)
Lemma argrelmin_in d i : In i (argrelmin d) <-> local_min d i.
Proof.
  unfold argrelmin, local_min, samp. rewrite filter_In, in_seq, andb_true_iff, !qltb_true.
  split; intros H; repeat split; try tauto; try lia.
Qed.

Lemma argrelmax_in d i : In i (argrelmax d) <-> local_max d i.
Proof.
  unfold argrelmax, local_max, samp. rewrite filter_In, in_seq, andb_true_iff, !qltb_true.
  split; intros H; repeat split; try tauto; try lia.
Qed.

Lemma seq_sorted n s : StronglySorted lt (seq s n).
Proof.
  revert s. induction n as [|n IH]; intros s; cbn; constructor; auto.
  apply Forall_forall. intros x H. apply in_seq in H. lia.
Qed.

Lemma filter_sorted {A} (R : A -> A -> Prop) f l :
  StronglySorted R l -> StronglySorted R (filter f l).
Proof.
  induction 1 as [|x l S IH F]; cbn; [constructor|].
  destruct (f x); auto. constructor; auto.
  rewrite Forall_forall in *. intros y H. apply filter_In in H. now apply F.
Qed.

Lemma argrelmin_sorted d : StronglySorted lt (argrelmin d).
Proof. apply filter_sorted, seq_sorted. Qed.

Lemma argrelmax_sorted d : StronglySorted lt (argrelmax d).
Proof. apply filter_sorted, seq_sorted. Qed.

Lemma lower_mins_incl d m l x : In x (lower_mins d m l) -> In x l.
Proof.
  revert m. induction l as [|y l IH]; intros m; cbn; auto.
  destruct (qltb _ _); cbn; intros H; [destruct H as [H|H]; eauto|eauto].
Qed.

Lemma lower_mins_filter d ma l : StronglySorted lt l -> forall m,
  filter (fun i => Nat.ltb i ma) (lower_mins d m l)
  = lower_mins d m (filter (fun i => Nat.ltb i ma) l).
Proof.
  induction 1 as [|x l S IH F]; intros m; [reflexivity|].
  cbn [filter lower_mins]. destruct (Nat.ltb x ma) eqn:L.
  - destruct (qltb (samp d x) (samp d m)) eqn:Q; cbn [lower_mins filter]; rewrite Q.
    + rewrite L. f_equal. apply IH.
    + apply IH.
  - apply Nat.ltb_ge in L.
    assert (G : forall l', (forall y, In y l' -> In y l) ->
                filter (fun i => Nat.ltb i ma) l' = []).
    { intros l' I. destruct (filter _ l') as [|y r] eqn:E; auto.
      assert (H : In y (filter (fun i => Nat.ltb i ma) l')) by (rewrite E; now left).
      apply filter_In in H. destruct H as [H1 H2]. apply I in H1.
      rewrite Forall_forall in F. apply F in H1. apply Nat.ltb_lt in H2. lia. }
    rewrite (G l) by auto. cbn [lower_mins].
    destruct (qltb (samp d x) (samp d m)) eqn:Q; cbn [filter].
    + destruct (Nat.ltb x ma) eqn:L2; [apply Nat.ltb_lt in L2; lia|].
      apply G. intros y. apply lower_mins_incl.
    + apply G. intros y. apply lower_mins_incl.
Qed.

Lemma last_cons_default {A} (x : A) l d : List.last (x :: l) d = List.last l x.
Proof.
  revert x d. induction l as [|y l IH]; intros x d; [reflexivity|].
  change (List.last (x :: y :: l) d) with (List.last (y :: l) d).
  now rewrite (IH y d), (IH y x).
Qed.

Lemma lower_mins_last d l : forall m, StronglySorted lt (m :: l) ->
  let r := List.last (lower_mins d m l) m in
  In r (m :: l) /\
  forall j, In j (m :: l) ->
    (nth r d 0 < nth j d 0)%Q \/ ((nth r d 0 == nth j d 0)%Q /\ (r <= j)%nat).
Proof.
  induction l as [|x l IH]; intros m S r; unfold r; clear r; cbn [lower_mins].
  - cbn [List.last]. split; [now left|]. intros j [<-|[]]. right. split; [reflexivity|lia].
  - inversion S as [|? ? S1 F]; subst. inversion S1 as [|? ? S2 F2]; subst.
    assert (MX : (m < x)%nat) by (rewrite Forall_forall in F; apply F; now left).
    destruct (qltb (samp d x) (samp d m)) eqn:Q.
    + apply qltb_true in Q. unfold samp in Q. rewrite last_cons_default.
      destruct (IH x S1) as [A B]. split; [right; exact A|].
      intros j [<-|H]; [|now apply B].
      left. destruct (B x (or_introl eq_refl)) as [C|[C _]]; lra.
    + apply qltb_false in Q. unfold samp in Q.
      assert (S3 : StronglySorted lt (m :: l)).
      { constructor; auto. rewrite Forall_forall in *. intros y H. apply F. now right. }
      destruct (IH m S3) as [A B]. split.
      * destruct A as [A|A]; [left; exact A|right; right; exact A].
      * intros j [<-|[<-|H]].
        -- apply B. now left.
        -- destruct (B m (or_introl eq_refl)) as [C|[C D]]; [left; lra|].
           destruct (Qlt_le_dec (nth m d 0%Q) (nth x d 0%Q)) as [E|E].
           ++ left. lra.
           ++ right. split; [lra|lia].
        -- apply B. now right.
Qed.

Lemma min_before_spec d m ms ma :
  argrelmin d = m :: ms ->
  reference d ma (min_before (m :: lower_mins d m ms) ma).
Proof.
  intros E. assert (S := argrelmin_sorted d). rewrite E in S.
  unfold min_before. cbn [filter]. destruct (Nat.ltb m ma) eqn:L.
  - left. apply Nat.ltb_lt in L. inversion S as [|? ? S1 F]; subst.
    rewrite lower_mins_filter by auto. rewrite last_cons_default.
    assert (S2 : StronglySorted lt (m :: filter (fun i => Nat.ltb i ma) ms)).
    { constructor; [now apply filter_sorted|]. rewrite Forall_forall in *.
      intros y H. apply filter_In in H. now apply F. }
    destruct (lower_mins_last d _ m S2) as [A B].
    set (r := List.last _ m) in *.
    assert (IN : forall j, In j (m :: filter (fun i => Nat.ltb i ma) ms) <->
                 local_min d j /\ (j < ma)%nat).
    { intros j. rewrite <- argrelmin_in, E. cbn [In]. rewrite filter_In, Nat.ltb_lt.
      intuition; subst; auto. }
    apply IN in A. destruct A as [A1 A2]. repeat split; try apply A1; auto.
    intros j H1 H2. apply B. apply IN. auto.
  - right. apply Nat.ltb_ge in L.
    assert (NO : forall j, local_min d j -> (ma <= j)%nat).
    { intros j H. apply argrelmin_in in H. rewrite E in H. inversion S as [|? ? S1 F]; subst.
      destruct H as [<-|H]; [lia|]. rewrite Forall_forall in F. apply F in H. lia. }
    split; [exact NO|].
    destruct (filter (fun i => Nat.ltb i ma) (lower_mins d m ms)) as [|y r] eqn:Fi; [reflexivity|].
    exfalso. assert (H : In y (filter (fun i => Nat.ltb i ma) (lower_mins d m ms))) by (rewrite Fi; now left).
    apply filter_In in H. destruct H as [H1 H2]. apply lower_mins_incl in H1.
    apply Nat.ltb_lt in H2.
    assert (local_min d y) by (apply argrelmin_in; rewrite E; now right).
    apply NO in H. lia.
Qed.

Lemma reference_unique d m i j : reference d m i -> reference d m j -> i = j.
Proof.
  intros [(A1 & A2 & A3)|(A & ->)] [(B1 & B2 & B3)|(B & ->)].
  - destruct (A3 j B1 B2) as [C|[C C']]; destruct (B3 i A1 A2) as [D|[D D']]; try lra; lia.
  - apply B in A1. lia.
  - apply A in B1. lia.
  - reflexivity.
Qed.

Lemma exceeds_iff d ratio ma mi :
  Forall (fun x => 0 <= x)%Q d ->
  (exceeds (samp d ma) (samp d mi) ratio = true <-> exceeds_by d ratio ma mi).
Proof.
  intros P. unfold exceeds, exceeds_by, samp.
  assert (N : (0 <= nth mi d 0)%Q).
  { destruct (Nat.ltb mi (List.length d)) eqn:L.
    - apply Nat.ltb_lt in L. rewrite Forall_forall in P. apply P. now apply nth_In.
    - apply Nat.ltb_ge in L. rewrite nth_overflow by lia. lra. }
  destruct (Qeq_bool (nth mi d 0%Q) 0) eqn:Z.
  - apply Qeq_bool_iff in Z. rewrite qltb_true. rewrite Z. rewrite Qmult_0_r. tauto.
  - apply Qeq_bool_neq in Z. rewrite qltb_true.
    assert (0 < nth mi d 0)%Q by lra.
    split; intros H1.
    + apply (Qmult_lt_r _ _ (nth mi d 0%Q)) in H1; auto.
      setoid_replace (nth ma d 0 / nth mi d 0 * nth mi d 0)%Q with (nth ma d 0%Q) in H1 by (field; lra).
      exact H1.
    + apply (Qmult_lt_r _ _ (nth mi d 0%Q)); auto.
      setoid_replace (nth ma d 0 / nth mi d 0 * nth mi d 0)%Q with (nth ma d 0%Q) by (field; lra).
      exact H1.
Qed.

Lemma first_outstanding_spec d ratio m ms maxs :
  Forall (fun x => 0 <= x)%Q d -> argrelmin d = m :: ms -> StronglySorted lt maxs ->
  match first_outstanding d ratio (m :: lower_mins d m ms) maxs with
  | Some i => exists ma, In ma maxs /\ reference d ma i /\ exceeds_by d ratio ma i /\
                forall ma' i', In ma' maxs -> (ma' < ma)%nat -> reference d ma' i' ->
                               ~ exceeds_by d ratio ma' i'
  | None => forall ma i, In ma maxs -> reference d ma i -> ~ exceeds_by d ratio ma i
  end.
Proof.
  intros P E S. induction S as [|ma r S IH F]; cbn [first_outstanding].
  - intros ma i [].
  - assert (B := min_before_spec d m ms ma E).
    set (mi := min_before (m :: lower_mins d m ms) ma) in *.
    destruct (exceeds (samp d ma) (samp d mi) ratio) eqn:X.
    + apply exceeds_iff in X; auto. exists ma. split; [now left|].
      split; auto. split; auto. intros ma' i' [<-|H] L _; [lia|].
      rewrite Forall_forall in F. apply F in H. lia.
    + assert (NX : ~ exceeds_by d ratio ma mi).
      { intros H. apply exceeds_iff in H; auto. congruence. }
      destruct (first_outstanding d ratio (m :: lower_mins d m ms) r) as [i|].
      * destruct IH as (ma' & I & Rf & Ex & N). exists ma'. split; [now right|].
        split; auto. split; auto. intros m2 i2 [<-|H] L R2.
        -- now rewrite (reference_unique _ _ _ _ R2 B).
        -- now apply (N m2).
      * intros m2 i2 [<-|H] R2.
        -- now rewrite (reference_unique _ _ _ _ R2 B).
        -- now apply (IH m2).
Qed.

Lemma local_minimum_ok tr smoothed ratio d :
  searched tr smoothed d -> Forall (fun x => 0 <= x)%Q d ->
  match get_local_minimum tr smoothed ratio with
  | Ok (Some t) =>
      (exists j, local_min d j) /\
      exists ma i,
        local_max d ma /\ reference d ma i /\ exceeds_by d ratio ma i /\
        (forall ma' i', local_max d ma' -> (ma' < ma)%nat -> reference d ma' i' ->
                        ~ exceeds_by d ratio ma' i') /\
        t = (t0 tr + Z.of_nat i * dt tr)%Z
  | Ok None =>
      (forall j, ~ local_min d j) \/
      (forall ma i, local_max d ma -> reference d ma i -> ~ exceeds_by d ratio ma i)
  | Err _ => False
  end.
Proof.
  intros SE P. unfold get_local_minimum.
  assert (D : match smoothed with
          | None => Ok (data tr)
          | Some (Ok d) => Ok d
          | Some (Err ValueError) => Ok (data tr)
          | Some (Err e) => Err e
          end = Ok d).
  { unfold searched in SE. destruct smoothed as [[d'|[]]|]; subst; auto; contradiction. }
  rewrite D. cbn [bind].
  destruct (argrelmin d) as [|m ms] eqn:Mi.
  - left. intros j H. apply argrelmin_in in H. rewrite Mi in H. destruct H.
  - destruct (argrelmax d) as [|x xs] eqn:Ma.
    + right. intros ma i H. apply argrelmax_in in H. rewrite Ma in H. destruct H.
    + rewrite <- Ma. assert (FO := first_outstanding_spec d ratio m ms (argrelmax d) P Mi (argrelmax_sorted d)).
      destruct (first_outstanding _ _ _ _) as [i|].
      * split.
        { exists m. apply argrelmin_in. rewrite Mi. now left. }
        destruct FO as (ma & I & Rf & Ex & N). exists ma, i.
        split; [now apply argrelmax_in|]. split; auto. split; auto. split; auto.
        intros ma' i' H. apply N. now apply argrelmax_in.
      * right. intros ma i H. apply FO. now apply argrelmax_in.
Qed.

(** C47 as stated, for data in which every maximum has a minimum before it *)
Lemma local_minimum_plain tr smoothed ratio d :
  searched tr smoothed d -> Forall (fun x => 0 <= x)%Q d ->
  (forall ma, local_max d ma -> exists j, local_min d j /\ (j < ma)%nat) ->
  match get_local_minimum tr smoothed ratio with
  | Ok (Some t) =>
      exists ma i,
        local_max d ma /\ lowest_min_before d ma i /\ exceeds_by d ratio ma i /\
        (forall ma' i', local_max d ma' -> (ma' < ma)%nat -> lowest_min_before d ma' i' ->
                        ~ exceeds_by d ratio ma' i') /\
        t = (t0 tr + Z.of_nat i * dt tr)%Z
  | Ok None =>
      forall ma i, local_max d ma -> lowest_min_before d ma i -> ~ exceeds_by d ratio ma i
  | Err _ => False
  end.
Proof.
  intros SE P H. assert (L := local_minimum_ok tr smoothed ratio d SE P).
  destruct (get_local_minimum tr smoothed ratio) as [[t|]|e]; auto.
  - destruct L as (_ & ma & i & A & B & C & D & E). exists ma, i.
    destruct B as [B|(B & _)].
    + split; auto. split; auto. split; auto. split; auto.
      intros ma' i' M L R. apply (D ma' i' M L). now left.
    + destruct (H ma A) as (j & J1 & J2). apply B in J1. lia.
  - intros ma i A B C. destruct L as [L|L].
    + destruct B as (B & _). now apply (L i).
    + apply (L ma i A); auto. now left.
Qed.
