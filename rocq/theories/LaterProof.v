(** C147: data windows of traces at another time and in another unit of energy. *)
From Coq Require Import String Ascii List Bool Arith ZArith QArith Lia Lqa.
From Verif Require Import Base PyStr TimesModel LaterSpec.
Import ListNotations.

Lemma plain_later pf s d tr : plain_time pf s (later d tr) = outcome (fun t => t + d)%Z (plain_time pf s tr).
Proof.
  unfold plain_time, add_s. cbn [origintime ponset sonset later].
  destruct (ends_with "stt" s || ends_with "ptt" s)%bool.
  - destruct (to_float pf (drop_last 3 s)); cbn; [|reflexivity].
    destruct (String.eqb _ _).
    + replace (ponset tr + d - (origintime tr + d))%Z with (ponset tr - origintime tr)%Z by lia. f_equal. lia.
    + replace (sonset tr + d - (origintime tr + d))%Z with (sonset tr - origintime tr)%Z by lia. f_equal. lia.
  - destruct (_ && _)%bool; [|reflexivity]. destruct (to_float pf _); cbn; [|reflexivity].
    f_equal. destruct (String.prefix "p" s); [lia|]. destruct (String.prefix "s" s); lia.
Qed.

Lemma slice_later d tr st : slice_from (later d tr) (st + d) = slice_from tr st.
Proof. unfold slice_from. cbn [t0 dt data later]. replace (st + d - (t0 tr + d))%Z with (st - t0 tr)%Z by lia. reflexivity. Qed.

Lemma snr_later pf s d tr st : snr_time pf s (later d tr) (st + d) = outcome (fun t => t + d)%Z (snr_time pf s tr st).
Proof.
  unfold snr_time. destruct (to_float pf (drop_last 3 s)); cbn [bind outcome]; [|reflexivity]. cbn [noise_level later].
  destruct (noise_level tr); cbn [outcome]; [|reflexivity]. rewrite slice_later. cbn [dt later]. f_equal. lia.
Qed.

Definition moved_start (d : Z) (st : option Z) : option Z := option_map (fun t => t + d)%Z st.

Lemma time_later pf s d tr st : time2utc pf s (later d tr) (moved_start d st) = outcome (fun t => t + d)%Z (time2utc pf s tr st).
Proof.
  unfold time2utc. destruct (ends_with "snr" (py_lower s)); [|apply plain_later].
  destruct (has_char ">"%char (py_lower s)).
  2:{ cbn [bind]. destruct st; [apply snr_later|reflexivity]. }
  destruct (split_on ">"%char (py_lower s)) as [|a [|b [|]]]; try reflexivity.
  destruct (String.eqb a "").
  { cbn [bind]. destruct st; [apply snr_later|reflexivity]. }
  unfold time_before. destruct (ends_with "snr" a); [reflexivity|]. rewrite plain_later.
  destruct (plain_time pf a tr); cbn [bind outcome]; [|reflexivity]. destruct st; cbn [bind outcome moved_start option_map]; [apply snr_later|reflexivity].
Qed.

Lemma mapM_later pf l d tr st : mapM (fun v => time2utc pf v (later d tr) (moved_start d st)) l =
  outcome (map (fun t => t + d)%Z) (mapM (fun v => time2utc pf v tr st) l).
Proof.
  induction l as [|a l IH]; cbn [mapM]; [reflexivity|]. rewrite time_later, IH.
  destruct (time2utc pf a tr st); cbn [bind outcome]; [|reflexivity].
  destruct (mapM (fun v => time2utc pf v tr st) l); reflexivity.
Qed.

Lemma fold_max_later d r : forall x, fold_left Z.max (map (fun t => t + d)%Z r) (x + d)%Z = (fold_left Z.max r x + d)%Z.
Proof. induction r as [|a r IH]; cbn [map fold_left]; intros x; [reflexivity|]. rewrite <- IH. f_equal. lia. Qed.
Lemma fold_min_later d r : forall x, fold_left Z.min (map (fun t => t + d)%Z r) (x + d)%Z = (fold_left Z.min r x + d)%Z.
Proof. induction r as [|a r IH]; cbn [map fold_left]; intros x; [reflexivity|]. rewrite <- IH. f_equal. lia. Qed.

Lemma end_later pf v d tr st : window_end pf v (later d tr) (moved_start d st) = outcome (fun t => t + d)%Z (window_end pf v tr st).
Proof.
  destruct v as [s|l]; cbn [window_end]; [apply time_later|]. rewrite mapM_later.
  destruct (mapM _ l) as [ts|]; cbn [bind outcome]; [|reflexivity].
  destruct st; cbn [moved_start option_map]; destruct ts as [|t ts]; try reflexivity; cbn [map max_time min_time outcome]; f_equal; [apply fold_min_later|apply fold_max_later].
Qed.

Lemma window_later pf tw d tr : tw2utc pf tw (later d tr) = outcome (fun w => (fst w + d, snd w + d)%Z) (tw2utc pf tw tr).
Proof.
  unfold tw2utc. pose proof (end_later pf (fst tw) d tr None) as E. cbn [moved_start option_map] in E. rewrite E.
  destruct (window_end pf (fst tw) tr None) as [s|]; cbn [bind outcome]; [|reflexivity].
  pose proof (end_later pf (snd tw) d tr (Some s)) as E2. cbn [moved_start option_map] in E2. rewrite E2.
  destruct (window_end pf (snd tw) tr (Some s)); reflexivity.
Qed.

Lemma minimum_later d tr sm ratio : get_local_minimum (later d tr) sm ratio = outcome (option_map (fun t => t + d)%Z) (get_local_minimum tr sm ratio).
Proof.
  unfold get_local_minimum. cbn [data later].
  destruct (match sm with None => Ok (data tr) | Some (Ok d0) => Ok d0 | Some (Err ValueError) => Ok (data tr) | Some (Err e) => Err e end) as [x|e]; cbn [bind outcome]; [|reflexivity].
  destruct (argrelmin x) as [|m ms]; [reflexivity|]. destruct (argrelmax x) as [|m' ms']; [reflexivity|].
  destruct (first_outstanding _ _ _ _); cbn [outcome option_map t0 dt later]; [|reflexivity]. do 2 f_equal. lia.
Qed.

Lemma check_later d a b tw tol : check_times (a + d) (b + d) (fst tw + d, snd tw + d)%Z tol = check_times a b tw tol.
Proof.
  unfold check_times. cbn [fst snd]. replace (fst tw + d - (a + d))%Z with (fst tw - a)%Z by lia.
  replace (b + d - (snd tw + d))%Z with (b - snd tw)%Z by lia. reflexivity.
Qed.

(** ** unit of energy *)
Section Louder.
  Variable k : Q.
  Hypothesis Hk : 0 < k.

  Lemma qltb_iff x y : qltb x y = true <-> x < y.
  Proof.
    unfold qltb. rewrite negb_true_iff. split.
    - intros H. apply Qnot_le_lt. intros L. apply Qle_bool_iff in L. congruence.
    - intros H. destruct (Qle_bool y x) eqn:E; [|reflexivity]. apply Qle_bool_iff in E. lra.
  Qed.

  Lemma qltb_same x y x' y' : (x < y <-> x' < y') -> qltb x y = qltb x' y'.
  Proof. intros H. apply eq_true_iff_eq. now rewrite !qltb_iff. Qed.

  Lemma lt_scaled x y x' y' : x' == k * x -> y' == k * y -> (x' < y' <-> x < y).
  Proof. intros -> ->. apply Qmult_lt_l. exact Hk. Qed.

  Lemma samp_scaled l i : samp (map (Qmult k) l) i == k * samp l i.
  Proof.
    unfold samp. revert i. induction l as [|a l IH]; intros [|i]; cbn [map nth]; try ring. apply IH.
  Qed.

  Lemma below_louder x thr thr' : thr' == k * thr -> first_below thr' (map (Qmult k) x) = first_below thr x.
  Proof.
    intros E. induction x as [|a x IH]; cbn [map first_below]; [reflexivity|].
    rewrite (qltb_same (k * a) thr' a thr); [|apply lt_scaled; [reflexivity|exact E]]. now rewrite IH.
  Qed.

  Lemma slice_louder tr st : slice_from (louder k tr) st = map (Qmult k) (slice_from tr st).
  Proof. unfold slice_from. cbn [t0 dt data louder]. destruct (Z.leb _ 0); [reflexivity|]. apply skipn_map. Qed.

  Lemma snr_louder pf s tr st : snr_time pf s (louder k tr) st = snr_time pf s tr st.
  Proof.
    unfold snr_time. destruct (to_float pf (drop_last 3 s)) as [x|]; cbn [bind]; [|reflexivity]. cbn [noise_level louder].
    destruct (noise_level tr) as [n|]; cbn [option_map]; [|reflexivity]. rewrite slice_louder. cbn [dt louder].
    rewrite (below_louder _ (x * n)); [reflexivity|]. ring.
  Qed.

  Lemma time_louder pf s tr st : time2utc pf s (louder k tr) st = time2utc pf s tr st.
  Proof.
    unfold time2utc, time_before. change (fun s => plain_time pf s (louder k tr)) with (fun s => plain_time pf s tr).
    destruct (ends_with "snr" (py_lower s)); [|reflexivity].
    match goal with |- bind ?a _ = bind ?b _ => change a with b; destruct b as [[u [v|]]|]; cbn [bind]; [apply snr_louder|reflexivity|reflexivity] end.
  Qed.

  Lemma window_louder pf tw tr : tw2utc pf tw (louder k tr) = tw2utc pf tw tr.
  Proof.
    assert (E : forall v st, window_end pf v (louder k tr) st = window_end pf v tr st).
    { intros [s|l] st; cbn [window_end]; [apply time_louder|].
      replace (mapM (fun v => time2utc pf v (louder k tr) st) l) with (mapM (fun v => time2utc pf v tr st) l); [reflexivity|].
      induction l as [|a l IH]; cbn [mapM]; [reflexivity|]. now rewrite time_louder, IH. }
    unfold tw2utc. rewrite E. destruct (window_end pf (fst tw) tr None); cbn [bind]; [|reflexivity]. now rewrite E.
  Qed.

  Lemma qltb_samp l i j : qltb (samp (map (Qmult k) l) i) (samp (map (Qmult k) l) j) = qltb (samp l i) (samp l j).
  Proof. apply qltb_same, lt_scaled; apply samp_scaled. Qed.

  Lemma filter_same {A} (f g : A -> bool) l : (forall x, f x = g x) -> filter f l = filter g l.
  Proof. intros H. induction l as [|a l IH]; cbn; [reflexivity|]. now rewrite H, IH. Qed.

  Lemma argrelmin_louder l : argrelmin (map (Qmult k) l) = argrelmin l.
  Proof. unfold argrelmin. rewrite map_length. apply filter_same. intros i. now rewrite !qltb_samp. Qed.
  Lemma argrelmax_louder l : argrelmax (map (Qmult k) l) = argrelmax l.
  Proof. unfold argrelmax. rewrite map_length. apply filter_same. intros i. now rewrite !qltb_samp. Qed.

  Lemma lower_louder l mins : forall last, lower_mins (map (Qmult k) l) last mins = lower_mins l last mins.
  Proof. induction mins as [|m r IH]; intros last; cbn [lower_mins]; [reflexivity|]. rewrite qltb_samp. now rewrite !IH. Qed.

  Lemma zero_scaled x x' : x' == k * x -> Qeq_bool x' 0 = Qeq_bool x 0.
  Proof.
    intros E. apply eq_true_iff_eq. rewrite !Qeq_bool_iff. rewrite E. split.
    - intros H. destruct (Qmult_integral _ _ H) as [F|F]; [lra|exact F].
    - intros ->. ring.
  Qed.

  Lemma exceeds_louder a b a' b' ratio : a' == k * a -> b' == k * b -> exceeds a' b' ratio = exceeds a b ratio.
  Proof.
    intros Ea Eb. unfold exceeds. rewrite (zero_scaled b b' Eb). destruct (Qeq_bool b 0) eqn:Z.
    - apply qltb_same. apply lt_scaled; [ring|exact Ea].
    - apply qltb_same. assert (N : ~ b == 0) by (intros H; apply Qeq_bool_iff in H; congruence).
      assert (E : a' / b' == a / b). { rewrite Ea, Eb. field. split; [exact N|lra]. }
      now rewrite E.
  Qed.

  Lemma outstanding_louder l ratio mins maxs : first_outstanding (map (Qmult k) l) ratio mins maxs = first_outstanding l ratio mins maxs.
  Proof.
    induction maxs as [|m r IH]; cbn [first_outstanding]; [reflexivity|].
    rewrite (exceeds_louder _ _ _ _ ratio (samp_scaled l m) (samp_scaled l (min_before mins m))). now rewrite IH.
  Qed.

  Lemma minimum_louder tr sm ratio : get_local_minimum (louder k tr) (option_map (outcome (map (Qmult k))) sm) ratio = get_local_minimum tr sm ratio.
  Proof.
    assert (E : forall x, match argrelmin (map (Qmult k) x), argrelmax (map (Qmult k) x) with
      | [], _ | _, [] => Ok None
      | m :: ms, _ => match first_outstanding (map (Qmult k) x) ratio (m :: lower_mins (map (Qmult k) x) m ms) (argrelmax (map (Qmult k) x)) with
        | Some mi => Ok (Some (t0 tr + Z.of_nat mi * dt tr)%Z) | None => Ok None end end =
      match argrelmin x, argrelmax x with
      | [], _ | _, [] => Ok None
      | m :: ms, _ => match first_outstanding x ratio (m :: lower_mins x m ms) (argrelmax x) with
        | Some mi => Ok (Some (t0 tr + Z.of_nat mi * dt tr)%Z) | None => Ok None end end).
    { intros x. rewrite argrelmin_louder, argrelmax_louder. destruct (argrelmin x) as [|m ms]; [reflexivity|].
      destruct (argrelmax x) as [|m' ms']; [reflexivity|]. now rewrite lower_louder, outstanding_louder. }
    unfold get_local_minimum. cbn [data t0 dt louder].
    destruct sm as [[x|e]|]; cbn [option_map outcome bind]; [apply E| |apply E].
    destruct e; cbn [bind]; try reflexivity; apply E.
  Qed.
End Louder.
