(** Proofs for TiltProps2.v. *)
From Coq Require Import String List Reals Lra Lia Arith Permutation.
From Verif Require Import Base DepModel LineModel LineSpec LineProof TiltSpec TiltProof.
Import ListNotations.
Open Scope R_scope.

Lemma mixed_sum p q d d' d'' a b a' b' : mixed p q d d' d'' ->
  wsum (fun y x => y - ((p * a + q * a') * x + (p * b + q * b'))) d'' =
  p * wsum (fun y x => y - (a * x + b)) d + q * wsum (fun y x => y - (a' * x + b')) d'.
Proof. induction 1 as [|y y' x w d d' d'' _ I]; cbn [wsum]; [ring|]. rewrite I. ring. Qed.

Lemma mixed_moment p q d d' d'' a b a' b' : mixed p q d d' d'' ->
  wsum (fun y x => (y - ((p * a + q * a') * x + (p * b + q * b'))) * x) d'' =
  p * wsum (fun y x => (y - (a * x + b)) * x) d + q * wsum (fun y x => (y - (a' * x + b')) * x) d'.
Proof. induction 1 as [|y y' x w d d' d'' _ I]; cbn [wsum]; [ring|]. rewrite I. ring. Qed.

Lemma mixed_second p q d d' d'' : mixed p q d d' d'' -> positive_weights d -> positive_weights d' /\ positive_weights d''.
Proof.
  induction 1 as [|y y' x w d d' d'' _ I]; intros P; [split; intros ? ? ? []|].
  assert (W : 0 < w) by (apply (P y x w); now left). destruct I as [I1 I2]; [intros ? ? ? J; eapply P; right; exact J|].
  split; intros u v z [E|J]; [injection E as _ _ <-; exact W|exact (I1 _ _ _ J)|injection E as _ _ <-; exact W|exact (I2 _ _ _ J)].
Qed.

Lemma mixed_has p q d d' d'' : mixed p q d d' d'' -> forall y x w, In (y, x, w) d ->
  (exists y', In (y', x, w) d') /\ (exists y', In (y', x, w) d'').
Proof.
  induction 1 as [|v v' u z d d' d'' _ I]; intros y x w [].
  - injection H as <- <- <-. split; eexists; left; reflexivity.
  - destruct (I _ _ _ H) as [[y1 I1] [y2 I2]]. split; eexists; right; eassumption.
Qed.

Lemma mixed_places p q d d' d'' : mixed p q d d' d'' -> two_places d -> two_places d' /\ two_places d''.
Proof.
  intros M (y1 & x1 & w1 & y2 & x2 & w2 & I1 & I2 & N). destruct (mixed_has _ _ _ _ _ M _ _ _ I1) as [[a1 A1] [b1 B1]].
  destruct (mixed_has _ _ _ _ _ M _ _ _ I2) as [[a2 A2] [b2 B2]].
  split; [exists a1, x1, w1, a2, x2, w2|exists b1, x1, w1, b2, x2, w2]; now repeat split.
Qed.

Lemma tilt_mixed fit : fits_least_squares fit -> forall p q y y' y'' x method w d d' d'' a b a' b',
  data_of y x w d -> data_of y' x w d' -> data_of y'' x w d'' -> mixed p q d d' d'' ->
  method <> "robust"%string -> (w <> None -> method = "weighted"%string) -> positive_weights d -> two_places d ->
  linear_fit fit y x None method w = Ok (a, b) -> linear_fit fit y' x None method w = Ok (a', b') ->
  linear_fit fit y'' x None method w = Ok (p * a + q * a', p * b + q * b').
Proof.
  intros F p q y y' y'' x method w d d' d'' a b a' b' D D' D'' X M W P T E E'.
  destruct (mixed_second _ _ _ _ _ X P) as [P' P'']. destruct (mixed_places _ _ _ _ _ X T) as [T' T''].
  apply (tilt_residuals fit F _ _ _ _ _ _ _ D M W P T) in E. apply (tilt_residuals fit F _ _ _ _ _ _ _ D' M W P' T') in E'.
  apply (tilt_residuals fit F _ _ _ _ _ _ _ D'' M W P'' T''). destruct E as [E0 E1], E' as [F0 F1].
  rewrite (mixed_sum _ _ _ _ _ _ _ _ _ X), (mixed_moment _ _ _ _ _ _ _ _ _ X), E0, E1, F0, F1. split; ring.
Qed.

(** ** data with errors *)
Lemma near_sums eps d d' : near eps d d' -> positive_weights d ->
  wsum (fun _ _ => 1) d' = wsum (fun _ _ => 1) d /\ (forall m, Rabs (wsum (fun y x => y - m * x) d' - wsum (fun y x => y - m * x) d) <= eps * wsum (fun _ _ => 1) d) /\
  Rabs (wsum (fun y x => y) d' - wsum (fun y x => y) d) <= eps * wsum (fun _ _ => 1) d /\ wsum (fun y x => x) d' = wsum (fun y x => x) d.
Proof.
  induction 1 as [|y y' x w d d' B N I]; intros P; cbn [wsum].
  - rewrite Rminus_0_r, Rabs_R0, Rmult_0_r. repeat split; intros; lra.
  - assert (W : 0 < w) by (apply (P y x w); now left). destruct I as (I1 & I2 & I3 & I4); [intros ? ? ? J; eapply P; right; exact J|].
    assert (S : Rabs (w * (y' - y)) <= w * eps) by (rewrite Rabs_mult, (Rabs_pos_eq w) by lra; apply Rmult_le_compat_l; lra).
    rewrite I1, I4. repeat split.
    + intros m. specialize (I2 m). replace (w * (y' - m * x) + wsum (fun y x => y - m * x) d' - (w * (y - m * x) + wsum (fun y x => y - m * x) d))
        with (w * (y' - y) + (wsum (fun y x => y - m * x) d' - wsum (fun y x => y - m * x) d)) by ring.
      eapply Rle_trans; [apply Rabs_triang|]. lra.
    + replace (w * y' + wsum (fun y _ => y) d' - (w * y + wsum (fun y _ => y) d)) with (w * (y' - y) + (wsum (fun y _ => y) d' - wsum (fun y _ => y) d)) by ring.
      eapply Rle_trans; [apply Rabs_triang|]. lra.
Qed.

Lemma near_second eps d d' : near eps d d' -> positive_weights d -> positive_weights d'.
Proof.
  induction 1 as [|y y' x w d d' _ _ I]; intros P; [intros ? ? ? []|].
  intros u v z [E|J]; [injection E as _ _ <-; apply (P y x w); now left|]. refine (I _ u v z J). intros ? ? ? K. eapply P. right. exact K.
Qed.

Lemma near_has eps d d' : near eps d d' -> forall y x w, In (y, x, w) d -> exists y', In (y', x, w) d'.
Proof.
  induction 1 as [|v v' u z d d' _ _ I]; intros y x w [].
  - injection H as <- <- <-. eexists; left; reflexivity.
  - destruct (I _ _ _ H) as [y1 I1]. eexists; right; eassumption.
Qed.

Lemma near_places eps d d' : near eps d d' -> two_places d -> two_places d'.
Proof.
  intros M (y1 & x1 & w1 & y2 & x2 & w2 & I1 & I2 & N). destruct (near_has _ _ _ M _ _ _ I1) as [a1 A1]. destruct (near_has _ _ _ M _ _ _ I2) as [a2 A2].
  exists a1, x1, w1, a2, x2, w2. now repeat split.
Qed.

Lemma near_nonempty eps d d' : near eps d d' -> d <> [] -> d' <> [].
Proof. intros [|]; [trivial|discriminate]. Qed.

Lemma near_quotient u v n eps : 0 < n -> Rabs (v - u) <= eps * n -> Rabs (v / n - u / n) <= eps.
Proof.
  intros N H. replace (v / n - u / n) with ((v - u) * / n) by (field; lra). rewrite Rabs_mult, (Rabs_pos_eq (/ n)) by (apply Rlt_le, Rinv_0_lt_compat; exact N).
  apply (Rmult_le_reg_r n); [exact N|]. rewrite Rmult_assoc, Rinv_l by lra. lra.
Qed.

Lemma tilt_level fit : fits_least_squares fit -> forall eps m y y' x method w d d' b b',
  data_of y x w d -> data_of y' x w d' -> near eps d d' -> method <> "robust"%string ->
  (w <> None -> method = "weighted"%string) -> positive_weights d -> d <> [] ->
  linear_fit fit y x (Some m) method w = Ok (m, b) -> linear_fit fit y' x (Some m) method w = Ok (m, b') -> Rabs (b' - b) <= eps.
Proof.
  intros F eps m y y' x method w d d' b b' D D' X M W P N E E'.
  rewrite (fit_fixed fit F _ _ _ _ _ _ D P N M W) in E. rewrite (fit_fixed fit F _ _ _ _ _ _ D' (near_second _ _ _ X P) (near_nonempty _ _ _ X N) M W) in E'.
  injection E as <-. injection E' as <-. destruct (near_sums _ _ _ X P) as (-> & S & _). apply near_quotient; [now apply weight_pos|apply S].
Qed.

Lemma wsum_line d a b : wsum (fun y x => y - (a * x + b)) d = wsum (fun y x => y) d - a * wsum (fun y x => x) d - b * wsum (fun y x => 1) d.
Proof. induction d as [|[[y x] w] d I]; cbn [wsum]; [ring|]. rewrite I. ring. Qed.

Lemma tilt_errors fit : fits_least_squares fit -> forall eps y y' x method w d d' a b a' b' mean,
  data_of y x w d -> data_of y' x w d' -> near eps d d' -> method <> "robust"%string ->
  (w <> None -> method = "weighted"%string) -> positive_weights d -> two_places d ->
  linear_fit fit y x None method w = Ok (a, b) -> linear_fit fit y' x None method w = Ok (a', b') ->
  mean = wsum (fun _ x => x) d / wsum (fun _ _ => 1) d -> Rabs ((a' * mean + b') - (a * mean + b)) <= eps.
Proof.
  intros F eps y y' x method w d d' a b a' b' mean D D' X M W P T E E' ->.
  assert (N : d <> []) by (intros ->; destruct T as (? & ? & ? & ? & ? & ? & [] & _)). pose proof (weight_pos d P N) as Q.
  apply (tilt_residuals fit F _ _ _ _ _ _ _ D M W P T) in E. apply (tilt_residuals fit F _ _ _ _ _ _ _ D' M W (near_second _ _ _ X P) (near_places _ _ _ X T)) in E'.
  destruct E as [E _], E' as [E' _]. rewrite wsum_line in E, E'. destruct (near_sums _ _ _ X P) as (S1 & _ & S & SX). rewrite S1, SX in E'.
  set (n := wsum (fun _ _ => 1) d) in *. set (sx := wsum (fun _ x => x) d) in *.
  replace (a' * (sx / n) + b') with (wsum (fun y _ => y) d' / n). 2:{ replace (wsum (fun y _ => y) d') with (a' * sx + b' * n) by lra. field. lra. }
  replace (a * (sx / n) + b) with (wsum (fun y _ => y) d / n). 2:{ replace (wsum (fun y _ => y) d) with (a * sx + b * n) by lra. field. lra. }
  now apply near_quotient.
Qed.
