(** C149: frequency bands in another unit of frequency, and in another order. *)
From Coq Require Import List Bool Reals Lra ZArith Permutation.
From Verif Require Import Base PySort FreqsModel FreqsProof PitchSpec.
Import ListNotations.
Open Scope R_scope.

Section Pitch.
  Variable k : R.
  Hypothesis Hk : 0 < k.

  Lemma reqb_scaled x y : reqb (k * x) (k * y) = reqb x y.
  Proof. unfold reqb. destruct (Req_EM_T (k * x) (k * y)), (Req_EM_T x y); try reflexivity; exfalso; [apply n; nra|subst; auto]. Qed.

  Lemma rleb_scaled x y : rleb (k * x) (k * y) = rleb x y.
  Proof. unfold rleb. destruct (Rle_dec (k * x) (k * y)), (Rle_dec x y); try reflexivity; exfalso; nra. Qed.

  Lemma band_scaled a b : band_leb (rescaled_corners k a) (rescaled_corners k b) = band_leb a b.
  Proof.
    unfold band_leb, rescaled_corners. cbn [fst snd]. rewrite !rleb_scaled.
    destruct (Req_EM_T (k * fst a) (k * fst b)), (Req_EM_T (fst a) (fst b)); try reflexivity; exfalso; [apply n; nra|apply n; now rewrite e].
  Qed.

  Lemma dset_scaled d b : dset reqb (map (rescaled k) d) (k * fst b) (k * fst (snd b), k * snd (snd b)) = map (rescaled k) (dset reqb d (fst b) (snd b)).
  Proof.
    induction d as [|[x y] d IH]; cbn; [now destruct b as [? []]|]. rewrite reqb_scaled. destruct (reqb (fst b) x); cbn; [reflexivity|]. now rewrite IH.
  Qed.

  Lemma dict_scaled l : dict_of reqb (map (rescaled k) l) = map (rescaled k) (dict_of reqb l).
  Proof.
    unfold dict_of, dupdate. change (@nil (R * (R * R))) with (map (rescaled k) []) at 1. generalize (@nil (R * (R * R))) as d.
    induction l as [|b l IH]; intros d; cbn [map fold_left]; [reflexivity|].
    rewrite <- IH. f_equal. apply dset_scaled.
  Qed.

  Lemma sort_scaled l : pysort band_leb (map (rescaled_corners k) l) = map (rescaled_corners k) (pysort band_leb l).
  Proof.
    induction l as [|x l IH]; cbn [map pysort]; [reflexivity|]. rewrite IH. clear IH.
    induction (pysort band_leb l) as [|y m IH]; cbn [map insert]; [reflexivity|].
    rewrite band_scaled. destruct (band_leb x y); cbn [map]; [reflexivity|]. now rewrite IH.
  Qed.

  Lemma given_scaled l : bands_given (map (rescaled_corners k) l) = map (rescaled k) (bands_given l).
  Proof.
    unfold bands_given. rewrite sort_scaled, <- dict_scaled, !map_map. f_equal. apply map_ext. intros [a b].
    unfold rescaled, rescaled_corners. cbn [fst snd]. f_equal. lra.
  Qed.

  Lemma around_scaled w l : bands_around w (map (Rmult k) l) = match bands_around w l with Ok b => Ok (map (rescaled k) b) | Err e => Err e end.
  Proof.
    unfold bands_around. destruct w as [w|]; [|reflexivity]. f_equal. rewrite <- dict_scaled. f_equal. rewrite map_map.
    induction l as [|f l IH]; cbn [map combine]; [reflexivity|]. rewrite IH. f_equal. unfold rescaled. cbn [fst snd].
    f_equal. f_equal; unfold Rdiv; ring.
  Qed.

  Lemma auto_scaled max min step : auto_cfreqs (option_map (Rmult k) max) (option_map (Rmult k) min) step =
    match auto_cfreqs max min step with Ok l => Ok (map (Rmult k) l) | Err e => Err e end.
  Proof.
    unfold auto_cfreqs. destruct max as [a|], min as [b|], step as [s|]; cbn [option_map]; try reflexivity.
    destruct (Req_EM_T b 0) as [->|N].
    { destruct (Req_EM_T (k * 0) 0); [reflexivity|]. exfalso. apply n. ring. }
    destruct (Req_EM_T (k * b) 0) as [E|N']. { exfalso. apply N. nra. }
    replace (k * a / (k * b)) with (a / b) by (field; split; [exact N|lra]).
    destruct (Rlt_dec (a / b) 0); [reflexivity|]. destruct (Req_EM_T (a / b) 0); [reflexivity|].
    destruct (Req_EM_T s 0). { destruct (Req_EM_T (a / b) 1); reflexivity. }
    cbn zeta. f_equal. rewrite !map_map. apply map_ext. intros i. unfold Rdiv. ring.
  Qed.

  Lemma freqs_scaled max min step width cfreqs fbands :
    get_freqs (option_map (Rmult k) max) (option_map (Rmult k) min) step width (option_map (map (Rmult k)) cfreqs)
      (option_map (map (rescaled_corners k)) fbands) =
    match get_freqs max min step width cfreqs fbands with Ok b => Ok (map (rescaled k) b) | Err e => Err e end.
  Proof.
    unfold get_freqs. destruct fbands as [fb|]; cbn [option_map].
    - destruct cfreqs; cbn [option_map bind]; now rewrite given_scaled.
    - destruct cfreqs as [c|]; cbn [option_map bind]; [apply around_scaled|].
      rewrite auto_scaled. destruct (auto_cfreqs max min step) as [c|]; cbn [bind]; [apply around_scaled|reflexivity].
  Qed.
End Pitch.

Lemma band_total a b : band_leb a b = true \/ band_leb b a = true.
Proof.
  unfold band_leb, rleb. destruct (Req_EM_T (fst a) (fst b)) as [E|E], (Req_EM_T (fst b) (fst a)) as [E'|E']; try (exfalso; auto; fail).
  - destruct (Rle_dec (snd a) (snd b)); [now left|right]. destruct (Rle_dec (snd b) (snd a)); [reflexivity|lra].
  - destruct (Rle_dec (fst a) (fst b)); [now left|right]. destruct (Rle_dec (fst b) (fst a)); [reflexivity|lra].
Qed.
Lemma band_anti a b : band_leb a b = true -> band_leb b a = true -> a = b.
Proof.
  unfold band_leb, rleb. destruct a as [a1 a2], b as [b1 b2]. cbn [fst snd].
  destruct (Req_EM_T a1 b1) as [E|E], (Req_EM_T b1 a1) as [E'|E']; try (exfalso; auto; fail); subst.
  - destruct (Rle_dec a2 b2), (Rle_dec b2 a2); try discriminate. intros _ _. f_equal. lra.
  - destruct (Rle_dec a1 b1), (Rle_dec b1 a1); try discriminate. exfalso. apply E. lra.
Qed.
Lemma band_trans a b c : band_leb a b = true -> band_leb b c = true -> band_leb a c = true.
Proof.
  unfold band_leb, rleb. destruct (Req_EM_T (fst a) (fst b)), (Req_EM_T (fst b) (fst c)), (Req_EM_T (fst a) (fst c));
  repeat match goal with |- context [Rle_dec ?x ?y] => destruct (Rle_dec x y) end; try discriminate; try reflexivity; intros; exfalso; try lra.
Qed.

Lemma freqs_order max min step width cfreqs fb fb' : Permutation fb fb' ->
  get_freqs max min step width cfreqs (Some fb) = get_freqs max min step width cfreqs (Some fb').
Proof.
  intros P. unfold get_freqs. destruct cfreqs; cbn [bind]; unfold bands_given;
  rewrite (pysort_perm_eq band_leb band_total band_trans fb fb' band_anti P); auto.
Qed.
