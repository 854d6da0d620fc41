(** Concrete cases for the names of the files of plots and for saving figures (C122, C123). *)
From Coq Require Import String Ascii List Bool Reals Lra Lia ZArith Arith.
From Verif Require Import Base NameModel NameSpec NameProof NameProof2 NameProof3.
Import ListNotations.
Open Scope string_scope.
Open Scope list_scope.

Lemma round_even_is x n : (Rabs (x - IZR n) < 1 / 2)%R -> round_even x = n.
Proof.
  intros H. assert (S := round_even_spec x). assert (Rabs (IZR (round_even x - n)) < 1)%R.
  { rewrite minus_IZR. replace (IZR (round_even x) - IZR n)%R with ((IZR (round_even x) - x) + (x - IZR n))%R by ring.
    eapply Rle_lt_trans; [apply Rabs_triang|]. lra. }
  rewrite <- abs_IZR in H0. apply lt_IZR in H0. lia.
Qed.

Lemma hundredths_is x n : (0 <= x)%R -> (Rabs (100 * x - INR n) < 1 / 2)%R -> hundredths x = n.
Proof. intros P H. unfold hundredths. rewrite (Rabs_pos_eq x P). rewrite (round_even_is _ (Z.of_nat n)); [apply Nat2Z.id|]. now rewrite <- INR_IZR_INZ. Qed.

Lemma ex_fixed : fixed05 (3 / 4) = "00.75" /\ fixed05 (25 / 2) = "12.50" /\ fixed2 (3 / 4) = "0.75".
Proof.
  assert (A : hundredths (3 / 4) = 75%nat) by (apply hundredths_is; [lra|rewrite INR_IZR_INZ; change (Z.of_nat 75) with 75%Z; apply Rabs_def1; lra]).
  assert (B : hundredths (25 / 2) = 1250%nat) by (apply hundredths_is; [lra|rewrite INR_IZR_INZ; change (Z.of_nat 1250) with 1250%Z; apply Rabs_def1; lra]).
  unfold fixed05, fixed2. rewrite A, B. repeat split; reflexivity.
Qed.

Lemma ex_low x : (0 <= x <= 4 / 1000)%R -> fixed05 x = "00.00".
Proof.
  intros H. unfold fixed05. rewrite (hundredths_is x 0); [reflexivity|lra|]. cbn [INR]. apply Rabs_def1; lra.
Qed.

(** low frequencies *)
Lemma ex_near : exists band band' p e, (0 < fst band < snd band)%R /\ (0 < fst band' < snd band')%R /\ (snd band <= fst band')%R /\
  fst (fname_and_title [e] e band (default_fname p)) = fst (fname_and_title [e] e band' (default_fname p)).
Proof.
  exists (1 / 1000, 2 / 1000)%R, (2 / 1000, 4 / 1000)%R, Fits, "e1". cbn [fst snd]. split; [lra|]. split; [lra|]. split; [lra|].
  unfold fname_and_title. cbn [List.length Nat.eqb fst]. rewrite !default_text. unfold band_text. cbn [fst snd]. rewrite !ex_low by lra. reflexivity.
Qed.

(** a directory with two underscores *)
Lemma ex_directory : exists d evs first band p, no_slash_end d /\ (0 < fst band < snd band)%R /\
  dirname (fst (fname_and_title evs first band (FText (d ++ "/") :: default_fname p))) <> d.
Proof.
  exists "run__1", ["e1"; "e2"], "e1", (3 / 4, 25 / 2)%R, Fits. split; [exists "run__", "1"%char; split; [reflexivity|discriminate]|].
  cbn [fst snd]. split; [lra|]. unfold fname_and_title. cbn [List.length Nat.eqb fst snd].
  destruct ex_fixed as (A & B & C). unfold format_name, default_fname. cbn [map fst snd]. rewrite A, B. vm_compute. discriminate.
Qed.

(** a plot that fails prevents another one *)
Lemma ex_failed : exists evs first band nenergies e f name, bp_draws f = None /\ file_of evs first band Fits f name /\
  ~ In name (band_plots evs first band nenergies false true (Some e) None (Some f)).
Proof.
  exists ["e1"], "e1", (3 / 4, 25 / 2)%R, 3%nat, {| bp_fname := None; bp_draws := Some TypeError |}, {| bp_fname := None; bp_draws := None |}.
  eexists. split; [reflexivity|]. split; [apply file_of_spec|].
  rewrite (plots_energies_failed _ _ _ _ _ _ _ _ _ {| bp_fname := None; bp_draws := Some TypeError |}); [intros []|split; [reflexivity|lia]|discriminate].
Qed.

Lemma ex_wanted p o : wanted_plot 3 false true (Some {| bp_fname := None; bp_draws := None |}) (Some {| bp_fname := None; bp_draws := None |})
  (Some {| bp_fname := None; bp_draws := None |}) p o -> bp_draws o = None.
Proof. destruct p; cbn; [intros [[= <-] _]|intros ([= <-] & _)|intros [= <-]]; reflexivity. Qed.
