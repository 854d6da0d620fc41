(** Lemmas on the entries of the result of a band. *)
From Coq Require Import String List Bool Reals.
From Verif Require Import Base Pyf LsqfbModel.
Import ListNotations.

Lemma band_entries o st v0 r s : invert_band o st v0 = Ok (Some r, s) ->
  (fb_W r = None <-> l_coda_norm o = true) /\
  (fb_R r = None <-> l_coda_norm o = true \/ l_fix_sites o <> None) /\ fb_v0 r = v0.
Proof.
  unfold invert_band. destruct (pairs st); [discriminate|]. destruct (choose o st) as [[[rs f]|]|]; try discriminate. cbn [bind].
  destruct (_ || _)%bool; [discriminate|]. intros [= <- _]. unfold arrange. cbn [fb_W fb_R fb_v0].
  split; [|split; [|reflexivity]].
  - destruct (l_coda_norm o); split; congruence.
  - destruct (l_fix_sites o) as [x|].
    + split; [right; discriminate|reflexivity].
    + destruct (l_coda_norm o); cbn [negb]; (split; [|try reflexivity]); try (now left); try discriminate.
      intros [H|H]; [discriminate|now destruct H].
Qed.
