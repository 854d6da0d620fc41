(** Concrete case for C149. *)
From Coq Require Import List Bool Reals Lra Permutation.
From Verif Require Import Base PySort FreqsModel PitchSpec.
Import ListNotations.
Open Scope R_scope.

Lemma pitch_ex : get_freqs None None None None None (Some [(4, 6); (1, 3)]) = Ok [(2, (1, 3)); (5, (4, 6))].
Proof.
  unfold get_freqs, bands_given. cbn [bind pysort insert]. unfold band_leb, rleb. cbn [fst snd].
  destruct (Req_EM_T 4 1); [lra|]. destruct (Rle_dec 4 1); [lra|]. cbn [map]. unfold dict_of, dupdate. cbn [fold_left dset fst snd].
  unfold reqb. destruct (Req_EM_T _ _); [lra|]. repeat f_equal; lra.
Qed.

Lemma pitch_perm : Permutation [(4, 6); (1, 3)] [(1, 3); (4, 6)].
Proof. apply perm_swap. Qed.
