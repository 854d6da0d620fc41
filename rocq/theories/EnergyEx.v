(** Concrete cases for the theorems about the observed energy. *)
From Coq Require Import List Reals Lra ZArith Lia.
From Verif Require Import Base Pyf EnergyModel EnergySpec EnergyProof.
Import ListNotations.
Open Scope R_scope.

(** a linear, length preserving map in place of the Hilbert transform *)
Definition hil_ex (v : list R) : list R := map (Rmult 3) v.

Lemma hil_ex_len v : length (hil_ex v) = length v.
Proof. apply map_length. Qed.

Lemma hil_ex_lin c v : hil_ex (map (Rmult c) v) = map (Rmult c) (hil_ex v).
Proof. unfold hil_ex. rewrite !map_map. apply map_ext. intros. ring. Qed.

(** three components, one with an additional sample *)
Definition stream_ex : list (list R) := [[1; 2]; [0; 1; 5]; [2; 2]].

Lemma stream_ex_close : ~ lengths_differ stream_ex 1.
Proof.
  unfold stream_ex. intros (v & w & Hv & Hw & L). cbn in Hv, Hw.
  destruct Hv as [<-|[<-|[<-|[]]]]; destruct Hw as [<-|[<-|[<-|[]]]]; cbn in L; lia.
Qed.

Lemma stream_ex_energy :
  observed_energy hil_ex stream_ex 2 5 None 4 1 = Ok (map FNum [2.5; 4.5]).
Proof.
  destruct (energy_rows hil_ex hil_ex_len stream_ex ltac:(discriminate) 2 5 None 4 1 stream_ex_close)
    as (n & e & S & L & V & E).
  rewrite E. do 2 f_equal.
  assert (N : n = 2%nat).
  { destruct S as [(v & Hv & Lv) A]. assert (B := A [1; 2] (or_introl eq_refl)).
    unfold stream_ex in Hv. cbn in Hv. cbn in B.
    destruct Hv as [<-|[<-|[<-|[]]]]; cbn in Lv; lia. }
  rewrite N in L, V. clear N S E. destruct e as [|x [|y [|z e]]]; try discriminate L.
  assert (A := V 0%nat ltac:(lia)). assert (B := V 1%nat ltac:(lia)).
  unfold energy_at, stream_ex, hil_ex in A, B. cbn in A, B.
  f_equal; [|f_equal]; [rewrite A|rewrite B]; lra.
Qed.

Lemma window_ex :
  let window := firstn 1 (skipn 1 [2.5; 4.5]) in
  window <> [] /\ fold_right Rplus 0 window / INR (length window) <> 0.
Proof. cbn. split; [discriminate|lra]. Qed.
