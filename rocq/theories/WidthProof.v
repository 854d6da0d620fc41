(** Lemmas about the filter width: sums and integrals. *)
From Coq Require Import String Ascii List Bool Reals Arith Lia Lra.
From Coquelicot Require Import Coquelicot.
From Verif Require Import Base WidthModel WidthSpec.
Import ListNotations.
Open Scope R_scope.

Fixpoint rs (q : R -> R) (n : nat) : R := match n with O => 0 | S n => rs q n + q (INR n) end.

Lemma rs_list q n : fold_right Rplus 0 (map q (map INR (seq 0 n))) = rs q n.
Proof.
  induction n as [|n IH]; [reflexivity|]. rewrite seq_S, !map_app. cbn [rs Nat.add map].
  rewrite <- IH. generalize (map q (map INR (seq 0 n))). intros l. induction l as [|x l IHl]; cbn; lra.
Qed.

(** ** sum and integral of a function with one maximum *)
Section Unimodal.
  Variable q : R -> R.
  Variable m : R.
  Variable n : nat.
  Hypothesis up : forall x y, 0 <= x -> x <= y -> y <= m -> q x <= q y.
  Hypothesis down : forall x y, m <= x -> x <= y -> y <= INR n -> q y <= q x.
  Hypothesis Hm : 0 <= m <= INR n.
  Hypothesis int : ex_RInt q 0 (INR n).

  Lemma cell_int k : (k < n)%nat -> ex_RInt q (INR k) (INR (S k)).
  Proof.
    intros L. assert (INR (S k) <= INR n) by (apply le_INR; lia). assert (0 <= INR k) by apply pos_INR. rewrite S_INR in *.
    apply (@ex_RInt_Chasles_1 R_CompleteNormedModule q) with (INR n); [lra|]. apply (@ex_RInt_Chasles_2 R_CompleteNormedModule q) with 0; [lra|exact int].
  Qed.

  Lemma cell_above k c : (k < n)%nat -> (forall x, INR k <= x <= INR (S k) -> q x <= c) -> RInt q (INR k) (INR (S k)) <= c.
  Proof.
    intros L H. assert (E : RInt (fun _ => c) (INR k) (INR (S k)) = c).
    { rewrite RInt_const, S_INR. unfold scal; cbn; unfold mult; cbn. ring. }
    rewrite <- E. apply RInt_le; [rewrite S_INR; lra|now apply cell_int|apply ex_RInt_const|]. intros x Hx. apply H. lra.
  Qed.

  Lemma cell_below k c : (k < n)%nat -> (forall x, INR k <= x <= INR (S k) -> c <= q x) -> c <= RInt q (INR k) (INR (S k)).
  Proof.
    intros L H. assert (E : RInt (fun _ => c) (INR k) (INR (S k)) = c).
    { rewrite RInt_const, S_INR. unfold scal; cbn; unfold mult; cbn. ring. }
    rewrite <- E. apply RInt_le; [rewrite S_INR; lra|apply ex_RInt_const|now apply cell_int|]. intros x Hx. apply H. lra.
  Qed.

  Lemma below_max x : 0 <= x <= INR n -> q x <= q m.
  Proof. intros H. destruct (Rle_dec x m); [apply up|apply down]; lra. Qed.

  Lemma above_min x y z : 0 <= x -> x <= z <= y -> y <= INR n -> Rmin (q x) (q y) <= q z.
  Proof.
    intros. destruct (Rle_dec z m).
    - apply Rle_trans with (q x); [apply Rmin_l|apply up; lra].
    - apply Rle_trans with (q y); [apply Rmin_r|apply down; lra].
  Qed.

  Lemma cell_lower k : (k < n)%nat -> q (Rmin (INR k) m) - q (Rmin (INR (S k)) m) <= q (INR k) - RInt q (INR k) (INR (S k)).
  Proof.
    intros L. assert (INR (S k) <= INR n) by (apply le_INR; lia). assert (0 <= INR k) by apply pos_INR.
    assert (INR (S k) = INR k + 1) by apply S_INR.
    destruct (Rle_dec (INR k) m).
    - rewrite (Rmin_left (INR k)) by assumption. apply Rplus_le_compat_l, Ropp_le_contravar, cell_above; [assumption|].
      intros x Hx. destruct (Rle_dec (INR (S k)) m).
      + rewrite Rmin_left by assumption. apply up; lra.
      + rewrite Rmin_right by lra. apply below_max. lra.
    - rewrite !Rmin_right by lra. assert (RInt q (INR k) (INR (S k)) <= q (INR k)); [|lra].
      apply cell_above; [assumption|]. intros x Hx. apply down; lra.
  Qed.

  Lemma cell_upper k : (k < n)%nat -> q (INR k) - RInt q (INR k) (INR (S k)) <= q (Rmax (INR k) m) - q (Rmax (INR (S k)) m).
  Proof.
    intros L. assert (INR (S k) <= INR n) by (apply le_INR; lia). assert (0 <= INR k) by apply pos_INR.
    assert (INR (S k) = INR k + 1) by apply S_INR.
    assert (B : Rmin (q (INR k)) (q (INR (S k))) <= RInt q (INR k) (INR (S k))).
    { apply cell_below; [assumption|]. intros x Hx. apply above_min; lra. }
    destruct (Rle_dec (INR (S k)) m).
    - rewrite !Rmax_right by lra. rewrite Rmin_left in B by (apply up; lra). lra.
    - rewrite (Rmax_left (INR (S k))) by lra. destruct (Rle_dec m (INR k)).
      + rewrite Rmax_left by lra. rewrite Rmin_right in B by (apply down; lra). lra.
      + rewrite Rmax_right by lra. pose proof (below_max (INR k) ltac:(lra)). pose proof (below_max (INR (S k)) ltac:(lra)).
        revert B. unfold Rmin. destruct (Rle_dec (q (INR k)) (q (INR (S k)))); lra.
  Qed.

  Lemma sum_bounds j : (j <= n)%nat ->
    q (Rmin 0 m) - q (Rmin (INR j) m) <= rs q j - RInt q 0 (INR j) <= q (Rmax 0 m) - q (Rmax (INR j) m).
  Proof.
    induction j as [|j IH]; intros L.
    - cbn [rs]. replace (INR 0) with 0 by reflexivity. rewrite RInt_point. unfold zero; cbn. lra.
    - specialize (IH ltac:(lia)). assert (Lj : (j < n)%nat) by lia.
      pose proof (cell_lower j Lj). pose proof (cell_upper j Lj).
      assert (E : RInt q 0 (INR (S j)) = RInt q 0 (INR j) + RInt q (INR j) (INR (S j))).
      { symmetry. apply (RInt_Chasles q).
        - assert (INR j <= INR n) by (apply le_INR; lia). assert (0 <= INR j) by apply pos_INR.
          apply (@ex_RInt_Chasles_1 R_CompleteNormedModule q) with (INR n); [lra|exact int].
        - now apply cell_int. }
      cbn [rs]. rewrite E. lra.
  Qed.

  Lemma sum_integral : (forall x, 0 <= x <= INR n -> 0 <= q x <= 1) -> Rabs (rs q n - RInt q 0 (INR n)) <= 1.
  Proof.
    intros B. pose proof (sum_bounds n (le_n _)) as H.
    assert (P : 0 <= INR n) by apply pos_INR.
    pose proof (B (Rmin 0 m) ltac:(unfold Rmin; destruct (Rle_dec 0 m); lra)).
    pose proof (B (Rmin (INR n) m) ltac:(unfold Rmin; destruct (Rle_dec (INR n) m); lra)).
    pose proof (B (Rmax 0 m) ltac:(unfold Rmax; destruct (Rle_dec 0 m); lra)).
    pose proof (B (Rmax (INR n) m) ltac:(unfold Rmax; destruct (Rle_dec (INR n) m); lra)).
    apply Rabs_le. lra.
  Qed.
End Unimodal.

(** ** number of the samples of an interval *)
Section Count.
  Variables (w : R -> R) (lo hi : R) (n : nat).
  Hypothesis range : forall k, (k < n)%nat -> 0 <= w (INR k) <= 1.
  Hypothesis inside : forall k, (k < n)%nat -> lo < INR k < hi -> w (INR k) = 1.
  Hypothesis outside : forall k, (k < n)%nat -> INR k < lo \/ hi < INR k -> w (INR k) = 0.
  Hypothesis order : 0 <= lo <= hi.
  Hypothesis most : hi <= INR n.

  Lemma count_upper j : (j <= n)%nat -> rs w j <= Rmin (Rmax (INR j) lo) (hi + 1) - Rmin (Rmax 0 lo) (hi + 1).
  Proof.
    induction j as [|j IH]; intros L.
    - cbn [rs]. replace (INR 0) with 0 by reflexivity. lra.
    - specialize (IH ltac:(lia)). cbn [rs]. pose proof (range j ltac:(lia)). rewrite S_INR.
      assert (w (INR j) <= Rmin (Rmax (INR j + 1) lo) (hi + 1) - Rmin (Rmax (INR j) lo) (hi + 1)); [|lra].
      destruct (Rlt_dec (INR j) lo) as [A|A].
      { rewrite (outside j) by (lia || tauto). unfold Rmin, Rmax. repeat destruct Rle_dec; lra. }
      destruct (Rlt_dec hi (INR j)) as [B|B].
      { rewrite (outside j) by (lia || tauto). unfold Rmin, Rmax. repeat destruct Rle_dec; lra. }
      unfold Rmin, Rmax. repeat destruct Rle_dec; lra.
  Qed.

  Lemma count_lower j : lo + 1 <= hi -> (j <= n)%nat -> Rmin (Rmax (INR j) (lo + 1)) hi - Rmin (Rmax 0 (lo + 1)) hi <= rs w j.
  Proof.
    intros G. induction j as [|j IH]; intros L.
    - cbn [rs]. replace (INR 0) with 0 by reflexivity. lra.
    - specialize (IH ltac:(lia)). cbn [rs]. pose proof (range j ltac:(lia)). rewrite S_INR.
      assert (Rmin (Rmax (INR j + 1) (lo + 1)) hi - Rmin (Rmax (INR j) (lo + 1)) hi <= w (INR j)); [|lra].
      destruct (Rlt_dec lo (INR j)) as [A|A]; [destruct (Rlt_dec (INR j) hi) as [B|B]|].
      + rewrite (inside j) by (lia || lra). unfold Rmin, Rmax. repeat destruct Rle_dec; lra.
      + apply Rle_trans with 0; [|lra]. unfold Rmin, Rmax. repeat destruct Rle_dec; lra.
      + apply Rle_trans with 0; [|lra]. unfold Rmin, Rmax. repeat destruct Rle_dec; lra.
  Qed.

  Lemma count_all : Rabs (rs w n - (hi - lo)) <= 1.
  Proof.
    pose proof (count_upper n (le_n _)) as U.
    assert (P : 0 <= rs w n).
    { assert (G : forall j, (j <= n)%nat -> 0 <= rs w j).
      { induction j as [|j IH]; intros L; cbn [rs]; [lra|]. pose proof (range j ltac:(lia)). specialize (IH ltac:(lia)). lra. }
      now apply G. }
    apply Rabs_le. split.
    - destruct (Rle_dec (lo + 1) hi) as [G|G]; [|lra]. pose proof (count_lower n G (le_n _)) as D.
      revert D. unfold Rmin, Rmax. repeat destruct Rle_dec; lra.
    - revert U. unfold Rmin, Rmax. repeat destruct Rle_dec; lra.
  Qed.
End Count.
