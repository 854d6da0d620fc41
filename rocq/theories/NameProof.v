(** Lemmas on the names of the files of plots (C122). *)
From Coq Require Import String Ascii List Bool Reals Lra Lia ZArith Arith DecimalString DecimalNat Decimal.
From Verif Require Import Base NameModel NameSpec.
Import ListNotations.
Open Scope string_scope.
Open Scope list_scope.

(** ** Rounding *)
Lemma round_even_spec x : (Rabs (IZR (round_even x) - x) <= 1 / 2)%R.
Proof.
  unfold round_even. destruct (base_Int_part x) as [A B].
  destruct (Rlt_dec _ _) as [L|L]; [|destruct (Rlt_dec _ _) as [M|M]; [|destruct (Z.even _)]];
    rewrite ?plus_IZR; apply Rabs_le; lra.
Qed.

Lemma round_even_nonneg x : (0 <= x)%R -> (0 <= round_even x)%Z.
Proof.
  intros H. assert (R := round_even_spec x). apply le_IZR. destruct (Z_lt_le_dec (round_even x) 0) as [L|L]; [|now apply IZR_le].
  assert (round_even x <= -1)%Z by lia. apply IZR_le in H0. unfold Rabs in R; destruct (Rcase_abs _); lra.
Qed.

Lemma hundredths_spec x : (Rabs (INR (hundredths x) / 100 - Rabs x) <= 1 / 200)%R.
Proof.
  unfold hundredths. assert (P := Rabs_pos x). assert (N := round_even_nonneg (100 * Rabs x) ltac:(lra)).
  rewrite INR_IZR_INZ, Z2Nat.id by exact N. assert (S := round_even_spec (100 * Rabs x)).
  unfold Rabs at 1 in S. unfold Rabs at 1. destruct (Rcase_abs _), (Rcase_abs _); lra.
Qed.

(** ** Digits *)
Lemma digit_range a d : digit a = Some d -> (48 <= nat_of_ascii a <= 57)%nat.
Proof.
  unfold digit. destruct (andb _ _) eqn:E; [|discriminate]. intros _. apply andb_true_iff in E. destruct E as [A B].
  apply Nat.leb_le in A, B. lia.
Qed.

Lemma number_uint d : forall acc, number_from acc (NilEmpty.string_of_uint d) = Some (Nat.of_uint_acc d acc).
Proof.
  induction d; intros acc; [reflexivity|..]; cbn [NilEmpty.string_of_uint number_from Nat.of_uint_acc];
    match goal with |- context [digit ?a] => let v := eval vm_compute in (digit a) in change (digit a) with v end;
    cbn [option_map]; rewrite IHd; f_equal; f_equal; rewrite Nat.tail_mul_spec; lia.
Qed.

Lemma digits_number n : number_from 0 (digits n) = Some n.
Proof. unfold digits. rewrite number_uint. f_equal. exact (Unsigned.of_to n). Qed.

Lemma digits_nonempty n : digits n <> "".
Proof.
  intros E. destruct n as [|n]; [discriminate|]. assert (H := digits_number (S n)). rewrite E in H. discriminate.
Qed.

Lemma digits_value n : number (digits n) = Some n.
Proof.
  unfold number. destruct (digits n) eqn:E; [elim (digits_nonempty n E)|]. rewrite <- E. apply digits_number.
Qed.

Lemma digits2_number n : number_from 0 (digits2 n) = Some n.
Proof.
  unfold digits2. cbv zeta. destruct (Nat.ltb _ 2); [|apply digits_number]. cbn [append number_from].
  change (digit "0") with (Some 0%nat). cbn [Nat.mul Nat.add]. apply digits_number.
Qed.

Lemma digits2_length n : (2 <= String.length (digits2 n))%nat.
Proof.
  unfold digits2. cbv zeta. destruct (Nat.ltb _ 2) eqn:L; [|apply Nat.ltb_ge in L; exact L].
  cbn [append String.length]. destruct (digits n) eqn:E; [elim (digits_nonempty n E)|]. cbn. lia.
Qed.

Lemma digits2_value n : number (digits2 n) = Some n.
Proof.
  unfold number. destruct (digits2 n) eqn:E; [assert (L := digits2_length n); rewrite E in L; cbn in L; lia|]. rewrite <- E. apply digits2_number.
Qed.

Lemma digits2_inj a b : digits2 a = digits2 b -> a = b.
Proof. intros E. assert (H := digits2_number a). rewrite E, digits2_number in H. congruence. Qed.

Lemma digits2_two n : (n < 100)%nat -> String.length (digits2 n) = 2%nat.
Proof.
  intros L. do 100 (destruct n as [|n]; [reflexivity|]). lia.
Qed.

(** the characters of numbers *)
Lemma number_chars s : forall acc v c, number_from acc s = Some v -> occurs c s -> exists d, digit c = Some d.
Proof.
  induction s as [|a r IH]; intros acc v c H O; [destruct O|]. cbn in H. destruct (digit a) as [d|] eqn:D; [|discriminate].
  destruct O as [<-|O]; [now exists d|]. exact (IH _ v c H O).
Qed.

Lemma occurs_app c s t : occurs c (s ++ t)%string <-> occurs c s \/ occurs c t.
Proof. induction s as [|a s IH]; cbn; [tauto|]. rewrite IH. tauto. Qed.

Lemma digits2_chars n c : digit c = None -> ~ occurs c (digits2 n).
Proof. intros D O. destruct (number_chars _ 0 n c (digits2_number n) O) as [d E]. congruence. Qed.

Lemma fixed05_chars x c : digit c = None -> c <> "."%char -> ~ occurs c (fixed05 x).
Proof.
  intros D N. unfold fixed05. rewrite !occurs_app. intros [O|[O|O]].
  - exact (digits2_chars _ c D O).
  - cbn in O. destruct O as [O|O]; [now apply N|exact O].
  - exact (digits2_chars _ c D O).
Qed.

(** ** Cutting texts *)
Lemma cut_first c : forall a a' r r', ~ occurs c a -> ~ occurs c a' -> (a ++ String c r = a' ++ String c r')%string -> a = a' /\ r = r'.
Proof.
  induction a as [|x a IH]; intros [|y a'] r r' N N' E; cbn in E.
  - injection E as E. now split.
  - injection E as E1 E2. elim N'. left. now symmetry.
  - injection E as E1 E2. elim N. now left.
  - injection E as E1 E2. destruct (IH a' r r') as [-> ->]; [intros O; apply N; now right|intros O; apply N'; now right|exact E2|]. subst. now split.
Qed.

Lemma cut_last c : forall a a' r r', ~ occurs c r -> ~ occurs c r' -> (a ++ String c r = a' ++ String c r')%string -> a = a' /\ r = r'.
Proof.
  induction a as [|x a IH]; intros [|y a'] r r' N N' E; cbn in E.
  - injection E as E. now split.
  - injection E as E1 E2. subst. elim N. apply occurs_app. right. now left.
  - injection E as E1 E2. subst. elim N'. apply occurs_app. right. now left.
  - injection E as E1 E2. destruct (IH a' r r' N N' E2) as [-> ->]. subst. now split.
Qed.

Lemma cut_prefix s : forall a b, (s ++ a = s ++ b)%string -> a = b.
Proof. induction s as [|x s IH]; intros a b E; [exact E|]. cbn in E. injection E as E. now apply IH. Qed.

Lemma append_assoc a b c : ((a ++ b) ++ c = a ++ (b ++ c))%string.
Proof. induction a; cbn; congruence. Qed.

Lemma append_nil a : (a ++ "" = a)%string.
Proof. induction a; cbn; congruence. Qed.

(** ** Frequencies *)
Lemma fixed05_decimal x : (0 <= x)%R -> exists v, decimal2 2 (fixed05 x) v /\ (Rabs (v - x) <= 1 / 200)%R.
Proof.
  intros P. set (h := hundredths x). exists (INR h / 100)%R. split.
  - exists (digits2 (h / 100)), (digits2 (h mod 100)), (h / 100)%nat, (h mod 100)%nat.
    split; [reflexivity|]. split; [apply digits2_length|]. split; [apply digits2_two; apply Nat.mod_upper_bound; lia|].
    split; [apply digits2_value|]. split; [apply digits2_value|].
    rewrite (Nat.div_mod h 100) at 1 by lia. rewrite plus_INR, mult_INR. rewrite (INR_IZR_INZ 100). change (Z.of_nat 100) with 100%Z. field.
  - assert (H := hundredths_spec x). fold h in H. now rewrite (Rabs_pos_eq x P) in H.
Qed.

Lemma fixed2_decimal x : (0 <= x)%R -> exists v, decimal2 1 (fixed2 x) v /\ (Rabs (v - x) <= 1 / 200)%R.
Proof.
  intros P. set (h := hundredths x). exists (INR h / 100)%R. split.
  - exists (digits (h / 100)), (digits2 (h mod 100)), (h / 100)%nat, (h mod 100)%nat.
    split; [reflexivity|]. split; [destruct (digits (h / 100)) eqn:E; [elim (digits_nonempty _ E)|cbn; lia]|]. split; [apply digits2_two; apply Nat.mod_upper_bound; lia|].
    split; [apply digits_value|]. split; [apply digits2_value|].
    rewrite (Nat.div_mod h 100) at 1 by lia. rewrite plus_INR, mult_INR. rewrite (INR_IZR_INZ 100). change (Z.of_nat 100) with 100%Z. field.
  - assert (H := hundredths_spec x). fold h in H. now rewrite (Rabs_pos_eq x P) in H.
Qed.

Lemma fixed05_eq x y : fixed05 x = fixed05 y -> hundredths x = hundredths y.
Proof.
  unfold fixed05. intros E. destruct (cut_first "."%char _ _ _ _ (digits2_chars _ "."%char eq_refl) (digits2_chars _ "."%char eq_refl) E) as [A B].
  cbn [append] in B. apply digits2_inj in A, B.
  assert (DX := Nat.div_mod (hundredths x) 100 ltac:(lia)). assert (DY := Nat.div_mod (hundredths y) 100 ltac:(lia)).
  rewrite DX, DY, A, B. reflexivity.
Qed.

Lemma fixed05_near x y : (0 <= x)%R -> (0 <= y)%R -> fixed05 x = fixed05 y -> ~ apart x y.
Proof.
  intros X Y E A. apply fixed05_eq in E. assert (HX := hundredths_spec x). assert (HY := hundredths_spec y).
  rewrite (Rabs_pos_eq x X) in HX. rewrite (Rabs_pos_eq y Y) in HY. rewrite E in HX. unfold apart in A.
  revert HX HY A. unfold Rabs. repeat destruct (Rcase_abs _); lra.
Qed.
