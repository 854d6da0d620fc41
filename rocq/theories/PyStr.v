(** Python string operations used by the models of /repo/qopen/core.py. *)
From Coq Require Import String Ascii List Bool Arith Lia.
Import ListNotations.
Open Scope string_scope.

(** [s.split(c)] for a single character (core.py:208, 314, 1683) *)
Fixpoint split_on (c : ascii) (s : string) : list string :=
  match s with
  | EmptyString => [EmptyString]
  | String a r =>
      if Ascii.eqb a c then EmptyString :: split_on c r
      else match split_on c r with
           | h :: t => String a h :: t
           | [] => [String a EmptyString]
           end
  end.

(** [sep.join(l)] (core.py:1683) *)
Fixpoint join (sep : string) (l : list string) : string :=
  match l with
  | [] => ""
  | [x] => x
  | x :: r => x ++ sep ++ join sep r
  end.

(** [c in s] for a character *)
Fixpoint has_char (c : ascii) (s : string) : bool :=
  match s with
  | EmptyString => false
  | String a r => Ascii.eqb a c || has_char c r
  end.

(** [s.endswith(suf)] (core.py:312, 330) *)
Definition ends_with (suf s : string) : bool :=
  Nat.leb (String.length suf) (String.length s) &&
  String.eqb (substring (String.length s - String.length suf) (String.length suf) s) suf.

(** [s[:-n]] for n > 0 (core.py:324, 332) *)
Definition drop_last (n : nat) (s : string) : string :=
  substring 0 (String.length s - n) s.

(** [s[n:]] (core.py:336) *)
Fixpoint drop (n : nat) (s : string) : string :=
  match n, s with
  | S n', String _ r => drop n' r
  | _, _ => s
  end.

(** characters of [s.lower()] and [s.upper()] (core.py:311, 264).
    Simplification: ASCII only. *)
Definition lower_ascii (a : ascii) : ascii :=
  let n := nat_of_ascii a in
  if (Nat.leb 65 n && Nat.leb n 90)%bool then ascii_of_nat (n + 32) else a.
(** see above *)
Definition upper_ascii (a : ascii) : ascii :=
  let n := nat_of_ascii a in
  if (Nat.leb 97 n && Nat.leb n 122)%bool then ascii_of_nat (n - 32) else a.

(** character by character *)
Fixpoint string_map (f : ascii -> ascii) (s : string) : string :=
  match s with
  | EmptyString => EmptyString
  | String a r => String (f a) (string_map f r)
  end.

(** [s.lower()], core.py:311 *)
Definition py_lower := string_map lower_ascii.
(** [s.upper()], core.py:264 *)
Definition py_upper := string_map upper_ascii.

(** ** Facts *)

Lemma app_assoc_s a b c : (a ++ b) ++ c = a ++ b ++ c.
Proof. induction a; cbn; congruence. Qed.

Lemma app_nil_s a : a ++ "" = a.
Proof. induction a; cbn; congruence. Qed.

Lemma length_app_s a b : String.length (a ++ b) = (String.length a + String.length b)%nat.
Proof. induction a; cbn; congruence. Qed.

Lemma substring_app_l a b : substring 0 (String.length a) (a ++ b) = a.
Proof. induction a; cbn; [now destruct b|]. congruence. Qed.

Lemma substring_0_0 s : substring 0 0 s = "".
Proof. now destruct s. Qed.

Lemma substring_all s : substring 0 (String.length s) s = s.
Proof. induction s; cbn; congruence. Qed.

Lemma substring_app_r a b n : substring (String.length a) n (a ++ b) = substring 0 n b.
Proof. induction a; cbn; auto. Qed.

Lemma substring_split s n : (n <= String.length s)%nat ->
  s = substring 0 n s ++ substring n (String.length s - n) s.
Proof.
  revert n. induction s as [|a s IH]; intros n H; cbn in *.
  - assert (n = 0)%nat by lia. now subst.
  - destruct n as [|n]; cbn.
    + f_equal. now rewrite substring_all.
    + f_equal. apply IH. lia.
Qed.

Lemma ends_with_spec suf s : ends_with suf s = true <-> exists p, s = p ++ suf.
Proof.
  unfold ends_with. rewrite andb_true_iff, Nat.leb_le, String.eqb_eq. split.
  - intros [L E]. exists (substring 0 (String.length s - String.length suf) s).
    rewrite (substring_split s (String.length s - String.length suf)) at 1 by lia.
    replace (String.length s - (String.length s - String.length suf))%nat
      with (String.length suf) by lia. now rewrite E.
  - intros (p & ->). rewrite length_app_s. split; [lia|].
    replace (String.length p + String.length suf - String.length suf)%nat
      with (String.length p) by lia.
    rewrite substring_app_r. apply substring_all.
Qed.

Lemma ends_with_app p suf : ends_with suf (p ++ suf) = true.
Proof. apply ends_with_spec. eauto. Qed.

Lemma drop_last_app p suf : drop_last (String.length suf) (p ++ suf) = p.
Proof.
  unfold drop_last. rewrite length_app_s.
  replace (String.length p + String.length suf - String.length suf)%nat
    with (String.length p) by lia.
  apply substring_app_l.
Qed.

Lemma prefix_spec p s : String.prefix p s = true <-> exists r, s = p ++ r.
Proof.
  revert s. induction p as [|a p IH]; intros s.
  - split; [intros _; now exists s|]. intros _. now destruct s.
  - destruct s as [|b s].
    + split; [discriminate|]. intros (r & H). discriminate.
    + assert (E : String.prefix (String a p) (String b s)
                  = if ascii_dec a b then String.prefix p s else false) by reflexivity.
      rewrite E. destruct (ascii_dec a b) as [->|N].
      * rewrite IH. split; intros (r & H).
        -- exists r. now rewrite H.
        -- exists r. now injection H.
      * split; [discriminate|]. intros (r & H). injection H as H _. congruence.
Qed.

Lemma app_inj_s a b c : a ++ b = a ++ c -> b = c.
Proof. induction a; cbn; auto. intros [= H]. auto. Qed.

Lemma app_inj_tail_s a b a' b' :
  String.length b = String.length b' -> a ++ b = a' ++ b' -> a = a' /\ b = b'.
Proof.
  intros L E.
  assert (La : String.length a = String.length a').
  { apply (f_equal String.length) in E. rewrite !length_app_s in E. lia. }
  revert a' La E. induction a as [|x a IH]; intros [|y a'] La E; cbn in *; try discriminate.
  - auto.
  - injection E as -> E. injection La as La. destruct (IH _ La E) as [-> ->]. auto.
Qed.

Lemma split_on_ne c s : split_on c s <> [].
Proof.
  destruct s as [|a s]; cbn; [discriminate|].
  destruct (Ascii.eqb a c); [discriminate|]. destruct (split_on c s); discriminate.
Qed.

Lemma join_split c s : join (String c "") (split_on c s) = s.
Proof.
  induction s as [|a s IH]; cbn; auto.
  destruct (Ascii.eqb a c) eqn:E.
  - apply Ascii.eqb_eq in E. subst a.
    destruct (split_on c s) as [|h t] eqn:S; [now apply split_on_ne in S|].
    cbn [join] in *. cbn. f_equal. exact IH.
  - destruct (split_on c s) as [|h t] eqn:S; [now apply split_on_ne in S|].
    destruct t as [|h' t]; cbn in *; now rewrite IH.
Qed.

Lemma split_free c s : has_char c s = false -> split_on c s = [s].
Proof.
  induction s as [|a s IH]; cbn; auto.
  intros H. apply orb_false_iff in H. destruct H as [H1 H2].
  rewrite H1, IH by auto. reflexivity.
Qed.

Lemma split_app_sep c a s : has_char c a = false ->
  split_on c (a ++ String c s) = a :: split_on c s.
Proof.
  induction a as [|x a IH]; cbn; intros H.
  - now rewrite Ascii.eqb_refl.
  - apply orb_false_iff in H. destruct H as [H1 H2]. now rewrite H1, IH.
Qed.

Lemma split_parts_free c s : Forall (fun p => has_char c p = false) (split_on c s).
Proof.
  induction s as [|a s IH]; cbn.
  - constructor; auto.
  - destruct (Ascii.eqb a c) eqn:E; [constructor; auto|].
    destruct (split_on c s) as [|h t]; [constructor; cbn; auto; now rewrite E|].
    inversion IH; subst. constructor; auto. cbn. now rewrite E.
Qed.

Lemma has_char_app c a b : has_char c (a ++ b) = has_char c a || has_char c b.
Proof. induction a; cbn; auto. now rewrite IHa, orb_assoc. Qed.

Lemma string_map_app f a b : string_map f (a ++ b) = string_map f a ++ string_map f b.
Proof. induction a; cbn; congruence. Qed.

Lemma lower_ascii_idem a : lower_ascii (lower_ascii a) = lower_ascii a.
Proof. destruct a as [[] [] [] [] [] [] [] []]; reflexivity. Qed.

Lemma py_lower_idem s : py_lower (py_lower s) = py_lower s.
Proof.
  induction s as [|a s IH]; auto. unfold py_lower in *. cbn [string_map].
  now rewrite lower_ascii_idem, IH.
Qed.
