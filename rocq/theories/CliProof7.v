(** Lemmas on the options before the command. *)
From Coq Require Import String Ascii List Bool Arith Lia.
From Verif Require Import Base RunModel CliModel CliSpec CliProof.
Import ListNotations.
Open Scope string_scope.
Open Scope list_scope.

Lemma first_word {E} (w : world E) loads int_of s ss : String.prefix "-" s = true ->
  (run_cmdline loads int_of w (s :: ss) = Information <->
     s = "-h" \/ exists c a b, s = ("--" ++ String c a)%string /\ ((s ++ b)%string = "--help" \/ (s ++ b)%string = "--version")) /\
  (run_cmdline loads int_of w (s :: ss) = Information \/ run_cmdline loads int_of w (s :: ss) = Error None).
Proof.
  intros P. unfold run_cmdline. rewrite P.
  set (t := (String.eqb s "-h" || _)%bool).
  assert (T : t = true <-> (s = "-h" \/ exists c a b, s = ("--" ++ String c a)%string /\ ((s ++ b)%string = "--help" \/ (s ++ b)%string = "--version"))).
  { unfold t. rewrite orb_true_iff, andb_true_iff, orb_true_iff, String.eqb_eq, Nat.leb_le, !prefix_app. split.
    - intros [H|[L [[r H]|[r H]]]]; [now left|right..].
      + destruct s as [|c1 [|c2 [|c3 s]]]; cbn in L; try lia. exists c3, s, r. cbn in H. injection H as <- <- <- H. split; [reflexivity|].
        left. cbn. now rewrite H.
      + destruct s as [|c1 [|c2 [|c3 s]]]; cbn in L; try lia. exists c3, s, r. cbn in H. injection H as <- <- <- H. split; [reflexivity|].
        right. cbn. now rewrite H.
    - intros [H|(c & a & b & -> & H)]; [now left|right]. split; [cbn; lia|]. destruct H as [H|H]; [left|right]; exists b; now rewrite H. }
  destruct t eqn:Et.
  - split; [|now left]. split; [intros _; now apply T|reflexivity].
  - split; [|now right]. split; [discriminate|]. intros H. apply T in H. discriminate.
Qed.
