(** Concrete cases for the theorems about collected results. *)
From Coq Require Import String List Bool Reals.
From Verif Require Import Base Pyf CollectModel CollectSpec CollectProof.
Import ListNotations.
Open Scope string_scope.
Open Scope list_scope.

(** three events, one without result, two frequencies; station B is missing in
    the first event *)
Definition events_ex : list (string * option evdict) :=
  [ ("ev1", Some [("g0", VList [FNum 1; FNan]); ("v0", VNum (FNum 5));
                  ("R", VSites [("A", [FNum 2; FNum 3])])]);
    ("ev2", None);
    ("ev3", Some [("g0", VList [FNum 4; FNum 6]); ("v0", VNum (FNum 7));
                  ("R", VSites [("B", [FNum 8; FNan]); ("A", [FNum 9; FNan])])]) ].

Lemma collect_ex :
  collect_results events_ex (Some ["eventid"; "g0"; "R"; "v0"]) (Some 0%nat) =
  Ok [("R", CSites [("A", [VNum (FNum 2); VNum (FNum 9)]); ("B", [VNum (FNum 8)])]);
      ("eventid", CIds ["ev1"; "ev3"]);
      ("g0", CRows [VNum (FNum 1); VNum (FNum 4)]);
      ("v0", CRows [VNum (FNum 5); VNum (FNum 7)])].
Proof. reflexivity. Qed.

Lemma only_ex : NoDup (collected (Some ["eventid"; "g0"; "R"; "v0"])).
Proof.
  cbn [collected]. repeat (constructor; [cbn; intuition discriminate|]). constructor.
Qed.

Lemma keys_ex id r : In (id, r) (with_result events_ex) -> In "g0" (map fst r).
Proof. cbn [with_result events_ex]. intros [[= <- <-]|[[= <- <-]|[]]]; now left. Qed.

Lemma sites_ex : sites_nodup events_ex.
Proof.
  intros id r d. cbn [with_result events_ex]. intros [[= <- <-]|[[= <- <-]|[]]]; cbn; intros [= <-]; cbn;
    repeat (constructor; [cbn; intuition discriminate|]); constructor.
Qed.

Lemma formed_ex id r : In (id, r) (with_result events_ex) -> well_formed 2 r.
Proof.
  cbn [with_result events_ex]. intros I c v H.
  destruct I as [[= <- <-]|[[= <- <-]|[]]]; cbn [dget] in H;
  (destruct (String.eqb c "g0") eqn:E1;
   [apply String.eqb_eq in E1; subst c; injection H as <-; cbn; eauto|]);
  (destruct (String.eqb c "v0") eqn:E2; [injection H as <-; eauto|]);
  (destruct (String.eqb c "R") eqn:E3; [|discriminate]);
  injection H as <-; eexists; (split; [reflexivity|]); cbn [In]; intros sta l H;
  repeat match type of H with
  | _ \/ _ => destruct H as [H|H]
  | False => contradiction
  | _ = _ => injection H as <- <-; reflexivity
  end.
Qed.

Lemma some_ex : with_result events_ex <> [].
Proof. discriminate. Qed.

Lemma ids_ex : exists col,
  NoDup (collected (Some ["eventid"; "g0"; "R"; "v0"])) /\
  collect_results events_ex (Some ["eventid"; "g0"; "R"; "v0"]) (Some 0%nat) = Ok col /\
  with_result events_ex <> [].
Proof. eexists. split; [exact only_ex|]. split; [exact collect_ex|exact some_ex]. Qed.

Lemma rows_ex : exists col,
  NoDup (collected (Some ["eventid"; "g0"; "R"; "v0"])) /\
  collect_results events_ex (Some ["eventid"; "g0"; "R"; "v0"]) (Some 0%nat) = Ok col /\
  (forall id r, In (id, r) (with_result events_ex) -> In "g0" (map fst r)).
Proof. eexists. split; [exact only_ex|]. split; [exact collect_ex|exact keys_ex]. Qed.

Lemma site_rows_ex : exists col,
  NoDup (collected (Some ["eventid"; "g0"; "R"; "v0"])) /\ sites_nodup events_ex /\
  collect_results events_ex (Some ["eventid"; "g0"; "R"; "v0"]) (Some 0%nat) = Ok col.
Proof. eexists. split; [exact only_ex|]. split; [exact sites_ex|exact collect_ex]. Qed.
