(** Lemmas on collected keys which some events do not have. *)
From Coq Require Import String List Reals.
From Verif Require Import Base Pyf CollectModel CollectSpec CollectProof.
Import ListNotations.
Open Scope R_scope.
Open Scope string_scope.
Open Scope list_scope.

Lemma keys_ok freqi events only col c :
  NoDup (collected only) -> In c (collected only) -> c <> "eventid" -> c <> "R" ->
  collect_results events only freqi = Ok col ->
  match dget String.eqb col c with
  | None => with_key events c = []
  | Some (CRows rows) =>
      List.length rows = List.length (with_key events c) /\
      forall j id r, nth_error (with_key events c) j = Some (id, r) ->
        exists r0 v, dget String.eqb r c = Some r0 /\ nth_error rows j = Some v /\ value_at freqi c r0 v
  | Some _ => False
  end.
Proof.
  intros ND I NE NR E. destruct (collect_stages _ _ _ _ E) as (col1 & E1 & S). rewrite S.
  destruct (rows_after freqi _ ND c I NE NR events _ col1 (init_other only c NR) E1) as (rows & R & F).
  rewrite R. destruct (Forall2_nth _ _ _ F) as [L V]. unfold rows_opt. destruct rows as [|x rows].
  - destruct (with_key events c); [reflexivity|discriminate].
  - split; [congruence|]. intros j id r J. destruct (V j _ J) as (v & V1 & r0 & V2 & V3). cbn [snd] in V2. eauto.
Qed.

(** an event without velocity *)
Definition events_gap : list (string * option evdict) :=
  [ ("ev1", Some [("g0", VList [FNum 1; FNan])]);
    ("ev2", None);
    ("ev3", Some [("g0", VList [FNum 4; FNum 6]); ("v0", VNum (FNum 7))]) ].

Lemma gap_ex : exists col,
  NoDup (collected (Some ["eventid"; "g0"; "v0"])) /\
  collect_results events_gap (Some ["eventid"; "g0"; "v0"]) None = Ok col /\
  dget String.eqb col "v0" = Some (CRows [VNum (FNum 7)]) /\ map fst (with_key events_gap "v0") = ["ev3"].
Proof.
  eexists. split; [|split; [reflexivity|split; reflexivity]].
  cbn. repeat constructor; cbn; intuition discriminate.
Qed.
