(** Concrete cases for the theorems about names, arrivals and picks. *)
From Coq Require Import String Ascii List Bool ZArith Lia.
From Verif Require Import Base PyStr EventModel EventSpec EventProof.
Import ListNotations.
Open Scope string_scope.
Open Scope list_scope.

Lemma codes_ex : dot_free "GR" /\ dot_free "WET" /\ dot_free "" /\ dot_free "BHZ".
Proof. repeat split; apply dot_free_has; reflexivity. Qed.

Lemma ids_ex : forall n s l c,
  In (n, s, l, c) [("GR", "WET", "", "BHZ"); ("CH", "WET", "00", "HHZ")] ->
  n <> "" /\ dot_free n /\ dot_free s /\ dot_free l /\ dot_free c.
Proof.
  intros n s l c [E|[E|[]]]; injection E as <- <- <- <-;
    (split; [discriminate|]); repeat split; apply dot_free_has; reflexivity.
Qed.

(** two S picks, one at another station, a phase that is not an onset and a
    P pick in lower case *)
Definition arrivals_ex : list arrival :=
  [ {| phase := "S"; pick := Some ("GR.WET..BHN", 10%Z) |};
    {| phase := "Sg"; pick := Some ("GR.WET..BHE", 11%Z) |};
    {| phase := "S"; pick := Some ("GR.FUR..BHE", 12%Z) |};
    {| phase := "Lg"; pick := None |};
    {| phase := "pg"; pick := Some ("GR.WET..BHZ", 6%Z) |} ].

Lemma arrivals_ex_followed a : In a arrivals_ex -> followed a -> pick a <> None.
Proof.
  unfold arrivals_ex. intros [<-|[<-|[<-|[<-|[<-|[]]]]]]; cbn [pick phase]; try discriminate.
  unfold followed, names_onset. cbn. intuition discriminate.
Qed.

Lemma arrivals_ex_picks :
  get_picks arrivals_ex "GR.WET" = Ok [("S", 11%Z); ("P", 6%Z)].
Proof. vm_compute. reflexivity. Qed.

(** an event with an empty preferred origin and one other origin with arrivals *)
Definition event_ex : event :=
  {| preferred := Some []; origins := [[]; []; arrivals_ex; []] |}.

Lemma event_ex_none :
  exists l1 a l2 b l3,
    [[]; arrivals_ex; []; arrivals_ex] = l1 ++ a :: l2 ++ b :: l3 /\ a <> [] /\ b <> [].
Proof. exists [[]], arrivals_ex, [[]], arrivals_ex, []. repeat split; discriminate. Qed.

Lemma event_ex_rest : forall x : list arrival, In x ([[]] ++ [[]]) -> x = [].
Proof. cbn. intros x [H|[H|[]]]; auto. Qed.

Lemma ignored_lost : exists s l c,
  (dot_free s /\ dot_free l /\ dot_free c) /\
  ignore_network [get_station (seed "" s l c)] = Err IndexError.
Proof. exists "WET", "", "BHZ". split; [exact (proj2 codes_ex)|reflexivity]. Qed.

Lemma eventid_ex :
  (forall a b, "20070419_0000014" <> (a ++ "/" ++ b)%string) /\
  get_eventid "quakeml:eu.emsc/event/20070419_0000014" = "20070419_0000014".
Proof.
  split; [|reflexivity]. intros a b H.
  assert (F : has_char "/" "20070419_0000014" = false) by reflexivity.
  rewrite H in F. clear H. induction a as [|c a IH]; [discriminate|].
  cbn [append has_char] in F. destruct (Ascii.eqb c "/"); [discriminate|now apply IH].
Qed.
