(** Examples for ResponseProps.v. *)
From Coq Require Import String List Reals Lra.
From Verif Require Import Base ResponseModel ResponseSpec ResponseProof.
Import ListNotations.
Open Scope string_scope.
Open Scope list_scope.

(** Channels A and B with responses, C without *)
Definition inventory_r (id : string) : option response :=
  if String.eqb id "A" then Some {| i_value := Some 2%R; i_stages := [] |}
  else if String.eqb id "B" then Some {| i_value := Some 4%R; i_stages := [] |} else None.
Definition deconvolve_r (resp : response) (file : option string) (x : list R) : res (list R) := Ok (map (fun a => (a / 2)%R) x).
Definition stream_r (ev sta : string) : istream :=
  {| i_pair := (ev, sta); i_traces := [ {| i_id := sta; i_data := [4%R] |} ] |}.
Definition streams_r : list istream := [stream_r "e1" "A"; stream_r "e1" "C"; stream_r "e2" "A"].
Definition pairs_r : list (string * string) := [("e1", "A"); ("e1", "C"); ("e2", "A")].

Lemma sensitive_r : sensitive inventory_r.
Proof.
  intros id resp v. unfold inventory_r. destruct (String.eqb id "A"); [| destruct (String.eqb id "B")]; intros H V; try discriminate;
    injection H as <-; injection V as <-; lra.
Qed.

Lemma one_each_r : one_each streams_r pairs_r.
Proof. split; [repeat (constructor; [cbn; intuition discriminate |]); constructor | reflexivity]. Qed.

Lemma none_r : exists ss fs, correct_response inventory_r deconvolve_r (Some Full) true {| ro_fname := None; ro_plot := None |} "e2" streams_r pairs_r
  = Ok (ss, [("e1", "A"); ("e2", "A")], fs) /\ length ss = 2%nat.
Proof. eexists. eexists. split; reflexivity. Qed.

(** Two events recorded at the same station: one file for both, named after the second event *)
Lemma joint_r : exists inventory deconvolve o requested evid0 streams pairs ss ps f,
  one_each streams pairs /\ requested = pairs /\ ro_fname o = None /\
  correct_response inventory deconvolve (Some Full) true o (last_event requested evid0) streams pairs = Ok (ss, ps, [f; f]) /\
  map (fun s => map i_id (i_traces s)) ss = [["A"]; ["A"]] /\ map fst ps = ["e1"; "e2"] /\ f = "remove_response_e2_A.png".
Proof.
  exists inventory_r, deconvolve_r, {| ro_fname := None; ro_plot := None |}, [("e1", "A"); ("e2", "A")], "", [stream_r "e1" "A"; stream_r "e2" "A"],
    [("e1", "A"); ("e2", "A")], [ {| i_pair := ("e1", "A"); i_traces := [ {| i_id := "A"; i_data := [(4 / 2)%R] |} ] |};
      {| i_pair := ("e2", "A"); i_traces := [ {| i_id := "A"; i_data := [(4 / 2)%R] |} ] |} ], [("e1", "A"); ("e2", "A")], "remove_response_e2_A.png".
  split; [split; [repeat (constructor; [cbn; intuition discriminate |]); constructor | reflexivity] |].
  repeat (split; [reflexivity |]). reflexivity.
Qed.
