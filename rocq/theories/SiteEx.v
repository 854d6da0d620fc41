(** Concrete cases for the site alignment. *)
From Coq Require Import String List Bool Reals Arith Lia Lra Permutation Relation_Operators.
From Verif Require Import Base StatModel SiteModel SiteSpec MergeProof SiteProof SiteProof2 SiteProof3 SiteProof4 SiteProof5 SiteProof6 SiteProof7.
Import ListNotations.
Open Scope list_scope.
Open Scope string_scope.
Open Scope R_scope.

Definition pick_first (a : list string) : string := hd "" a.
Lemma pick_first_member : chooses_member pick_first.
Proof. intros [|x a] H; [congruence|]. now left. Qed.

Definition mean_rlm (v : list R) : R * R := (0, 0).

(** three events and four stations, S4 without connection to the others *)
Definition evA := {| evW := [ENum 6]; evR := [("S1", [ENum 2]); ("S2", [ENum 3])] |}.
Definition evB := {| evW := [ENum 10]; evR := [("S2", [ENum 12]); ("S1", [ENone]); ("S3", [ENum 4])] |}.
Definition evC := {| evW := [ENum 1]; evR := [("S4", [ENum 5]); ("S3", [ENan])] |}.
Definition ex_events : list (string * option evres) := [("e2", Some evB); ("e0", None); ("e1", Some evA); ("e3", Some evC)].
Definition ex_evs := [evB; evA; evC].

Lemma ex_present : map snd (present_events ex_events) = ex_evs.
Proof. reflexivity. Qed.

Ltac in_cases H := cbn in H; repeat (destruct H as [H|H]); try (destruct H; fail).

Lemma ex_wf : Forall (well_formed 1) ex_evs.
Proof.
  repeat (apply Forall_cons; [split; [|split; [reflexivity|repeat (apply Forall_cons; [reflexivity|]); apply Forall_nil]]|]);
  [| | |apply Forall_nil]; cbn; repeat (constructor; [cbn; intuition discriminate|]); constructor.
Qed.

(** all responses of the example *)
Lemma ex_response ev s v : In ev ex_evs -> response_of ev 0 s = Some v ->
  (ev = evB /\ (s = "S2" /\ v = 12 \/ s = "S3" /\ v = 4)) \/
  (ev = evA /\ (s = "S1" /\ v = 2 \/ s = "S2" /\ v = 3)) \/ (ev = evC /\ s = "S4" /\ v = 5).
Proof.
  intros Hev. in_cases Hev; subst ev; unfold response_of; cbn [evR evA evB evC dget];
  repeat match goal with |- context[String.eqb s ?k] => destruct (String.eqb_spec s k) as [->|] end;
  unfold at_; cbn [nth]; intros H; try discriminate; apply Some_inj in H; subst v; tauto.
Qed.

Lemma ex_complete : complete 0 ex_evs.
Proof. intros ev s Hev _. in_cases Hev; subst ev; unfold energy_of, at_; cbn [evW evA evB evC nth]; discriminate. Qed.

Lemma ex_positive : positive_responses 0 ex_evs.
Proof. intros ev s r Hev Hr. destruct (ex_response ev s r Hev Hr) as [(_ & [(_ & ->)|(_ & ->)])|[(_ & [(_ & ->)|(_ & ->)])|(_ & _ & ->)]]; lra. Qed.

Lemma ex_r (ev : evres) s v : In ev ex_evs -> response_of ev 0 s = Some v -> response_of ev 0 s <> None.
Proof. congruence. Qed.

Lemma ex_common a b : common_event ex_evs None 0 a b -> In a ["S1"; "S2"; "S3"] -> In b ["S1"; "S2"; "S3"].
Proof.
  intros (_ & _ & ev & Hev & Ha & Hb) Hin.
  destruct (response_of ev 0 a) as [va|] eqn:Ea; [|congruence]. destruct (response_of ev 0 b) as [vb|] eqn:Eb; [|congruence].
  assert (A := ex_response ev a va Hev Ea). assert (B := ex_response ev b vb Hev Eb). cbn in *.
  destruct A as [(-> & A)|[(-> & A)|(-> & -> & _)]]; destruct B as [(E & B)|[(E & B)|(E & -> & _)]]; try discriminate E;
    try (destruct B as [(-> & _)|(-> & _)]; auto); try tauto.
Qed.

Lemma ex_connected a b : connected ex_evs None 0 a b -> In a ["S1"; "S2"; "S3"] -> In b ["S1"; "S2"; "S3"].
Proof. induction 1 as [x y H|x|x y z _ H1 _ H2]; intros Hin; auto. eapply ex_common; eauto. Qed.

Lemma ex_12 : common_event ex_evs None 0 "S1" "S2" /\ common_event ex_evs None 0 "S2" "S1".
Proof. split; (split; [cbn; tauto|]); (split; [cbn; tauto|]); exists evA; (split; [cbn; tauto|]); split; unfold response_of, at_; cbn [evA evR dget String.eqb Ascii.eqb Bool.eqb nth]; discriminate. Qed.
Lemma ex_23 : common_event ex_evs None 0 "S2" "S3" /\ common_event ex_evs None 0 "S3" "S2".
Proof. split; (split; [cbn; tauto|]); (split; [cbn; tauto|]); exists evB; (split; [cbn; tauto|]); split; unfold response_of, at_; cbn [evB evR dget String.eqb Ascii.eqb Bool.eqb nth]; discriminate. Qed.

Lemma ex_to2 a : In a ["S1"; "S2"; "S3"] -> connected ex_evs None 0 a "S2" /\ connected ex_evs None 0 "S2" a.
Proof.
  intros H. in_cases H; subst a; split; try (apply rt_refl); apply rt_step; first [apply ex_12|apply ex_23].
Qed.

Lemma ex_area : is_area ex_evs None 0 ["S1"; "S2"; "S3"].
Proof.
  split; [repeat (constructor; [cbn; intuition discriminate|]); constructor|]. split; [discriminate|].
  intros s Hs. split.
  - split; [cbn; tauto|]. in_cases Hs; subst s; [exists evA|exists evA|exists evB]; (split; [cbn; tauto|]);
    unfold response_of, at_; cbn [evA evB evR dget String.eqb Ascii.eqb Bool.eqb nth]; discriminate.
  - intros t. split.
    + intros Ht. apply rt_trans with "S2"; [apply (ex_to2 s Hs)|apply (ex_to2 t Ht)].
    + intros Hc. eapply ex_connected; eauto.
Qed.

Lemma ex_largest a : is_largest_area ex_evs None 0 a -> Permutation a ["S1"; "S2"; "S3"].
Proof.
  intros [HA HM]. assert (L := HM _ ex_area). cbn in L.
  assert (HA0 := HA). destruct HA0 as (ND & Hne & HA1).
  assert (X : exists s, In s a /\ In s ["S1"; "S2"; "S3"]).
  { destruct a as [|x [|y [|z a']]]; cbn in L; try lia.
    assert (O : forall s, In s (x :: y :: z :: a') -> In s ["S1"; "S2"; "S3"] \/ s = "S4").
    { intros s Hs. destruct (HA1 s Hs) as ((_ & ev & Hev & Hr) & _). destruct (response_of ev 0 s) as [v|] eqn:E; [|congruence].
      destruct (ex_response ev s v Hev E) as [(_ & [(-> & _)|(-> & _)])|[(_ & [(-> & _)|(-> & _)])|(_ & -> & _)]]; cbn; tauto. }
    destruct (O x ltac:(now left)) as [H|Hx]; [exists x; split; [now left|exact H]|].
    destruct (O y ltac:(cbn; tauto)) as [H|Hy]; [exists y; split; [cbn; tauto|exact H]|].
    exfalso. inversion ND as [|? ? Hn]; subst. apply Hn. now left. }
  destruct X as (s & S1 & S2). eapply area_same_length; [exact HA|exact ex_area|exact S1|exact S2].
Qed.

Notation ex_align Rm station :=
  (align_site_responses pick_first mean_rlm site_solver ex_events Rm station (RScalar 2) None).

Lemma ex_ok Rm station : (exists s, In s ["S1"; "S2"; "S3"] /\ norm_station station s = true) ->
  exists out Rm', ex_align Rm station = Ok (out, Rm').
Proof.
  intros (s & Hs & Hn). apply (align_ok pick_first mean_rlm site_solver pick_first_member ex_events Rm station (RScalar 2) None 1 ex_wf).
  - discriminate.
  - intros. eexists. reflexivity.
  - intros i a Hi Ha. assert (i = 0)%nat as -> by lia. exists s. split; [|exact Hn].
    eapply Permutation_in; [apply Permutation_sym, ex_largest, Ha|exact Hs].
  - intros i Hi HN. assert (i = 0)%nat as -> by lia. exfalso. apply (HN "S1"). apply ex_area. now left.
Qed.

(** stations left *)
Lemma ex_left Rm station out Rm' s : ex_align Rm station = Ok (out, Rm') ->
  (exists ev, In ev (map snd out) /\ response_of ev 0 s <> None) <-> In s ["S1"; "S2"; "S3"].
Proof.
  intros OK.
  destruct (align_areas pick_first mean_rlm site_solver pick_first_member site_solver_least ex_events Rm station (RScalar 2) None 1 ex_wf out Rm' OK 0 ltac:(lia) ex_complete)
    as (area & HA & HE).
  assert (PA : forall t, In t area <-> In t ["S1"; "S2"; "S3"]).
  { destruct HA as [HA|(_ & HN)].
    - intros t. apply ex_largest in HA. split; apply Permutation_in; [exact HA|now apply Permutation_sym].
    - exfalso. apply (HN "S1"). apply ex_area. now left. }
  split.
  - intros (ev & Hev & Hr). apply PA.
    destruct (align_outcome pick_first mean_rlm site_solver pick_first_member site_solver_least ex_events Rm station (RScalar 2) None 1 ex_wf out Rm' OK 0 ltac:(lia) ex_complete)
      as (evs' & HO & HL & _ & OC).
    rewrite (out_snd ex_events out evs' HO HL) in Hev. apply (In_nth _ _ ev0) in Hev as (k & Hk & <-). rewrite HL in Hk.
    destruct OC as [[H0 _]|(area' & x & rows & r & LA & _ & _ & _ & HK)].
    + destruct (H0 k s Hk) as (_ & E & _). congruence.
    + destruct (HK k Hk) as [HKr _]. rewrite HKr in Hr. destruct (inb String.eqb s area') eqn:E; [|congruence]. apply inb_str in E.
      apply PA. apply (is_largest_area_perm ex_events None) in LA. apply ex_largest in LA. now apply (Permutation_in _ LA).
  - intros Hs. assert (Ha : In s area) by now apply PA.
    assert (X : exists id ev, In (id, ev) (present_events ex_events) /\ response_of ev 0 s <> None).
    { in_cases Hs; subst s; [exists "e1", evA|exists "e1", evA|exists "e2", evB]; (split; [cbn; tauto|]);
      unfold response_of, at_; cbn [evA evB evR dget String.eqb Ascii.eqb Bool.eqb nth]; discriminate. }
    destruct X as (id & ev & Hin & Hr). destruct (HE id ev Hin) as (ev' & f & Ho & _ & HR & _). exists ev'.
    split; [change ev' with (snd (id, ev')); now apply in_map|]. rewrite HR. destruct (in_dec string_dec s area); [|contradiction].
    destruct (response_of ev 0 s); [discriminate|congruence].
Qed.

Lemma ex_consistent : let c id := if String.eqb id "e2" then 4 else 1 in
  let rs s := if String.eqb s "S1" then 2 else if String.eqb s "S2" then 3 else if String.eqb s "S3" then 1 else 5 in
  forall id ev s v, In (id, ev) (present_events ex_events) -> response_of ev 0 s = Some v -> v = c id * rs s.
Proof.
  intros c rs id ev s v H Hr.
  assert (Hin : In ev ex_evs) by (cbn in H; cbn; destruct H as [H|[H|[H|[]]]]; injection H as _ <-; auto).
  assert (X := ex_response ev s v Hin Hr). destruct H as [H|[H|[H|[]]]]; injection H as <- <-; clear Hr Hin;
  destruct X as [(E & [(-> & ->)|(-> & ->)])|[(E & [(-> & ->)|(-> & ->)])|(E & -> & ->)]];
  try discriminate E; unfold c, rs; cbn [String.eqb Ascii.eqb Bool.eqb]; lra.
Qed.

(** ** refutations *)
(** S4 keeps the mean response stored before *)
Lemma stale_mean : exists events Rm pick rlm lsq out Rm' s l,
  chooses_member pick /\ least_squares lsq /\ Forall (well_formed 1) (map snd (present_events events)) /\
  complete 0 (map snd (present_events events)) /\ positive_responses 0 (map snd (present_events events)) /\
  align_site_responses pick rlm lsq events Rm StaNone (RScalar 2) None = Ok (out, Rm') /\
  dget String.eqb Rm' s = Some l /\ responses (map snd out) 0 s = [] /\ nth 0 l None = Some 5.
Proof.
  set (Rm := Some [("S4", [Some 5])]). destruct (ex_ok Rm StaNone) as (out & Rm' & OK).
  { exists "S1". split; [now left|reflexivity]. }
  exists ex_events, Rm, pick_first, mean_rlm, site_solver, out, Rm', "S4", [Some 5].
  split; [exact pick_first_member|]. split; [exact site_solver_least|]. split; [exact ex_wf|]. split; [exact ex_complete|].
  split; [exact ex_positive|]. assert (OK' := OK). split; [exact OK'|].
  assert (R0 : responses (map snd out) 0 "S4" = []).
  { destruct (responses (map snd out) 0 "S4") as [|v l] eqn:E; [reflexivity|]. exfalso.
    assert (Hin : In v (responses (map snd out) 0 "S4")) by (rewrite E; now left). apply responses_In in Hin as (ev & Hev & Hr).
    assert (In "S4" ["S1"; "S2"; "S3"]) by (apply (ex_left Rm StaNone out Rm' "S4" OK); exists ev; split; [exact Hev|congruence]).
    cbn in H. intuition discriminate. }
  split; [|split; [exact R0|reflexivity]].
  destruct (align_means pick_first mean_rlm site_solver pick_first_member ex_events Rm StaNone (RScalar 2) None 1 ex_wf out Rm' site_solver_least OK') with (s := "S4") as [_ H].
  { intros i Hi. assert (i = 0)%nat as -> by lia. split; [exact ex_complete|exact ex_positive]. }
  rewrite H; [reflexivity|]. intros i Hi. assert (i = 0)%nat as -> by lia. exact R0.
Qed.

(** station "S10" also pins "S1" *)
Definition evD := {| evW := [ENum 1]; evR := [("S10", [ENum 2]); ("S1", [ENum 8])] |}.
Definition sub_events : list (string * option evres) := [("e", Some evD)].

Lemma sub_wf : Forall (well_formed 1) [evD].
Proof.
  apply Forall_cons; [|apply Forall_nil]. split; [|split; [reflexivity|repeat (apply Forall_cons; [reflexivity|]); apply Forall_nil]].
  cbn; repeat (constructor; [cbn; intuition discriminate|]); constructor.
Qed.

Lemma sub_response s v : response_of evD 0 s = Some v -> (s = "S10" /\ v = 2) \/ (s = "S1" /\ v = 8).
Proof.
  unfold response_of; cbn [evR evD dget];
  repeat match goal with |- context[String.eqb s ?k] => destruct (String.eqb_spec s k) as [->|] end;
  unfold at_; cbn [nth]; intros H; try discriminate; apply Some_inj in H; subst v; tauto.
Qed.

Lemma sub_area : is_area [evD] None 0 ["S10"; "S1"].
Proof.
  assert (C : forall s t, In s ["S10"; "S1"] -> In t ["S10"; "S1"] -> common_event [evD] None 0 s t).
  { intros s t Hs Ht. split; [cbn; tauto|]. split; [cbn; tauto|]. exists evD. split; [now left|].
    in_cases Hs; in_cases Ht; subst s t; split; unfold response_of, at_; cbn [evD evR dget String.eqb Ascii.eqb Bool.eqb nth]; discriminate. }
  split; [repeat (constructor; [cbn; intuition discriminate|]); constructor|]. split; [discriminate|].
  intros s Hs. split.
  - destruct (C s s Hs Hs) as (H1 & _ & ev & Hev & Hr & _). split; [exact H1|]. eauto.
  - intros t. split; [intros Ht; apply rt_step; now apply C|].
    intros H. clear C. induction H as [x y H|x|x y z _ H1 _ H2]; auto.
    destruct H as (_ & _ & ev & Hev & _ & Hb). in_cases Hev; subst ev. destruct (response_of evD 0 y) as [v|] eqn:E; [|congruence].
    destruct (sub_response y v E) as [(-> & _)|(-> & _)]; cbn; tauto.
Qed.

Lemma sub_largest a : is_largest_area [evD] None 0 a -> Permutation a ["S10"; "S1"].
Proof.
  intros [HA HM]. assert (HA0 := HA). destruct HA0 as (ND & Hne & HA1). destruct a as [|x a]; [congruence|].
  destruct (HA1 x (or_introl eq_refl)) as ((_ & ev & Hev & Hr) & _). in_cases Hev; subst ev.
  destruct (response_of evD 0 x) as [v|] eqn:E; [|congruence].
  eapply area_same_length; [exact HA|exact sub_area|now left|].
  destruct (sub_response x v E) as [(-> & _)|(-> & _)]; cbn; tauto.
Qed.

Lemma substring_pins : exists events pick rlm lsq out Rm' ev v,
  chooses_member pick /\ least_squares lsq /\ Forall (well_formed 1) (map snd (present_events events)) /\
  complete 0 (map snd (present_events events)) /\ positive_responses 0 (map snd (present_events events)) /\
  align_site_responses pick rlm lsq events None (StaStr "S10") (RScalar 1) None = Ok (out, Rm') /\
  map snd out = [ev] /\ response_of ev 0 "S10" = Some v /\ v = 1 / 2.
Proof.
  assert (HC : complete 0 [evD]). { intros ev s Hev _. in_cases Hev; subst ev. unfold energy_of, at_. cbn [evD evW nth]. discriminate. }
  assert (HP : positive_responses 0 [evD]).
  { intros ev s r Hev Hr. in_cases Hev; subst ev. destruct (sub_response s r Hr) as [(_ & ->)|(_ & ->)]; lra. }
  destruct (align_ok pick_first mean_rlm site_solver pick_first_member sub_events None (StaStr "S10") (RScalar 1) None 1 sub_wf) as (out & Rm' & OK).
  - discriminate.
  - intros. eexists. reflexivity.
  - intros i a Hi Ha. assert (i = 0)%nat as -> by lia. exists "S10". split; [|reflexivity].
    eapply Permutation_in; [apply Permutation_sym, sub_largest, Ha|now left].
  - intros i Hi HN. assert (i = 0)%nat as -> by lia. exfalso. apply (HN "S1"). apply sub_area. right. now left.
  - destruct (align_areas pick_first mean_rlm site_solver pick_first_member site_solver_least sub_events None (StaStr "S10") (RScalar 1) None 1 sub_wf out Rm' OK 0 ltac:(lia) HC)
      as (area & HA & HE).
    assert (HA' : Permutation area ["S10"; "S1"]).
    { destruct HA as [HA|(_ & HN)]; [now apply sub_largest|]. exfalso. apply (HN "S1"). apply sub_area. right. now left. }
    destruct (HE "e" evD (or_introl eq_refl)) as (ev & f & Hev & Hf & HR & _).
    destruct (align_ids pick_first mean_rlm site_solver pick_first_member site_solver_least sub_events None (StaStr "S10") (RScalar 1) None 1 sub_wf out Rm' OK 0 ltac:(lia) HC)
      as [_ L]. cbn in L.
    assert (EO : out = [("e", ev)]). { destruct out as [|p [|q out]]; cbn in L; try lia. destruct Hev as [->|[]]. reflexivity. }
    assert (R10 : response_of ev 0 "S10" = Some (2 * f)).
    { rewrite HR. destruct (in_dec string_dec "S10" area) as [|N]; [reflexivity|]. exfalso. apply N. eapply Permutation_in; [apply Permutation_sym; exact HA'|now left]. }
    assert (R1 : response_of ev 0 "S1" = Some (8 * f)).
    { rewrite HR. destruct (in_dec string_dec "S1" area) as [|N]; [reflexivity|]. exfalso. apply N. eapply Permutation_in; [apply Permutation_sym; exact HA'|right; now left]. }
    assert (NM := align_normalised pick_first mean_rlm site_solver pick_first_member site_solver_least sub_events None (StaStr "S10") (RScalar 1) None 1 sub_wf out Rm' OK 0 ltac:(lia) HC
      1 ["S10"; "S1"] HP eq_refl).
    assert (F : rsum (map (fun s => mean_ln (responses (map snd out) 0 s)) ["S10"; "S1"]) / INR 2 = ln 1).
    { apply NM; [repeat (constructor; [cbn; intuition discriminate|]); constructor|discriminate|].
      intros s. rewrite EO. cbn [map snd]. split.
      - intros Hs. in_cases Hs; subst s; (split; [reflexivity|]); exists ev; (split; [now left|congruence]).
      - intros (_ & ev' & [<-|[]] & Hr). rewrite HR in Hr. destruct (in_dec string_dec s area) as [Hin|]; [|congruence].
        eapply Permutation_in; [exact HA'|exact Hin]. }
    rewrite EO in F. unfold mean_ln, responses in F. cbn [map snd flat_map app] in F. rewrite R10, R1 in F.
    cbn [app map List.length] in F. unfold rsum in F. cbn [fold_right] in F. rewrite ln_1 in F. cbn [INR] in F.
    assert (LF : ln (2 * f) + ln (8 * f) = 0) by lra.
    rewrite <- ln_mult in LF by lra. rewrite <- ln_1 in LF. apply ln_inv in LF; [|apply Rmult_lt_0_compat; lra|lra].
    assert (f = 1 / 4). { assert ((4 * f - 1) * (4 * f + 1) = 0) by lra. destruct (Rmult_integral _ _ H); lra. }
    exists sub_events, pick_first, mean_rlm, site_solver, out, Rm', ev, (2 * f).
    split; [exact pick_first_member|]. split; [exact site_solver_least|]. split; [exact sub_wf|]. split; [exact HC|]. split; [exact HP|].
    split; [exact OK|]. split; [rewrite EO; reflexivity|]. split; [exact R10|lra].
Qed.

(** all stations ignored *)
Lemma ignored_raises : exists events ignore, Forall (well_formed 1) (map snd (present_events events)) /\ present_events events <> [] /\
  complete 0 (map snd (present_events events)) /\
  forall pick rlm lsq, align_site_responses pick rlm lsq events None StaNone (RScalar 1) (Some ignore) = Err TypeError.
Proof.
  exists sub_events, ["S10"; "S1"]. split; [exact sub_wf|]. split; [discriminate|]. split.
  - intros ev s Hev _. in_cases Hev; subst ev. unfold energy_of, at_. cbn [evD evW nth]. discriminate.
  - intros. reflexivity.
Qed.
