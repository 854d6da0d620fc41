(** Alignment to one station or a list of stations. *)
From Coq Require Import String List Bool Reals Arith Lia Lra Permutation.
From Verif Require Import Base StatModel StatProof SiteModel SiteSpec MergeProof SiteProof SiteProof2 SiteProof3 SiteProof4 SiteProof5 SiteProof6 SiteProof7.
Import ListNotations.
Open Scope list_scope.
Open Scope R_scope.

Lemma prefix_app t s : String.prefix t s = true <-> exists b, s = (t ++ b)%string.
Proof.
  revert s. induction t as [|c t IH]; intros s.
  { split; [intros _; exists s; reflexivity|]. intros _. now destruct s. }
  destruct s as [|d s].
  { split; [discriminate|]. intros (b & H). discriminate. }
  cbn.
  destruct (Ascii.ascii_dec c d) as [->|Ne].
  - rewrite IH. split; intros (b & H); exists b; [now subst|]. congruence.
  - split; [discriminate|]. intros (b & H). congruence.
Qed.

Lemma substr_spec t s : substr t s = true <-> occurs_in t s.
Proof.
  induction s as [|c s IH].
  - cbn. rewrite orb_false_r. split.
    + intros H. destruct t; [|discriminate]. exists ""%string, ""%string. reflexivity.
    + intros (a & b & H). destruct a; [|discriminate]. destruct t; [reflexivity|discriminate].
  - cbn [substr]. rewrite orb_true_iff, IH, prefix_app. split.
    + intros [(b & H)|(a & b & H)]; [exists ""%string, b; exact H|]. exists (String c a), b. cbn. now rewrite H.
    + intros (a & b & H). destruct a as [|c' a].
      * left. exists b. exact H.
      * right. cbn in H. injection H as <- H. exists a, b. exact H.
Qed.

Lemma norm_station_string X t : norm_station (StaStr X) t = true <-> occurs_in t X.
Proof.
  cbn [norm_station]. rewrite orb_true_iff, substr_spec. split; [|auto].
  intros [H|H]; [|exact H]. apply String.eqb_eq in H. subst. exists ""%string, ""%string. cbn. clear. induction X; cbn; [reflexivity|congruence].
Qed.

Section Station.
Variables (pick : list string -> string) (rlm : list R -> R * R) (lsq : nat -> list (list (nat * R) * R) -> nat -> R).
Hypothesis pickP : chooses_member pick.
Hypothesis lsqP : least_squares lsq.
Variables (events : list (string * option evres)) (Rm : option (list (string * list (option R))))
  (resp : response) (ignore : option (list string)) (Nf : nat).
Let evs0 := map snd (present_events events).
Hypothesis WF0 : Forall (well_formed Nf) evs0.
Variables (out : list (string * evres)) (Rm' : list (string * list (option R))) (i : nat).
Hypothesis Hi : (i < Nf)%nat.
Hypothesis HC : complete i evs0.
Hypothesis HP : positive_responses i evs0.

Lemma align_all r S : align_site_responses pick rlm lsq events Rm StaNone resp ignore = Ok (out, Rm') ->
  requested resp i r -> NoDup S -> S <> [] ->
  (forall s, In s S <-> exists ev, In ev (map snd out) /\ response_of ev i s <> None) ->
  rsum (map (fun s => mean_ln (responses (map snd out) i s)) S) / INR (List.length S) = ln r.
Proof.
  intros OK HR ND Hne HS. apply requested_spec in HR.
  apply (align_normalised pick rlm lsq pickP lsqP events Rm StaNone resp ignore Nf WF0 out Rm' OK i Hi HC); auto.
  intros s. rewrite HS. cbn. tauto.
Qed.

Lemma align_list r L S : align_site_responses pick rlm lsq events Rm (StaList L) resp ignore = Ok (out, Rm') ->
  requested resp i r -> NoDup S -> S <> [] ->
  (forall s, In s S <-> In s L /\ exists ev, In ev (map snd out) /\ response_of ev i s <> None) ->
  rsum (map (fun s => mean_ln (responses (map snd out) i s)) S) / INR (List.length S) = ln r.
Proof.
  intros OK HR ND Hne HS. apply requested_spec in HR.
  apply (align_normalised pick rlm lsq pickP lsqP events Rm (StaList L) resp ignore Nf WF0 out Rm' OK i Hi HC); auto.
  intros s. rewrite HS. cbn [norm_station]. now rewrite inb_str.
Qed.

Lemma out_from_input station ev s : align_site_responses pick rlm lsq events Rm station resp ignore = Ok (out, Rm') ->
  In ev (map snd out) -> response_of ev i s <> None -> exists e, In e evs0 /\ response_of e i s <> None.
Proof.
  intros OK Hev Hr.
  destruct (align_outcome pick rlm lsq pickP lsqP events Rm station resp ignore Nf WF0 out Rm' OK i Hi HC)
    as (evs' & HO & HL & WF' & OC).
  rewrite (out_snd events out evs' HO HL) in Hev. apply (In_nth _ _ ev0) in Hev as (k & Hk & <-). rewrite HL in Hk.
  exists (nth k (map snd (sort_events events)) ev0). split; [apply (evs_In events); now apply nth_In|].
  destruct OC as [[H0 _]|(area & x & rows & r & _ & _ & _ & _ & HK)].
  - destruct (H0 k s Hk) as (_ & E & _). congruence.
  - destruct (HK k Hk) as [HKr _]. rewrite HKr in Hr. destruct (inb String.eqb s area); [|congruence].
    destruct (response_of (nth k (map snd (sort_events events)) ev0) i s); [discriminate|cbn in Hr; congruence].
Qed.

Lemma align_string r X : align_site_responses pick rlm lsq events Rm (StaStr X) resp ignore = Ok (out, Rm') ->
  requested resp i r ->
  (forall t ev, occurs_in t X -> t <> X -> In ev evs0 -> response_of ev i t = None) ->
  responses (map snd out) i X <> [] -> mean_ln (responses (map snd out) i X) = ln r.
Proof.
  intros OK HR HN HX. apply requested_spec in HR.
  assert (EX : exists ev, In ev (map snd out) /\ response_of ev i X <> None).
  { destruct (responses (map snd out) i X) as [|v l] eqn:E; [congruence|].
    assert (Hv : In v (responses (map snd out) i X)) by (rewrite E; now left).
    apply responses_In in Hv as (ev & Hev & Hv). exists ev. split; [exact Hev|congruence]. }
  rewrite <- (align_normalised pick rlm lsq pickP lsqP events Rm (StaStr X) resp ignore Nf WF0 out Rm' OK i Hi HC r [X] HP HR).
  - cbn [map List.length]. rewrite rsum_cons. unfold rsum. cbn [fold_right INR]. field.
  - constructor; [intros []|constructor].
  - discriminate.
  - intros s. rewrite norm_station_string. split.
    + intros [<-|[]]. split; [apply norm_station_string; cbn; now rewrite String.eqb_refl|exact EX].
    + intros (Hocc & ev & Hev & Hr). destruct (string_dec s X) as [->|Ne]; [now left|]. exfalso.
      destruct (out_from_input (StaStr X) ev s OK Hev Hr) as (e & He & Hre). apply Hre. eapply HN; eauto.
Qed.
End Station.
