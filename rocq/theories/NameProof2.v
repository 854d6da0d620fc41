(** Lemmas on the names of the files of plots: default names, joint inversions, figures (C122, C123). *)
From Coq Require Import String Ascii List Bool Reals Lra Lia ZArith Arith.
From Verif Require Import Base NameModel NameSpec NameProof.
Import ListNotations.
Open Scope string_scope.
Open Scope list_scope.

(** the name of a band *)
Definition band_text (band : R * R) : string := (fixed05 (fst band) ++ "Hz-" ++ fixed05 (snd band) ++ "Hz.png")%string.

Lemma concat_cons s l : String.concat "" (s :: l) = (s ++ String.concat "" l)%string.
Proof. destruct l; [symmetry; apply append_nil|]. reflexivity. Qed.

Lemma default_text p evid band : format_name (default_fname p) evid band = (kind_name p ++ String "_" (evid ++ String "_" (band_text band)))%string.
Proof.
  unfold format_name, default_fname, band_text. cbn [map]. rewrite !concat_cons. cbn [String.concat]. rewrite append_nil.
  destruct p; reflexivity.
Qed.

Lemma band_text_chars band : ~ occurs "_"%char (band_text band).
Proof.
  unfold band_text. rewrite !occurs_app. intros [O|[O|[O|O]]].
  - revert O. apply fixed05_chars; [reflexivity|discriminate].
  - cbn in O. intuition discriminate.
  - revert O. apply fixed05_chars; [reflexivity|discriminate].
  - cbn in O. intuition discriminate.
Qed.

Lemma band_text_eq b b' : band_text b = band_text b' -> fixed05 (fst b) = fixed05 (fst b') /\ fixed05 (snd b) = fixed05 (snd b').
Proof.
  unfold band_text. intros E. cbn [append] in E.
  destruct (cut_first "H"%char _ _ _ _ (fixed05_chars (fst b) "H"%char eq_refl ltac:(discriminate)) (fixed05_chars (fst b') "H"%char eq_refl ltac:(discriminate)) E) as [A B].
  split; [exact A|]. injection B as B.
  now destruct (cut_first "H"%char _ _ _ _ (fixed05_chars (snd b) "H"%char eq_refl ltac:(discriminate)) (fixed05_chars (snd b') "H"%char eq_refl ltac:(discriminate)) B).
Qed.

Lemma kind_eq p p' s s' : (kind_name p ++ String "_" s = kind_name p' ++ String "_" s')%string -> p = p' /\ s = s'.
Proof.
  intros E. assert (N : forall q, ~ occurs "_"%char (kind_name q)) by (intros [] O; cbn in O; intuition discriminate).
  destruct (cut_first "_"%char _ _ _ _ (N p) (N p') E) as [A B]. split; [|exact B]. destruct p, p'; try reflexivity; discriminate.
Qed.

(** names of different events, bands and kinds differ *)
Lemma names_differ p e band p' e' band' : (0 <= fst band)%R -> (0 <= snd band)%R -> (0 <= fst band')%R -> (0 <= snd band')%R ->
  fst (fname_and_title [e] e band (default_fname p)) = fst (fname_and_title [e'] e' band' (default_fname p')) ->
  p = p' /\ e = e' /\ ~ apart (fst band) (fst band') /\ ~ apart (snd band) (snd band').
Proof.
  intros P1 P2 P3 P4. unfold fname_and_title. cbn [List.length Nat.eqb fst]. rewrite !default_text. intros E.
  destruct (kind_eq _ _ _ _ E) as [K E2].
  destruct (cut_last "_"%char _ _ _ _ (band_text_chars band) (band_text_chars band') E2) as [EV BT].
  destruct (band_text_eq _ _ BT) as [F1 F2]. split; [exact K|]. split; [exact EV|].
  split; now apply fixed05_near.
Qed.

(** ** Joint inversions *)
Lemma underscores_none s : ~ occurs "_"%char s -> single_underscores s = s.
Proof.
  induction s as [|a s IH]; intros N; [reflexivity|]. destruct s as [|b r]; [reflexivity|].
  change (single_underscores (String a (String b r))) with
    (if (Ascii.eqb a "_" && Ascii.eqb b "_")%bool then String "_" (single_underscores r) else String a (single_underscores (String b r))).
  destruct (Ascii.eqb_spec a "_") as [->|NA]; [elim N; now left|]. cbn [andb]. rewrite IH; [reflexivity|]. intros O. apply N. now right.
Qed.

Lemma joint_text p band : single_underscores (kind_name p ++ String "_" (String "_" (band_text band))) = (kind_name p ++ String "_" (band_text band))%string.
Proof. destruct p; cbn [kind_name append single_underscores Ascii.eqb Bool.eqb andb]; rewrite underscores_none by apply band_text_chars; reflexivity. Qed.

Lemma joint_name evs first band p : List.length evs <> 1%nat ->
  fst (fname_and_title evs first band (default_fname p)) = (kind_name p ++ String "_" (band_text band))%string.
Proof.
  intros N. unfold fname_and_title. apply Nat.eqb_neq in N. rewrite N. cbn [fst]. rewrite default_text. apply joint_text.
Qed.

Lemma joint_differ evs first p band evs' first' p' band' : List.length evs <> 1%nat -> List.length evs' <> 1%nat ->
  (0 <= fst band)%R -> (0 <= snd band)%R -> (0 <= fst band')%R -> (0 <= snd band')%R ->
  fst (fname_and_title evs first band (default_fname p)) = fst (fname_and_title evs' first' band' (default_fname p')) ->
  p = p' /\ ~ apart (fst band) (fst band') /\ ~ apart (snd band) (snd band').
Proof.
  intros N N' P1 P2 P3 P4. rewrite !joint_name by assumption. intros E. destruct (kind_eq _ _ _ _ E) as [K BT].
  destruct (band_text_eq _ _ BT) as [F1 F2]. split; [exact K|]. split; now apply fixed05_near.
Qed.

(** the parts of a default name *)
Lemma name_parts evs first band p : (0 <= fst band)%R -> (0 <= snd band)%R ->
  exists s1 s2 v1 v2, decimal2 2 s1 v1 /\ (Rabs (v1 - fst band) <= 1 / 200)%R /\ decimal2 2 s2 v2 /\ (Rabs (v2 - snd band) <= 1 / 200)%R /\
    (List.length evs = 1%nat -> fst (fname_and_title evs first band (default_fname p)) =
       (kind_name p ++ "_" ++ first ++ "_" ++ s1 ++ "Hz-" ++ s2 ++ "Hz.png")%string) /\
    (List.length evs <> 1%nat -> fst (fname_and_title evs first band (default_fname p)) =
       (kind_name p ++ "_" ++ s1 ++ "Hz-" ++ s2 ++ "Hz.png")%string).
Proof.
  intros P1 P2. destruct (fixed05_decimal _ P1) as (v1 & D1 & A1). destruct (fixed05_decimal _ P2) as (v2 & D2 & A2).
  exists (fixed05 (fst band)), (fixed05 (snd band)), v1, v2. split; [exact D1|]. split; [exact A1|]. split; [exact D2|]. split; [exact A2|]. split.
  - intros L. unfold fname_and_title. rewrite L. cbn [Nat.eqb fst]. rewrite default_text. reflexivity.
  - intros L. rewrite joint_name by exact L. reflexivity.
Qed.

(** title *)
Lemma title_parts evs first band fname : (0 <= fst band)%R -> (0 <= snd band)%R ->
  exists s1 s2 v1 v2, decimal2 1 s1 v1 /\ (Rabs (v1 - fst band) <= 1 / 200)%R /\ decimal2 1 s2 v2 /\ (Rabs (v2 - snd band) <= 1 / 200)%R /\
    snd (fname_and_title evs first band fname) = ("filter: (" ++ s1 ++ "Hz, " ++ s2 ++ "Hz)")%string.
Proof.
  intros P1 P2. destruct (fixed2_decimal _ P1) as (v1 & D1 & A1). destruct (fixed2_decimal _ P2) as (v2 & D2 & A2).
  exists (fixed2 (fst band)), (fixed2 (snd band)), v1, v2. now repeat (split; [assumption|]).
Qed.

(** dumps *)
Lemma dump_differ before after e band e' band' : (0 <= fst band)%R -> (0 <= snd band)%R -> (0 <= fst band')%R -> (0 <= snd band')%R ->
  ~ occurs "_"%char after ->
  dump_name before after e band = dump_name before after e' band' ->
  e = e' /\ ~ apart (fst band) (fst band') /\ ~ apart (snd band) (snd band').
Proof.
  intros P1 P2 P3 P4 NA. unfold dump_name. intros E. apply cut_prefix in E. rewrite !append_assoc in E. cbn [append] in E.
  assert (C : forall b, ~ occurs "_"%char ((fixed05 (fst b) ++ "Hz-" ++ fixed05 (snd b) ++ "Hz") ++ after)%string).
  { intros b. rewrite !occurs_app. intros [[O|[O|[O|O]]]|O]; [| | | |exact (NA O)]; revert O;
      try (apply fixed05_chars; [reflexivity|discriminate]); cbn; intuition discriminate. }
  destruct (cut_last "_"%char e e' _ _ (C band) (C band')) as [A B].
  { repeat (rewrite ?append_assoc in *; cbn [append] in *). exact E. }
  split; [exact A|]. repeat (rewrite ?append_assoc in B; cbn [append] in B).
  destruct (cut_first "H"%char _ _ _ _ (fixed05_chars (fst band) "H"%char eq_refl ltac:(discriminate)) (fixed05_chars (fst band') "H"%char eq_refl ltac:(discriminate)) B) as [F1 B2].
  injection B2 as B2.
  destruct (cut_first "H"%char _ _ _ _ (fixed05_chars (snd band) "H"%char eq_refl ltac:(discriminate)) (fixed05_chars (snd band') "H"%char eq_refl ltac:(discriminate)) B2) as [F2 _].
  split; now apply fixed05_near.
Qed.

(** ** Plots *)
Lemma draw_all evs first band wanted : (forall p o, In (p, o) wanted -> bp_draws o = None) ->
  draw_plots evs first band wanted =
  map (fun po => fst (fname_and_title evs first band (match bp_fname (snd po) with Some f => f | None => default_fname (fst po) end))) wanted.
Proof.
  induction wanted as [|[p o] l IH]; intros H; [reflexivity|]. cbn [draw_plots map fst snd]. cbv zeta. rewrite (H p o (or_introl eq_refl)).
  rewrite IH; [reflexivity|]. intros q r I. apply (H q r). now right.
Qed.

Lemma draw_until evs first band front p o rest : (forall q r, In (q, r) front -> bp_draws r = None) -> bp_draws o <> None ->
  draw_plots evs first band (front ++ (p, o) :: rest) = draw_plots evs first band front.
Proof.
  induction front as [|[q r] l IH]; intros H N.
  - cbn [app draw_plots]. cbv zeta. destruct (bp_draws o); [reflexivity|congruence].
  - cbn [app draw_plots]. cbv zeta. rewrite (H q r (or_introl eq_refl)). rewrite IH; [reflexivity| |exact N]. intros q' r' I. apply (H q' r'). now right.
Qed.
