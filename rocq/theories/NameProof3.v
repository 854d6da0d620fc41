(** Lemmas on the plots of a band and on saving figures (C122, C123). *)
From Coq Require Import String Ascii List Bool Reals Lra Lia ZArith Arith.
From Verif Require Import Base NameModel NameSpec NameProof NameProof2.
Import ListNotations.
Open Scope string_scope.
Open Scope list_scope.

Lemma file_of_spec evs first band p o : file_of evs first band p o
  (fst (fname_and_title evs first band (match bp_fname o with Some f => f | None => default_fname p end))).
Proof. unfold file_of. destruct (bp_fname o) as [n|]; [exists n|exists (default_fname p)]; auto. Qed.

Lemma file_of_unique evs first band p o f : file_of evs first band p o f ->
  f = fst (fname_and_title evs first band (match bp_fname o with Some f => f | None => default_fname p end)).
Proof. intros (n & [E|[E N]] & ->); rewrite E; congruence. Qed.

Section Plots.
  Variables (evs : list string) (first : string) (band : R * R) (nenergies : nat) (fixed optimized : bool).
  Variables (energies optimization fits : option band_plot).
  Notation wanted := (wanted_plot nenergies fixed optimized energies optimization fits).
  Notation files := (band_plots evs first band nenergies fixed optimized energies optimization fits).

  Definition wanted_list : list (bplot * band_plot) :=
    ((match energies with Some o => if Nat.ltb 0 nenergies then [(Energies, o)] else [] | None => [] end)
     ++ (match optimization with Some o => if (negb fixed && optimized)%bool then [(Optimization, o)] else [] | None => [] end)
     ++ (match fits with Some o => [(Fits, o)] | None => [] end)).

  Lemma wanted_in p o : In (p, o) wanted_list <-> wanted p o.
  Proof.
    unfold wanted_list, wanted_plot. rewrite !in_app_iff.
    assert (A : In (p, o) (match energies with Some o => if Nat.ltb 0 nenergies then [(Energies, o)] else [] | None => [] end) <->
                p = Energies /\ energies = Some o /\ (0 < nenergies)%nat).
    { destruct energies as [e|]; [destruct (Nat.ltb_spec 0 nenergies)|]; (split; [intros I; cbn in I; repeat destruct I as [[= <- <-]|I]; try (now destruct I); auto|
        intros (-> & E & L); try discriminate E; try lia; injection E as ->; now left]). }
    assert (B : In (p, o) (match optimization with Some o => if (negb fixed && optimized)%bool then [(Optimization, o)] else [] | None => [] end) <->
                p = Optimization /\ optimization = Some o /\ fixed = false /\ optimized = true).
    { destruct optimization as [e|]; [destruct fixed, optimized|]; (split; [intros I; cbn in I; repeat destruct I as [[= <- <-]|I]; try (now destruct I); auto|
        intros (-> & E & L & M); try discriminate; injection E as ->; now left]). }
    assert (C : In (p, o) (match fits with Some o => [(Fits, o)] | None => [] end) <-> p = Fits /\ fits = Some o).
    { destruct fits as [e|]; (split; [intros I; cbn in I; repeat destruct I as [[= <- <-]|I]; try (now destruct I); auto|
        intros (-> & E); try discriminate; injection E as ->; now left]). }
    rewrite A, B, C. destruct p; intuition (try discriminate).
  Qed.

  Lemma plots_drawn : (forall p o, wanted p o -> bp_draws o = None) ->
    forall f, In f files <-> exists p o, wanted p o /\ file_of evs first band p o f.
  Proof.
    intros H f. change files with (draw_plots evs first band wanted_list). rewrite draw_all.
    - rewrite in_map_iff. split.
      + intros ([p o] & <- & I). exists p, o. split; [now apply wanted_in|]. cbn [fst snd]. apply file_of_spec.
      + intros (p & o & W & F). exists (p, o). split; [|now apply wanted_in]. cbn [fst snd]. symmetry. now apply file_of_unique.
    - intros p o I. apply (H p o). now apply wanted_in.
  Qed.

  Lemma plots_energies_failed o : wanted Energies o -> bp_draws o <> None -> files = [].
  Proof.
    intros [E L] D. change files with (draw_plots evs first band wanted_list). unfold wanted_list. rewrite E.
    apply Nat.ltb_lt in L. rewrite L. cbn [app draw_plots]. cbv zeta. destruct (bp_draws o); [reflexivity|congruence].
  Qed.

  Lemma plots_optimization_failed o : wanted Optimization o -> bp_draws o <> None ->
    forall f, In f files -> exists e, wanted Energies e /\ file_of evs first band Energies e f.
  Proof.
    intros (E & F & O) D f. change files with (draw_plots evs first band wanted_list). unfold wanted_list. rewrite E, F, O. cbn [negb andb].
    unfold wanted_plot. destruct energies as [e|]; [destruct (Nat.ltb_spec 0 nenergies) as [L|L]|]; cbn [app].
    - cbn [draw_plots]. cbv zeta. destruct (bp_draws e); [intros []|]. destruct (bp_draws o); [|congruence].
      intros [<-|[]]. exists e. split; [now split|apply file_of_spec].
    - cbn [draw_plots]. cbv zeta. destruct (bp_draws o); [intros []|congruence].
    - cbn [draw_plots]. cbv zeta. destruct (bp_draws o); [intros []|congruence].
  Qed.
End Plots.

(** a given directory *)
Lemma given_directory e band d n : fst (fname_and_title [e] e band (FText d :: n)) = (d ++ fst (fname_and_title [e] e band n))%string.
Proof. unfold fname_and_title. cbn [List.length Nat.eqb fst]. unfold format_name. cbn [map]. now rewrite concat_cons. Qed.

(** ** Figures *)
Lemma no_slash f : ~ occurs "/"%char f -> before_slash f = None.
Proof.
  induction f as [|a f IH]; intros N; [reflexivity|]. cbn [before_slash]. rewrite IH by (intros O; apply N; now right).
  destruct (Ascii.eqb_spec a "/") as [->|]; [elim N; now left|reflexivity].
Qed.

Lemma slash_cut d base : ~ occurs "/"%char base -> before_slash (d ++ String "/" base) = Some d.
Proof.
  intros N. induction d as [|a d IH]; cbn [append before_slash].
  - rewrite (no_slash base N). reflexivity.
  - now rewrite IH.
Qed.

Lemma strip_end d c : c <> "/"%char -> strip_slashes ((d ++ String c "") ++ "/") = (d ++ String c "")%string.
Proof.
  intros N. induction d as [|a d IH].
  - cbn. destruct (Ascii.eqb_spec c "/"); [congruence|reflexivity].
  - cbn [append strip_slashes]. rewrite IH. destruct (d ++ String c "")%string eqn:E; [destruct d; discriminate|reflexivity].
Qed.

Lemma dirname_spec d base : no_slash_end d -> ~ occurs "/"%char base -> dirname (d ++ String "/" base) = d.
Proof.
  intros (d' & c & -> & N) NB. unfold dirname. rewrite (slash_cut _ _ NB), (strip_end d' c N).
  destruct (d' ++ String c "")%string eqn:E; [destruct d'; discriminate|reflexivity].
Qed.

Lemma dirname_none f : ~ occurs "/"%char f -> dirname f = "".
Proof. intros N. unfold dirname. now rewrite (no_slash f N). Qed.

Lemma savefig_saved title f dpi size : f <> "" ->
  exists front dirs, savefig title (Some f) dpi size = front ++ dirs ++ [Save f dpi; Close] /\ Forall harmless front /\
    (forall d base, f = (d ++ "/" ++ base)%string -> no_slash_end d -> ~ occurs "/"%char base -> dirs = [Makedirs d]) /\
    (~ occurs "/"%char f -> dirs = []).
Proof.
  intros N. unfold savefig. destruct f as [|a r]; [congruence|]. set (f := String a r) in *.
  exists ((match size with Some (w, h) => [Size w h] | None => [] end) ++ (match title with Some (String a r) => [Title (String a r)] | _ => [] end)),
    (if String.eqb (dirname f) "" then [] else [Makedirs (dirname f)]).
  rewrite app_assoc. split; [reflexivity|]. split; [|split].
  - apply Forall_app. split.
    + destruct size as [[w h]|]; repeat constructor.
    + destruct title as [[|? ?]|]; repeat constructor.
  - intros d base E NS NB. cbn [append] in E. rewrite E, (dirname_spec d base NS NB). destruct NS as (d' & c & -> & _).
    destruct (String.eqb_spec (d' ++ String c "") ""); [destruct d'; discriminate|reflexivity].
  - intros NO. rewrite (dirname_none f NO). reflexivity.
Qed.

Lemma savefig_unsaved title f dpi size : f = None \/ f = Some "" -> Forall harmless (savefig title f dpi size).
Proof.
  intros H. unfold savefig. replace (match f with Some (String a r) => _ | _ => [] end) with (@nil action) by (destruct H as [->| ->]; reflexivity).
  rewrite app_nil_r. apply Forall_app. split; [destruct size as [[w h]|]; repeat constructor|destruct title as [[|? ?]|]; repeat constructor].
Qed.

Lemma savefig_shown title f dpi size :
  (forall t, In (Title t) (savefig title f dpi size) <-> title = Some t /\ t <> "") /\
  (forall w h, In (Size w h) (savefig title f dpi size) <-> size = Some (w, h)).
Proof.
  unfold savefig. set (rest := match f with Some (String a r) => _ | _ => [] end).
  assert (R1 : forall t, ~ In (Title t) rest).
  { intros t. unfold rest. destruct f as [[|a r]|]; [intros []| |intros []]. rewrite in_app_iff.
    destruct (String.eqb _ ""); cbn; intuition discriminate. }
  assert (R2 : forall w h, ~ In (Size w h) rest).
  { intros w h. unfold rest. destruct f as [[|a r]|]; [intros []| |intros []]. rewrite in_app_iff.
    destruct (String.eqb _ ""); cbn; intuition discriminate. }
  split; intros; rewrite !in_app_iff.
  - split.
    + intros [I|[I|I]]; [destruct size as [[w h]|]; cbn in I; intuition discriminate| |elim (R1 t I)].
      destruct title as [[|a r]|]; cbn in I; try tauto. destruct I as [[= <-]|[]]. now split.
    + intros [-> N]. right. left. destruct t as [|a r]; [congruence|now left].
  - split.
    + intros [I|[I|I]]; [|destruct title as [[|? ?]|]; cbn in I; intuition discriminate|elim (R2 w h I)].
      destruct size as [[w' h']|]; cbn in I; [|destruct I]. destruct I as [I|[]]. congruence.
    + intros ->. left. now left.
Qed.
