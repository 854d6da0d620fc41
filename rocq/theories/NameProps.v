(** Properties C122 and C123: names of the files of plots, and saving of figures.  Theorems only. *)
From Coq Require Import String Ascii List Bool Reals Lra Lia Arith.
From Verif Require Import Base NameModel NameSpec NameProof NameProof2 NameProof3 NameEx.
Import ListNotations.
Open Scope string_scope.
Open Scope list_scope.

(** C122: the default name of the file of a plot consists of the kind of the plot, the event (if there
    is only one) and the band, whose frequencies have two digits or more and two decimals and are
    correctly rounded. *)
Theorem C122_name : forall evs first band p, (0 <= fst band)%R -> (0 <= snd band)%R ->
  exists s1 s2 v1 v2, decimal2 2 s1 v1 /\ (Rabs (v1 - fst band) <= 1 / 200)%R /\ decimal2 2 s2 v2 /\ (Rabs (v2 - snd band) <= 1 / 200)%R /\
    (List.length evs = 1%nat -> fst (fname_and_title evs first band (default_fname p)) =
       (kind_name p ++ "_" ++ first ++ "_" ++ s1 ++ "Hz-" ++ s2 ++ "Hz.png")%string) /\
    (List.length evs <> 1%nat -> fst (fname_and_title evs first band (default_fname p)) =
       (kind_name p ++ "_" ++ s1 ++ "Hz-" ++ s2 ++ "Hz.png")%string).
Proof. exact name_parts. Qed.
Print Assumptions C122_name.

Example C122_name_ex : fixed05 (3 / 4) = "00.75" /\ fixed05 (25 / 2) = "12.50" /\ fixed2 (3 / 4) = "0.75".
Proof. exact ex_fixed. Qed.

(** C122: the title consists of the band, correctly rounded. *)
Theorem C122_title : forall evs first band fname, (0 <= fst band)%R -> (0 <= snd band)%R ->
  exists s1 s2 v1 v2, decimal2 1 s1 v1 /\ (Rabs (v1 - fst band) <= 1 / 200)%R /\ decimal2 1 s2 v2 /\ (Rabs (v2 - snd band) <= 1 / 200)%R /\
    snd (fname_and_title evs first band fname) = ("filter: (" ++ s1 ++ "Hz, " ++ s2 ++ "Hz)")%string.
Proof. exact title_parts. Qed.
Print Assumptions C122_title.

Example C122_title_ex : (0 <= fst (3 / 4, 25 / 2))%R /\ (0 <= snd (3 / 4, 25 / 2))%R.
Proof. cbn [fst snd]. lra. Qed.

(** C122: plots of different kinds, events or bands (more than 0.01 Hz apart) have different files. *)
Theorem C122_different : forall p e band p' e' band',
  (0 <= fst band)%R -> (0 <= snd band)%R -> (0 <= fst band')%R -> (0 <= snd band')%R ->
  fst (fname_and_title [e] e band (default_fname p)) = fst (fname_and_title [e'] e' band' (default_fname p')) ->
  p = p' /\ e = e' /\ ~ apart (fst band) (fst band') /\ ~ apart (snd band) (snd band').
Proof. exact names_differ. Qed.
Print Assumptions C122_different.

Example C122_different_ex : apart (3 / 4) (25 / 2).
Proof. unfold apart, Rabs. destruct (Rcase_abs _); lra. Qed.

(** C122: so do those of simultaneous inversions. *)
Theorem C122_joint : forall evs first p band evs' first' p' band', List.length evs <> 1%nat -> List.length evs' <> 1%nat ->
  (0 <= fst band)%R -> (0 <= snd band)%R -> (0 <= fst band')%R -> (0 <= snd band')%R ->
  fst (fname_and_title evs first band (default_fname p)) = fst (fname_and_title evs' first' band' (default_fname p')) ->
  p = p' /\ ~ apart (fst band) (fst band') /\ ~ apart (snd band) (snd band').
Proof. exact joint_differ. Qed.
Print Assumptions C122_joint.

Example C122_joint_ex : List.length ["e1"; "e2"] <> 1%nat /\ (0 <= 3 / 4)%R.
Proof. split; [discriminate|lra]. Qed.

(** C122, false: adjacent bands at low frequencies have the same file. *)
Theorem C122_near_refuted : exists band band' p e, (0 < fst band < snd band)%R /\ (0 < fst band' < snd band')%R /\ (snd band <= fst band')%R /\
  fst (fname_and_title [e] e band (default_fname p)) = fst (fname_and_title [e] e band' (default_fname p)).
Proof. exact ex_near. Qed.
Print Assumptions C122_near_refuted.

(** C122: a given directory is kept for one event, *)
Theorem C122_directory : forall e band d n,
  fst (fname_and_title [e] e band (FText d :: n)) = (d ++ fst (fname_and_title [e] e band n))%string.
Proof. exact given_directory. Qed.
Print Assumptions C122_directory.

(** C122, false: but not in simultaneous inversions if it has two underscores. *)
Theorem C122_directory_refuted : exists d evs first band p, no_slash_end d /\ (0 < fst band < snd band)%R /\
  dirname (fst (fname_and_title evs first band (FText (d ++ "/") :: default_fname p))) <> d.
Proof. exact ex_directory. Qed.
Print Assumptions C122_directory_refuted.

(** C122: dumps of different events or bands have different files. *)
Theorem C122_dump : forall before after e band e' band',
  (0 <= fst band)%R -> (0 <= snd band)%R -> (0 <= fst band')%R -> (0 <= snd band')%R -> ~ occurs "_"%char after ->
  dump_name before after e band = dump_name before after e' band' ->
  e = e' /\ ~ apart (fst band) (fst band') /\ ~ apart (snd band) (snd band').
Proof. exact dump_differ. Qed.
Print Assumptions C122_dump.

Example C122_dump_ex : ~ occurs "_"%char ".pkl".
Proof. cbn. intuition discriminate. Qed.

(** C122: if none of them fails, the plots of a band are those that are configured, of the optimisation
    only if there was one, of energies only if there are some. *)
Theorem C122_drawn : forall evs first band nenergies fixed optimized energies optimization fits,
  (forall p o, wanted_plot nenergies fixed optimized energies optimization fits p o -> bp_draws o = None) ->
  forall f, In f (band_plots evs first band nenergies fixed optimized energies optimization fits) <->
    exists p o, wanted_plot nenergies fixed optimized energies optimization fits p o /\ file_of evs first band p o f.
Proof. exact plots_drawn. Qed.
Print Assumptions C122_drawn.

Example C122_drawn_ex : forall p o, wanted_plot 3 false true (Some {| bp_fname := None; bp_draws := None |}) (Some {| bp_fname := None; bp_draws := None |})
  (Some {| bp_fname := None; bp_draws := None |}) p o -> bp_draws o = None.
Proof. exact ex_wanted. Qed.

(** C122: if the plot of energies fails there is no plot at all; *)
Theorem C122_failed_energies : forall evs first band nenergies fixed optimized energies optimization fits o,
  wanted_plot nenergies fixed optimized energies optimization fits Energies o -> bp_draws o <> None ->
  band_plots evs first band nenergies fixed optimized energies optimization fits = [].
Proof. exact plots_energies_failed. Qed.
Print Assumptions C122_failed_energies.

Example C122_failed_energies_ex : wanted_plot 3 false true (Some {| bp_fname := None; bp_draws := Some TypeError |}) None None Energies {| bp_fname := None; bp_draws := Some TypeError |}.
Proof. split; [reflexivity|lia]. Qed.

(** C122: if the plot of the optimisation fails, there is at most the one of energies. *)
Theorem C122_failed_optimization : forall evs first band nenergies fixed optimized energies optimization fits o,
  wanted_plot nenergies fixed optimized energies optimization fits Optimization o -> bp_draws o <> None ->
  forall f, In f (band_plots evs first band nenergies fixed optimized energies optimization fits) ->
  exists e, wanted_plot nenergies fixed optimized energies optimization fits Energies e /\ file_of evs first band Energies e f.
Proof. exact plots_optimization_failed. Qed.
Print Assumptions C122_failed_optimization.

Example C122_failed_optimization_ex : wanted_plot 3 false true None (Some {| bp_fname := None; bp_draws := Some TypeError |}) None Optimization {| bp_fname := None; bp_draws := Some TypeError |}.
Proof. split; [reflexivity|now split]. Qed.

(** C122, false: a plot that does not fail itself need not be drawn. *)
Theorem C122_failed_refuted : exists evs first band nenergies e f name, bp_draws f = None /\ file_of evs first band Fits f name /\
  ~ In name (band_plots evs first band nenergies false true (Some e) None (Some f)).
Proof. exact ex_failed. Qed.
Print Assumptions C122_failed_refuted.

(** C123: a figure with a file name is saved there and closed, after its directory has been created. *)
Theorem C123_saved : forall title f dpi size, f <> "" ->
  exists front dirs, savefig title (Some f) dpi size = front ++ dirs ++ [Save f dpi; Close] /\ Forall harmless front /\
    (forall d base, f = (d ++ "/" ++ base)%string -> no_slash_end d -> ~ occurs "/"%char base -> dirs = [Makedirs d]) /\
    (~ occurs "/"%char f -> dirs = []).
Proof. exact savefig_saved. Qed.
Print Assumptions C123_saved.

Example C123_saved_ex : "plots/fits/a.png" = ("plots/fits" ++ "/" ++ "a.png")%string /\ no_slash_end "plots/fits" /\ ~ occurs "/"%char "a.png".
Proof. split; [reflexivity|]. split; [exists "plots/fit", "s"%char; split; [reflexivity|discriminate]|]. cbn. intuition discriminate. Qed.

(** C123: a figure without a file name is neither saved nor closed, and no directory is created. *)
Theorem C123_unsaved : forall title f dpi size, f = None \/ f = Some "" -> Forall harmless (savefig title f dpi size).
Proof. exact savefig_unsaved. Qed.
Print Assumptions C123_unsaved.

Example C123_unsaved_ex : @None string = None \/ @None string = Some "".
Proof. now left. Qed.

(** C123: the figure has the given title and size. *)
Theorem C123_shown : forall title f dpi size,
  (forall t, In (Title t) (savefig title f dpi size) <-> title = Some t /\ t <> "") /\
  (forall w h, In (Size w h) (savefig title f dpi size) <-> size = Some (w, h)).
Proof. exact savefig_shown. Qed.
Print Assumptions C123_shown.
