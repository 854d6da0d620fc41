(** Proofs for LabelProps.v. *)
From Coq Require Import String List Bool Reals Lra Lia Arith Sorted.
From Verif Require Import Base Pyf DepModel DepSpec DepProof LabelModel LabelSpec.
Import ListNotations.
Open Scope string_scope.
Open Scope list_scope.

Definition five : list string := ["M0"; "fc"; "n"; "gamma"; "fit_error"].

Lemma rank_five : forall k, (exists r, rank k r) <-> In k five.
Proof.
  intros k. split.
  - intros [r H]. destruct H; cbn; tauto.
  - cbn. intros [<- | [<- | [<- | [<- | [<- | []]]]]]; eexists; constructor.
Qed.

Lemma has_get : forall d k x, has d k x -> dget String.eqb d k = Some (Some x).
Proof. intros d k x [N I]. apply (dget_nodup String.eqb string_eqb_spec); assumption. Qed.

Lemma get_has : forall d k x, NoDup (map fst d) -> dget String.eqb d k = Some (Some x) -> has d k x.
Proof. intros d k x N G. split; [assumption | apply (dget_In String.eqb string_eqb_spec); assumption]. Qed.

Lemma one_line : forall d k parts x, In (k, parts) default_labels -> has d k x ->
  exists line, format parts d = Ok line /\ line_for k x line.
Proof.
  intros d k parts x I H. apply has_get in H. cbn in I.
  destruct I as [I | [I | [I | [I | [I | []]]]]]; injection I as <- <-;
    (eexists; split; [unfold format; cbn [mapM format_part bind]; rewrite H; cbn [bind]; reflexivity | constructor]).
Qed.

Lemma all_lines : forall d l, (forall kv, In kv l -> In kv default_labels /\ exists x, has d (fst kv) x) ->
  exists lines, mapM (fun kv : string * list part => format (snd kv) d) l = Ok lines /\
    Forall2 (fun k line => exists x, has d k x /\ line_for k x line) (map fst l) lines.
Proof.
  intros d. induction l as [| [k parts] l IH]; intros H; [exists []; split; [reflexivity | constructor] |].
  destruct IH as [lines [E F]]; [intros; apply H; right; assumption |].
  destruct (H (k, parts) (or_introl eq_refl)) as [I [x X]]. destruct (one_line d k parts x I X) as [line [G L]].
  exists (line :: lines). cbn [mapM snd map fst]. rewrite G. cbn [bind]. rewrite E. split; [reflexivity |].
  constructor; [exists x; split; assumption | assumption].
Qed.

Lemma sorted_filter : forall (T : Type) (Q : T -> T -> Prop) f l, StronglySorted Q l -> StronglySorted Q (filter f l).
Proof.
  intros T Q f l. induction 1 as [| a l S IH F]; cbn; [constructor |].
  destruct (f a); [| assumption]. constructor; [assumption |].
  rewrite Forall_forall in *. intros b I. apply filter_In in I. apply F. apply I.
Qed.

Lemma five_sorted : StronglySorted (fun k k' => forall r r', rank k r -> rank k' r' -> (r < r')%nat) five.
Proof.
  unfold five. repeat (constructor; [| repeat constructor; intros r r' A B; inversion A; inversion B; subst; lia]). constructor.
Qed.

Lemma filter_fst : forall (T : Type) (p : string -> bool) (l : list (string * T)),
  map fst (filter (fun kv => p (fst kv)) l) = filter p (map fst l).
Proof. induction l as [| [k v] l IH]; cbn; [reflexivity |]. destruct (p k); cbn; congruence. Qed.

Definition present (d : fields) (k : string) : bool := match dget String.eqb d k with Some _ => true | None => false end.

Lemma present_in : forall d k, present d k = true <-> In k (map fst d).
Proof.
  intros d k. unfold present. destruct (dget String.eqb d k) eqn:E.
  - split; [| reflexivity]. intros _. apply (dget_In String.eqb string_eqb_spec) in E. apply (in_map fst) in E. exact E.
  - split; [discriminate |]. intros I. apply (dget_None String.eqb string_eqb_spec) in E. contradiction.
Qed.

Lemma label_default : forall d, numbers d -> exists ks lines, listed d ks /\
  Forall2 (fun k line => exists x, has d k x /\ line_for k x line) ks lines /\
  (sds_label true None d = Ok (match lines with [] => None | _ => Some lines end)) /\
  sds_label false None d = Ok None.
Proof.
  intros d [N H]. set (l := filter (fun kv : string * list part => present d (fst kv)) default_labels).
  destruct (all_lines d l) as [lines [E F]].
  { intros [k parts] I. apply filter_In in I. destruct I as [I P]. split; [assumption |]. cbn [fst] in *.
    unfold present in P. destruct (dget String.eqb d k) as [[x |] |] eqn:G; [| | discriminate].
    - exists x. apply get_has; assumption.
    - exfalso. apply (dget_In String.eqb string_eqb_spec) in G. apply (H k G). apply rank_five.
      change five with (map (fst (B := list part)) default_labels). apply (in_map fst) in I. exact I. }
  exists (map fst l), lines. split; [| split; [assumption |]].
  - unfold l. rewrite (filter_fst _ (present d)). split.
    + intros k. rewrite filter_In, present_in, rank_five. change (map fst default_labels) with five. reflexivity.
    + apply sorted_filter. exact five_sorted.
  - unfold sds_label. change (filter _ default_labels) with l. rewrite E. cbn [bind]. split; destruct lines; reflexivity.
Qed.

Lemma label_null : forall d k annotate, NoDup (map fst d) -> In (k, None) d -> (exists r, rank k r) ->
  sds_label annotate None d = Err TypeError.
Proof.
  intros d k annotate N I R. apply rank_five in R.
  set (l := filter (fun kv : string * list part => present d (fst kv)) default_labels).
  assert (G : dget String.eqb d k = Some None) by (apply (dget_nodup String.eqb string_eqb_spec); assumption).
  assert (T : forall kv, In kv default_labels -> present d (fst kv) = true ->
              (exists y, format (snd kv) d = Ok y) \/ format (snd kv) d = Err TypeError).
  { intros [k' parts] J P. unfold present in P. cbn [fst] in P. destruct (dget String.eqb d k') as [[x |] |] eqn:G'; [| | discriminate].
    - left. destruct (one_line d k' parts x J (get_has _ _ _ N G')) as [y [Y _]]. exists y. exact Y.
    - right. cbn in J. destruct J as [J | [J | [J | [J | [J | []]]]]]; injection J as <- <-;
        unfold format; cbn [snd mapM format_part bind]; rewrite G'; reflexivity. }
  assert (M : forall l', (forall kv, In kv l' -> (exists y, format (snd kv) d = Ok y) \/ format (snd kv) d = Err TypeError) ->
    (exists kv, In kv l' /\ format (snd kv) d = Err TypeError) -> mapM (fun kv : string * list part => format (snd kv) d) l' = Err TypeError).
  { induction l' as [| kv l' IH]; intros A [kv' [B C]]; [contradiction |]. cbn [mapM].
    destruct (A kv (or_introl eq_refl)) as [[y Y] | Y].
    - rewrite Y. cbn [bind]. rewrite IH; [reflexivity | intros; apply A; right; assumption |].
      destruct B as [-> | B]; [congruence | eauto].
    - rewrite Y. reflexivity. }
  unfold sds_label. change (filter _ default_labels) with l. rewrite M; [reflexivity | |].
  - intros kv J. apply filter_In in J. apply T; apply J.
  - assert (J : exists parts, In (k, parts) default_labels).
    { cbn in R. destruct R as [<- | [<- | [<- | [<- | [<- | []]]]]]; eexists; cbn; eauto 6. }
    destruct J as [parts J]. exists (k, parts). assert (P : present d k = true) by (unfold present; rewrite G; reflexivity).
    split; [apply filter_In; split; assumption |].
    cbn in J. destruct J as [J | [J | [J | [J | [J | []]]]]]; injection J as <- <-;
        unfold format; cbn [snd mapM format_part bind]; rewrite G; reflexivity.
Qed.

Lemma format_ok : forall d parts label, Forall2 (replaced d) parts label -> format parts d = Ok label.
Proof.
  intros d parts label F. unfold format. induction F as [| p s parts label R F IH]; [reflexivity |]. cbn [mapM]. rewrite IH.
  destruct R as [s | k x st H | k D I]; cbn [format_part bind]; [reflexivity | |].
  - rewrite (has_get _ _ _ H). reflexivity.
  - rewrite (dget_nodup String.eqb string_eqb_spec _ _ _ D I). reflexivity.
Qed.

Lemma not_empty : forall parts, nonempty parts -> empty_text parts = false.
Proof.
  intros parts [p [I N]]. unfold empty_text. destruct (forallb _ parts) eqn:F; [| reflexivity].
  rewrite forallb_forall in F. specialize (F p I). destruct p as [s | |]; try discriminate.
  apply String.eqb_eq in F. congruence.
Qed.

Lemma label_text : forall d parts label, Forall2 (replaced d) parts label -> nonempty parts ->
  sds_label true (Some parts) d = Ok (Some [label]) /\ sds_label false (Some parts) d = Ok None.
Proof.
  intros d parts label F N. unfold sds_label. rewrite (format_ok _ _ _ F), (not_empty _ N). split; reflexivity.
Qed.

Lemma label_missing : forall d before k st after label annotate, Forall2 (replaced d) before label -> ~ In k (map fst d) ->
  sds_label annotate (Some (before ++ Field k st :: after)) d = Ok None.
Proof.
  intros d before k st after label annotate F N. unfold sds_label.
  assert (E : format (before ++ Field k st :: after) d = Err KeyError).
  { unfold format. induction F as [| p s parts label R F IH].
    - cbn [app mapM format_part]. apply (dget_None String.eqb string_eqb_spec) in N. rewrite N. reflexivity.
    - cbn [app mapM]. rewrite IH. destruct R as [s | k' x st' H | k' D I]; cbn [format_part bind]; [reflexivity | |].
      + rewrite (has_get _ _ _ H). reflexivity.
      + rewrite (dget_nodup String.eqb string_eqb_spec _ _ _ D I). reflexivity. }
  rewrite E. reflexivity.
Qed.

Lemma label_positional : forall d before after label annotate, Forall2 (replaced d) before label ->
  sds_label annotate (Some (before ++ Positional :: after)) d = Err IndexError.
Proof.
  intros d before after label annotate F. unfold sds_label.
  assert (E : format (before ++ Positional :: after) d = Err IndexError).
  { unfold format. induction F as [| p s parts label R F IH].
    - reflexivity.
    - cbn [app mapM]. rewrite IH. destruct R as [s | k' x st' H | k' D I]; cbn [format_part bind]; [reflexivity | |].
      + rewrite (has_get _ _ _ H). reflexivity.
      + rewrite (dget_nodup String.eqb string_eqb_spec _ _ _ D I). reflexivity. }
  rewrite E. reflexivity.
Qed.

Lemma label_off : forall d parts l, sds_label false parts d = Ok l -> l = None.
Proof.
  intros d parts l H. unfold sds_label in H. destruct parts as [parts |].
  - destruct (format parts d) as [x | e]; [congruence |]. destruct e; try discriminate. congruence.
  - destruct (mapM _ _); [| discriminate]. cbn [bind andb] in H. congruence.
Qed.

Lemma label_empty : forall d parts, ~ nonempty parts -> sds_label true (Some parts) d = Err UnboundLocalError.
Proof.
  intros d parts N.
  assert (A : forall p, In p parts -> p = Lit "").
  { intros p I. destruct p as [s | k st |].
    - destruct (string_dec s ""); [subst; reflexivity |]. exfalso. apply N. exists (Lit s). split; [assumption | congruence].
    - exfalso. apply N. exists (Field k st). split; [assumption | discriminate].
    - exfalso. apply N. exists Positional. split; [assumption | discriminate]. }
  clear N. assert (E : empty_text parts = true /\ exists l, format parts d = Ok l).
  { unfold empty_text, format. induction parts as [| p parts IH]; [split; [reflexivity | exists []; reflexivity] |].
    rewrite (A p (or_introl eq_refl)). destruct IH as [B [l C]]; [intros; apply A; right; assumption |].
    cbn [forallb mapM format_part bind]. rewrite B, C. split; [reflexivity | eexists; reflexivity]. }
  destruct E as [B [l C]]. unfold sds_label. rewrite B, C. reflexivity.
Qed.

(** Everything that can be drawn is drawn *)
Lemma labelled : forall freq omM d method smo colored annotate parts dr l,
  plot_labelled freq omM d method smo colored annotate parts = Ok (Some (dr, l)) <->
  plot_sds freq omM (pars_of d) method smo colored = Ok (Some dr) /\ sds_label annotate parts d = Ok l.
Proof.
  intros. unfold plot_labelled. destruct (plot_sds _ _ _ _ _ _) as [[dr' |] |]; cbn [bind].
  - destruct (sds_label annotate parts d) as [l' |]; cbn [bind]; split; try discriminate.
    + intros H. split; congruence.
    + intros [A B]. congruence.
    + intros [A B]. discriminate.
  - split; [discriminate | intros [A _]; discriminate].
  - split; [discriminate | intros [A _]; discriminate].
Qed.

Lemma got_spec : forall d k, numbers d -> (exists r, rank k r) ->
  (forall x, got d k = Some x <-> has d k x) /\ (got d k = None <-> ~ In k (map fst d)).
Proof.
  intros d k [N H] R. unfold got. destruct (dget String.eqb d k) as [[x |] |] eqn:G.
  - split.
    + intros y. split; [intros E; apply get_has; [assumption | congruence] |]. intros E. apply has_get in E. congruence.
    + split; [discriminate |]. intros I. exfalso. apply I. apply (dget_In String.eqb string_eqb_spec) in G. apply (in_map fst) in G. exact G.
  - exfalso. apply (dget_In String.eqb string_eqb_spec) in G. exact (H k G R).
  - split.
    + intros y. split; [discriminate |]. intros E. apply has_get in E. congruence.
    + split; [| reflexivity]. intros _. apply (dget_None String.eqb string_eqb_spec). assumption.
Qed.

Lemma forall2_left : forall (A B : Type) (Q : A -> B -> Prop) l m a, Forall2 Q l m -> In a l -> exists b, In b m /\ Q a b.
Proof.
  intros A B Q l m a F. induction F as [| x y l m H F IH]; intros I; [contradiction |].
  destruct I as [-> | I]; [exists y; split; [left; reflexivity | assumption] |].
  destruct (IH I) as [b [J K]]. exists b. split; [right; assumption | assumption].
Qed.

(** Without options the curve is the one of the annotated values *)
Lemma label_agrees : forall freq omM d method colored dr lines model f, numbers d -> fit_method method ->
  plot_labelled freq omM d method (Some {| p_M0 := None; p_fc := None; p_n := None; p_gamma := None |}) colored true None
    = Ok (Some (dr, Some lines)) -> d_model dr = Some model ->
  exists M0 fc n gamma, model f = (M0 * Rpower (1 + Rpower (f / fc) (n * gamma)) (- (1) / gamma))%R /\
    d_level dr = Some M0 /\
    (exists line, In line lines /\ line_for "M0" M0 line) /\ (exists line, In line lines /\ line_for "fc" fc line) /\
    ((exists line, In line lines /\ line_for "n" n line) \/ ~ In "n" (map fst d) /\ n = 2%R) /\
    ((exists line, In line lines /\ line_for "gamma" gamma line) \/ ~ In "gamma" (map fst d) /\ gamma = 1%R).
Proof.
  intros freq omM d method colored dr lines model f Nd Hm H Hc. apply labelled in H. destruct H as [H L].
  destruct (label_default d Nd) as [ks [ls [[LI LS] [F [E _]]]]]. rewrite E in L.
  assert (lines = ls) by (destruct ls; congruence). subst ls. clear E L.
  destruct (sds_model freq omM (pars_of d) method _ colored dr f Hm H) as [C D].
  destruct (D model Hc) as [M0 [fc [n [gamma [A1 [A2 [A3 [A4 [A5 A6]]]]]]]]].
  assert (NZ : M0 <> 0%R /\ fc <> 0%R).
  { assert (X : d_model dr <> None) by congruence. apply C in X. destruct X as [[m [X1 X2]] [g [Y1 Y2]]].
    cbn [p_M0 p_fc] in A1, A2, X1, Y1.
    assert (U : forall b x y, first_given None b 0 x -> first_given None b 0 y -> x = y).
    { intros b x y [[? [Q _]] | [_ P]] [[? [Q' _]] | [_ P']]; try discriminate.
      destruct P as [[u [P1 P2]] | [P1 P2]], P' as [[u' [P1' P2']] | [P1' P2']]; congruence. }
    rewrite (U _ _ _ A1 X1), (U _ _ _ A2 Y1). split; assumption. }
  assert (LN : forall k x, (exists r, rank k r) -> has d k x -> exists line, In line lines /\ line_for k x line).
  { intros k x R X. assert (I : In k ks). { apply LI. split; [assumption |]. destruct X as [_ X]. apply (in_map fst) in X. exact X. }
    destruct (forall2_left _ _ _ _ _ _ F I) as [line [J [y [Y Z]]]]. exists line. split; [assumption |].
    apply has_get in X. apply has_get in Y. congruence. }
  assert (FG : forall k b dflt x, (exists r, rank k r) -> got d k = b -> first_given None b dflt x ->
            (exists line, In line lines /\ line_for k x line) \/ ~ In k (map fst d) /\ x = dflt).
  { intros k b dflt x R G [[? [Q _]] | [_ P]]; [discriminate |]. destruct (got_spec d k Nd R) as [G1 G2].
    destruct P as [[u [P1 P2]] | [P1 P2]].
    - left. apply LN; [assumption |]. apply G1. congruence.
    - right. split; [apply G2; congruence | assumption]. }
  exists M0, fc, n, gamma. split; [assumption |]. split; [assumption |].
  assert (B1 := FG "M0" _ _ _ (ex_intro _ _ r_M0) eq_refl A1). assert (B2 := FG "fc" _ _ _ (ex_intro _ _ r_fc) eq_refl A2).
  split; [destruct B1 as [B1 | [_ B1]]; [assumption | tauto] |].
  split; [destruct B2 as [B2 | [_ B2]]; [assumption | tauto] |].
  split; [exact (FG "n" _ _ _ (ex_intro _ _ r_n) eq_refl A3) | exact (FG "gamma" _ _ _ (ex_intro _ _ r_gamma) eq_refl A4)].
Qed.

Lemma place_ok : forall va, label_place va = (if string_dec va "top" then ((1, 1), (-5, -5)) else ((1, 0), (-5, 5)))%R.
Proof.
  intros va. unfold label_place. destruct (string_dec va "top") as [-> | N].
  - cbn. f_equal. f_equal. lra.
  - destruct (String.eqb_spec va "top"); [contradiction |]. f_equal. f_equal. lra.
Qed.
