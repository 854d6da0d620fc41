(** Lemmas about the words of a command line: which words are options and values. *)
From Coq Require Import String Ascii List Bool ZArith Arith Lia.
From Verif Require Import Base PyStr RunModel CliModel CliSpec CliProof.
Import ListNotations.
Open Scope string_scope.
Open Scope list_scope.

Lemma split_on_one c s a : split_on c s = [a] <-> s = a /\ has_char c s = false.
Proof.
  revert a. induction s as [|d s IH]; intros a; cbn [split_on has_char].
  - split; [intros H; injection H as <-; auto|]. intros [<- _]. reflexivity.
  - destruct (Ascii.eqb d c) eqn:E.
    + split; [|intros [_ H]; discriminate]. intros H. injection H as _ H. now apply split_on_ne in H.
    + cbn [orb]. destruct (split_on c s) as [|h t] eqn:S; [now apply split_on_ne in S|].
      split.
      * intros H. injection H as <- ->. destruct (proj1 (IH h) eq_refl) as [-> N]. auto.
      * intros [<- N]. assert (X : h :: t = [s]) by (apply IH; auto). injection X as -> ->. reflexivity.
Qed.

Lemma split_on_two c s a b : split_on c s = [a; b] <-> s = (a ++ String c b)%string /\ has_char c a = false /\ has_char c b = false.
Proof.
  revert a. induction s as [|d s IH]; intros a; cbn [split_on].
  - split; [discriminate|]. intros [H _]. destruct a; discriminate.
  - destruct (Ascii.eqb_spec d c) as [->|N].
    + split.
      * intros H. injection H as <- H. apply split_on_one in H as [-> H]. cbn. auto.
      * intros (H & A & B). destruct a as [|x a].
        -- cbn in H. injection H as ->. f_equal. now apply split_on_one.
        -- cbn in H. injection H as <- H. cbn [has_char] in A. now rewrite Ascii.eqb_refl in A.
    + destruct (split_on c s) as [|h t] eqn:S; [now apply split_on_ne in S|].
      split.
      * intros H. injection H as <- ->. destruct (proj1 (IH h) eq_refl) as (-> & A & B). cbn [append has_char].
        split; [reflexivity|]. split; [|exact B]. rewrite A. now apply Ascii.eqb_neq in N as ->.
      * intros (H & A & B). destruct a as [|x a]; cbn in H; [injection H as H; congruence|]. injection H as <- H.
        cbn [has_char] in A. apply orb_false_iff in A as [_ A].
        assert (X : h :: t = [a; b]) by (apply IH; auto). injection X as -> ->. reflexivity.
Qed.

Lemma all_digits_spec s : all_digits s = true <-> digits s.
Proof.
  unfold digits. induction s as [|c s IH]; cbn [all_digits list_ascii_of_string In]; [tauto|].
  rewrite !andb_true_iff, IH, !Nat.leb_le. split.
  - intros [A B] d [<-|I]; [exact A|auto].
  - intros H. split; [apply H; now left|intros d I; apply H; now right].
Qed.

Lemma digits_no_dot s : digits s -> has_char "." s = false.
Proof.
  intros D. destruct (has_char "." s) eqn:H; [|reflexivity]. apply has_char_In in H. apply D in H. cbn in H. lia.
Qed.

Lemma minus_spec w : negative_number w = true <-> minus w.
Proof.
  unfold minus. destruct w as [|c r].
  - split; [discriminate|]. intros [(a & H & _)|(a & b & H & _)]; discriminate.
  - unfold negative_number. rewrite andb_true_iff, Ascii.eqb_eq. split.
    + intros [-> H]. destruct (split_on "." r) as [|a [|b [|]]] eqn:S; try discriminate.
      * apply split_on_one in S as [-> _]. apply andb_true_iff in H as [N D]. left. exists a. split; [reflexivity|].
        split; [|now apply all_digits_spec]. intros ->. discriminate.
      * apply split_on_two in S as (-> & _ & _). rewrite !andb_true_iff in H. destruct H as (D & N & D2).
        right. exists a, b. split; [reflexivity|]. split; [now apply all_digits_spec|]. split; [now apply all_digits_spec|].
        intros ->. discriminate.
    + intros [(a & H & N & D)|(a & b & H & D & D2 & N)].
      * injection H as -> ->. split; [reflexivity|].
        rewrite (proj2 (split_on_one "." a a) (conj eq_refl (digits_no_dot _ D))).
        apply String.eqb_neq in N. rewrite N. now apply all_digits_spec in D as ->.
      * injection H as -> ->. split; [reflexivity|].
        rewrite (proj2 (split_on_two "." (a ++ String "." b) a b)
                   (conj eq_refl (conj (digits_no_dot _ D) (digits_no_dot _ D2)))).
        apply String.eqb_neq in N. rewrite N. apply all_digits_spec in D as ->. now apply all_digits_spec in D2 as ->.
Qed.

Section Known.
  Context {cmd : string} {acts : list action} {table : list (string * (string * sort))}.
  Variable K : known cmd acts table.

  Lemma not_flag_eq p v : find_flag acts (p ++ String "=" v) = None.
  Proof.
    destruct (find_flag acts _) as [a|] eqn:F; [|reflexivity]. apply (flag_no_eq K) in F. exfalso. apply F.
    rewrite list_app_s. apply in_or_app. right. now left.
  Qed.

  Lemma flag_dash f a : find_flag acts f = Some a -> exists c r, f = String "-" (String c r).
  Proof. intros F. destruct (flag_cases K _ _ F) as [(c & -> & _)|(c & r & ->)]; eauto. Qed.

  Lemma po_exact s a : find_flag acts s = Some a -> parse_optional acts s = Ok (WOption a s None).
  Proof. intros F. destruct (flag_dash _ _ F) as (c & r & ->). unfold parse_optional. cbn [Ascii.eqb negb]. now rewrite F. Qed.

  Lemma po_equal p a v : find_flag acts p = Some a ->
    parse_optional acts (p ++ "=" ++ v) = Ok (WOption a p (Some {| e_sep := true; e_text := v |})).
  Proof.
    intros F. destruct (flag_dash _ _ F) as (c & r & E). pose proof (not_flag_eq p v) as N.
    assert (P : partition_eq (p ++ "=" ++ v) = Some (p, v)) by (apply partition_some; split; [reflexivity|exact (flag_no_eq K _ _ F)]).
    cbn [append] in *. rewrite E in *. cbn [append] in *. unfold parse_optional. rewrite N, P, F. reflexivity.
  Qed.

  (** the tuples of _get_option_tuples for a long option *)
  Lemma tuples_long (p : string) (e : option explicit) f a e2 :
    map (fun fa : string * action => (fst fa, snd fa, e)) (filter (fun fa => String.prefix p (fst fa)) (named acts)) = [(f, a, e2)] <->
    e2 = e /\ find_flag acts f = Some a /\ (forall g, dget String.eqb table g <> None -> (String.prefix p g = true <-> g = f)).
  Proof.
    rewrite <- (filter_unique K (String.prefix p)). destruct (filter _ _) as [|[f0 a0] [|x l]]; cbn [map fst snd].
    - split; [discriminate|]. intros [_ H]. discriminate.
    - split; [intros H; injection H as -> -> ->; auto|]. intros [-> H]. now injection H as -> ->.
    - split; [discriminate|]. intros [_ H]. discriminate.
  Qed.

  Lemma tuples_short c t (e : option explicit) :
    c <> "-"%char -> t <> "" ->
    flat_map (fun fa : string * action => if String.eqb (fst fa) (String "-" (String c "")) then [(fst fa, snd fa, e)]
                       else if String.prefix (String "-" (String c t)) (fst fa) then [(fst fa, snd fa, None)] else []) (named acts) =
    match find_flag acts (String "-" (String c "")) with
    | Some a => [(String "-" (String c ""), a, e)]
    | None => []
    end.
  Proof.
    intros Nc Nt.
    assert (H : forall g b, In (g, b) (named acts) -> String.prefix (String "-" (String c t)) g = false).
    { intros g b I. apply (find_named K) in I. destruct (String.prefix _ g) eqn:P; [|reflexivity].
      apply prefix_app in P as (r & ->). destruct (flag_cases K _ _ I) as [(d & X & _)|(d & q & X)]; cbn in X.
      - injection X as -> X. destruct t; [congruence|discriminate].
      - injection X as X _. congruence. }
    transitivity (map (fun fa : string * action => (fst fa, snd fa, e)) (filter (fun fa => String.eqb (fst fa) (String "-" (String c ""))) (named acts))).
    - revert H. generalize (named acts). intros l H. induction l as [|[g b] l IH]; [reflexivity|]. cbn [flat_map filter fst snd].
      destruct (String.eqb g _) eqn:E.
      + cbn [map app fst snd]. f_equal. apply IH. intros g2 b2 I. apply (H g2 b2). now right.
      + rewrite (H g b ltac:(now left)). cbn [app]. apply IH. intros g2 b2 I. apply (H g2 b2). now right.
    - destruct (find_flag acts _) as [a|] eqn:F.
      + assert (U : filter (fun fa => (fun g => String.eqb g (String "-" (String c ""))) (fst fa)) (named acts) = [(String "-" (String c ""), a)]).
        { apply (filter_unique K (fun g => String.eqb g (String "-" (String c "")))). split; [exact F|]. intros g _. apply String.eqb_eq. }
        cbv beta in U. rewrite U. reflexivity.
      + assert (U : filter (fun fa => (fun g => String.eqb g (String "-" (String c ""))) (fst fa)) (named acts) = []).
        { apply (filter_empty K (fun g => String.eqb g (String "-" (String c "")))). intros g G. apply String.eqb_neq. intros ->.
          apply G. now apply (find_none K). }
        cbv beta in U. rewrite U. reflexivity.
  Qed.

  Lemma tuples_none c t (e : option explicit) :
    c <> "-"%char -> find_flag acts (String "-" (String c "")) = None ->
    flat_map (fun fa : string * action => if String.eqb (fst fa) (String "-" (String c "")) then [(fst fa, snd fa, e)]
                       else if String.prefix (String "-" (String c t)) (fst fa) then [(fst fa, snd fa, None)] else []) (named acts) = [].
  Proof.
    intros Nc N.
    assert (H : forall g b, In (g, b) (named acts) -> String.eqb g (String "-" (String c "")) = false /\ String.prefix (String "-" (String c t)) g = false).
    { intros g b I. apply (find_named K) in I. assert (Ng : g <> String "-" (String c "")) by congruence.
      split; [now apply String.eqb_neq|]. destruct (String.prefix _ g) eqn:P; [|reflexivity].
      apply prefix_app in P as (r & ->). destruct (flag_cases K _ _ I) as [(d & X & _)|(d & q & X)]; cbn in X.
      - injection X as -> X. cbn in Ng. rewrite X in Ng. congruence.
      - injection X as X _. congruence. }
    revert H. generalize (named acts). intros l H. induction l as [|[g b] l IH]; [reflexivity|]. cbn [flat_map fst snd].
    destruct (H g b ltac:(now left)) as [-> ->]. cbn [app]. apply IH. intros g2 b2 I. apply (H g2 b2). now right.
  Qed.

  Lemma abbr_shape w f : dget String.eqb table f <> None -> (String.prefix w f = true) -> no_eq w.
  Proof.
    intros F P. destruct (find_flag acts f) as [a|] eqn:E; [|exfalso; apply F; now apply (find_none K)].
    apply (flag_no_eq K) in E. apply prefix_app in P as (r & ->). intros I. apply E. rewrite list_app_s. apply in_or_app. now left.
  Qed.

  Lemma po_abbr w f a : dget String.eqb table w = None -> String.prefix "--" w = true ->
    find_flag acts f = Some a ->
    (forall g, dget String.eqb table g <> None -> (String.prefix w g = true <-> g = f)) ->
    parse_optional acts w = Ok (WOption a f None) /\
    forall v, parse_optional acts (w ++ "=" ++ v) = Ok (WOption a f (Some {| e_sep := true; e_text := v |})).
  Proof.
    intros N P F U. assert (Ff : dget String.eqb table f <> None) by (intros X; apply (find_none K) in X; congruence).
    assert (NE : no_eq w) by (apply (abbr_shape w f Ff); now apply U).
    apply (find_none K) in N. pose proof P as P2. apply prefix_app in P2 as (r & E). split.
    - pose proof (proj2 (tuples_long w None f a None) (conj eq_refl (conj F U))) as T.
      apply partition_none in NE. rewrite E in *. cbn [append] in *. unfold parse_optional. rewrite N, NE. cbn [Ascii.eqb negb String.eqb Bool.eqb].
      rewrite T. reflexivity.
    - intros v. pose proof (proj2 (tuples_long w (Some {| e_sep := true; e_text := v |}) f a _) (conj eq_refl (conj F U))) as T.
      pose proof (not_flag_eq w v) as N2.
      assert (PE : partition_eq (w ++ "=" ++ v) = Some (w, v)) by (apply partition_some; auto).
      cbn [append] in *. rewrite E in *. cbn [append] in *. unfold parse_optional. rewrite N2, PE, N. cbn [Ascii.eqb negb String.eqb Bool.eqb].
      rewrite T. reflexivity.
  Qed.

  Lemma po_short c d t a : find_flag acts (String "-" (String c "")) = Some a -> d <> "="%char ->
    parse_optional acts (String "-" (String c (String d t))) =
    Ok (WOption a (String "-" (String c "")) (Some {| e_sep := false; e_text := String d t |})).
  Proof.
    intros F Nd. assert (Nc : c <> "-"%char).
    { destruct (flag_cases K _ _ F) as [(x & X & N)|(x & q & X)]; [injection X as ->; exact N|discriminate]. }
    assert (Ne : c <> "="%char).
    { intros ->. apply (flag_no_eq K) in F. apply F. right. now left. }
    assert (N : forall q, find_flag acts (String "-" (String c (String d q))) = None).
    { intros q. destruct (find_flag acts (String "-" (String c (String d q)))) as [b|] eqn:G; [|reflexivity].
      destruct (flag_cases K _ _ G) as [(x & X & _)|(x & y & X)]; [discriminate|]. injection X as X _. congruence. }
    pose proof (tuples_short c (String d t) (Some {| e_sep := false; e_text := String d t |}) Nc ltac:(discriminate)) as T.
    rewrite F in T. pose proof Nc as Nc2. apply Ascii.eqb_neq in Nc2.
    unfold parse_optional. rewrite N. cbn [negb String.eqb]. replace (Ascii.eqb "-" "-") with true by reflexivity. cbn [negb].
    rewrite Nc2, T.
    destruct (partition_eq (String "-" (String c (String d t)))) as [[p v]|] eqn:PE; [|reflexivity].
    apply partition_some in PE as [E _]. destruct p as [|p0 p]; [discriminate|]. cbn in E. injection E as <- E.
    destruct p as [|p1 p]; [cbn in E; injection E as E; congruence|]. cbn in E. injection E as <- E.
    destruct p as [|p2 p]; [cbn in E; injection E as E; congruence|]. cbn in E. injection E as <- E.
    now rewrite N.
  Qed.

  (** nothing in the table resembles the word *)
  Lemma po_none c t :
    (forall f, dget String.eqb table f <> None -> ~ resembles (String "-" (String c t)) f) ->
    parse_optional acts (String "-" (String c t)) =
    if (negative_number (String "-" (String c t)) || has_char " " (String "-" (String c t)))%bool then Ok WValue else Ok WUnknown.
  Proof.
    set (w := String "-" (String c t)). intros R.
    assert (N : find_flag acts w = None).
    { apply (find_none K). destruct (dget String.eqb table w) eqn:D; [|reflexivity]. exfalso. apply (R w ltac:(congruence)).
      exists w, "". split; [now rewrite app_nil_s|]. left. auto. }
    assert (N2 : forall p v, w = (p ++ String "=" v)%string -> find_flag acts p = None).
    { intros p v E. apply (find_none K). destruct (dget String.eqb table p) eqn:D; [|reflexivity]. exfalso. apply (R p ltac:(congruence)).
      exists p, (String "=" v). split; [exact E|]. left. eauto. }
    assert (T : (if Ascii.eqb c "-" then
                   let '(p, e) := match partition_eq w with
                                  | Some (p, e) => (p, Some {| e_sep := true; e_text := e |})
                                  | None => (w, None)
                                  end in
                   map (fun fa : string * action => (fst fa, snd fa, e)) (filter (fun fa => String.prefix p (fst fa)) (named acts))
                 else flat_map (fun fa : string * action => if String.eqb (fst fa) (String "-" (String c "")) then [(fst fa, snd fa, Some {| e_sep := false; e_text := t |})]
                       else if String.prefix w (fst fa) then [(fst fa, snd fa, None)] else []) (named acts)) = []).
    { destruct (Ascii.eqb_spec c "-") as [->|Nc].
      - destruct (partition_eq w) as [[p v]|] eqn:PE.
        + apply partition_some in PE as [E NE]. rewrite (proj2 (filter_empty K (String.prefix p))); [reflexivity|].
          intros g G. destruct (String.prefix p g) eqn:P; [|reflexivity]. exfalso. apply (R g G). exists p, (String "=" v).
          split; [exact E|]. right. left. split; [exact NE|]. split; [eauto|]. split; [|exact P].
          destruct p as [|p0 [|p1 p]]; cbn in E; [discriminate|injection E as _ E; discriminate|]. injection E as <- <- _. now apply prefix_app; eexists.
        + apply partition_none in PE. rewrite (proj2 (filter_empty K (String.prefix w))); [reflexivity|].
          intros g G. destruct (String.prefix w g) eqn:P; [|reflexivity]. exfalso. apply (R g G). exists w, "".
          split; [now rewrite app_nil_s|]. right. left. split; [exact PE|]. split; [auto|]. split; [|exact P]. now apply prefix_app; eexists.
      - assert (X : flat_map (fun fa : string * action => if String.eqb (fst fa) (String "-" (String c "")) then [(fst fa, snd fa, Some {| e_sep := false; e_text := t |})]
                       else if String.prefix w (fst fa) then [(fst fa, snd fa, None)] else []) (named acts) = []).
        { assert (S2 : find_flag acts (String "-" (String c "")) = None).
          { apply (find_none K). destruct (dget String.eqb table (String "-" (String c ""))) eqn:D; [|reflexivity]. exfalso.
            apply (R (String "-" (String c "")) ltac:(congruence)). exists (String "-" (String c "")), t.
            split; [reflexivity|]. right. right. auto. }
          exact (tuples_none c t _ Nc S2). }
        exact X. }
    unfold parse_optional. fold w. unfold w at 1. cbn [negb]. replace (Ascii.eqb "-" "-") with true by reflexivity. cbn [negb].
    rewrite N. replace (String.eqb (String c t) "") with false by reflexivity. cbv zeta.
    rewrite T.
    destruct (partition_eq w) as [[p v]|] eqn:PE; [|reflexivity].
    apply partition_some in PE as [E _]. now rewrite (N2 p v E).
  Qed.

  Lemma po_value w : value_word table w -> parse_optional acts w = Ok WValue.
  Proof.
    intros [H|[->|(Nd & M & R)]].
    - destruct w as [|c r]; [reflexivity|]. unfold parse_optional. destruct (Ascii.eqb_spec c "-") as [->|N]; [now destruct (H r)|reflexivity].
    - unfold parse_optional. cbn [negb]. replace (Ascii.eqb "-" "-") with true by reflexivity. cbn [negb].
      destruct (find_flag acts "-") as [a|] eqn:F; [|reflexivity].
      destruct (flag_dash _ _ F) as (c & r & X). discriminate.
    - destruct w as [|c0 r]; [reflexivity|]. destruct (Ascii.eqb_spec c0 "-") as [->|N].
      2: { unfold parse_optional. now apply Ascii.eqb_neq in N as ->. }
      destruct r as [|c t].
      { unfold parse_optional. replace (Ascii.eqb "-" "-") with true by reflexivity. cbn [negb].
        destruct (find_flag acts "-") as [a|] eqn:F; [|reflexivity]. destruct (flag_dash _ _ F) as (c & r & X). discriminate. }
      rewrite (po_none c t R).
      assert (X : (negative_number (String "-" (String c t)) || has_char " " (String "-" (String c t)))%bool = true).
      { apply orb_true_iff. destruct M as [M|M]; [left; now apply minus_spec|right; now apply has_char_In]. }
      now rewrite X.
  Qed.

  (** ** What a word was *)

  Lemma po_option s a f e : parse_optional acts s = Ok (WOption a f e) ->
    find_flag acts f = Some a /\
    ((e = None /\ stands_for table s f) \/
     (exists p v, e = Some {| e_sep := true; e_text := v |} /\ s = (p ++ "=" ++ v)%string /\ no_eq p /\ stands_for table p f) \/
     (exists c d t, e = Some {| e_sep := false; e_text := String d t |} /\ d <> "="%char /\ c <> "-"%char /\ f = String "-" (String c "") /\
        s = String "-" (String c (String d t)))).
  Proof.
    destruct s as [|c0 r]; [discriminate|]. unfold parse_optional.
    destruct (Ascii.eqb_spec c0 "-") as [->|N0]; cbn [negb]; [|discriminate].
    destruct (find_flag acts (String "-" r)) as [b|] eqn:F.
    { intros H. injection H as <- <- <-. split; [exact F|]. left. split; [reflexivity|]. split; [|auto].
      rewrite (find_row K), F. discriminate. }
    destruct r as [|c t]; [discriminate|]. replace (String.eqb (String c t) "") with false by reflexivity. cbv zeta.
    set (s := String "-" (String c t)) in *.
    assert (O : forall x, match (if Ascii.eqb c "-" then
          (let '(p, e0) := match partition_eq s with
                           | Some (p, e0) => (p, Some {| e_sep := true; e_text := e0 |})
                           | None => (s, None)
                           end in
           map (fun fa : string * action => (fst fa, snd fa, e0)) (filter (fun fa => String.prefix p (fst fa)) (named acts)))
        else flat_map (fun fa : string * action =>
                if String.eqb (fst fa) (String "-" (String c "")) then [(fst fa, snd fa, Some {| e_sep := false; e_text := t |})]
                else if String.prefix s (fst fa) then [(fst fa, snd fa, None)] else []) (named acts)) with
         | [] => if (negative_number s || has_char " " s)%bool then Ok WValue else Ok WUnknown
         | [(f0, a0, e0)] => Ok (WOption a0 f0 e0)
         | _ => Err SystemExit
         end = Ok (WOption a f e) ->
       (forall p v, partition_eq s = Some (p, v) -> find_flag acts p = None) -> x = tt ->
       find_flag acts f = Some a /\
       ((e = None /\ stands_for table s f) \/
        (exists p v, e = Some {| e_sep := true; e_text := v |} /\ s = (p ++ "=" ++ v)%string /\ no_eq p /\ stands_for table p f) \/
        (exists c d t, e = Some {| e_sep := false; e_text := String d t |} /\ d <> "="%char /\ c <> "-"%char /\ f = String "-" (String c "") /\
           s = String "-" (String c (String d t))))).
    { intros _ H NP _. destruct (Ascii.eqb_spec c "-") as [->|Nc].
      - destruct (partition_eq s) as [[p v]|] eqn:PE.
        + destruct (map _ _) as [|[[f0 a0] e0] [|y l]] eqn:T; [destruct (_ || _)%bool; discriminate| |discriminate].
          injection H as -> -> ->. apply tuples_long in T as (-> & Fa & U). split; [exact Fa|]. right. left. exists p, v.
          pose proof (NP p v eq_refl) as NF. apply partition_some in PE as [E NE].
          split; [reflexivity|]. split; [exact E|]. split; [exact NE|].
          split; [rewrite (find_row K), Fa; discriminate|]. right. split; [now apply (find_none K)|]. split; [|exact U].
          unfold s in E. destruct p as [|p0 [|p1 p]]; cbn in E; [discriminate|injection E as _ E; discriminate|].
          injection E as <- <- _. apply prefix_app. eexists. reflexivity.
        + destruct (map _ _) as [|[[f0 a0] e0] [|y l]] eqn:T; [destruct (_ || _)%bool; discriminate| |discriminate].
          injection H as -> -> ->. apply tuples_long in T as (-> & Fa & U). split; [exact Fa|]. left. split; [reflexivity|].
          split; [rewrite (find_row K), Fa; discriminate|]. right. split; [now apply (find_none K)|]. split; [|exact U].
          apply prefix_app. eexists. reflexivity.
      - assert (Nt : t <> "" \/ t = "") by (destruct t; [right; reflexivity|left; discriminate]). destruct Nt as [Nt|Et].
        + unfold s in H. rewrite (tuples_short c t _ Nc Nt) in H. fold s in H.
          destruct (find_flag acts (String "-" (String c ""))) as [b|] eqn:Fb; [|destruct (_ || _)%bool; discriminate].
          injection H as <- <- <-. split; [exact Fb|]. right. right. destruct t as [|d t]; [congruence|]. exists c, d, t.
          split; [reflexivity|]. split; [|auto]. intros ->.
          assert (PE : partition_eq s = Some (String "-" (String c ""), t)).
          { apply partition_some. split; [reflexivity|]. exact (flag_no_eq K _ _ Fb). }
          rewrite (NP _ _ PE) in Fb. discriminate.
        + subst t. exfalso. unfold s in H. rewrite (tuples_none c "" _ Nc F) in H. destruct (_ || _)%bool; discriminate. }
    destruct (partition_eq s) as [[p v]|] eqn:PE.
    - destruct (find_flag acts p) as [b|] eqn:Fp.
      + intros H. injection H as <- <- <-. split; [exact Fp|]. right. left. exists p, v. apply partition_some in PE as [E NE].
        split; [reflexivity|]. split; [exact E|]. split; [exact NE|]. split; [rewrite (find_row K), Fp; discriminate|auto].
      + intros H. apply (O tt H); [|reflexivity]. intros p2 v2 X. injection X as <- <-. exact Fp.
    - intros H. apply (O tt H); [|reflexivity]. intros p2 v2 X. discriminate.
  Qed.

  Lemma po_is_value w : w <> "--" -> parse_optional acts w = Ok WValue -> value_word table w.
  Proof.
    intros Nd H. destruct w as [|c0 r]; [left; discriminate|].
    destruct (Ascii.eqb_spec c0 "-") as [->|N0]; [|left; intros q X; injection X as X _; congruence].
    destruct r as [|c t]; [right; now left|]. right. right. split; [exact Nd|].
    assert (R : forall f, dget String.eqb table f <> None -> ~ resembles (String "-" (String c t)) f).
    { intros f Ff R. destruct (find_flag acts f) as [a|] eqn:F; [|apply Ff; now apply (find_none K)].
      destruct R as (p & r & E & [(-> & [->|(v & ->)])|[(NE & Er & P & Pf)|(-> & L)]]).
      - rewrite app_nil_s in E. rewrite E, (po_exact _ _ F) in H. discriminate.
      - rewrite E in H. pose proof (po_equal f a v F) as X. cbn [append] in X. congruence.
      - (* an abbreviation: the tuples are not empty *)
        unfold parse_optional in H. replace (Ascii.eqb "-" "-") with true in H by reflexivity. cbn [negb] in H.
        destruct (find_flag acts (String "-" (String c t))) eqn:Fw; [discriminate|].
        replace (String.eqb (String c t) "") with false in H by reflexivity. cbv zeta in H.
        assert (c = "-"%char) as ->.
        { apply prefix_app in P as (q & ->). cbn in E. now injection E as ->. }
        replace (Ascii.eqb "-" "-") with true in H by reflexivity.
        assert (I : In (f, a) (filter (fun fa => String.prefix p (fst fa)) (named acts))).
        { apply filter_In. split; [now apply (find_named K)|exact Pf]. }
        destruct Er as [->|(v & ->)].
        + rewrite app_nil_s in E. subst p. apply partition_none in NE. rewrite NE in H.
          destruct (filter _ _) as [|[f1 a1] [|y l]]; [destruct I|cbn in H; discriminate|cbn in H; discriminate].
        + assert (PE : partition_eq (String "-" (String "-" t)) = Some (p, v)) by (apply partition_some; auto).
          rewrite PE in H. destruct (find_flag acts p); [discriminate|].
          destruct (filter _ _) as [|[f1 a1] [|y l]]; [destruct I|cbn in H; discriminate|cbn in H; discriminate].
      - destruct (flag_cases K _ _ F) as [(d & -> & Nc)|(d & q & ->)]; [|discriminate]. cbn in E. injection E as -> ->.
        destruct r as [|x r]; [rewrite (po_exact _ _ F) in H; discriminate|].
        destruct (Ascii.eqb_spec x "=") as [->|Nx].
        + pose proof (po_equal _ _ r F) as X. cbn [append] in X. congruence.
        + rewrite (po_short _ _ r _ F Nx) in H. discriminate. }
    split; [|exact R]. rewrite (po_none c t R) in H.
    destruct (negative_number _) eqn:M; [left; now apply minus_spec|]. cbn [orb] in H.
    destruct (has_char " " _) eqn:M2; [right; now apply has_char_In|discriminate].
  Qed.
End Known.
