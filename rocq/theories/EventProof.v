(** Lemmas about station names, arrivals and picks. *)
From Coq Require Import String Ascii List Bool Arith ZArith Lia.
From Verif Require Import Base PyStr SiteModel EventModel EventSpec.
Import ListNotations.
Open Scope string_scope.
Open Scope list_scope.

Lemma dot_free_has s : dot_free s <-> has_char "." s = false.
Proof.
  unfold dot_free. split.
  - intros H. destruct (has_char "." s) eqn:E; auto. exfalso.
    induction s as [|c s IH]; [discriminate|]. cbn in E.
    destruct (Ascii.eqb c ".") eqn:C.
    + apply Ascii.eqb_eq in C. subst c. now apply (H "" s).
    + apply IH; [|exact E]. intros a b ->. now apply (H (String c a) b).
  - intros H a b ->. rewrite has_char_app in H. apply orb_false_iff in H.
    destruct H as [_ H]. discriminate.
Qed.

Lemma split_seed n s l c :
  dot_free n -> dot_free s -> dot_free l -> dot_free c ->
  split_on "." (seed n s l c) = [n; s; l; c].
Proof.
  rewrite !dot_free_has. intros N S L C. unfold seed.
  change ("." ++ s ++ "." ++ l ++ "." ++ c)%string
    with (String "." (s ++ String "." (l ++ String "." c))).
  rewrite !split_app_sep by auto. now rewrite split_free.
Qed.

Lemma prefix_dot_free n : n <> "" -> has_char "." n = false ->
  forall r, String.prefix "." (n ++ r) = false.
Proof.
  intros N H r. destruct n as [|a n]; [congruence|].
  destruct (String.prefix "." (String a n ++ r)) eqn:E; auto.
  apply prefix_spec in E. destruct E as (q & E). cbn in E. injection E as -> _.
  discriminate.
Qed.

(** C39: the name *)
Lemma station_name n s l c :
  dot_free n -> dot_free s -> dot_free l -> dot_free c ->
  get_station (seed n s l c) = if String.eqb n "" then s else (n ++ "." ++ s)%string.
Proof.
  intros N S L C. unfold get_station, rsplit2_head. rewrite split_seed by auto.
  cbn [List.length Nat.sub Nat.min firstn join].
  destruct (String.eqb n "") eqn:E.
  - apply String.eqb_eq in E. subst n.
    assert (P : String.prefix "." ("" ++ "." ++ s) = true) by (apply prefix_spec; now exists s).
    rewrite P. reflexivity.
  - apply String.eqb_neq in E. apply dot_free_has in N.
    now rewrite prefix_dot_free.
Qed.

(** C39: different stations, different names *)
Lemma station_name_inj n s l c n' s' l' c' :
  dot_free n -> dot_free s -> dot_free l -> dot_free c ->
  dot_free n' -> dot_free s' -> dot_free l' -> dot_free c' ->
  (get_station (seed n s l c) = get_station (seed n' s' l' c') <->
   n = n' /\ s = s').
Proof.
  intros N S L C N' S' L' C'. rewrite !station_name by auto. split.
  - intros E. rewrite dot_free_has in N, S, N', S'.
    assert (SPL : forall a b, has_char "." a = false -> has_char "." b = false ->
                  split_on "." (a ++ "." ++ b)%string = [a; b]).
    { intros a b A B. change ("." ++ b)%string with (String "." b).
      rewrite split_app_sep by auto. now rewrite split_free. }
    apply (f_equal (split_on ".")) in E.
    destruct (String.eqb n "") eqn:E1; destruct (String.eqb n' "") eqn:E2;
      rewrite ?SPL in E by auto; rewrite ?split_free in E by auto.
    + apply String.eqb_eq in E1. apply String.eqb_eq in E2. split; congruence.
    + discriminate.
    + discriminate.
    + split; congruence.
  - now intros [-> ->].
Qed.

(** C39: with the network ignored *)
Lemma after_dot_app n s : has_char "." n = false -> after_dot (n ++ String "." s)%string = Ok s.
Proof.
  induction n as [|a n IH]; cbn; auto. intros H. apply orb_false_iff in H.
  destruct H as [H1 H2]. now rewrite H1, IH.
Qed.

Lemma ignored_agree n s l c :
  n <> "" ->
  dot_free n -> dot_free s -> dot_free l -> dot_free c ->
  after_dot (get_station (seed n s l c)) = Ok (get_station (seed "" s l c)).
Proof.
  intros NE N S L C.
  rewrite !station_name; auto; [|apply dot_free_has; reflexivity].
  apply String.eqb_neq in NE. rewrite NE, String.eqb_refl.
  change ("." ++ s)%string with (String "." s).
  apply after_dot_app. now apply dot_free_has.
Qed.

Lemma fromkeys_in x l : In x (fromkeys l) <-> In x l.
Proof.
  unfold fromkeys, dkeys, dict_of.
  assert (G : forall d : list (string * unit),
             In x (map fst (dupdate String.eqb d (map (fun k => (k, tt)) l)))
             <-> In x (map fst d) \/ In x l).
  { induction l as [|k l IH]; intros d; [cbn; tauto|].
    change (dupdate String.eqb d (map (fun k => (k, tt)) (k :: l)))
      with (dupdate String.eqb (dset String.eqb d k tt) (map (fun k => (k, tt)) l)).
    rewrite IH, (dset_in_keys String.eqb string_eqb_spec). cbn. intuition. }
  rewrite G. cbn. tauto.
Qed.

Lemma fromkeys_nodup l : NoDup (fromkeys l).
Proof.
  unfold fromkeys, dkeys, dict_of.
  apply (dupdate_nodup String.eqb string_eqb_spec). constructor.
Qed.

(** the names of all stations after dropping the network codes are exactly the
    names of the traces after dropping theirs *)
Lemma ignored_names_ok (ids : list (string * string * string * string)) :
  (forall n s l c, In (n, s, l, c) ids ->
     n <> "" /\ dot_free n /\ dot_free s /\ dot_free l /\ dot_free c) ->
  exists names,
    ignore_network (map (fun i => let '(n, s, l, c) := i in
                                  get_station (seed n s l c)) ids) = Ok names /\
    NoDup names /\
    forall x, In x names <->
      exists n s l c, In (n, s, l, c) ids /\ x = get_station (seed "" s l c).
Proof.
  intros H. unfold ignore_network.
  assert (M : mapM after_dot (map (fun i => let '(n, s, l, c) := i in
                                  get_station (seed n s l c)) ids)
            = Ok (map (fun i => let '(n, s, l, c) := i in
                                  get_station (seed "" s l c)) ids)).
  { induction ids as [|[[[n s] l] c] ids IH]; [reflexivity|].
    cbn [map mapM]. destruct (H n s l c (or_introl eq_refl)) as (A & B & C & D & E).
    rewrite ignored_agree by auto. cbn [bind].
    rewrite IH; [reflexivity|]. intros; apply H; now right. }
  rewrite M. cbn [bind]. eexists. split; [reflexivity|].
  split; [apply fromkeys_nodup|]. intros x. rewrite fromkeys_in, in_map_iff. split.
  - intros ([[[n s] l] c] & <- & I). eauto 6.
  - intros (n & s & l & c & I & ->). now exists (n, s, l, c).
Qed.

(** C39: a station without network code stops the inversion *)
Lemma ignored_empty_network s l c :
  dot_free s -> dot_free l -> dot_free c ->
  after_dot (get_station (seed "" s l c)) = Err IndexError.
Proof.
  intros S L C. rewrite station_name; auto; [|apply dot_free_has; reflexivity].
  cbn [String.eqb]. apply dot_free_has in S. clear - S.
  induction s as [|a s IH]; auto. cbn in S |- *. apply orb_false_iff in S.
  destruct S as [A B]. now rewrite A, IH.
Qed.

(** C40 *)
Lemma ltb_len {A} (l : list A) : Nat.ltb 0 (List.length l) = true <-> l <> [].
Proof. destruct l; cbn; split; congruence || discriminate || auto. Qed.

Lemma ltb_len_f {A} (l : list A) : Nat.ltb 0 (List.length l) = false <-> l = [].
Proof. destruct l; cbn; split; congruence || discriminate || auto. Qed.

Lemma arrivals_preferred ev o :
  preferred ev = Some o -> o <> [] -> get_arrivals ev = Ok (Some o).
Proof.
  intros P N. unfold get_arrivals, origin_arrivals. rewrite P. cbn [bind].
  apply ltb_len in N. now rewrite N.
Qed.

Lemma arrivals_first ev o os :
  preferred ev = None \/ preferred ev = Some [] ->
  origins ev = o :: os -> o <> [] -> get_arrivals ev = Ok (Some o).
Proof.
  intros P O N. unfold get_arrivals, origin_arrivals.
  apply ltb_len in N. destruct P as [P|P]; rewrite P, O; cbn [bind].
  - now rewrite N.
  - change (Nat.ltb 0 (List.length (@nil arrival))) with false. cbv iota. now rewrite N.
Qed.

Lemma arrivals_rest ev os :
  preferred ev = None \/ preferred ev = Some [] ->
  origins ev = [] :: os ->
  get_arrivals ev =
    match filter (fun o => Nat.ltb 0 (List.length o)) os with
    | [o] => Ok (Some o)
    | _ => Ok None
    end.
Proof.
  intros P O. unfold get_arrivals, origin_arrivals.
  destruct P as [P|P]; rewrite P, O; cbn [bind List.length Nat.ltb Nat.leb filter];
    (destruct (filter _ os) as [|o [|o' l]]; reflexivity).
Qed.

Lemma filter_none {A} (f : A -> bool) l : (forall x, In x l -> f x = false) -> filter f l = [].
Proof.
  induction l as [|a l IH]; intros H; auto. cbn. rewrite (H a) by now left.
  apply IH. intros; apply H; now right.
Qed.

Lemma arrivals_only ev os1 o os2 :
  preferred ev = None \/ preferred ev = Some [] ->
  origins ev = [] :: os1 ++ o :: os2 -> o <> [] ->
  (forall x, In x (os1 ++ os2) -> x = []) ->
  get_arrivals ev = Ok (Some o).
Proof.
  intros P O N E. rewrite (arrivals_rest ev _ P O).
  rewrite filter_app. apply ltb_len in N.
  cbn [filter]. cbv beta. rewrite N.
  rewrite !filter_none; [reflexivity| |];
    intros x Hx; apply ltb_len_f; apply E; apply in_or_app; auto.
Qed.

Lemma arrivals_none ev os :
  preferred ev = None \/ preferred ev = Some [] ->
  origins ev = [] :: os ->
  (get_arrivals ev = Ok None <->
   (forall x, In x os -> x = []) \/
   (exists l1 a l2 b l3, os = l1 ++ a :: l2 ++ b :: l3 /\ a <> [] /\ b <> [])).
Proof.
  intros P O. rewrite (arrivals_rest ev _ P O).
  set (f := fun o : list arrival => Nat.ltb 0 (List.length o)).
  assert (FI : forall l, filter f l = [] <-> forall x, In x l -> x = []).
  { intros l. split.
    - intros E x Hx. apply ltb_len_f. destruct (Nat.ltb 0 (List.length x)) eqn:Q; auto.
      assert (In x (filter f l)) by (apply filter_In; auto). rewrite E in H. destruct H.
    - intros H. apply filter_none. intros x Hx. apply ltb_len_f. auto. }
  assert (SP : forall l a r, filter f l = a :: r ->
            exists l1 l2, l = l1 ++ a :: l2 /\ a <> [] /\ filter f l2 = r).
  { induction l as [|x l IH]; intros a r E; [discriminate|].
    change (filter f (x :: l)) with (if f x then x :: filter f l else filter f l) in E.
    destruct (f x) eqn:Fx.
    - injection E as -> <-. exists [], l. repeat split; auto. now apply ltb_len.
    - destruct (IH _ _ E) as (l1 & l2 & -> & A & B). exists (x :: l1), l2. auto. }
  destruct (filter f os) as [|a [|b r]] eqn:E.
  - split; auto. intros _. left. now apply FI.
  - split; [discriminate|]. intros [H|(l1 & x & l2 & y & l3 & -> & X & Y)].
    + apply FI in H. congruence.
    + apply (f_equal (@List.length _)) in E.
      rewrite filter_app in E. cbn [filter] in E. rewrite filter_app in E. cbn [filter] in E.
      apply ltb_len in X. apply ltb_len in Y.
      change (Nat.ltb 0 (List.length x)) with (f x) in X.
      change (Nat.ltb 0 (List.length y)) with (f y) in Y. rewrite X, Y in E.
      rewrite app_length in E. cbn [List.length] in E. rewrite app_length in E.
      cbn [List.length] in E. lia.
  - split; auto. intros _. right.
    destruct (SP _ _ _ E) as (l1 & l2 & -> & A & E2).
    destruct (SP _ _ _ E2) as (l3 & l4 & -> & B & _).
    exists l1, a, l3, b, l4. auto.
Qed.

(** without any origin there is nothing to return *)
Lemma arrivals_raise ev :
  (exists e, get_arrivals ev = Err e) <->
  origins ev = [] /\ (preferred ev = None \/ preferred ev = Some []).
Proof.
  unfold get_arrivals, origin_arrivals.
  destruct (preferred ev) as [[|p pl]|]; destruct (origins ev) as [|[|o ol] os];
    cbn [bind List.length Nat.ltb Nat.leb filter];
    repeat match goal with |- context [if ?b then _ else _] => destruct b end;
    (split; [intros (e & E); try discriminate; auto
            |intros [A B]; try discriminate; try (destruct B; discriminate); eauto]).
Qed.

(** C41 *)
Lemma upper_cases ph :
  substr ph "PS" = true -> ph = "" \/ ph = "P" \/ ph = "S" \/ ph = "PS".
Proof.
  cbn [substr]. rewrite !orb_true_iff. intros [H|[H|[H|H]]]; [..|discriminate];
    apply prefix_spec in H; destruct H as (r & H).
  - destruct ph as [|a [|b [|c ph]]]; cbn in H; auto; injection H; intros; subst; auto; discriminate.
  - destruct ph as [|a [|b ph]]; cbn in H; auto; injection H; intros; subst; auto; discriminate.
  - destruct ph as [|a ph]; auto; discriminate.
Qed.

(** the letters of P, S and G *)
Lemma upper_p a : upper_ascii a = "P"%char <-> a = "P"%char \/ a = "p"%char.
Proof. destruct a as [[] [] [] [] [] [] [] []]; vm_compute; intuition discriminate. Qed.

Lemma upper_s a : upper_ascii a = "S"%char <-> a = "S"%char \/ a = "s"%char.
Proof. destruct a as [[] [] [] [] [] [] [] []]; vm_compute; intuition discriminate. Qed.

Lemma upper_g a : upper_ascii a = "G"%char <-> a = "G"%char \/ a = "g"%char.
Proof. destruct a as [[] [] [] [] [] [] [] []]; vm_compute; intuition discriminate. Qed.

Lemma upper_one s c : py_upper s = String c "" <-> exists a, s = String a "" /\ upper_ascii a = c.
Proof.
  destruct s as [|a [|b s]]; cbn; split; try discriminate.
  - intros (a & H & _). discriminate.
  - intros [= E]. eauto.
  - intros (a' & [= ->] & ->). reflexivity.
  - intros (a' & H & _). discriminate.
Qed.

Lemma upper_two s c d :
  py_upper s = String c (String d "") <-> exists a b, s = String a (String b "") /\ upper_ascii a = c /\ upper_ascii b = d.
Proof.
  destruct s as [|a [|b [|x s]]]; cbn; split; try discriminate; try (intros (a' & b' & H & _); discriminate).
  - intros [= E1 E2]. eauto 6.
  - intros (a' & b' & [= -> ->] & -> & ->). reflexivity.
Qed.

Lemma names_onset_upper onset ph :
  onset = "P" \/ onset = "S" ->
  names_onset onset ph = (String.eqb (py_upper ph) onset || String.eqb (py_upper ph) (onset ++ "G"))%bool.
Proof.
  intros O. apply eq_true_iff_eq. unfold names_onset. rewrite existsb_exists, orb_true_iff, !String.eqb_eq.
  destruct O as [->| ->]; cbn [String.eqb Ascii.eqb Bool.eqb append]; rewrite upper_one, upper_two; split.
  - intros (x & I & E). apply String.eqb_eq in E. subst x. cbn in I.
    intuition subst; solve [left; eexists; split; reflexivity | right; do 2 eexists; repeat split; reflexivity].
  - intros [(a & -> & U)|(a & b & -> & U & V)].
    + apply upper_p in U. eexists; split; [|apply String.eqb_refl]. cbn. intuition subst; auto.
    + apply upper_p in U. apply upper_g in V. eexists; split; [|apply String.eqb_refl]. cbn. intuition subst; auto 8.
  - intros (x & I & E). apply String.eqb_eq in E. subst x. cbn in I.
    intuition subst; solve [left; eexists; split; reflexivity | right; do 2 eexists; repeat split; reflexivity].
  - intros [(a & -> & U)|(a & b & -> & U & V)].
    + apply upper_s in U. eexists; split; [|apply String.eqb_refl]. cbn. intuition subst; auto.
    + apply upper_s in U. apply upper_g in V. eexists; split; [|apply String.eqb_refl]. cbn. intuition subst; auto 8.
Qed.

(** the phase names that are looked at without being onsets *)
Lemma odd_phases ph : In ph [""; "PS"; "Ps"; "pS"; "ps"] <-> py_upper ph = "" \/ py_upper ph = "PS".
Proof.
  rewrite upper_two. split.
  - cbn. intros H. intuition subst; solve [left; reflexivity | right; do 2 eexists; repeat split; reflexivity].
  - intros [E|(a & b & -> & U & V)].
    + destruct ph; [now left|discriminate].
    + apply upper_p in U. apply upper_s in V. cbn. intuition subst; auto 8.
Qed.

(** the key under which an arrival is stored *)
Definition pick_key (a : arrival) : string :=
  let ph := py_upper (phase a) in
  if inb String.eqb ph ["PG"; "SG"] then substring 0 1 ph else ph.

Lemma pick_key_onset a onset :
  onset = "P" \/ onset = "S" ->
  (pick_key a = onset <-> names_onset onset (phase a) = true).
Proof.
  intros O. rewrite (names_onset_upper _ _ O). unfold pick_key.
  set (u := py_upper (phase a)). rewrite orb_true_iff, !String.eqb_eq.
  destruct (inb String.eqb u ["PG"; "SG"]) eqn:E.
  - apply (inb_In String.eqb string_eqb_spec) in E. cbn in E.
    destruct E as [E|[E|[]]]; rewrite <- E; destruct O; subst; cbn; intuition discriminate.
  - assert (N : u <> "PG" /\ u <> "SG").
    { split; intros Q; rewrite Q in E; discriminate. }
    destruct O; subst; cbn [append]; intuition.
Qed.

Lemma add_pick_step station picks a onset :
  onset = "P" \/ onset = "S" ->
  (followed a -> pick a <> None) ->
  exists picks', add_pick station picks a = Ok picks' /\
    dget String.eqb picks' onset =
      if is_pick station onset a then pick_time a else dget String.eqb picks onset.
Proof.
  intros O R. unfold add_pick. fold (pick_key a).
  destruct (substr (pick_key a) "PS") eqn:S; cbn [negb].
  - assert (PN : pick a <> None).
    { apply R. unfold followed. rewrite odd_phases. apply upper_cases in S. destruct S as [S|[S|[S|S]]].
      - right. right. left. unfold pick_key in S.
        destruct (inb String.eqb (py_upper (phase a)) ["PG"; "SG"]) eqn:E; auto.
        apply (inb_In String.eqb string_eqb_spec) in E.
        destruct E as [E|[E|[]]]; rewrite <- E in S; discriminate.
      - left. now apply (pick_key_onset a "P" (or_introl eq_refl)).
      - right. left. now apply (pick_key_onset a "S" (or_intror eq_refl)).
      - right. right. right. unfold pick_key in S.
        destruct (inb String.eqb (py_upper (phase a)) ["PG"; "SG"]) eqn:E; auto.
        apply (inb_In String.eqb string_eqb_spec) in E.
        destruct E as [E|[E|[]]]; rewrite <- E in S; discriminate. }
    destruct (pick a) as [[sid t]|] eqn:P; [|congruence].
    unfold is_pick, pick_time. rewrite P. cbn [option_map snd].
    rewrite (String.eqb_sym (get_station sid) station).
    destruct (String.eqb station (get_station sid)) eqn:ST; cbn [andb].
    + eexists. split; [reflexivity|].
      destruct (names_onset onset (phase a)) eqn:NO.
      * apply (pick_key_onset a onset O) in NO. rewrite NO.
        apply (dget_dset_eq String.eqb string_eqb_spec).
      * apply (dget_dset_neq String.eqb string_eqb_spec).
        intros E. symmetry in E. apply (pick_key_onset a onset O) in E. congruence.
    + eexists. split; reflexivity.
  - eexists. split; [reflexivity|].
    unfold is_pick. destruct (pick a) as [[sid t]|]; [|reflexivity].
    destruct (names_onset onset (phase a)) eqn:NO; [|now rewrite andb_false_r].
    exfalso. apply (pick_key_onset a onset O) in NO. rewrite NO in S.
    destruct O; subst; discriminate.
Qed.

Lemma last_item_app {A} (l : list A) x : last_item (l ++ [x]) = Some x.
Proof. unfold last_item. now rewrite rev_app_distr. Qed.

Lemma get_picks_ok arrivals station :
  (forall a, In a arrivals -> followed a -> pick a <> None) ->
  exists picks, get_picks arrivals station = Ok picks /\
    forall onset, onset = "P" \/ onset = "S" ->
      dget String.eqb picks onset =
      match last_item (filter (is_pick station onset) arrivals) with
      | Some a => pick_time a
      | None => None
      end.
Proof.
  unfold get_picks. induction arrivals as [|a l IH] using rev_ind; intros H.
  - exists []. split; [reflexivity|]. intros. reflexivity.
  - destruct IH as (picks & E & V).
    { intros; apply H; auto. apply in_or_app. now left. }
    rewrite fold_left_app. cbn [fold_left]. rewrite E. cbn [bind].
    assert (FA : followed a -> pick a <> None).
    { apply H. apply in_or_app. right. now left. }
    destruct (add_pick_step station picks a "P" (or_introl eq_refl) FA) as (p1 & E1 & V1).
    destruct (add_pick_step station picks a "S" (or_intror eq_refl) FA) as (p2 & E2 & V2).
    rewrite E1 in E2. injection E2 as <-.
    exists p1. split; [exact E1|]. intros onset O.
    rewrite filter_app. cbn [filter].
    assert (VV : dget String.eqb p1 onset =
      if is_pick station onset a then pick_time a else dget String.eqb picks onset).
    { destruct O as [-> | ->]; assumption. }
    rewrite VV. destruct (is_pick station onset a).
    + now rewrite last_item_app.
    + rewrite app_nil_r. now apply V.
Qed.

(** C39: the id of an event *)
Lemma slash_free_char s : (forall a b, s <> (a ++ "/" ++ b)%string) -> has_char "/" s = false.
Proof.
  induction s as [|c s IH]; intros H; [reflexivity|]. cbn [has_char].
  destruct (Ascii.eqb c "/") eqn:E.
  - apply Ascii.eqb_eq in E. subst. exfalso. now apply (H "" s).
  - apply IH. intros a b ->. now apply (H (String c a) b).
Qed.

Lemma last_split_app pre id : has_char "/" id = false ->
  List.last (split_on "/" (pre ++ String "/" id)) "" = id.
Proof.
  intros H. induction pre as [|c pre IH].
  - cbn [append split_on]. rewrite Ascii.eqb_refl.
    rewrite split_free by exact H. reflexivity.
  - cbn [append split_on]. destruct (Ascii.eqb c "/").
    + destruct (split_on "/" (pre ++ String "/" id)) eqn:E; [now apply split_on_ne in E|exact IH].
    + destruct (split_on "/" (pre ++ String "/" id)) as [|h [|h' t]] eqn:E; [now apply split_on_ne in E| |exact IH].
      exfalso. clear - E. revert h E. induction pre as [|a pre IH]; cbn [append split_on]; intros h.
      * rewrite Ascii.eqb_refl. intros [= E' E]. now apply split_on_ne in E.
      * destruct (Ascii.eqb a "/"); [intros [= E' E]; now apply split_on_ne in E|].
        destruct (split_on "/" (pre ++ String "/" id)) as [|x y] eqn:E1; [now apply split_on_ne in E1|].
        intros [= E' ->]. now apply (IH x).
Qed.

Lemma eventid_ok pre id : (forall a b, id <> (a ++ "/" ++ b)%string) ->
  get_eventid (pre ++ "/" ++ id) = id /\ get_eventid id = id.
Proof.
  intros H. apply slash_free_char in H. unfold get_eventid. split.
  - now apply last_split_app.
  - now rewrite split_free.
Qed.

(** C41: unresolved picks *)
Lemma followed_key a : followed a -> substr (pick_key a) "PS" = true.
Proof.
  unfold followed. rewrite odd_phases. intros [H|[H|[H|H]]].
  - apply (pick_key_onset a "P" (or_introl eq_refl)) in H. now rewrite H.
  - apply (pick_key_onset a "S" (or_intror eq_refl)) in H. now rewrite H.
  - unfold pick_key. now rewrite H.
  - unfold pick_key. now rewrite H.
Qed.

Lemma picks_err l station e :
  fold_left (fun acc a => do picks <- acc; add_pick station picks a) l (Err e) = Err e.
Proof. induction l; cbn; auto. Qed.

Lemma get_picks_raise arrivals station a :
  In a arrivals -> followed a -> pick a = None -> get_picks arrivals station = Err AttributeError.
Proof.
  unfold get_picks. intros I F P. generalize (@nil (string * Z)) as acc.
  induction arrivals as [|b l IH]; [destruct I|]. intros acc. cbn [fold_left bind].
  destruct I as [->|I].
  - unfold add_pick at 2. fold (pick_key a). rewrite (followed_key a F), P. cbn [negb]. apply picks_err.
  - destruct (add_pick station acc b) as [acc'|e] eqn:E; [now apply IH|].
    rewrite picks_err. unfold add_pick in E.
    destruct (negb _); [discriminate|]. destruct (pick b) as [[sid t]|]; [|congruence].
    destruct (String.eqb _ _); discriminate.
Qed.
