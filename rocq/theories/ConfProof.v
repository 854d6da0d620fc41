(** Proofs about configuration texts, plugins and data retrieval. *)
From Coq Require Import String Ascii List Bool.
From Verif Require Import Base PyStr ConfModel ConfSpec.
Import ListNotations.
Open Scope string_scope.
Open Scope list_scope.

(** comments without regard to quotes *)
Fixpoint scan (comment : bool) (s : string) : string :=
  match s with
  | EmptyString => EmptyString
  | String c r =>
      if comment then if Ascii.eqb c lf then String c (scan false r) else scan true r
      else if Ascii.eqb c "#" then scan true r else String c (scan false r)
  end.

Lemma join_cons sep x y l : join sep (x :: y :: l) = (x ++ sep ++ join sep (y :: l))%string.
Proof. reflexivity. Qed.

Lemma join_head c a h t :
  join (String c "") (String a h :: t) = String a (join (String c "") (h :: t)).
Proof. destruct t; reflexivity. Qed.

(** the rest of the text after its first line *)
Lemma scan_spec s : forall h t, split_on lf s = h :: t ->
  scan false s = join (String lf "") (before_hash h :: map before_hash t) /\
  scan true s = join (String lf "") ("" :: map before_hash t).
Proof.
  induction s as [|c s IH]; cbn [split_on]; intros h t E.
  - injection E as <- <-. auto.
  - destruct (split_on lf s) as [|h' t'] eqn:S; [now apply split_on_ne in S|].
    destruct (IH _ _ eq_refl) as [I1 I2].
    destruct (Ascii.eqb c lf) eqn:C.
    + apply Ascii.eqb_eq in C. subst c. injection E as <- <-. cbn [scan].
      change (Ascii.eqb lf "#") with false. rewrite Ascii.eqb_refl. cbv iota.
      cbn [map before_hash]. rewrite join_cons, I1. auto.
    + injection E as <- <-. cbn [scan]. rewrite C. split; [|exact I2].
      cbn [before_hash]. destruct (Ascii.eqb c "#"); [exact I2|].
      rewrite join_head, I1. reflexivity.
Qed.

Lemma strip_scan s : strip_comments s = scan false s.
Proof.
  unfold strip_comments. destruct (split_on lf s) as [|h t] eqn:S; [now apply split_on_ne in S|].
  symmetry. now apply scan_spec.
Qed.

Lemma scan_places s : forall p, hash_quoted p s = false ->
  scan (match p with Comment => true | _ => false end) s = uncommented p s.
Proof.
  induction s as [|c s IH]; intros p; [reflexivity|].
  destruct p; cbn [hash_quoted scan uncommented]; intros H.
  - destruct (Ascii.eqb c "#"); [now apply (IH Comment)|].
    destruct (Ascii.eqb c (ascii_of_nat 34)); f_equal; [now apply (IH Quoted)|now apply (IH Outside)].
  - apply orb_false_iff in H. destruct H as [-> H].
    destruct (Ascii.eqb c "\"); [f_equal; now apply (IH Escaped)|].
    destruct (Ascii.eqb c (ascii_of_nat 34)); f_equal; [now apply (IH Outside)|now apply (IH Quoted)].
  - apply orb_false_iff in H. destruct H as [-> H]. f_equal. now apply (IH Quoted).
  - destruct (Ascii.eqb c lf); [f_equal; now apply (IH Outside)|now apply (IH Comment)].
Qed.

(** C48 *)
Lemma decode_comments {A} (json : string -> res A) s :
  hash_quoted Outside s = false -> decode json s = json (uncommented Outside s).
Proof.
  intros H. unfold decode. rewrite strip_scan. f_equal. now apply (scan_places s Outside).
Qed.

(** C48: lines *)
Lemma before_hash_spec l : has_char "#" (before_hash l) = false /\
  exists r, l = (before_hash l ++ r)%string /\ (r = "" \/ exists r', r = String "#" r').
Proof.
  induction l as [|c l [I1 (r & I2 & I3)]]; cbn [before_hash].
  - split; [reflexivity|]. exists "". auto.
  - destruct (Ascii.eqb c "#") eqn:E.
    + apply Ascii.eqb_eq in E. subst c. split; [reflexivity|]. eexists. split; [reflexivity|]. eauto.
    + split; [cbn [has_char]; now rewrite E, I1|]. exists r. cbn. split; [congruence|auto].
Qed.

Lemma before_hash_free c l : has_char c l = false -> has_char c (before_hash l) = false.
Proof.
  induction l as [|a l IH]; cbn; auto. intros H. apply orb_false_iff in H. destruct H as [H1 H2].
  destruct (Ascii.eqb a "#"); [reflexivity|]. cbn. now rewrite H1, IH.
Qed.

Lemma split_join c l : l <> [] -> Forall (fun p => has_char c p = false) l ->
  split_on c (join (String c "") l) = l.
Proof.
  intros N F. induction F as [|x l H F IH]; [congruence|].
  destruct l as [|y l]; [now apply split_free|].
  rewrite join_cons. change ((String c "" ++ join (String c "") (y :: l))%string)
    with (String c (join (String c "") (y :: l))).
  rewrite split_app_sep by auto. f_equal. apply IH. discriminate.
Qed.

Lemma strip_lines s :
  Forall2 (fun l k => has_char "#" k = false /\
             exists r, l = (k ++ r)%string /\ (r = "" \/ exists r', r = String "#" r'))
    (split_on lf s) (split_on lf (strip_comments s)).
Proof.
  unfold strip_comments. rewrite split_join.
  - generalize (split_on lf s). intros ls. induction ls; cbn; constructor; auto.
    apply before_hash_spec.
  - intros E. apply map_eq_nil in E. now apply split_on_ne in E.
  - apply Forall_forall. intros x I. apply in_map_iff in I. destruct I as (l & <- & I).
    apply before_hash_free. pose proof (split_parts_free lf s) as F. rewrite Forall_forall in F. auto.
Qed.

(** C49 *)
Lemma load_func_path {M F} (imp : string -> list string -> res M * list string)
    (getattr : M -> string -> res F) strip plugin path m f mod_ :
  split_on ":" plugin = [m; f] ->
  imp (strip m) (path ++ ["."]) = (Ok mod_, path ++ ["."]) ->
  load_func imp getattr strip plugin path = (getattr mod_ (strip f), path).
Proof.
  intros E I. unfold load_func. rewrite E, I, removelast_last.
  destruct (path ++ ["."]) eqn:N; [now destruct path|reflexivity].
Qed.

Lemma load_func_keeps {M F} (imp : string -> list string -> res M * list string)
    (getattr : M -> string -> res F) strip plugin path :
  (forall p, snd (imp p (path ++ ["."])) = path ++ ["."]) ->
  (snd (load_func imp getattr strip plugin path) = path <->
   exists m f mod_, split_on ":" plugin = [m; f] /\ fst (imp (strip m) (path ++ ["."])) = Ok mod_).
Proof.
  intros H. unfold load_func.
  assert (NE : path ++ ["."] <> path).
  { intros E. apply (f_equal (@List.length _)) in E. rewrite app_length in E. cbn in E.
    rewrite PeanoNat.Nat.add_1_r in E. now apply PeanoNat.Nat.neq_succ_diag_l in E. }
  destruct (split_on ":" plugin) as [|m [|f [|x l]]] eqn:S; cbn [snd];
    try (split; [intros; contradiction|intros (? & ? & ? & [=] & _)]).
  specialize (H (strip m)). destruct (imp (strip m) (path ++ ["."])) as [[md|e] p] eqn:I;
    cbn [snd] in H; subst p; cbn [fst].
  - rewrite removelast_last.
    split; [intros _; exists m, f, md; split; [reflexivity|now rewrite I]|]. intros _. destruct (path ++ ["."]) eqn:N; [now destruct path|reflexivity].
  - cbn [snd]. split; [intros; contradiction|].
    intros (m' & f' & md & [= <- <-] & E). rewrite I in E. discriminate.
Qed.

(** C50 *)
Lemma wrapper_ok {S V} text (g : list (string * V) -> res S) kw st :
  g kw = Ok st -> wrapper text g kw = Ok (Some st).
Proof. intros E. unfold wrapper. now rewrite E. Qed.

Lemma wrapper_err {S V} text (g : list (string * V) -> res S) kw e :
  names_channel text kw -> g kw = Err e -> e <> KeyboardInterrupt -> e <> SystemExit ->
  wrapper text g kw = Ok None.
Proof.
  intros N E N1 N2. unfold wrapper. rewrite E.
  assert (K : forall k, In k ["network"; "station"; "location"; "channel"] ->
              has_key kw k = Ok tt /\ code text kw k = Ok tt).
  { intros k I. destruct (N k I) as (v & s & G & T). unfold has_key, code.
    rewrite G, T. auto. }
  assert (C : (do _ <- mapM (has_key kw) ["network"; "station"; "location"; "channel"];
               do _ <- mapM (code text kw) ["network"; "station"; "location"; "channel"];
               Ok None) = Ok (@None S)).
  { cbn [mapM]. rewrite !(fun k I => proj1 (K k I)) by (cbn; auto 6).
    cbn [bind]. rewrite !(fun k I => proj2 (K k I)) by (cbn; auto 6). reflexivity. }
  destruct e; try exact C; congruence.
Qed.

Lemma wrapper_stop {S V} text (g : list (string * V) -> res S) kw e :
  g kw = Err e -> e = KeyboardInterrupt \/ e = SystemExit -> wrapper text g kw = Err e.
Proof. intros E [->| ->]; unfold wrapper; now rewrite E. Qed.

Lemma source_iff {S V} client plugin read sel rep (data : @datasrc S) (given : option (list (string * V) -> res S)) g :
  data_source client plugin read sel rep data given = Ok g <-> source_of client plugin read sel rep data given g.
Proof.
  unfold data_source. split.
  - destruct given as [f|]; [intros [= ->]; constructor|].
    destruct data as [s|st].
    + destruct (client s) as [c|] eqn:C; [intros ->; now constructor|].
      destruct (String.eqb_spec s "plugin") as [->|N]; [intros ->; now constructor|].
      destruct (read s) as [st|] eqn:R; [|discriminate]. cbn. intros [= <-]. now constructor.
    + destruct (client (rep st)) as [c|] eqn:C; [intros ->; now constructor|].
      intros [= <-]. now constructor.
  - intros H. destruct H as [data g|s g C|st g C|g C P|s st C N R|st C]; try rewrite C; auto.
    apply String.eqb_neq in N. now rewrite N, R.
Qed.

Lemma init_retrieval {S V} (text : V -> option string) client plugin read sel rep
    (data : @datasrc S) given w kw :
  init_data text client plugin read sel rep data given = Ok w ->
  names_channel text kw ->
  exists g, source_of client plugin read sel rep data given g /\
    w kw = match g kw with
           | Ok st => Ok (Some st)
           | Err KeyboardInterrupt => Err KeyboardInterrupt
           | Err SystemExit => Err SystemExit
           | Err _ => Ok None
           end.
Proof.
  intros E N. unfold init_data in E. destruct (data_source _ _ _ _ _ _ _) as [g|] eqn:D; [|discriminate].
  cbn [bind] in E. injection E as <-. exists g. split; [now apply source_iff|].
  destruct (g kw) as [st|e] eqn:G; [now apply wrapper_ok|].
  destruct e; try (apply wrapper_stop with (1 := G); now auto);
    (apply wrapper_err with (2 := G); [exact N|discriminate|discriminate]).
Qed.

Lemma init_source {S V} (text : V -> option string) client plugin read sel rep (data : @datasrc S) given :
  (exists w, init_data text client plugin read sel rep data given = Ok w) <->
  (exists g, source_of client plugin read sel rep data given g).
Proof.
  unfold init_data. split.
  - intros (w & E). destruct (data_source _ _ _ _ _ _ _) as [g|] eqn:D; [|discriminate].
    exists g. now apply source_iff.
  - intros (g & H). apply source_iff in H. rewrite H. cbn. eauto.
Qed.

(** a request that does not name the channel *)
Lemma init_unnamed {S V} (text : V -> option string) client plugin read sel rep
    (data : @datasrc S) given w kw :
  init_data text client plugin read sel rep data given = Ok w ->
  exists g, source_of client plugin read sel rep data given g /\
    forall e, g kw = Err e -> e <> KeyboardInterrupt -> e <> SystemExit ->
      ((exists k, In k ["network"; "station"; "location"; "channel"] /\ ~ In k (map fst kw)) -> w kw = Err KeyError) /\
      ((forall k, In k ["network"; "station"; "location"; "channel"] -> In k (map fst kw)) ->
       (exists k v, In k ["network"; "station"; "location"; "channel"] /\ dget String.eqb kw k = Some v /\ text v = None) ->
       w kw = Err TypeError).
Proof.
  intros E. unfold init_data in E. destruct (data_source _ _ _ _ _ _ _) as [g|] eqn:D; [|discriminate].
  cbn [bind] in E. injection E as <-. exists g. split; [now apply source_iff|].
  intros e G N1 N2.
  assert (W : wrapper text g kw =
              (do _ <- mapM (has_key kw) ["network"; "station"; "location"; "channel"];
               do _ <- mapM (code text kw) ["network"; "station"; "location"; "channel"];
               Ok None)) by (unfold wrapper; rewrite G; destruct e; congruence).
  rewrite W. clear W.
  assert (H0 : forall k, In k (map fst kw) -> has_key kw k = Ok tt).
  { intros k I. unfold has_key. destruct (dget String.eqb kw k) eqn:K; [reflexivity|].
    exfalso. revert I. now apply (dget_None _ string_eqb_spec). }
  assert (H1 : forall k, has_key kw k = Ok tt \/ has_key kw k = Err KeyError).
  { intros k. unfold has_key. destruct (dget String.eqb kw k); auto. }
  assert (H2 : forall k, ~ In k (map fst kw) -> has_key kw k = Err KeyError).
  { intros k I. unfold has_key. now apply (dget_None _ string_eqb_spec) in I; rewrite I. }
  split.
  - intros (k & I & A). apply H2 in A. cbn [mapM].
    destruct I as [<-|[<-|[<-|[<-|[]]]]]; rewrite A;
      repeat match goal with |- context [has_key kw ?x] => destruct (H1 x) as [->| ->]; cbn [bind] end; reflexivity.
  - intros A (k & v & I & K & T).
    assert (C1 : forall k, In k ["network"; "station"; "location"; "channel"] -> code text kw k = Ok tt \/ code text kw k = Err TypeError).
    { intros k' I'. specialize (H0 k' (A k' I')). unfold has_key in H0. unfold code. destruct (dget String.eqb kw k'); [|discriminate].
      destruct (text v0); auto. }
    assert (C2 : code text kw k = Err TypeError) by (unfold code; now rewrite K, T).
    cbn [mapM]. rewrite !(fun k I => H0 k (A k I)) by (cbn; auto 6). cbn [bind].
    destruct I as [<-|[<-|[<-|[<-|[]]]]]; rewrite C2;
      repeat match goal with |- context [code text kw ?x] => destruct (C1 x ltac:(cbn; auto 6)) as [->| ->]; cbn [bind] end; reflexivity.
Qed.
