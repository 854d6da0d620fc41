(** Lemmas about the configuration of logging. *)
From Coq Require Import String List Bool ZArith Arith Lia.
From Verif Require Import Base RunModel LogModel LogSpec.
Import ListNotations.
Open Scope string_scope.
Open Scope list_scope.

Lemma store_other v : forall h a b, a <> b -> nth b (store h a v) JNull = nth b h JNull.
Proof.
  induction h as [|x h IH]; intros a b N; cbn; [reflexivity|].
  destruct a, b; cbn; try reflexivity; [congruence|]. apply IH. congruence.
Qed.

Lemma store_length v : forall h a, List.length (store h a v) = List.length h.
Proof. induction h as [|x h IH]; intros [|a]; cbn; auto. Qed.

(** every object that existed before a call is unchanged *)
Lemma configure_old h c v lv lf b :
  b < List.length h ->
  nth b (fst (configure_logging h c v lv lf)) JNull = nth b h JNull /\
  List.length h <= List.length (fst (configure_logging h c v lv lf)).
Proof.
  intros L. unfold configure_logging, deepcopy. destruct c as [c|]; cbn [fst]; [auto|].
  destruct (adapt _ _ _ _) as [c|]; cbn [fst].
  - rewrite store_other by lia. rewrite store_length, app_nth1, app_length by assumption. split; [reflexivity|lia].
  - rewrite app_nth1, app_length by assumption. split; [reflexivity|lia].
Qed.

Lemma calls_old l : forall h b, b < List.length h -> nth b (calls h l) JNull = nth b h JNull.
Proof.
  induction l as [|[[[c v] lv] lf] l IH]; intros h b L; cbn [calls]; [reflexivity|].
  destruct (configure_old h c v lv lf b L) as (E1 & E2). rewrite IH by lia. exact E1.
Qed.

(** the two forms of the configuration *)
Definition base (v : string) (handlers : list (string * json)) (names : json) : json :=
  JDict
    [("version", JNum 1);
     ("disable_existing_loggers", JBool false);
     ("capture_warnings", JBool true);
     ("formatters",
       JDict [("file", JDict [("format", JStr "%(asctime)s %(module)-6s%(process)-6d%(levelname)-8s%(message)s")]);
              ("console", JDict [("format", JStr "%(levelname)-8s%(message)s")])]);
     ("handlers",
       JDict (("console", JDict [("class", JStr "logging.StreamHandler"); ("formatter", JStr "console"); ("level", JStr v)])
              :: handlers));
     ("loggers",
       JDict [("qopen", JDict [("handlers", names); ("level", JStr "DEBUG"); ("propagate", JBool false)]);
              ("py.warnings", JDict [("handlers", names); ("level", JStr "DEBUG"); ("propagate", JBool false)])])].

Lemma loglevels_ok l s : loglevels l = Ok s -> level_name l s.
Proof.
  unfold level_name. destruct l as [|[[|[]|]|[[]|[]|]|]|]; cbn; intros [= <-]; tauto.
Qed.

Lemma loglevels_total l : (0 <= l <= 3)%Z -> exists s, loglevels l = Ok s.
Proof.
  intros H. assert (l = 0 \/ l = 1 \/ l = 2 \/ l = 3)%Z as [->|[->|[->| ->]]] by lia; cbn; eauto.
Qed.

Lemma loglevels_err l : ~ (0 <= l <= 3)%Z -> loglevels l = Err KeyError.
Proof.
  intros H. destruct l as [|[[|[]|]|[[]|[]|]|]|]; cbn; try reflexivity; lia.
Qed.

Lemma adapt_none v loglevel logfile lv :
  loglevels (if (3 <? v)%Z then 3%Z else v) = Ok lv -> logfile = JNull \/ loglevel = JNum 0 ->
  adapt (JNum v) loglevel logfile logging_default = Ok (base lv [] (JList [JStr "console"])).
Proof.
  intros L O. unfold adapt. rewrite L. cbn [bind].
  assert (B : (match logfile with JNull => true | _ => false end ||
          match loglevel with JNum l => (l =? 0)%Z | _ => false end)%bool = true).
  { destruct O as [->| ->]; [reflexivity|]. now rewrite orb_true_r. }
  rewrite B. reflexivity.
Qed.

Lemma adapt_file v l logfile lv lf :
  loglevels (if (3 <? v)%Z then 3%Z else v) = Ok lv -> logfile <> JNull -> l <> 0%Z -> loglevels l = Ok lf ->
  adapt (JNum v) (JNum l) logfile logging_default =
  Ok (base lv [("file", JDict [("class", JStr "logging.FileHandler"); ("formatter", JStr "file"); ("level", JStr lf);
                              ("filename", logfile)])] (JList [JStr "console"; JStr "file"])).
Proof.
  intros L N1 N2 LF. unfold adapt. rewrite L. cbn [bind].
  assert (B : (match logfile with JNull => true | _ => false end || (l =? 0)%Z)%bool = false).
  { apply Z.eqb_neq in N2. rewrite N2. destruct logfile; congruence || reflexivity. }
  rewrite B, LF. reflexivity.
Qed.

Lemma adapt_inv verbose loglevel logfile c :
  adapt verbose loglevel logfile logging_default = Ok c ->
  exists v lv, verbose = JNum v /\ level_name (Z.min v 3) lv /\
    ((logfile = JNull \/ loglevel = JNum 0) /\ c = base lv [] (JList [JStr "console"]) \/
     exists l lf, logfile <> JNull /\ loglevel = JNum l /\ l <> 0%Z /\ level_name l lf /\
       c = base lv [("file", JDict [("class", JStr "logging.FileHandler"); ("formatter", JStr "file"); ("level", JStr lf);
                              ("filename", logfile)])] (JList [JStr "console"; JStr "file"])).
Proof.
  intros H. destruct verbose as [| |v| | | |]; try discriminate.
  destruct (loglevels (if (3 <? v)%Z then 3%Z else v)) as [lv|] eqn:LV.
  2:{ unfold adapt in H. rewrite LV in H. discriminate. }
  exists v, lv. split; [reflexivity|]. split.
  { apply loglevels_ok in LV. destruct (Z.ltb_spec 3 v); [rewrite Z.min_r by lia|rewrite Z.min_l by lia]; exact LV. }
  assert (D : logfile = JNull \/ logfile <> JNull) by (destruct logfile; auto; right; discriminate).
  assert (D2 : loglevel = JNum 0 \/ loglevel <> JNum 0).
  { destruct loglevel as [| |l| | | |]; try (right; discriminate). destruct (Z.eq_dec l 0); [left|right]; congruence. }
  destruct D as [D|D].
  { left. split; [now left|]. rewrite (adapt_none v loglevel logfile lv LV) in H by now left. congruence. }
  destruct D2 as [D2|D2].
  { left. split; [now right|]. rewrite (adapt_none v loglevel logfile lv LV) in H by now right. congruence. }
  right. destruct loglevel as [| |l| | | |];
    try (exfalso; unfold adapt in H; rewrite LV in H; cbn [bind] in H; destruct logfile; cbn in H; congruence).
  assert (N : l <> 0%Z) by congruence.
  destruct (loglevels l) as [lf|] eqn:LF.
  - exists l, lf. rewrite (adapt_file v l logfile lv lf LV D N LF) in H.
    repeat split; try assumption; [now apply loglevels_ok|congruence].
  - exfalso. unfold adapt in H. rewrite LV in H. cbn [bind] in H. apply Z.eqb_neq in N. rewrite N, LF in H.
    destruct logfile; cbn in H; congruence.
Qed.

Lemma configure_default h verbose loglevel logfile h2 lg :
  nth 0 h JNull = logging_default -> h <> [] ->
  configure_logging h None verbose loglevel logfile = (h2, Ok lg) ->
  adapt verbose loglevel logfile logging_default = Ok (lg_config lg) /\
  (forall d, lg_config lg = JDict d -> lg_capture lg = getd d "capture_warnings" (JBool false)).
Proof.
  intros D N H. unfold configure_logging, deepcopy in H.
  rewrite D in H. rewrite app_nth2 in H by lia. rewrite Nat.sub_diag in H. cbn [nth] in H.
  destruct (adapt _ _ _ _) as [c|]; [|discriminate]. cbn [bind] in H.
  destruct c as [| | | | |d|]; try discriminate.
  assert (E : lg = {| lg_config := JDict d; lg_capture := getd d "capture_warnings" (JBool false) |}) by congruence.
  rewrite E. cbn [lg_config lg_capture]. split; [reflexivity|]. intros d2 E2. congruence.
Qed.

Lemma entry_get c k1 k2 v d d2 :
  c = JDict d -> dget String.eqb d k1 = Some (JDict d2) -> entry c k1 k2 v -> dget String.eqb d2 k2 = Some v.
Proof.
  intros -> G (x & H1 & H2). cbn [jget] in H1. rewrite G in H1. injection H1 as <-. cbn [jget] in H2.
  destruct (dget String.eqb d2 k2); congruence.
Qed.

Lemma dget_two {V} a (x : V) b y k v :
  dget String.eqb [(a, x); (b, y)] k = Some v -> k = a /\ v = x \/ k = b /\ v = y.
Proof.
  cbn. destruct (String.eqb_spec k a); [intros [= <-]; auto|].
  destruct (String.eqb_spec k b); [intros [= <-]; auto|discriminate].
Qed.

Lemma dget_one {V} a (x : V) k v : dget String.eqb [(a, x)] k = Some v -> k = a /\ v = x.
Proof. cbn. destruct (String.eqb_spec k a); [intros [= <-]; auto|discriminate]. Qed.

Lemma base_loggers v hs names name logger :
  entry (base v hs names) "loggers" name logger -> jget logger "handlers" = Ok names.
Proof.
  intros H. eapply entry_get in H; [|reflexivity|reflexivity].
  apply dget_two in H as [[_ ->]|[_ ->]]; reflexivity.
Qed.

Lemma base_console v hs names : exists h, entry (base v hs names) "handlers" "console" h.
Proof. eexists _, _. split; reflexivity. Qed.

Lemma base_formatters v hs names name handler f :
  (hs = [] \/ exists a b c, hs = [("file", JDict [("class", a); ("formatter", JStr "file"); ("level", b); ("filename", c)])]) ->
  entry (base v hs names) "handlers" name handler -> jget handler "formatter" = Ok (JStr f) ->
  exists x, entry (base v hs names) "formatters" f x.
Proof.
  intros Hhs H F. eapply entry_get in H; [|reflexivity|reflexivity].
  destruct Hhs as [->|(a & b & c & ->)].
  - apply dget_one in H as [_ ->]. cbn in F. assert (f = "console") as -> by congruence. eexists _, _. split; reflexivity.
  - apply dget_two in H as [[_ ->]|[_ ->]]; cbn in F.
    + assert (f = "console") as -> by congruence. eexists _, _. split; reflexivity.
    + assert (f = "file") as -> by congruence. eexists _, _. split; reflexivity.
Qed.

(** everything about a successful call *)
Lemma configured h verbose loglevel logfile h2 lg :
  nth 0 h JNull = logging_default -> h <> [] ->
  configure_logging h None verbose loglevel logfile = (h2, Ok lg) ->
  handlers_defined (lg_config lg) /\ formatters_defined (lg_config lg) /\ used_by_all (lg_config lg) "console" /\
  lg_capture lg = JBool true /\
  (exists v lv c, verbose = JNum v /\ level_name (Z.min v 3) lv /\
                  entry (lg_config lg) "handlers" "console" c /\ jget c "level" = Ok (JStr lv)) /\
  (has_file (lg_config lg) <-> logfile <> JNull /\ loglevel <> JNum 0) /\
  (logfile <> JNull -> loglevel <> JNum 0 ->
     used_by_all (lg_config lg) "file" /\
     exists f l lf, entry (lg_config lg) "handlers" "file" f /\ jget f "filename" = Ok logfile /\
       loglevel = JNum l /\ level_name l lf /\ jget f "level" = Ok (JStr lf)).
Proof.
  intros D N H. destruct (configure_default _ _ _ _ _ _ D N H) as (A & CW).
  apply adapt_inv in A. destruct A as (v & lv & EV & LV & [(O & E)|(l & lf & O1 & EL & O2 & LF & E)]).
  - rewrite E in *. split; [|split; [|split; [|split; [|split; [|split]]]]].
    + intros name logger hs x H1 H2 I. apply base_loggers in H1. rewrite H1 in H2.
      assert (hs = [JStr "console"]) as -> by congruence. destruct I as [I|[]].
      assert (x = "console") as -> by congruence. apply base_console.
    + intros name handler f H1 H2. eapply base_formatters; eauto.
    + intros name logger H1. exists [JStr "console"]. split; [exact (base_loggers _ _ _ _ _ H1)|now left].
    + exact (CW _ eq_refl).
    + eexists v, lv, _. split; [exact EV|]. split; [exact LV|]. split; [eexists; split; reflexivity|reflexivity].
    + split.
      * intros (x & H1). eapply entry_get in H1; [|reflexivity|reflexivity]. apply dget_one in H1 as [H1 _]. discriminate.
      * intros [H1 H2]. destruct O; contradiction.
    + intros H1 H2. destruct O; contradiction.
  - rewrite E in *. split; [|split; [|split; [|split; [|split; [|split]]]]].
    + intros name logger hs x H1 H2 I. apply base_loggers in H1. rewrite H1 in H2.
      assert (hs = [JStr "console"; JStr "file"]) as -> by congruence. destruct I as [I|[I|[]]].
      * assert (x = "console") as -> by congruence. apply base_console.
      * assert (x = "file") as -> by congruence. eexists _, _. split; reflexivity.
    + intros name handler f H1 H2. eapply base_formatters; [|exact H1|exact H2].
      right. eexists _, _, _. reflexivity.
    + intros name logger H1. eexists. split; [exact (base_loggers _ _ _ _ _ H1)|now left].
    + exact (CW _ eq_refl).
    + eexists v, lv, _. split; [exact EV|]. split; [exact LV|]. split; [eexists; split; reflexivity|reflexivity].
    + split.
      * intros _. split; [exact O1|]. rewrite EL. congruence.
      * intros _. eexists _, _. split; reflexivity.
    + intros _ _. split.
      * intros name logger H1. eexists. split; [exact (base_loggers _ _ _ _ _ H1)|]. right. now left.
      * eexists _, l, lf. split; [eexists; split; reflexivity|]. split; [reflexivity|]. split; [exact EL|].
        split; [exact LF|reflexivity].
Qed.

(** when a call succeeds *)
Lemma configure_total h v loglevel logfile :
  nth 0 h JNull = logging_default -> h <> [] ->
  (0 <= v)%Z -> (logfile = JNull \/ exists l, loglevel = JNum l /\ (0 <= l <= 3)%Z) ->
  exists h2 lg, configure_logging h None (JNum v) loglevel logfile = (h2, Ok lg).
Proof.
  intros D N V O. destruct (loglevels_total (if (3 <? v)%Z then 3%Z else v)) as (lv & LV).
  { destruct (Z.ltb_spec 3 v); lia. }
  assert (exists d, adapt (JNum v) loglevel logfile logging_default = Ok (JDict d)) as (d & A).
  { destruct O as [O|(l & -> & L)].
    - rewrite (adapt_none v loglevel logfile lv LV) by now left. unfold base. eauto.
    - destruct (Z.eq_dec l 0) as [->|NZ].
      + rewrite (adapt_none v (JNum 0) logfile lv LV) by now right. unfold base. eauto.
      + assert (Q : logfile = JNull \/ logfile <> JNull) by (destruct logfile; auto; right; discriminate).
        destruct Q as [Q|Q].
        * rewrite (adapt_none v (JNum l) logfile lv LV) by now left. unfold base. eauto.
        * destruct (loglevels_total l L) as (lf & LF). rewrite (adapt_file v l logfile lv lf LV Q NZ LF). unfold base. eauto. }
  unfold configure_logging, deepcopy. rewrite D, app_nth2, Nat.sub_diag by lia. cbn [nth]. rewrite A.
  cbn [bind]. eauto.
Qed.

Lemma configure_fails h v loglevel logfile :
  nth 0 h JNull = logging_default -> (v < 0)%Z ->
  snd (configure_logging h None (JNum v) loglevel logfile) = Err KeyError.
Proof.
  intros D V. unfold configure_logging, deepcopy. rewrite D, app_nth2, Nat.sub_diag by lia. cbn [nth].
  unfold adapt. destruct (Z.ltb_spec 3 v); [lia|]. rewrite loglevels_err by lia. reflexivity.
Qed.

Lemma configure_loglevel h v l s :
  nth 0 h JNull = logging_default -> (0 <= v)%Z -> ~ (0 <= l <= 3)%Z ->
  snd (configure_logging h None (JNum v) (JNum l) (JStr s)) = Err KeyError.
Proof.
  intros D V L. unfold configure_logging, deepcopy. rewrite D, app_nth2, Nat.sub_diag by lia. cbn [nth].
  destruct (loglevels_total (if (3 <? v)%Z then 3%Z else v)) as (lv & LV).
  { destruct (Z.ltb_spec 3 v); lia. }
  unfold adapt. rewrite LV. cbn [bind orb]. destruct (Z.eqb_spec l 0); [lia|]. rewrite loglevels_err by assumption. reflexivity.
Qed.

(** a repeated call gives the same configuration, whatever happened in between *)
Lemma configure_repeat h l c v lv lf :
  h <> [] -> snd (configure_logging (calls h l) c v lv lf) = snd (configure_logging h c v lv lf).
Proof.
  intros N. assert (L : 0 < List.length h) by (destruct h; [congruence|cbn; lia]).
  pose proof (calls_old l h 0 L) as E. unfold configure_logging, deepcopy.
  destruct c as [c|]; [reflexivity|]. rewrite E, !app_nth2, !Nat.sub_diag by lia. cbn [nth].
  now destruct (adapt v lv lf (nth 0 h JNull)).
Qed.
