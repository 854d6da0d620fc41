(** Properties of the configuration of logging: C72. *)
From Coq Require Import String List Bool ZArith Arith.
From Verif Require Import Base RunModel LogModel LogSpec LogProof.
Import ListNotations.
Open Scope string_scope.
Open Scope list_scope.

(** No sequence of calls changes the default configuration, or any other object
    that existed before. *)
Theorem C72_default :
  forall (l : list call) (h : heap) b,
    b < List.length h -> nth b (calls h l) JNull = nth b h JNull.
Proof. exact calls_old. Qed.
Print Assumptions C72_default.

Example C72_default_ex :
  0 < List.length [logging_default] /\
  List.length (calls [logging_default] [(None, JNum 1, JNum 3, JStr "log"); (None, JNum 9, JNum 0, JNull)]) = 3.
Proof. split; vm_compute; auto. Qed.

(** A call gives the same configuration whatever was called before. *)
Theorem C72_repeatable :
  forall (h : heap) (l : list call) c v lv lf,
    h <> [] -> snd (configure_logging (calls h l) c v lv lf) = snd (configure_logging h c v lv lf).
Proof. exact configure_repeat. Qed.
Print Assumptions C72_repeatable.

Example C72_repeatable_ex : [logging_default] <> [].
Proof. discriminate. Qed.

(** In a configuration made from the default all handlers and formatters that are
    named are defined, all loggers use the console with the level of verbose (at
    most 3), warnings are captured, and there is a handler for a file exactly if a
    log file is given and loglevel is not 0; then it has the name and the level and
    all loggers use it. *)
Theorem C72_consistent :
  forall h verbose loglevel logfile h2 lg,
    nth 0 h JNull = logging_default -> h <> [] ->
    configure_logging h None verbose loglevel logfile = (h2, Ok lg) ->
    handlers_defined (lg_config lg) /\ formatters_defined (lg_config lg) /\ used_by_all (lg_config lg) "console" /\
    lg_capture lg = JBool true /\
    (exists v lv c, verbose = JNum v /\ level_name (Z.min v 3) lv /\
                    entry (lg_config lg) "handlers" "console" c /\ jget c "level" = Ok (JStr lv)) /\
    (has_file (lg_config lg) <-> logfile <> JNull /\ loglevel <> JNum 0) /\
    (logfile <> JNull -> loglevel <> JNum 0 ->
       used_by_all (lg_config lg) "file" /\
       exists f l lf, entry (lg_config lg) "handlers" "file" f /\ jget f "filename" = Ok logfile /\
         loglevel = JNum l /\ level_name l lf /\ jget f "level" = Ok (JStr lf)).
Proof. exact configured. Qed.
Print Assumptions C72_consistent.

Example C72_consistent_ex : exists h2 lg,
  configure_logging [logging_default] None (JNum 5) (JNum 2) (JStr "log.txt") = (h2, Ok lg).
Proof. eexists _, _. vm_compute. reflexivity. Qed.

(** The call succeeds for all valid values. *)
Theorem C72_total :
  forall h v loglevel logfile,
    nth 0 h JNull = logging_default -> h <> [] ->
    (0 <= v)%Z -> (logfile = JNull \/ exists l, loglevel = JNum l /\ (0 <= l <= 3)%Z) ->
    exists h2 lg, configure_logging h None (JNum v) loglevel logfile = (h2, Ok lg).
Proof. exact configure_total. Qed.
Print Assumptions C72_total.

Example C72_total_ex :
  nth 0 [logging_default] JNull = logging_default /\ (0 <= 5)%Z /\ exists l, JNum 2 = JNum l /\ (0 <= l <= 3)%Z.
Proof. repeat split; try discriminate. exists 2%Z. repeat split; discriminate. Qed.

(** A loglevel above 3 is not capped as verbose is, but a KeyError. *)
Theorem C72_invalid :
  forall h v l s,
    nth 0 h JNull = logging_default -> (0 <= v)%Z -> ~ (0 <= l <= 3)%Z ->
    snd (configure_logging h None (JNum v) (JNum l) (JStr s)) = Err KeyError.
Proof. exact configure_loglevel. Qed.
Print Assumptions C72_invalid.

Example C72_invalid_ex : nth 0 [logging_default] JNull = logging_default /\ ~ (0 <= 4 <= 3)%Z.
Proof. split; [reflexivity|]. intros [_ H]. exact (H eq_refl). Qed.
