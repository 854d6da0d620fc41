(** What is expected of a logging configuration, for any configuration. *)
From Coq Require Import String List ZArith.
From Verif Require Import Base RunModel.
Import ListNotations.
Open Scope string_scope.
Open Scope list_scope.

(** entry of a dictionary in a dictionary *)
Definition entry (c : json) (k1 k2 : string) (v : json) : Prop :=
  exists d, jget c k1 = Ok d /\ jget d k2 = Ok v.

(** every handler named by a logger is defined *)
Definition handlers_defined (c : json) : Prop :=
  forall name logger hs h,
    entry c "loggers" name logger -> jget logger "handlers" = Ok (JList hs) -> In (JStr h) hs ->
    exists v, entry c "handlers" h v.

(** every formatter named by a handler is defined *)
Definition formatters_defined (c : json) : Prop :=
  forall name handler f,
    entry c "handlers" name handler -> jget handler "formatter" = Ok (JStr f) ->
    exists v, entry c "formatters" f v.

(** there is a handler for a file *)
Definition has_file (c : json) : Prop := exists v, entry c "handlers" "file" v.

(** every logger uses the handler *)
Definition used_by_all (c : json) (h : string) : Prop :=
  forall name logger, entry c "loggers" name logger ->
    exists hs, jget logger "handlers" = Ok (JList hs) /\ In (JStr h) hs.

(** names of levels *)
Definition level_name (l : Z) (s : string) : Prop :=
  (l = 0 /\ s = "CRITICAL" \/ l = 1 /\ s = "WARNING" \/ l = 2 /\ s = "INFO" \/ l = 3 /\ s = "DEBUG")%Z.
