(** Model of configure_logging, /repo/qopen/core.py:1687-1701, and of
    LOGGING_DEFAULT_CONFIG, /repo/qopen/util.py:23-62. *)
From Coq Require Import String List Bool ZArith Arith.
From Verif Require Import Base RunModel.
Import ListNotations.
Open Scope string_scope.
Open Scope list_scope.

(** util.py:23-62 *)
Definition logging_default : json :=
  JDict
    [("version", JNum 1);
     ("disable_existing_loggers", JBool false);
     ("capture_warnings", JBool true);
     ("formatters",
       JDict [("file", JDict [("format", JStr "%(asctime)s %(module)-6s%(process)-6d%(levelname)-8s%(message)s")]);
              ("console", JDict [("format", JStr "%(levelname)-8s%(message)s")])]);
     ("handlers",
       JDict [("console", JDict [("class", JStr "logging.StreamHandler"); ("formatter", JStr "console"); ("level", JNull)]);
              ("file", JDict [("class", JStr "logging.FileHandler"); ("formatter", JStr "file"); ("level", JNull);
                              ("filename", JNull)])]);
     ("loggers",
       JDict [("qopen", JDict [("handlers", JList [JStr "console"; JStr "file"]); ("level", JStr "DEBUG");
                               ("propagate", JBool false)]);
              ("py.warnings", JDict [("handlers", JList [JStr "console"; JStr "file"]); ("level", JStr "DEBUG");
                                     ("propagate", JBool false)])])].

(** [LOGLEVELS[i]], core.py:59 *)
Definition loglevels (i : Z) : res string :=
  match i with
  | 0 => Ok "CRITICAL"
  | 1 => Ok "WARNING"
  | 2 => Ok "INFO"
  | 3 => Ok "DEBUG"
  | _ => Err KeyError
  end%Z.

(** Objects with an address; dictionaries inside an object belong to it.  The
    default configuration is object 0. *)
Notation heap := (list json).

(** [deepcopy(x)]: the address of a new object with the same value *)
Definition deepcopy (h : heap) (a : nat) : heap * nat := (h ++ [nth a h JNull], List.length h).

(** change of one object *)
Fixpoint store (h : heap) (a : nat) (v : json) : heap :=
  match h, a with
  | [], _ => []
  | _ :: h, O => v :: h
  | x :: h, S a => x :: store h a v
  end.

(** [f(d[k1][k2]...)] for a function [f] that changes its argument *)
Fixpoint jupdate (path : list string) (f : json -> res json) (j : json) : res json :=
  match path with
  | [] => f j
  | k :: path => do x <- jget j k; do x <- jupdate path f x; jset j k x
  end.

(** [del d[k]] *)
Definition jdel (j : json) (k : string) : res json :=
  match j with
  | JDict d => if dmem String.eqb d k then Ok (JDict (dpop String.eqb d k)) else Err KeyError
  | _ => Err TypeError
  end.

(** core.py:1690-1699: the changes of the copied configuration.  Simplification:
    values that are not integers are a TypeError. *)
Definition adapt (verbose loglevel logfile : json) (c : json) : res json :=
  match verbose with
  | JNum v =>
      let v := if (3 <? v)%Z then 3%Z else v in
      do lv <- loglevels v;
      do c <- jupdate ["handlers"; "console"] (fun j => jset j "level" (JStr lv)) c;
      if (match logfile with JNull => true | _ => false end ||
          match loglevel with JNum l => (l =? 0)%Z | _ => false end)%bool then
        do c <- jupdate ["handlers"] (fun j => jdel j "file") c;
        do c <- jupdate ["loggers"; "qopen"] (fun j => jset j "handlers" (JList [JStr "console"])) c;
        jupdate ["loggers"; "py.warnings"] (fun j => jset j "handlers" (JList [JStr "console"])) c
      else
        match loglevel with
        | JNum l =>
            do lv <- loglevels l;
            do c <- jupdate ["handlers"; "file"] (fun j => jset j "level" (JStr lv)) c;
            jupdate ["handlers"; "file"] (fun j => jset j "filename" logfile) c
        | _ => Err TypeError
        end
  | _ => Err TypeError
  end.

(** The configuration given to logging.config.dictConfig and the value given to
    logging.captureWarnings, core.py:1700-1701 *)
Record logged := { lg_config : json; lg_capture : json }.

(** configure_logging, core.py:1687-1701: the objects afterwards and the calls of
    the logging module.  [loggingc]: None, or a configuration of the user.
    Simplification: dictConfig does not fail; a failing change leaves the object
    as before. *)
Definition configure_logging (h : heap) (loggingc : option json) (verbose loglevel logfile : json)
    : heap * res logged :=
  let '(h, c) :=
    match loggingc with
    | None =>
        let '(h, a) := deepcopy h 0 in
        match adapt verbose loglevel logfile (nth a h JNull) with
        | Ok c => (store h a c, Ok c)
        | Err e => (h, Err e)
        end
    | Some c => (h, Ok c)
    end in
  (h, do c <- c;
      match c with
      | JDict d => Ok {| lg_config := c; lg_capture := getd d "capture_warnings" (JBool false) |}
      | _ => Err AttributeError
      end).

(** arguments of one call *)
Notation call := (option json * json * json * json)%type.

(** a sequence of calls *)
Fixpoint calls (h : heap) (l : list call) : heap :=
  match l with
  | [] => h
  | (c, v, lv, lf) :: l => calls (fst (configure_logging h c v lv lf)) l
  end.
