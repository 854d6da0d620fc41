(** Model of the configuration decoder, plugin loading and data retrieval,
    /repo/qopen/core.py:1607-1684. *)
From Coq Require Import String Ascii List Bool.
From Verif Require Import Base PyStr.
Import ListNotations.
Open Scope string_scope.
Open Scope list_scope.

(** the line feed character *)
Definition lf : ascii := ascii_of_nat 10.

(** [l.split('#', 1)[0]], core.py:1683 *)
Fixpoint before_hash (l : string) : string :=
  match l with
  | EmptyString => EmptyString
  | String a r => if Ascii.eqb a "#" then EmptyString else String a (before_hash r)
  end.

(** core.py:1683: the text that is given to the JSON decoder *)
Definition strip_comments (s : string) : string :=
  join (String lf "") (map before_hash (split_on lf s)).

(** [ConfigJSONDecoder.decode], core.py:1682-1684, for any JSON decoder *)
Definition decode {A} (json : string -> res A) (s : string) : res A :=
  json (strip_comments s).

Section Load.
  (** [import_module(name)], core.py:1611: result and the new sys.path (a
      module can change it while it is imported) *)
  Context {M F : Type}.
  Variable import_module : string -> list string -> res M * list string.
  (** [getattr(module, name)], core.py:1613 *)
  Variable getattr : M -> string -> res F.
  (** [s.strip()], core.py:1611, 1613 *)
  Variable strip : string -> string.

  (** [_load_func], core.py:1607-1614: the result and sys.path afterwards.
      [pop] from an empty list is an IndexError. *)
  Definition load_func (plugin : string) (path : list string) : res F * list string :=
    let path := path ++ ["."] in
    match split_on ":" plugin with
    | [modulename; funcname] =>
        match import_module (strip modulename) path with
        | (Err e, path) => (Err e, path)
        | (Ok m, path) =>
            match path with
            | [] => (Err IndexError, path)
            | _ => (getattr m (strip funcname), removelast path)
            end
        end
    | _ => (Err ValueError, path)
    end.
End Load.

Section Data.
  (** streams, and the values of the keyword arguments *)
  Context {S V : Type}.
  (** the text of a keyword argument, None for other types *)
  Variable text : V -> option string.

  (** [kwargs[k]] as an item of ['.'.join], core.py:1657-1658 *)
  Definition code (kwargs : list (string * V)) (k : string) : res unit :=
    match dget String.eqb kwargs k with
    | None => Err KeyError
    | Some v => match text v with Some _ => Ok tt | None => Err TypeError end
    end.

  (** all items are looked up before they are joined *)
  Definition has_key (kwargs : list (string * V)) (k : string) : res unit :=
    match dget String.eqb kwargs k with None => Err KeyError | Some _ => Ok tt end.

  (** [wrapper], core.py:1651-1660.  [None] is returned after an exception. *)
  Definition wrapper (get_waveforms : list (string * V) -> res S)
      (kwargs : list (string * V)) : res (option S) :=
    match get_waveforms kwargs with
    | Ok st => Ok (Some st)
    | Err KeyboardInterrupt => Err KeyboardInterrupt
    | Err SystemExit => Err SystemExit
    | Err _ =>
        do _ <- mapM (has_key kwargs) ["network"; "station"; "location"; "channel"];
        do _ <- mapM (code kwargs) ["network"; "station"; "location"; "channel"];
        Ok None
    end.

  (** the argument data of init_data: a text or waveform data *)
  Inductive datasrc := DataText (s : string) | DataStream (st : S).

  Variables
    (import_client : string -> option (res (list (string * V) -> res S)))
      (* [obspy.clients.<data>.Client(options).get_waveforms], core.py:1629-1636,
         None if there is no such module *)
    (load_plugin : res (list (string * V) -> res S)) (* [_load_func(plugin)] *)
    (read : string -> res S)                         (* [obspy.read] *)
    (select_slice : S -> list (string * V) -> res S) (* core.py:1645-1649 *)
    (repr_data : S -> string).                       (* ['%s' % data] *)

  (** core.py:1622-1649: the source of the data *)
  Definition data_source (data : datasrc)
      (get_waveforms : option (list (string * V) -> res S))
    : res (list (string * V) -> res S) :=
    match get_waveforms with
    | Some f => Ok f
    | None =>
        let name := match data with DataText s => s | DataStream st => repr_data st end in
        match import_client name with
        | Some client => client
        | None =>
            match data with
            | DataText s =>
                if String.eqb s "plugin" then load_plugin
                else do st <- read s; Ok (select_slice st)
            | DataStream st => Ok (select_slice st)
            end
        end
    end.

  (** [init_data], core.py:1617-1675.  Simplification: the joblib cache
      (core.py:1662-1674) returns what the wrapper returns. *)
  Definition init_data (data : datasrc)
      (get_waveforms : option (list (string * V) -> res S))
    : res (list (string * V) -> res (option S)) :=
    do f <- data_source data get_waveforms;
    Ok (wrapper f).
End Data.
