(** Specification of comments in JSON texts: a comment starts at a # outside of
    a quoted string and ends before the next line feed. *)
From Coq Require Import String Ascii List Bool.
From Verif Require Import Base ConfModel.
Open Scope string_scope.

(** outside of strings, inside a string, after a backslash, in a comment *)
Inductive place := Outside | Quoted | Escaped | Comment.

(** the text without comments *)
Fixpoint uncommented (p : place) (s : string) : string :=
  match s with
  | EmptyString => EmptyString
  | String c r =>
      match p with
      | Outside =>
          if Ascii.eqb c "#" then uncommented Comment r
          else if Ascii.eqb c (ascii_of_nat 34) then String c (uncommented Quoted r)
          else String c (uncommented Outside r)
      | Quoted =>
          if Ascii.eqb c "\" then String c (uncommented Escaped r)
          else if Ascii.eqb c (ascii_of_nat 34) then String c (uncommented Outside r)
          else String c (uncommented Quoted r)
      | Escaped => String c (uncommented Quoted r)
      | Comment =>
          if Ascii.eqb c lf then String c (uncommented Outside r)
          else uncommented Comment r
      end
  end.

(** a # within a quoted string *)
Fixpoint hash_quoted (p : place) (s : string) : bool :=
  match s with
  | EmptyString => false
  | String c r =>
      match p with
      | Outside =>
          if Ascii.eqb c "#" then hash_quoted Comment r
          else if Ascii.eqb c (ascii_of_nat 34) then hash_quoted Quoted r
          else hash_quoted Outside r
      | Quoted =>
          Ascii.eqb c "#" ||
          (if Ascii.eqb c "\" then hash_quoted Escaped r
           else if Ascii.eqb c (ascii_of_nat 34) then hash_quoted Outside r
           else hash_quoted Quoted r)
      | Escaped => Ascii.eqb c "#" || hash_quoted Quoted r
      | Comment =>
          if Ascii.eqb c lf then hash_quoted Outside r else hash_quoted Comment r
      end
  end.

(** a request names network, station, location and channel by texts *)
Definition names_channel {V} (text : V -> option string) (kwargs : list (string * V)) : Prop :=
  forall k, In k ("network" :: "station" :: "location" :: "channel" :: nil)%list ->
  exists v s, dget String.eqb kwargs k = Some v /\ text v = Some s.

(** The source of waveforms: a given function, a client of that name, a plugin, a
    file or given waveforms *)
Inductive source_of {S V} (client : string -> option (res (list (string * V) -> res S)))
    (plugin : res (list (string * V) -> res S)) (read : string -> res S)
    (select_slice : S -> list (string * V) -> res S) (repr : S -> string)
  : @datasrc S -> option (list (string * V) -> res S) -> (list (string * V) -> res S) -> Prop :=
| FromGiven data g : source_of client plugin read select_slice repr data (Some g) g
| FromClientName s g : client s = Some (Ok g) -> source_of client plugin read select_slice repr (DataText s) None g
| FromClientStream st g : client (repr st) = Some (Ok g) ->
    source_of client plugin read select_slice repr (DataStream st) None g
| FromPlugin g : client "plugin" = None -> plugin = Ok g ->
    source_of client plugin read select_slice repr (DataText "plugin") None g
| FromFile s st : client s = None -> s <> "plugin" -> read s = Ok st ->
    source_of client plugin read select_slice repr (DataText s) None (select_slice st)
| FromStream st : client (repr st) = None ->
    source_of client plugin read select_slice repr (DataStream st) None (select_slice st).
