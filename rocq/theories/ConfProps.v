(** Properties C48 to C50: configuration comments, plugins and data retrieval.
    Theorems only. *)
From Coq Require Import String Ascii List.
From Verif Require Import Base PyStr ConfModel ConfSpec ConfProof ConfEx.
Import ListNotations.
Open Scope string_scope.
Open Scope list_scope.

(** C48: each line of the text given to the JSON decoder is the part of the
    line before its first #. *)
Theorem C48_lines : forall s,
  Forall2 (fun line kept => has_char "#" kept = false /\
             exists rest, line = (kept ++ rest)%string /\
               (rest = "" \/ exists r, rest = String "#" r))
    (split_on lf s) (split_on lf (strip_comments s)).
Proof. exact strip_lines. Qed.
Print Assumptions C48_lines.

Example C48_lines_ex :
  split_on lf (strip_comments text_ex) =
  [("{" ++ quote ++ "a" ++ quote ++ ": ")%string; "1}"].
Proof. reflexivity. Qed.

(** C48: without # inside quoted strings, exactly the comments are removed.
    Missing for the full statement: texts with # inside a quoted string, where
    the statement is false. *)
Theorem C48_comments_partial : forall (A : Type) (json : string -> res A) s,
  hash_quoted Outside s = false -> decode json s = json (uncommented Outside s).
Proof. exact @decode_comments. Qed.
Print Assumptions C48_comments_partial.

Example C48_comments_ex : hash_quoted Outside text_ex = false /\
  uncommented Outside text_ex = ("{" ++ quote ++ "a" ++ quote ++ ": " ++ newline ++ "1}")%string.
Proof. exact text_ok. Qed.

(** C48 is false in general: a # inside a quoted string cuts the text. *)
Theorem C48_quoted_refuted :
  exists s, uncommented Outside s = s /\
    decode (A := string) (fun t => Ok t) s <> Ok (uncommented Outside s).
Proof. exact quoted_lost. Qed.
Print Assumptions C48_quoted_refuted.

(** C49: if the module can be imported, the function is looked up in it and the
    module search path is as before, also if the function is missing.
    Missing for the full statement: malformed plugin texts and failing imports,
    see C49_path_iff and C49_path_refuted. *)
Theorem C49_path_partial : forall (M F : Type)
    (import_module : string -> list string -> res M * list string)
    (getattr : M -> string -> res F) strip plugin path m f mod_,
  split_on ":" plugin = [m; f] ->
  import_module (strip m) (path ++ ["."]) = (Ok mod_, path ++ ["."]) ->
  load_func import_module getattr strip plugin path = (getattr mod_ (strip f), path).
Proof. exact @load_func_path. Qed.
Print Assumptions C49_path_partial.

Example C49_path_ex :
  load_func import_ex getattr_ex (fun s => s) "plug:f" ["/lib"] = (Ok "plug.f", ["/lib"]) /\
  load_func import_ex getattr_ex (fun s => s) "plug:g" ["/lib"] = (Err AttributeError, ["/lib"]).
Proof. exact load_ex. Qed.

(** C49: for imports that leave the path alone, exactly those plugins restore
    the path which are of the form module:function and can be imported. *)
Theorem C49_path_iff : forall (M F : Type)
    (import_module : string -> list string -> res M * list string)
    (getattr : M -> string -> res F) strip plugin path,
  (forall name, snd (import_module name (path ++ ["."])) = path ++ ["."]) ->
  (snd (load_func import_module getattr strip plugin path) = path <->
   exists m f mod_, split_on ":" plugin = [m; f] /\
     fst (import_module (strip m) (path ++ ["."])) = Ok mod_).
Proof. exact @load_func_keeps. Qed.
Print Assumptions C49_path_iff.

Example C49_path_iff_ex : forall name,
  snd (import_ex name (["/lib"] ++ ["."])) = ["/lib"] ++ ["."].
Proof. exact import_keeps. Qed.

(** C49 is false in general: a failing import leaves the path changed. *)
Theorem C49_path_refuted :
  exists (import_module : string -> list string -> res string * list string)
         (getattr : string -> string -> res string) plugin path,
    (forall name p, snd (import_module name p) = p) /\
    snd (load_func import_module getattr (fun s => s) plugin path) <> path.
Proof. exact path_left. Qed.
Print Assumptions C49_path_refuted.

(** C50: the waveform function returns what the data source returns, None after
    an error, and passes on KeyboardInterrupt and SystemExit. *)
Theorem C50_retrieval : forall (S V : Type) (text : V -> option string)
    client plugin read sel rep (data : datasrc) given w kw,
  init_data (S := S) text client plugin read sel rep data given = Ok w ->
  names_channel text kw ->
  exists g, source_of client plugin read sel rep data given g /\
    w kw = match g kw with
           | Ok st => Ok (Some st)
           | Err KeyboardInterrupt => Err KeyboardInterrupt
           | Err SystemExit => Err SystemExit
           | Err _ => Ok None
           end.
Proof. exact @init_retrieval. Qed.
Print Assumptions C50_retrieval.

Example C50_retrieval_ex : exists w,
  init_data (@Some string) (fun _ => None) (Err ValueError) (fun _ => Err ValueError)
    (fun _ _ => Err ValueError) (fun _ => "") (DataText "data") (Some source_ex) = Ok w /\
  names_channel (@Some string) (request "A") /\ names_channel (@Some string) (request "B") /\
  w (request "A") = Ok (Some 7%nat) /\ w (request "B") = Ok None.
Proof. exact init_ex. Qed.

(** C50: after an error of the source, a request without one of the four codes
    raises KeyError, and one whose code is not a text raises TypeError. *)
Theorem C50_codes : forall (S V : Type) (text : V -> option string)
    client plugin read sel rep (data : datasrc) given w kw,
  init_data (S := S) text client plugin read sel rep data given = Ok w ->
  exists g, source_of client plugin read sel rep data given g /\
    forall e, g kw = Err e -> e <> KeyboardInterrupt -> e <> SystemExit ->
      ((exists k, In k ["network"; "station"; "location"; "channel"] /\ ~ In k (map fst kw)) -> w kw = Err KeyError) /\
      ((forall k, In k ["network"; "station"; "location"; "channel"] -> In k (map fst kw)) ->
       (exists k v, In k ["network"; "station"; "location"; "channel"] /\ dget String.eqb kw k = Some v /\ text v = None) ->
       w kw = Err TypeError).
Proof. exact @init_unnamed. Qed.
Print Assumptions C50_codes.

Example C50_codes_ex : exists w,
  init_data (@Some string) (fun _ => None) (Err ValueError) (fun _ => Err ValueError)
    (fun _ _ => Err ValueError) (fun _ => "") (DataText "data") (Some source_ex) = Ok w /\
  source_ex [("station", "B")] = Err ValueError /\ w [("station", "B")] = Err KeyError.
Proof. exact unnamed_ex. Qed.

(** C50: there is a waveform function if and only if there is a source *)
Theorem C50_source : forall (S V : Type) (text : V -> option string) client plugin read sel rep
    (data : datasrc) given,
  (exists w, init_data (S := S) text client plugin read sel rep data given = Ok w) <->
  (exists g, source_of client plugin read sel rep data given g).
Proof. exact @init_source. Qed.
Print Assumptions C50_source.

Example C50_source_ex :
  source_of (V := string) (fun _ => None) (Err ValueError) (fun _ => Ok 3%nat) (fun st _ => Ok st) (fun _ => "")
    (DataText "data.mseed") None (fun _ => Ok 3%nat).
Proof. exact source_file_ex. Qed.
