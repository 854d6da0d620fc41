(** Concrete cases for the theorems about configuration texts, plugins and data
    retrieval. *)
From Coq Require Import String Ascii List Bool.
From Verif Require Import Base PyStr ConfModel ConfSpec.
Import ListNotations.
Open Scope string_scope.
Open Scope list_scope.

Definition quote : string := String (ascii_of_nat 34) "".
Definition newline : string := String lf "".

(** {"a":  # name        and       {"a": "x#y"}
    1}                                                *)
Definition text_ex : string :=
  ("{" ++ quote ++ "a" ++ quote ++ ": # it's a " ++ quote ++ newline ++ "1}")%string.
Definition text_bad : string :=
  ("{" ++ quote ++ "a" ++ quote ++ ": " ++ quote ++ "x#y" ++ quote ++ "}")%string.

Lemma text_ok : hash_quoted Outside text_ex = false /\
  uncommented Outside text_ex = ("{" ++ quote ++ "a" ++ quote ++ ": " ++ newline ++ "1}")%string.
Proof. split; reflexivity. Qed.

Lemma quoted_lost :
  exists s, uncommented Outside s = s /\
    decode (A := string) (fun t => Ok t) s <> Ok (uncommented Outside s).
Proof. exists text_bad. split; [reflexivity|]. cbv. discriminate. Qed.

(** modules numpy and plug; module plug has function f *)
Definition import_ex (name : string) (path : list string) : res string * list string :=
  if inb String.eqb name ["numpy"; "plug"] then (Ok name, path) else (Err ImportError, path).
Definition getattr_ex (m f : string) : res string :=
  if (String.eqb m "plug" && String.eqb f "f")%bool then Ok "plug.f" else Err AttributeError.

Lemma load_ex :
  load_func import_ex getattr_ex (fun s => s) "plug:f" ["/lib"] = (Ok "plug.f", ["/lib"]) /\
  load_func import_ex getattr_ex (fun s => s) "plug:g" ["/lib"] = (Err AttributeError, ["/lib"]).
Proof. split; reflexivity. Qed.

Lemma import_keeps p : snd (import_ex p (["/lib"] ++ ["."])) = ["/lib"] ++ ["."].
Proof. unfold import_ex. destruct (inb _ _ _); reflexivity. Qed.

Lemma path_left :
  exists (imp : string -> list string -> res string * list string)
         (getattr : string -> string -> res string) plugin path,
    (forall name p, snd (imp name p) = p) /\
    snd (load_func imp getattr (fun s => s) plugin path) <> path.
Proof.
  exists import_ex, getattr_ex, "missing:f", ["/lib"]. split.
  - intros name p. unfold import_ex. destruct (inb _ _ _); reflexivity.
  - cbv. discriminate.
Qed.

(** a data source that only knows station A *)
Definition source_ex (kw : list (string * string)) : res nat :=
  match dget String.eqb kw "station" with
  | Some "A" => Ok 7%nat
  | Some _ => Err ValueError
  | None => Err SystemExit
  end.

Definition request (sta : string) : list (string * string) :=
  [("network", "N"); ("station", sta); ("location", ""); ("channel", "HHZ"); ("starttime", "0")].

Lemma request_names sta : names_channel (@Some string) (request sta).
Proof.
  intros k [<-|[<-|[<-|[<-|[]]]]]; cbn; eauto.
Qed.

Lemma init_ex : exists w,
  init_data (@Some string) (fun _ => None) (Err ValueError) (fun _ => Err ValueError)
    (fun _ _ => Err ValueError) (fun _ => "") (DataText "data") (Some source_ex) = Ok w /\
  names_channel (@Some string) (request "A") /\ names_channel (@Some string) (request "B") /\
  w (request "A") = Ok (Some 7%nat) /\ w (request "B") = Ok None.
Proof.
  eexists. split; [reflexivity|]. split; [apply request_names|]. split; [apply request_names|].
  split; reflexivity.
Qed.

Lemma source_file_ex :
  source_of (V := string) (fun _ => None) (Err ValueError) (fun _ => Ok 3%nat) (fun st _ => Ok st) (fun _ => "")
    (DataText "data.mseed") None (fun _ => Ok 3%nat).
Proof. apply (FromFile _ _ _ (fun (st : nat) (_ : list (string * string)) => Ok st)); [reflexivity|discriminate|reflexivity]. Qed.

Lemma unnamed_ex : exists w,
  init_data (@Some string) (fun _ => None) (Err ValueError) (fun _ => Err ValueError)
    (fun _ _ => Err ValueError) (fun _ => "") (DataText "data") (Some source_ex) = Ok w /\
  source_ex [("station", "B")] = Err ValueError /\ w [("station", "B")] = Err KeyError.
Proof. eexists. split; [reflexivity|]. split; reflexivity. Qed.
