(** C142: vocabulary for a second alignment. *)
From Coq Require Import String List.
From Verif Require Import Base SiteModel.
Import ListNotations.

(** the aligned events as input of another alignment *)
Definition as_input (out : list (string * evres)) : list (string * option evres) := map (fun p => (fst p, Some (snd p))) out.
