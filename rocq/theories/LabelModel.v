(** Model of the annotation of the plot of a source spectrum, plot_sds,
    /repo/qopen/imaging.py:383-460. *)
From Coq Require Import String List Bool Reals.
From Verif Require Import Base Pyf DepModel.
Import ListNotations.
Open Scope string_scope.
Open Scope list_scope.

(** Format of a number: '.1f', '.1e' or without specification *)
Inductive style := Fixed (digits : nat) | Expo (digits : nat) | Plain.

(** Parts of a format string: text, '{key:style}' and '{}' *)
Inductive part := Lit (s : string) | Field (key : string) (st : style) | Positional.

(** Parts of the text that is shown *)
Inductive shown := SText (s : string) | SNumber (x : R) (st : style).

(** The dictionary of an event, reduced to numbers (None of Python is [None]) *)
Definition fields := list (string * option R).

(** str.format with keywords, used in imaging.py:444 and 449 *)
Definition format_part (d : fields) (p : part) : res shown :=
  match p with
  | Lit s => Ok (SText s)
  | Positional => Err IndexError
  | Field k st =>
      match dget String.eqb d k with
      | None => Err KeyError
      | Some (Some x) => Ok (SNumber x st)
      | Some None => match st with Plain => Ok (SText "None") | _ => Err TypeError end
      end
  end.
Definition format (parts : list part) (d : fields) : res (list shown) := mapM (format_part d) parts.

(** imaging.py:439-443 *)
Definition default_labels : list (string * list part) :=
  [ ("M0", [Lit "M$_0$="; Field "M0" (Expo 1); Lit " Nm"]);
    ("fc", [Lit "f$_{\rm{c}}$="; Field "fc" (Fixed 1); Lit " Hz"]);
    ("n", [Lit "n="; Field "n" (Fixed 1)]);
    ("gamma", [Lit "$\gamma$="; Field "gamma" (Fixed 2)]);
    ("fit_error", [Lit "err="; Field "fit_error" (Fixed 2)]) ].

(** Is the text empty (false in Python)? *)
Definition empty_text (parts : list part) : bool :=
  forallb (fun p => match p with Lit s => String.eqb s "" | _ => false end) parts.

(** imaging.py:438-453: the lines of the annotation; [labels] is not bound with a text of one's own *)
Definition sds_label (annotate : bool) (annotate_label : option (list part)) (d : fields)
    : res (option (list (list shown))) :=
  match annotate_label with
  | None =>
      do labels <- mapM (fun kv => format (snd kv) d)
                     (filter (fun kv => match dget String.eqb d (fst kv) with Some _ => true | None => false end)
                        default_labels);
      Ok (if (annotate && Nat.ltb 0 (List.length labels))%bool then Some labels else None)
  | Some parts =>
      match format parts d with
      | Err KeyError => Ok None
      | Err e => Err e
      | Ok label => if annotate then if empty_text parts then Err UnboundLocalError else Ok (Some [label])
                    else Ok None
      end
  end.

(** imaging.py:454-456: point of the axes (fraction) and offset in points *)
Definition label_place (va : string) : (R * R) * (R * R) :=
  let ypos := if String.eqb va "top" then 1%R else 0%R in
  ((1, ypos), (-5, 5 - 10 * ypos))%R.

(** The parameters of the source model in the dictionary, [result.get(k)], imaging.py:409 *)
Definition got (d : fields) (k : string) : option R :=
  match dget String.eqb d k with Some x => x | None => None end.
Definition pars_of (d : fields) : pars :=
  {| p_M0 := got d "M0"; p_fc := got d "fc"; p_n := got d "n"; p_gamma := got d "gamma" |}.

(** plot_sds, imaging.py:383-460, with its annotation (None: nothing is drawn) *)
Definition plot_labelled (freq : list R) (omM : list pyf) (d : fields) (method : option string) (smo : option pars)
    (colored annotate : bool) (annotate_label : option (list part))
    : res (option (drawing * option (list (list shown)))) :=
  do dr <- plot_sds freq omM (pars_of d) method smo colored;
  match dr with
  | None => Ok None
  | Some dr => do l <- sds_label annotate annotate_label d; Ok (Some (dr, l))
  end.
