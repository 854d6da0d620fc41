(** Model of the instrument correction in invert, /repo/qopen/core.py:1028-1031 and 1239-1288. *)
From Coq Require Import String List Bool Reals.
From Verif Require Import Base.
Import ListNotations.
Open Scope string_scope.
Open Scope list_scope.

(** An instrument response: the value of the sensitivity (if there is one) and the rest *)
Record response := { i_value : option R; i_stages : list (list R) }.

(** A trace of a stream *)
Record itrace := { i_id : string; i_data : list R }.

(** A stream with its pair (get_pair of its first trace, core.py:1250) *)
Record istream := { i_pair : string * string; i_traces : list itrace }.

(** Name of a file for the plot, a format string with evid and tr.id *)
Inductive npart := NLit (s : string) | NEvent | NTrace.

(** 'remove_response_{evid}_{tr.id}.png', core.py:1243 *)
Definition default_name : list npart := [NLit "remove_response_"; NEvent; NLit "_"; NTrace; NLit ".png"].

(** [fname.format(evid=evid, tr=tr)], core.py:1030 *)
Definition name_of (fname : list npart) (evid id : string) : string :=
  String.concat "" (map (fun p => match p with NLit s => s | NEvent => evid | NTrace => id end) fname).

(** Ways of correction, core.py:1058 *)
Inductive correction := Full | Sensitivity.

(** remove_response_options without fname and plot (only used by obspy), fname and plot *)
Record roptions := { ro_fname : option (list npart); ro_plot : option string }.

Section R.
  (** inventory: the response of a channel, if there is one *)
  Variable inventory : string -> option response.
  (** Trace.remove_response of obspy for a response and the data, with the plot drawn (None: none) *)
  Variable deconvolve : response -> option string -> list R -> res (list R).

  (** _remove_response, core.py:1028-1031; the options have no plot if a plot is requested
      (core.py:1245), so setdefault sets it.  The file drawn is returned. *)
  Definition remove_one (plot : bool) (evid : string) (fname : list npart) (user : option string)
      (resp : response) (tr : itrace) : res (itrace * list string) :=
    let file := if plot then Some (name_of fname evid (i_id tr)) else user in
    do d <- deconvolve resp file (i_data tr);
    Ok ({| i_id := i_id tr; i_data := d |}, match file with Some f => [f] | None => [] end).

  (** core.py:1276-1278; a response without sensitivity has no value.  Simplification: the value is
      not 0 (division by 0 is no error in numpy). *)
  Definition divide_one (resp : response) (tr : itrace) : res (itrace * list string) :=
    match i_value resp with
    | None => Err AttributeError
    | Some v => Ok ({| i_id := i_id tr; i_data := map (fun x => (x / v)%R) (i_data tr) |}, [])
    end.

  (** The traces of a stream, core.py:1259-1278 *)
  Fixpoint correct_traces (f : response -> itrace -> res (itrace * list string)) (trs : list itrace)
      : res (list itrace * list string) :=
    match trs with
    | [] => Ok ([], [])
    | tr :: trs =>
        match inventory (i_id tr) with
        | None => Err AttributeError
        | Some resp =>
            do a <- f resp tr;
            do b <- correct_traces f trs;
            Ok (fst a :: fst b, snd a ++ snd b)
        end
    end.

  (** list.remove: the first occurrence *)
  Fixpoint remove1 (p : string * string) (l : list (string * string)) : res (list (string * string)) :=
    match l with
    | [] => Err ValueError
    | q :: l => if (String.eqb (fst p) (fst q) && String.eqb (snd p) (snd q))%bool then Ok l
                else do r <- remove1 p l; Ok (q :: r)
    end.

  (** The loop over the streams, core.py:1249-1285.  Streams are removed from a copy, which amounts to
      leaving them out; plots of streams that fail are left out. *)
  Fixpoint correct_streams (f : response -> itrace -> res (itrace * list string)) (streams : list istream)
      (pairs : list (string * string)) : res (list istream * list (string * string) * list string) :=
    match streams with
    | [] => Ok ([], pairs, [])
    | s :: streams =>
        let attached := forallb (fun tr => match inventory (i_id tr) with Some _ => true | None => false end) (i_traces s) in
        if negb attached then do pairs <- remove1 (i_pair s) pairs; correct_streams f streams pairs
        else
          match correct_traces f (i_traces s) with
          | Err _ => do pairs <- remove1 (i_pair s) pairs; correct_streams f streams pairs
          | Ok (trs, files) =>
              do r <- correct_streams f streams pairs;
              match r with
              | (ss, ps, fs) => Ok ({| i_pair := i_pair s; i_traces := trs |} :: ss, ps, files ++ fs)
              end
          end
    end.

  (** core.py:1239-1288 ([evid]: the variable of the loop over the requested pairs, core.py:1189-1190,
      after the loop) *)
  Definition correct_response (how : option correction) (plot : bool) (o : roptions) (evid : string)
      (streams : list istream) (pairs : list (string * string))
      : res (list istream * list (string * string) * list string) :=
    match how with
    | None => Ok (streams, pairs, [])
    | Some how =>
        let fname := match ro_fname o with Some n => n | None => default_name end in
        let user := if plot then None else ro_plot o in
        match how with
        | Full => correct_streams (remove_one plot evid fname user) streams pairs
        | Sensitivity => correct_streams divide_one streams pairs
        end
    end.
End R.

(** The event left in the variable after the loop over the requested pairs, core.py:1189-1190 *)
Fixpoint last_event (requested : list (string * string)) (evid : string) : string :=
  match requested with
  | [] => evid
  | p :: requested => last_event requested (fst p)
  end.
