(** What an instrument correction has to do, independent of the model. *)
From Coq Require Import String List Reals.
From Verif Require Import Base ResponseModel.
Import ListNotations.
Open Scope string_scope.
Open Scope list_scope.

Section R.
  Variable inventory : string -> option response.
  Variable deconvolve : response -> option string -> list R -> res (list R).

  (** The corrected trace; g: file of the plot of a channel *)
  Inductive corrected (g : string -> option string) : correction -> itrace -> itrace -> Prop :=
    | c_full id x y resp : inventory id = Some resp -> deconvolve resp (g id) x = Ok y ->
        corrected g Full {| i_id := id; i_data := x |} {| i_id := id; i_data := y |}
    | c_sens id x y resp v : inventory id = Some resp -> i_value resp = Some v ->
        length y = length x -> (forall k a b, nth_error x k = Some a -> nth_error y k = Some b -> (b * v = a)%R) ->
        corrected g Sensitivity {| i_id := id; i_data := x |} {| i_id := id; i_data := y |}.

  (** All traces of a stream can be corrected *)
  Definition correctable (g : string -> option string) (how : correction) (s : istream) : Prop :=
    forall tr, In tr (i_traces s) -> exists tr', corrected g how tr tr'.

  (** The streams kept are the corrected ones of those that can be corrected, in order *)
  Inductive kept (g : string -> option string) (how : correction) : list istream -> list istream -> Prop :=
    | k_nil : kept g how [] []
    | k_keep s s' l l' : i_pair s' = i_pair s -> Forall2 (corrected g how) (i_traces s) (i_traces s') ->
        kept g how l l' -> kept g how (s :: l) (s' :: l')
    | k_skip s l l' : ~ correctable g how s -> kept g how l l' -> kept g how (s :: l) l'.
End R.

(** No sensitivity is 0 *)
Definition sensitive (inventory : string -> option response) : Prop :=
  forall id resp v, inventory id = Some resp -> i_value resp = Some v -> v <> 0%R.

(** Each stream has a pair of its own *)
Definition one_each (streams : list istream) (pairs : list (string * string)) : Prop :=
  NoDup pairs /\ pairs = map i_pair streams.

(** A name with event and channel filled in *)
Fixpoint filled (n : list npart) (evid id : string) : string :=
  match n with
  | [] => ""
  | NLit s :: n => (s ++ filled n evid id)%string
  | NEvent :: n => (evid ++ filled n evid id)%string
  | NTrace :: n => (id ++ filled n evid id)%string
  end.

(** The file of the plot of a channel: named after event and channel if plots are requested, else
    what is given in the options *)
Definition plot_file (plot : bool) (o : roptions) (evid id : string) : option string :=
  if plot then
    Some (match ro_fname o with
          | None => ("remove_response_" ++ evid ++ "_" ++ id ++ ".png")%string
          | Some n => filled n evid id
          end)
  else ro_plot o.

(** All files of plots of streams, in order *)
Definition plot_files (plot : bool) (o : roptions) (evid : string) (streams : list istream) : list string :=
  flat_map (fun s => flat_map (fun tr => match plot_file plot o evid (i_id tr) with Some f => [f] | None => [] end)
                              (i_traces s)) streams.
