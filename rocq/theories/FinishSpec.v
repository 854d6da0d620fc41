(** What is expected of the plots at the end of an inversion, written without the
    functions of FinishModel.v. *)
From Coq Require Import String List Bool.
From Verif Require Import Base RunModel RunSpec RunSpec2 FinishModel.
Import ListNotations.
Open Scope string_scope.
Open Scope list_scope.

(** the options [g] are the options [o] with the moment method [m] and the moment
    options [mo] of the inversion, whether given before or not *)
Definition with_moment (o : dict) (m mo : json) (g : dict) : Prop :=
  dget String.eqb g "seismic_moment_method" = Some m /\
  dget String.eqb g "seismic_moment_options" = Some mo /\
  forall k, k <> "seismic_moment_method" -> k <> "seismic_moment_options" -> dget String.eqb g k = dget String.eqb o k.

(** the plot [name] of the event [id] in the file [f] with the options [o] is drawn
    as wished by the given options [g] *)
Definition drawn_for (fill : string -> string -> string) (result : json) (id name : string) (g : dict) (f : string) (o : dict) : Prop :=
  (exists f0, value g "fname" (JStr (name ++ "_{evid}.pdf")%string) = JStr f0 /\ f = fill f0 id) /\
  (forall k v, k <> "fname" -> dget String.eqb g k = Some v -> dget String.eqb o k = Some v) /\
  event_keywords result (Some id) name o.

(** the plots of the end of an inversion of the event [id] *)
Inductive wished (fill : string -> string -> string) (result : json) (id : string) (m mo : json) (s : plot_settings) : effect -> Prop :=
| W_event : forall o g f o',
    ~ off (ps_event s) -> ps_event_options s = JDict o -> with_moment o m mo g ->
    drawn_for fill result id "eventresult" g f o' ->
    wished fill result id m mo s (Plotted "eventresult" f o')
| W_sites : forall o f o',
    ~ off (ps_sites s) -> has result "R" -> ps_sites_options s = JDict o ->
    drawn_for fill result id "eventsites" o f o' ->
    wished fill result id m mo s (Plotted "eventsites" f o').

(** the settings with other options *)
Definition same_but_options (s s' : plot_settings) : Prop :=
  ps_event s = ps_event s' /\ ps_sites s = ps_sites s' /\ ps_sites_options s = ps_sites_options s'.
