(** Independent specification for the plot of all source displacement spectra (C116). *)
From Coq Require Import String List Reals.
From Verif Require Import Base Pyf DepModel SpectraModel.
Import ListNotations.
Open Scope string_scope.
Open Scope list_scope.

(** the event is selected *)
Definition selected (only : option (list string)) (id : string) : Prop :=
  only = None \/ only = Some [] \/ exists l, only = Some l /\ In id l.

(** complete results of one or more events: a spectrum and the numbers of stations *)
Definition full_spectra (nf : nat) (evs : list (string * sevent)) : Prop :=
  evs <> [] /\ forall id e, In (id, e) evs ->
    (exists l, se_sds e = Some l /\ List.length l = nf) /\ exists l, se_nst e = Some l /\ List.length l = nf.

(** the spectrum of an event has a value *)
Definition spectrum_value (e : sevent) : Prop := exists l x, se_sds e = Some l /\ In x l /\ x <> FNan.

(** the largest number of stations *)
Definition most_stations (evs : list (string * sevent)) (n : nat) : Prop :=
  (exists id e l, In (id, e) evs /\ se_nst e = Some l /\ In n l) /\
  forall id e l k, In (id, e) evs -> se_nst e = Some l -> In k l -> (k <= n)%nat.

(** the method in use: the given one, else the configured one *)
Definition method_used (given configured m : option string) : Prop :=
  (given <> None -> m = given) /\ (given = None -> m = configured).

(** the options in use: the given ones, else the configured ones, else no options; [Some None]:
    None is configured *)
Definition options_used (given : option pars) (configured : option (option pars)) (o : option pars) : Prop :=
  (forall p, given = Some p -> o = Some p) /\
  (given = None -> forall c, configured = Some c -> o = c) /\
  (given = None -> configured = None -> exists p, o = Some p /\ p_M0 p = None /\ p_fc p = None /\ p_n p = None /\ p_gamma p = None).

(** the given colour of an event: one colour for all or the entry of a dictionary *)
Definition colour_given (c : colours) (id x : string) : Prop :=
  match c with One_colour y => x = y | Colour_dict d => In (id, x) d end.

(** a dictionary has one entry per key *)
Definition one_entry (c : colours) : Prop := match c with One_colour _ => True | Colour_dict d => NoDup (map fst d) end.
