(** Properties of the alignment of site responses (C27-C34, C77). *)
From Coq Require Import String List Bool Reals Arith Lia Lra Permutation Sorted.
From Verif Require Import Base Pyf StatModel SiteModel SiteSpec MergeProof SiteProof SiteProof2 SiteProof3 SiteProof4 SiteProof5 SiteProof6 SiteProof7 SiteProof8 SiteProof9 SiteEx.
Import ListNotations.
Open Scope list_scope.
Open Scope string_scope.
Open Scope R_scope.

(** C27: the merged sets are the components of the overlap relation. *)
Theorem C27_merge_components : forall sets, exists r, merge_sets sets = Some r /\ disjoint_sets r /\
  (forall x, (exists s, In s r /\ In x s) <-> (exists s, In s sets /\ In x s)) /\
  (forall s a b, In s r -> In a s -> (In b s <-> chained sets a b)) /\
  (Forall (fun s => s <> []) sets -> Forall (fun s => s <> []) r) /\
  (Forall (@NoDup string) sets -> Forall (@NoDup string) r).
Proof. exact merge_sets_spec. Qed.
Print Assumptions C27_merge_components.

Example C27_ex : merge_sets [["a"; "b"]; ["c"]; ["d"; "e"]; ["b"; "d"]] = Some [["a"; "b"; "d"; "e"]; ["c"]].
Proof. reflexivity. Qed.

(** The number of rounds provided is always enough: further ones change nothing. *)
Theorem C27_rounds_suffice : forall rounds n l r, merge_loop rounds n l = Some r -> merge_loop (S rounds) n l = Some r.
Proof. exact merge_loop_more. Qed.
Print Assumptions C27_rounds_suffice.

Example C27_rounds_ex : merge_loop 2 0 [["a"]; ["a"; "b"]] = Some [["a"; "b"]].
Proof. reflexivity. Qed.

(** C28: the areas are exactly the components of the observed stations. *)
Theorem C28_areas : forall pick, chooses_member pick -> forall evs ignore i,
  Forall (fun ev => NoDup (map fst (evR ev))) evs ->
  let areas := find_areas pick evs i ignore in
  NoDup (map fst areas) /\ disjoint_sets (map snd areas) /\
  (forall name a, In (name, a) areas -> In name a /\ is_area evs ignore i a) /\
  (forall s, observed evs ignore i s -> exists name a, In (name, a) areas /\ In s a).
Proof. exact find_areas_spec. Qed.
Print Assumptions C28_areas.

Example C28_ex : Forall (fun ev => NoDup (map fst (evR ev))) ex_evs /\ chooses_member pick_first /\
  find_areas pick_first ex_evs 0 None = [("S2", ["S2"; "S3"; "S1"]); ("S4", ["S4"])] /\
  find_areas pick_first ex_evs 0 (Some ["S2"]) = [("S3", ["S3"]); ("S1", ["S1"]); ("S4", ["S4"])].
Proof. split; [exact (wf_unique 1 ex_evs ex_wf)|]. split; [exact pick_first_member|]. split; reflexivity. Qed.

(** C29: rescaling keeps the product of source energy and site response. *)
Theorem C29_product : forall Nf factors only evs evs', Forall (well_formed Nf) evs ->
  (forall k i, factors k i <> 0) -> rescale_results evs Nf factors only = Ok evs' ->
  List.length evs' = List.length evs /\
  forall k i s, (k < List.length evs)%nat -> (i < Nf)%nat ->
    let ev := nth k evs ev0 in let ev' := nth k evs' ev0 in
    (response_of ev i s = None -> response_of ev' i s = None) /\
    (energy_of ev i = None -> energy_of ev' i = None) /\
    (forall w' r', energy_of ev' i = Some w' -> response_of ev' i s = Some r' ->
       exists w r, energy_of ev i = Some w /\ response_of ev i s = Some r /\
         r' = r * factors k i /\ w' = w / factors k i /\ w' * r' = w * r).
Proof. exact rescale_product. Qed.
Print Assumptions C29_product.

Example C29_ex : Forall (well_formed 1) ex_evs /\ exists evs',
  rescale_results ex_evs 1 (fun k _ => INR (S k)) (Some [Some ["S1"; "S2"; "S3"]]) = Ok evs'.
Proof. split; [exact ex_wf|]. eexists. reflexivity. Qed.

(** C30: the mean logarithmic site response equals the requested one, for any
    least squares solution. *)
Theorem C30_normalisation : forall pick rlm lsq, chooses_member pick -> least_squares lsq ->
  forall events Rm resp ignore Nf, Forall (well_formed Nf) (map snd (present_events events)) ->
  forall out Rm' i, (i < Nf)%nat -> complete i (map snd (present_events events)) ->
  positive_responses i (map snd (present_events events)) ->
  forall r S, align_site_responses pick rlm lsq events Rm StaNone resp ignore = Ok (out, Rm') ->
  requested resp i r -> NoDup S -> S <> [] ->
  (forall s, In s S <-> exists ev, In ev (map snd out) /\ response_of ev i s <> None) ->
  rsum (map (fun s => mean_ln (responses (map snd out) i s)) S) / INR (List.length S) = ln r.
Proof. exact align_all. Qed.
Print Assumptions C30_normalisation.

Example C30_ex : chooses_member pick_first /\ least_squares site_solver /\
  Forall (well_formed 1) (map snd (present_events ex_events)) /\ complete 0 (map snd (present_events ex_events)) /\
  positive_responses 0 (map snd (present_events ex_events)) /\
  exists out Rm', align_site_responses pick_first mean_rlm site_solver ex_events None StaNone (RScalar 2) None = Ok (out, Rm') /\
    forall s, In s ["S1"; "S2"; "S3"] <-> exists ev, In ev (map snd out) /\ response_of ev 0 s <> None.
Proof.
  split; [exact pick_first_member|]. split; [exact site_solver_least|]. split; [exact ex_wf|]. split; [exact ex_complete|].
  split; [exact ex_positive|].
  destruct (ex_ok None StaNone (ex_intro _ "S1" (conj (or_introl eq_refl) eq_refl))) as (out & Rm' & OK).
  exists out, Rm'. split; [exact OK|]. intros s. symmetry. exact (ex_left None StaNone out Rm' s OK).
Qed.

(** C31: responses which differ by one factor per event agree after the alignment. *)
Theorem C31_consistent : forall pick rlm lsq, chooses_member pick -> least_squares lsq ->
  forall events Rm station resp ignore Nf, Forall (well_formed Nf) (map snd (present_events events)) ->
  forall out Rm', align_site_responses pick rlm lsq events Rm station resp ignore = Ok (out, Rm') ->
  forall i, (i < Nf)%nat -> complete i (map snd (present_events events)) ->
  forall (c rs : string -> R), (forall id, 0 < c id) -> (forall s, 0 < rs s) ->
  (forall id ev s v, In (id, ev) (present_events events) -> response_of ev i s = Some v -> v = c id * rs s) ->
  forall ev1 ev2 s t v1 v2, In ev1 (map snd out) -> In ev2 (map snd out) ->
    response_of ev1 i s = Some v1 -> response_of ev2 i t = Some v2 -> v1 * rs t = v2 * rs s.
Proof. exact align_consistent. Qed.
Print Assumptions C31_consistent.

Example C31_ex : let c id := if String.eqb id "e2" then 4 else 1 in
  let rs s := if String.eqb s "S1" then 2 else if String.eqb s "S2" then 3 else if String.eqb s "S3" then 1 else 5 in
  forall id ev s v, In (id, ev) (present_events ex_events) -> response_of ev 0 s = Some v -> v = c id * rs s.
Proof.
  exact ex_consistent.
Qed.

(** C32: only the largest area is left; the event's factor multiplies its
    responses and divides its energy, which is dropped if nothing is left. *)
Theorem C32_largest_area : forall pick rlm lsq, chooses_member pick -> least_squares lsq ->
  forall events Rm station resp ignore Nf, Forall (well_formed Nf) (map snd (present_events events)) ->
  forall out Rm', align_site_responses pick rlm lsq events Rm station resp ignore = Ok (out, Rm') ->
  forall i, (i < Nf)%nat -> complete i (map snd (present_events events)) ->
  exists area,
  (is_largest_area (map snd (present_events events)) ignore i area \/
   area = [] /\ forall s, ~ observed (map snd (present_events events)) ignore i s) /\
  forall id ev, In (id, ev) (present_events events) -> exists ev' f, In (id, ev') out /\ 0 < f /\
    (forall s, response_of ev' i s =
       if in_dec string_dec s area then option_map (fun v => v * f) (response_of ev i s) else None) /\
    (forall w', energy_of ev' i = Some w' <->
       exists w s, energy_of ev i = Some w /\ response_of ev' i s <> None /\ w' = w / f).
Proof. exact align_areas. Qed.
Print Assumptions C32_largest_area.

Example C32_ex : forall a, is_largest_area (map snd (present_events ex_events)) None 0 a -> Permutation a ["S1"; "S2"; "S3"].
Proof. exact ex_largest. Qed.

(** C32: the events stay the same, sorted by their ids. *)
Theorem C32_sorted : forall pick rlm lsq events Rm station resp ignore out Rm',
  align_site_responses pick rlm lsq events Rm station resp ignore = Ok (out, Rm') ->
  StronglySorted (fun a b => String.leb a b = true) (map fst out) /\
  Permutation (map fst out) (map fst (present_events events)).
Proof. exact align_sorted. Qed.
Print Assumptions C32_sorted.

Example C32_sorted_ex : exists out Rm',
  align_site_responses pick_first mean_rlm site_solver ex_events None StaNone (RScalar 2) None = Ok (out, Rm').
Proof. exact (ex_ok None StaNone (ex_intro _ "S1" (conj (or_introl eq_refl) eq_refl))). Qed.

(** C33: stations with an aligned response get the robust mean of their aligned
    responses at every frequency, the entries of other stations are left alone.
    Missing for the full property: other stations should have no entry, see
    C33_stale_mean_refuted. *)
Theorem C33_mean_partial : forall pick rlm lsq, chooses_member pick ->
  forall events Rm station resp ignore Nf, Forall (well_formed Nf) (map snd (present_events events)) ->
  forall out Rm', least_squares lsq ->
  align_site_responses pick rlm lsq events Rm station resp ignore = Ok (out, Rm') ->
  (forall i, (i < Nf)%nat -> complete i (map snd (present_events events)) /\ positive_responses i (map snd (present_events events))) ->
  forall s,
  ((exists i, (i < Nf)%nat /\ responses (map snd out) i s <> []) -> exists l, dget String.eqb Rm' s = Some l /\ List.length l = Nf /\
     forall i, (i < Nf)%nat -> gmean rlm (map FNum (responses (map snd out) i s)) None true 5 = Ok (nth i l None) /\
       (nth i l None = None <-> responses (map snd out) i s = [])) /\
  ((forall i, (i < Nf)%nat -> responses (map snd out) i s = []) ->
     dget String.eqb Rm' s = dget String.eqb (match Rm with Some m => m | None => [] end) s).
Proof. exact align_means. Qed.
Print Assumptions C33_mean_partial.

Example C33_ex : forall i, (i < 1)%nat -> complete i (map snd (present_events ex_events)) /\ positive_responses i (map snd (present_events ex_events)).
Proof. intros i Hi. assert (i = 0)%nat as -> by lia. split; [exact ex_complete|exact ex_positive]. Qed.

(** A station which lost all its responses keeps the mean stored before. *)
Theorem C33_stale_mean_refuted : exists events Rm pick rlm lsq out Rm' s l,
  chooses_member pick /\ least_squares lsq /\ Forall (well_formed 1) (map snd (present_events events)) /\
  complete 0 (map snd (present_events events)) /\ positive_responses 0 (map snd (present_events events)) /\
  align_site_responses pick rlm lsq events Rm StaNone (RScalar 2) None = Ok (out, Rm') /\
  dget String.eqb Rm' s = Some l /\ responses (map snd out) 0 s = [] /\ nth 0 l None = Some 5.
Proof. exact stale_mean. Qed.
Print Assumptions C33_stale_mean_refuted.

(** C34: a list of stations pins the mean over the stations of the list. *)
Theorem C34_station_list : forall pick rlm lsq, chooses_member pick -> least_squares lsq ->
  forall events Rm resp ignore Nf, Forall (well_formed Nf) (map snd (present_events events)) ->
  forall out Rm' i, (i < Nf)%nat -> complete i (map snd (present_events events)) ->
  positive_responses i (map snd (present_events events)) ->
  forall r L S, align_site_responses pick rlm lsq events Rm (StaList L) resp ignore = Ok (out, Rm') ->
  requested resp i r -> NoDup S -> S <> [] ->
  (forall s, In s S <-> In s L /\ exists ev, In ev (map snd out) /\ response_of ev i s <> None) ->
  rsum (map (fun s => mean_ln (responses (map snd out) i s)) S) / INR (List.length S) = ln r.
Proof. exact align_list. Qed.
Print Assumptions C34_station_list.

Example C34_list_ex : exists out Rm',
  align_site_responses pick_first mean_rlm site_solver ex_events None (StaList ["S3"; "S4"]) (RScalar 2) None = Ok (out, Rm') /\
  forall s, In s ["S3"] <-> In s ["S3"; "S4"] /\ exists ev, In ev (map snd out) /\ response_of ev 0 s <> None.
Proof.
  destruct (ex_ok None (StaList ["S3"; "S4"]) (ex_intro _ "S3" (conj (or_intror (or_intror (or_introl eq_refl))) eq_refl))) as (out & Rm' & OK).
  exists out, Rm'. split; [exact OK|]. intros s. rewrite (ex_left None (StaList ["S3"; "S4"]) out Rm' s OK).
  cbn [In]. intuition (subst; discriminate).
Qed.

(** One station pins the mean of its responses, provided that no other station
    has a name occurring in its name.  Missing for the full property: names
    occurring in the name of the station, see C34_substring_refuted. *)
Theorem C34_station_partial : forall pick rlm lsq, chooses_member pick -> least_squares lsq ->
  forall events Rm resp ignore Nf, Forall (well_formed Nf) (map snd (present_events events)) ->
  forall out Rm' i, (i < Nf)%nat -> complete i (map snd (present_events events)) ->
  positive_responses i (map snd (present_events events)) ->
  forall r X, align_site_responses pick rlm lsq events Rm (StaStr X) resp ignore = Ok (out, Rm') ->
  requested resp i r ->
  (forall t ev, occurs_in t X -> t <> X -> In ev (map snd (present_events events)) -> response_of ev i t = None) ->
  responses (map snd out) i X <> [] -> mean_ln (responses (map snd out) i X) = ln r.
Proof. exact align_string. Qed.
Print Assumptions C34_station_partial.

Example C34_station_ex : (exists out Rm',
  align_site_responses pick_first mean_rlm site_solver ex_events None (StaStr "S3") (RScalar 2) None = Ok (out, Rm') /\
  exists ev, In ev (map snd out) /\ response_of ev 0 "S3" <> None) /\
  forall t, In t ["S1"; "S2"; "S4"] -> ~ occurs_in t "S3".
Proof.
  split.
  - destruct (ex_ok None (StaStr "S3") (ex_intro _ "S3" (conj (or_intror (or_intror (or_introl eq_refl))) eq_refl))) as (out & Rm' & OK).
    exists out, Rm'. split; [exact OK|]. apply (ex_left None (StaStr "S3") out Rm' "S3" OK). cbn. tauto.
  - intros t H O. apply substr_spec in O. cbn in H. destruct H as [<-|[<-|[<-|[]]]]; discriminate.
Qed.

(** Aligning to station S10 also pins station S1. *)
Theorem C34_substring_refuted : exists events pick rlm lsq out Rm' ev v,
  chooses_member pick /\ least_squares lsq /\ Forall (well_formed 1) (map snd (present_events events)) /\
  complete 0 (map snd (present_events events)) /\ positive_responses 0 (map snd (present_events events)) /\
  align_site_responses pick rlm lsq events None (StaStr "S10") (RScalar 1) None = Ok (out, Rm') /\
  map snd out = [ev] /\ response_of ev 0 "S10" = Some v /\ v = 1 / 2.
Proof. exact substring_pins. Qed.
Print Assumptions C34_substring_refuted.

(** Without a selected station in the largest area the alignment divides by zero. *)
Theorem C34_no_station : forall pick rlm lsq, chooses_member pick ->
  forall events Rm station resp ignore Nf, Forall (well_formed Nf) (map snd (present_events events)) ->
  forall r i, resp = RScalar r -> (i < Nf)%nat -> (exists s, observed (map snd (present_events events)) ignore i s) ->
  (forall a, is_largest_area (map snd (present_events events)) ignore i a -> forall s, In s a -> norm_station station s = false) ->
  align_site_responses pick rlm lsq events Rm station resp ignore = Err ZeroDivisionError.
Proof. exact align_zero_division. Qed.
Print Assumptions C34_no_station.

Example C34_no_station_ex : align_site_responses pick_first mean_rlm site_solver ex_events None (StaStr "S4") (RScalar 2) None = Err ZeroDivisionError.
Proof. reflexivity. Qed.

(** C77: the alignment succeeds if there is an event, the response is given at
    every frequency, the largest area has a selected station and no frequency
    has responses of ignored stations only. *)
Theorem C77_align_succeeds : forall pick rlm lsq, chooses_member pick ->
  forall events Rm station resp ignore Nf, Forall (well_formed Nf) (map snd (present_events events)) ->
  map snd (present_events events) <> [] ->
  (forall i, (i < Nf)%nat -> exists r, requested resp i r) ->
  (forall i a, (i < Nf)%nat -> is_largest_area (map snd (present_events events)) ignore i a -> exists s, In s a /\ norm_station station s = true) ->
  (forall i, (i < Nf)%nat -> (forall s, ~ observed (map snd (present_events events)) ignore i s) ->
     forall ev s, In ev (map snd (present_events events)) -> response_of ev i s = None) ->
  exists out Rm', align_site_responses pick rlm lsq events Rm station resp ignore = Ok (out, Rm').
Proof. exact align_ok. Qed.
Print Assumptions C77_align_succeeds.

Example C77_ex : forall i a, (i < 1)%nat -> is_largest_area (map snd (present_events ex_events)) None i a ->
  exists s, In s a /\ norm_station (StaList ["S3"]) s = true.
Proof.
  intros i a Hi H. assert (i = 0)%nat as -> by lia. exists "S3". split; [|reflexivity].
  apply (Permutation_in _ (Permutation_sym (ex_largest a H))). cbn. tauto.
Qed.

(** Results in which only ignored stations have responses make it fail. *)
Theorem C77_all_ignored_refuted : exists events ignore, Forall (well_formed 1) (map snd (present_events events)) /\ present_events events <> [] /\
  complete 0 (map snd (present_events events)) /\
  forall pick rlm lsq, align_site_responses pick rlm lsq events None StaNone (RScalar 1) (Some ignore) = Err TypeError.
Proof. exact ignored_raises. Qed.
Print Assumptions C77_all_ignored_refuted.

(** C77: results with different numbers of frequencies are refused. *)
Theorem C77_frequencies : forall pick rlm lsq events Rm station resp ignore out Rm',
  align_site_responses pick rlm lsq events Rm station resp ignore = Ok (out, Rm') ->
  exists n, forall id ev, In (id, ev) (present_events events) -> List.length (evW ev) = n.
Proof. exact align_frequencies. Qed.
Print Assumptions C77_frequencies.

Example C77_frequencies_ex : exists out Rm',
  align_site_responses pick_first mean_rlm site_solver ex_events None StaNone (RScalar 2) None = Ok (out, Rm').
Proof. exact (ex_ok None StaNone (ex_intro _ "S1" (conj (or_introl eq_refl) eq_refl))). Qed.
