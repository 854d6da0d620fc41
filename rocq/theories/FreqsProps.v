(** Properties C36 and C37: frequency bands, /repo/qopen/core.py:131-153. *)
From Coq Require Import List Reals Lra Sorted Permutation.
From Verif Require Import Base FreqsModel FreqsSpec FreqsProof FreqsEx.
Import ListNotations.
Open Scope R_scope.

(** C36: the configured spacing *)
Theorem C36_octave_spacing : forall max min step width,
  0 < min -> min <= max -> 0 < step -> 0 < width ->
  exists fb,
    get_freqs (Some max) (Some min) (Some step) (Some width) None None = Ok fb /\
    (forall f, In f (map fst fb) <->
       min <= f /\ exists k : nat, f = max / Rpower 2 (INR k * step)) /\
    StronglySorted Rlt (map fst fb) /\
    last (map fst fb) 0 = max /\
    (forall f b, In (f, b) fb -> octave_band width f b).
Proof. exact freqs_auto_ok. Qed.
Print Assumptions C36_octave_spacing.

Example C36_octave_spacing_ex : 0 < 0.3 /\ 0.3 <= 6 /\ 0 < 1 /\ 0 < 1.
Proof. lra. Qed.

(** C36: given central frequencies *)
Theorem C36_given_centres : forall max min step width cf,
  0 < width -> (forall f, In f cf -> 0 < f) ->
  exists fb,
    get_freqs max min step (Some width) (Some cf) None = Ok fb /\
    NoDup (map fst fb) /\
    (forall f, In f (map fst fb) <-> In f cf) /\
    (NoDup cf -> map fst fb = cf) /\
    (forall f b, In (f, b) fb -> octave_band width f b).
Proof. exact freqs_centres_ok. Qed.
Print Assumptions C36_given_centres.

Example C36_given_centres_ex :
  0 < 1 /\ (forall f, In f [1.5; 3; 6] -> 0 < f).
Proof. split; [lra|]. cbn. intros f [<-|[<-|[<-|[]]]]; lra. Qed.

(** C36: max below min.  If max is less than a step below, there is still one
    band, around max and so below min; otherwise there is none. *)
Theorem C36_below_min : forall max min step width,
  0 < max -> max < min -> 0 < step -> 0 < width ->
  exists fb,
    get_freqs (Some max) (Some min) (Some step) (Some width) None None = Ok fb /\
    (max * Rpower 2 step <= min -> fb = []) /\
    (min < max * Rpower 2 step -> exists b, fb = [(max, b)] /\ octave_band width max b).
Proof. exact freqs_below_min. Qed.
Print Assumptions C36_below_min.

Example C36_below_min_ex : 0 < 3 /\ 3 < 4 /\ 0 < 1 /\ 0 < 1 /\ 4 < 3 * Rpower 2 1 /\ 3 * Rpower 2 1 <= 7.
Proof. exact below_min_ex. Qed.

(** C37, guarded: if no two requested bands have the same centre, all of them
    are inverted, each under its centre.  The full statement drops the
    hypothesis; it is false, see below. *)
Theorem C37_all_bands_partial : forall max min step width cf fbands,
  NoDup (map (fun b => (fst b + snd b) / 2) fbands) ->
  exists fb,
    get_freqs max min step width cf (Some fbands) = Ok fb /\
    Permutation (map snd fb) fbands /\
    (forall b, In b fbands -> dget reqb fb ((fst b + snd b) / 2) = Some b) /\
    (forall f b, In (f, b) fb -> f = (fst b + snd b) / 2) /\
    StronglySorted band_le (map snd fb).
Proof. exact freqs_given_ok. Qed.
Print Assumptions C37_all_bands_partial.

Example C37_all_bands_partial_ex :
  NoDup (map (fun b : R * R => (fst b + snd b) / 2) [(2, 4); (1, 2); (4, 8)]).
Proof. exact centres_ex. Qed.

(** C37, in general: of the requested bands with a common centre the narrowest,
    which is the last in order, is inverted; no other band is *)
Theorem C37_narrowest : forall max min step width cf fbands,
  exists fb,
    get_freqs max min step width cf (Some fbands) = Ok fb /\
    NoDup (map fst fb) /\
    (forall f b, In (f, b) fb <->
       In b fbands /\ centre b = f /\ forall a, In a fbands -> centre a = f -> fst a <= fst b).
Proof. exact freqs_given_narrowest. Qed.
Print Assumptions C37_narrowest.

Example C37_narrowest_ex :
  centre (1, 5) = 3 /\ centre (2, 4) = 3 /\ fst (1, 5) < fst (2, 4).
Proof. unfold centre. cbn [fst snd]. lra. Qed.

(** C37: of two bands with the same centre only the last is inverted *)
Theorem C37_all_bands_refuted :
  exists fbands fb b,
    In b fbands /\
    get_freqs None None None None None (Some fbands) = Ok fb /\
    ~ In b (map snd fb).
Proof. exact freqs_given_lost. Qed.
Print Assumptions C37_all_bands_refuted.

(** C36: a missing max, min or step is a TypeError, so is a missing width; min = 0 is a
    ZeroDivisionError. *)
Theorem C36_errors : forall max min step width,
  (max = None \/ min = None \/ step = None -> get_freqs max min step width None None = Err TypeError) /\
  (forall x y, max = Some x -> step = Some y -> min = Some 0 -> get_freqs max min step width None None = Err ZeroDivisionError) /\
  (forall cf, cf <> [] -> get_freqs max min step None (Some cf) None = Err TypeError).
Proof. exact freqs_errors. Qed.
Print Assumptions C36_errors.

Example C36_errors_ex : get_freqs None (Some 1) (Some 1) (Some 1) None None = Err TypeError /\ [3] <> [].
Proof. split; [reflexivity|discriminate]. Qed.
