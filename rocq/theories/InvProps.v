(** Properties C35, C58, C61, C62: fixed parameters, distribution of the frequency
    bands and arrangement of the results (/repo/qopen/core.py:1318-1427).
    Theorems only. *)
From Coq Require Import String List Bool Reals Lra Lia ZArith Arith Permutation.
From Verif Require Import Base Pyf FreqsModel SortModel EventModel SourceModel SourceProof4 SourceEx LsqfbModel LsqfbEx
  InvModel InvSpec EventSpec InvProof InvProof2 InvProof3 InvProof4 InvEx.
Import ListNotations.
Open Scope string_scope.
Open Scope list_scope.
Open Scope R_scope.

(** C58: one entry per band and in the same order.  The full property is for all
    events; it is false for different events with the same id (see below) *)
Theorem C58_aligned_partial : forall V E cmd coda_norm (with_W : list (option V) -> E) source
    stations events (freq_bands : bands) rlist r,
  NoDup stations -> NoDup events -> List.length rlist = List.length freq_bands ->
  InvModel.arrange cmd coda_norm with_W source stations events freq_bands rlist = Ok (Some r) ->
  dget String.eqb r "freq" = Some (RFreq (dkeys freq_bands)) /\
  (cmd = Go -> exists g0 b, dget String.eqb r "g0" = Some (RNums g0) /\ aligned (of_band br_g0) rlist g0 /\
     dget String.eqb r "b" = Some (RNums b) /\ aligned (of_band br_b) rlist b) /\
  (exists err, dget String.eqb r "error" = Some (RNums err) /\ aligned (of_band (fun r => Some (br_error r))) rlist err) /\
  (exists n, dget String.eqb r "nstations" = Some (RCounts n) /\ aligned count_of rlist n) /\
  (cmd <> Source -> coda_norm = false -> exists d, dget String.eqb r "R" = Some (RSites d) /\
     (forall sta, In sta (map fst d) <-> In sta stations) /\
     forall sta, In sta stations -> exists l, dget String.eqb d sta = Some l /\ aligned (of_dict br_R sta) rlist l) /\
  (exists v0, dget String.eqb r "v0" = Some (RV0 v0) /\ last_v0 rlist v0 /\
   exists d, dget String.eqb r "events" = Some (REvents d) /\
     (forall ev, In ev (map fst d) <-> In ev events /\ coda_norm = false) /\
     (coda_norm = false -> forall ev, In ev events -> exists W e,
        aligned (of_dict br_W ev) rlist W /\ source (dkeys freq_bands) ev (with_W W) (Some v0) = Ok e /\
        dget String.eqb d ev = Some e)).
Proof. exact @arrange_aligned. Qed.
Print Assumptions C58_aligned_partial.

Example C58_aligned_partial_ex : exists r d e,
  NoDup ["A"; "B"] /\ NoDup ["1"] /\ List.length rlist_ex = List.length bands_ex /\
  InvModel.arrange Go false (fun l => l) (fun _ _ (e : list (option R)) _ => Ok e) ["A"; "B"] ["1"] bands_ex rlist_ex = Ok (Some r) /\
  dget String.eqb r "g0" = Some (RNums [Some 1; None; Some 5]) /\
  dget String.eqb r "nstations" = Some (RCounts [1; 0; 1]%nat) /\
  dget String.eqb r "R" = Some (RSites d) /\
  dget String.eqb d "A" = Some [Some 4; None; Some 8] /\ dget String.eqb d "B" = Some [None; None; None] /\
  dget String.eqb r "events" = Some (REvents e) /\ dget String.eqb e "1" = Some [Some 3; None; Some 7].
Proof. exact arrange_ex. Qed.

(** C58: there is no result exactly if no band has a result or, unless g0 is fixed,
    no band has a value for g0 *)
Theorem C58_no_result : forall V E cmd coda_norm (with_W : list (option V) -> E) source
    stations events (freq_bands : bands) rlist o,
  NoDup stations -> NoDup events -> List.length rlist = List.length freq_bands ->
  InvModel.arrange cmd coda_norm with_W source stations events freq_bands rlist = Ok o ->
  (o = None <-> (forall r, In r rlist -> r = None) \/ (cmd = Go /\ forall r, In r rlist -> of_band br_g0 r = None)).
Proof. exact @arrange_none. Qed.
Print Assumptions C58_no_result.

Example C58_no_result_ex :
  InvModel.arrange Go false (fun l => l) (fun _ _ (e : list (option R)) _ => Ok e) ["A"] ["1"] bands_ex
    [None; Some {| br_g0 := None; br_b := None; br_W := None; br_R := None; br_n := 0; br_error := 1; br_v0 := 2 |}; None] = Ok None.
Proof. exact no_g0_ex. Qed.

(** C58: the stations of the result are those of the inversion, with the network
    code ignored those without it *)
Theorem C58_stations : forall V E St cmd (invert_fb : fixkw V -> R * R -> St -> St * res (option (bandres V)))
    (with_W : list (option V) -> E) source input stations events (freq_bands : bands) streams r,
  cmd <> Source -> NoDup stations -> NoDup events ->
  invert_rest cmd false false (fun f => run_serial f) invert_fb with_W source input stations events freq_bands streams = Ok (Some r) ->
  exists d, dget String.eqb r "R" = Some (RSites d) /\ forall x, In x (map fst d) <-> In x stations.
Proof. exact @sites_kept. Qed.
Print Assumptions C58_stations.

Theorem C58_network_ignored : forall V E St cmd (invert_fb : fixkw V -> R * R -> St -> St * res (option (bandres V)))
    (with_W : list (option V) -> E) source input ids events (freq_bands : bands) streams r,
  (forall n s l c, In (n, s, l, c) ids ->
     n <> "" /\ dot_free n /\ dot_free s /\ dot_free l /\ dot_free c) ->
  cmd <> Source -> NoDup events ->
  invert_rest cmd false true (fun f => run_serial f) invert_fb with_W source input
    (map (fun i => let '(n, s, l, c) := i in get_station (seed n s l c)) ids) events freq_bands streams = Ok (Some r) ->
  exists d, dget String.eqb r "R" = Some (RSites d) /\
    forall x, In x (map fst d) <-> exists n s l c, In (n, s, l, c) ids /\ x = get_station (seed "" s l c).
Proof. exact @sites_ignored. Qed.
Print Assumptions C58_network_ignored.

Example C58_network_ignored_ex : exists r d,
  invert_rest Go false true (fun f => run_serial f)
    (fun _ band s => (band :: s, Ok (Some (band_ex (fst band) 2 3 4))))
    (fun l => l) (fun _ _ (e : list (option R)) _ => Ok e) None
    (map (fun i => let '(n, s, l, c) := i in get_station (seed n s l c))
       [("GR", "WET", "", "BHZ"); ("CH", "WET", "", "BHZ")]) ["1"] bands_ex [] = Ok (Some r) /\
  dget String.eqb r "R" = Some (RSites d) /\ map fst d = ["WET"].
Proof. exact ignored_ex. Qed.

(** C58: the dictionary of an event keeps W *)
Theorem C58_event_W : forall rlm1 lin2 min1 minN rho0 method so mags freq ev W v0 e,
  event_source rlm1 lin2 min1 minN rho0 method so mags freq ev (event_W W) v0 = Ok e ->
  dget String.eqb e "W" = Some (VList W) /\ forall k, In k (map fst e) -> In k DUMP_ORDER.
Proof. exact event_source_W. Qed.
Print Assumptions C58_event_W.

(** C58: the source displacement spectrum has one entry per band, too *)
Theorem C58_event_sds : forall rlm1 lin2 min1 minN rho0 method so mags freq ev W v0 e,
  v0 <> 0 -> rho0 <> 0 -> List.length W = List.length freq -> W <> [] ->
  event_source rlm1 lin2 min1 minN (Some rho0) method so mags freq ev (event_W W) (Some v0) = Ok e ->
  exists s, dget String.eqb e "sds" = Some (VList s) /\ List.length s = List.length freq /\
    forall i f w, nth_error freq i = Some f -> nth_error W i = Some w ->
      nth_error s i = Some
        match w with
        | None => None
        | Some x => if Req_EM_T x 0 then None else Some (sds x f v0 rho0)
        end.
Proof. exact event_source_sds. Qed.
Print Assumptions C58_event_sds.

Example C58_event_ex : exists e,
  event_source (fun _ => 0) (fun _ => ols2) (oracle1 10) (oracleN []) (Some 2700) None (Smo fopts_default)
    (fun _ => None) [3; 6] "1" (event_W [Some 3; None]) (Some 3500) = Ok e /\
  dget String.eqb e "W" = Some (VList [Some 3; None]).
Proof. exact event_ex. Qed.

(** C58 is false for events with the same id: W has two entries per band *)
Theorem C58_duplicate_refuted :
  exists (rid1 rid2 : string) (freq_bands : bands) (rlist : list (option (bandres nat))) r d W,
    rid1 <> rid2 /\ NoDup ["ST"] /\ List.length rlist = List.length freq_bands /\
    InvModel.arrange Go false (fun l => l) (fun _ _ (e : list (option nat)) _ => Ok e) ["ST"]
      [get_eventid rid1; get_eventid rid2] freq_bands rlist = Ok (Some r) /\
    dget String.eqb r "events" = Some (REvents d) /\ dget String.eqb d (get_eventid rid1) = Some W /\
    List.length W = (2 * List.length freq_bands)%nat.
Proof. exact duplicate_events. Qed.
Print Assumptions C58_duplicate_refuted.

(** C58: the bands inverted have exactly the values that the arrangement expects *)
Theorem C58_expected : forall cmd coda_norm o st v0 r s,
  l_fix o = is_fix cmd -> l_coda_norm o = coda_norm ->
  (cmd = Source -> l_fix_sites o <> None) ->
  invert_band o st v0 = Ok (r, s) -> expected cmd coda_norm (option_map bandres_of r).
Proof. exact band_wanted. Qed.
Print Assumptions C58_expected.

Example C58_expected_ex : l_fix go_ex = is_fix Go /\ l_coda_norm go_ex = false /\
  exists r s, invert_band go_ex st_ex 3 = Ok (Some r, s) /\ fb_g0 r = Some (FNum (1 / 5)).
Proof. exact expected_run. Qed.

(** C35: the arrangement of the results never meets an unknown key *)
Theorem C35_result : forall V E cmd coda_norm (with_W : list (option V) -> E) source
    stations events (freq_bands : bands) rlist,
  (forall r, In r rlist -> expected cmd coda_norm r) ->
  (coda_norm = false -> forall freq ev e v0, In ev events -> exists e', source freq ev e v0 = Ok e') ->
  exists r, InvModel.arrange cmd coda_norm with_W source stations events freq_bands rlist = Ok r.
Proof. exact @arrange_total. Qed.
Print Assumptions C35_result.

(** C35: where errors come from *)
Theorem C35_result_errors : forall V E cmd coda_norm (with_W : list (option V) -> E) source
    stations events (freq_bands : bands) rlist e,
  InvModel.arrange cmd coda_norm with_W source stations events freq_bands rlist = Err e ->
  (e = AssertionError /\ exists r, In r rlist /\ ~ expected cmd coda_norm r) \/
  (exists freq ev d v0, In ev events /\ source freq ev d v0 = Err e).
Proof. exact @arrange_err. Qed.
Print Assumptions C35_result_errors.

Example C35_result_ex : Forall (expected Go false) rlist_ex /\ ~ expected Fixed false (Some (band_ex 1 2 3 4)).
Proof. exact expected_ex. Qed.

(** C35: source properties of an event with known keys can be sorted *)
Theorem C35_event : forall rlm1 lin2 min1 minN freq ev v0 rho0 method so catmag ev',
  (forall k, In k (map fst ev) -> In k DUMP_ORDER) ->
  insert_source_inplace rlm1 lin2 min1 minN freq ev v0 rho0 method so catmag = Ok ev' ->
  exists srt, insert_source_properties rlm1 lin2 min1 minN freq ev v0 rho0 method so catmag = Ok (ev', srt) /\
    forall k, In k (map fst srt) -> In k DUMP_ORDER.
Proof. exact insert_sorts. Qed.
Print Assumptions C35_event.

Example C35_event_ex : forall k, In k (map fst (event_W [Some 3; None])) -> In k DUMP_ORDER.
Proof. cbn. intuition. Qed.

(** C61: with at most four bands per worker the results of the bands are those
    of njobs=1 in any schedule; a band fails with njobs=1 if one fails in the pool.
    The full property is for any number of bands; it is false (see below) *)
Theorem C61_jobs_partial : forall B S A (work : B -> S -> S * res A) w order bs s,
  (0 < w)%nat -> (List.length bs <= 4 * w)%nat ->
  Permutation order (seq 0 (List.length bs)) ->
  (forall l, run_pool work w order bs s = Ok l <-> run_serial work bs s = Ok l) /\
  (forall e, run_pool work w order bs s = Err e ->
     (exists b, In b bs /\ snd (work b s) = Err e) /\ exists e', run_serial work bs s = Err e').
Proof. exact @jobs_agree. Qed.
Print Assumptions C61_jobs_partial.

Example C61_jobs_partial_ex : (0 < 2)%nat /\ (List.length [1; 2; 3]%nat <= 4 * 2)%nat /\
  Permutation [2; 0; 1]%nat (seq 0 (List.length [1; 2; 3]%nat)) /\
  run_pool (fun b s => (b :: s, Ok (b :: s))) 2 [2; 0; 1]%nat [1; 2; 3]%nat [] = Ok [[1]; [2]; [3]]%nat.
Proof. exact pool_ex. Qed.

(** C61: with njobs=1 each band is inverted with the original streams *)
Theorem C61_serial : forall B S A (work : B -> S -> S * res A) s bs l,
  run_serial work bs s = Ok l <-> each_alone work s bs l.
Proof. exact @serial_alone. Qed.
Print Assumptions C61_serial.

Example C61_serial_ex : run_serial (fun b s => (b :: s, Ok (b :: s))) [1; 2; 3]%nat [7%nat] = Ok [[1; 7]; [2; 7]; [3; 7]]%nat.
Proof. reflexivity. Qed.

(** C61: the schedule does not matter for any number of bands *)
Theorem C61_schedule : forall B S A (work : B -> S -> S * res A) w order1 order2 bs s l,
  let n := List.length (chunks (chunksize (List.length bs) w) bs) in
  Permutation order1 (seq 0 n) -> Permutation order2 (seq 0 n) ->
  (run_pool work w order1 bs s = Ok l <-> run_pool work w order2 bs s = Ok l).
Proof. exact @schedule_free. Qed.
Print Assumptions C61_schedule.

Example C61_schedule_ex :
  run_pool (fun b s => (b :: s, Ok (b :: s))) 1 [2; 0; 1]%nat [1; 2; 3; 4; 5; 6]%nat [] =
  run_pool (fun b s => (b :: s, Ok (b :: s))) 1 [0; 1; 2]%nat [1; 2; 3; 4; 5; 6]%nat [].
Proof. reflexivity. Qed.

(** C61: so is the result dictionary *)
Theorem C61_result_partial : forall V E St cmd coda_norm ignore (invert_fb : fixkw V -> R * R -> St -> St * res (option (bandres V)))
    (with_W : list (option V) -> E) source input stations events (freq_bands : bands) streams w order r,
  (0 < w)%nat -> (List.length freq_bands <= 4 * w)%nat ->
  Permutation order (seq 0 (List.length freq_bands)) ->
  (invert_rest cmd coda_norm ignore (fun f => run_pool f w order) invert_fb with_W source input stations events freq_bands streams = Ok r <->
   invert_rest cmd coda_norm ignore (fun f => run_serial f) invert_fb with_W source input stations events freq_bands streams = Ok r).
Proof. exact @rest_agree. Qed.
Print Assumptions C61_result_partial.

Example C61_result_partial_ex : exists r d,
  (0 < 1)%nat /\ (List.length bands_ex <= 4 * 1)%nat /\
  Permutation [2; 0; 1]%nat (seq 0 (List.length bands_ex)) /\
  invert_rest Go false false (fun f => run_pool f 1 [2; 0; 1]%nat)
    (fun _ band s => (band :: s, Ok (Some (band_ex (fst band) 2 3 4))))
    (fun l => l) (fun _ _ (e : list (option R)) _ => Ok e) None ["A"] ["1"] bands_ex [] = Ok (Some r) /\
  dget String.eqb r "g0" = Some (RNums d) /\ d = [Some 2; Some 4; Some 8].
Proof. exact rest_ex. Qed.

(** C61: any number of bands, if a band does not depend on whether the streams were
    used for another band *)
Theorem C61_independent : forall B S A (work : B -> S -> S * res A),
  (forall b b' s, snd (work b' (fst (work b s))) = snd (work b' s)) ->
  forall w order bs s l,
  Permutation order (seq 0 (List.length (chunks (chunksize (List.length bs) w) bs))) ->
  (run_pool work w order bs s = Ok l <-> run_serial work bs s = Ok l).
Proof. exact @pool_independent. Qed.
Print Assumptions C61_independent.

Example C61_independent_ex :
  (forall b b' s, snd ((fun (b s : nat) => (s, Ok (b + s)%nat)) b' (fst ((fun (b s : nat) => (s, @Ok nat (b + s)%nat)) b s))) =
                  snd ((fun (b s : nat) => (s, @Ok nat (b + s)%nat)) b' s)) /\
  Permutation [2; 0; 1]%nat (seq 0 (List.length (chunks (chunksize (List.length (seq 1 6)) 1) (seq 1 6)))) /\
  run_pool (fun b s => (s, Ok (b + s)%nat)) 1 [2; 0; 1]%nat (seq 1 6) 7%nat = Ok [8; 9; 10; 11; 12; 13]%nat.
Proof. exact pool_many_ex. Qed.

Theorem C61_result_independent : forall V E St cmd coda_norm ignore
    (invert_fb : fixkw V -> R * R -> St -> St * res (option (bandres V)))
    (with_W : list (option V) -> E) source input stations events (freq_bands : bands) streams w order r,
  (forall kw b b' s, snd (invert_fb kw b' (fst (invert_fb kw b s))) = snd (invert_fb kw b' s)) ->
  Permutation order (seq 0 (List.length (chunks (chunksize (List.length freq_bands) w) freq_bands))) ->
  (invert_rest cmd coda_norm ignore (fun f => run_pool f w order) invert_fb with_W source input stations events freq_bands streams = Ok r <->
   invert_rest cmd coda_norm ignore (fun f => run_serial f) invert_fb with_W source input stations events freq_bands streams = Ok r).
Proof. exact @rest_independent. Qed.
Print Assumptions C61_result_independent.

(** C61 is false for more bands: bands in a chunk get streams that have been
    filtered for other bands *)
Theorem C61_chunks_refuted :
  exists (work : nat -> list nat -> list nat * res (list nat)) bs s workers order l1 l2,
    (forall b s, work b s = (b :: s, Ok (b :: s))) /\
    (1 < workers)%nat /\ Permutation order (seq 0 (List.length (chunks (chunksize (List.length bs) workers) bs))) /\
    run_serial work bs s = Ok l1 /\ run_pool work workers order bs s = Ok l2 /\
    l1 = map (fun b => [b]) bs /\ l1 <> l2.
Proof. exact jobs_differ. Qed.
Print Assumptions C61_chunks_refuted.

(** C62: each band gets the values stored for its central frequency *)
Theorem C62_own_band : forall V cmd freq_bands (fp : finput V) kw,
  NoDup (map snd freq_bands) -> NoDup (fi_freq fp) -> NoDup (map fst (fi_R fp)) ->
  fix_kw cmd freq_bands (Some fp) = Ok kw ->
  forall i c band, nth_error (fi_freq fp) i = Some c -> dget reqb freq_bands c = Some band ->
  (cmd <> Go -> exists p, kw_fix kw = Some p /\
     forall g0 b, nth_error (fi_g0 fp) i = Some g0 -> nth_error (fi_b fp) i = Some b ->
       dget band_eqb p band = Some (g0, b)) /\
  (cmd = Source -> exists p s, kw_fix_sites kw = Some p /\ dget band_eqb p band = Some s /\
     forall sta x, dget String.eqb s sta = Some x <->
       exists l, dget String.eqb (fi_R fp) sta = Some l /\ nth_error l i = Some (Some x)) /\
  (cmd <> Source -> kw_fix_sites kw = None) /\ (cmd = Go -> kw_fix kw = None).
Proof. exact @fix_kw_spec. Qed.
Print Assumptions C62_own_band.

Example C62_own_band_ex : NoDup (map snd bands_ex) /\ NoDup (fi_freq input_ex) /\ NoDup (map fst (fi_R input_ex)) /\
  exists kw p s, fix_kw Source bands_ex (Some input_ex) = Ok kw /\
    kw_fix kw = Some p /\ dget band_eqb p (2, 4) = Some (Some 1, Some 2) /\
    kw_fix_sites kw = Some s /\ dget band_eqb s (8, 16) = Some [("A", 8)].
Proof. exact fix_ex. Qed.

(** C62: other frequencies are an error *)
Theorem C62_other_frequencies : forall V cmd freq_bands (fp : finput V) x,
  cmd <> Go -> ~ (In x (fi_freq fp) <-> In x (dkeys freq_bands)) ->
  fix_kw cmd freq_bands (Some fp) = Err ValueError.
Proof. exact @fix_kw_wrong. Qed.
Print Assumptions C62_other_frequencies.

Example C62_other_frequencies_ex : Fixed <> Go /\
  ~ (In 5 (fi_freq input_ex) <-> In 5 (dkeys ((5, (4, 6)) :: bands_ex))).
Proof. split; [discriminate|]. cbn. intros [_ H]. destruct H; [now left|lra|intuition lra]. Qed.

(** C62: same frequencies and complete lists are not *)
Theorem C62_same_frequencies : forall V cmd freq_bands (fp : finput V),
  (forall x, In x (fi_freq fp) <-> In x (dkeys freq_bands)) ->
  (cmd = Source -> forall sta l, In (sta, l) (fi_R fp) -> (List.length (fi_freq fp) <= List.length l)%nat) ->
  exists kw, fix_kw cmd freq_bands (Some fp) = Ok kw.
Proof. exact @fix_kw_ok. Qed.
Print Assumptions C62_same_frequencies.

Example C62_same_frequencies_ex : (forall x, In x (fi_freq input_ex) <-> In x (dkeys bands_ex)) /\
  forall sta l, In (sta, l) (fi_R input_ex) -> (List.length (fi_freq input_ex) <= List.length l)%nat.
Proof. split; [cbn; tauto|]. intros sta l [E|[E|[]]]; injection E as <- <-; cbn; lia. Qed.

(** C62: too short lists of site responses are an error *)
Theorem C62_short : forall V freq_bands (fp : finput V) sta l,
  (forall x, In x (fi_freq fp) <-> In x (dkeys freq_bands)) ->
  In (sta, l) (fi_R fp) -> (List.length l < List.length (fi_freq fp))%nat ->
  fix_kw Source freq_bands (Some fp) = Err IndexError.
Proof. exact fix_kw_short. Qed.
Print Assumptions C62_short.

Example C62_short_ex : exists fp : finput R, (forall x, In x (fi_freq fp) <-> In x (dkeys bands_ex)) /\
  In ("A", [Some 1]) (fi_R fp) /\ (List.length [Some 1] < List.length (fi_freq fp))%nat.
Proof. exact ex_short. Qed.

(** C62: without results nothing can be fixed *)
Theorem C62_no_input : forall V E St cmd coda_norm ignore jobs
    (invert_fb : fixkw V -> R * R -> St -> St * res (option (bandres V)))
    (with_W : list (option V) -> E) source stations sts events (freq_bands : bands) streams,
  cmd <> Go -> station_names ignore stations = Ok sts ->
  invert_rest cmd coda_norm ignore jobs invert_fb with_W source None stations events freq_bands streams = Err TypeError.
Proof. exact @no_input. Qed.
Print Assumptions C62_no_input.

Example C62_no_input_ex : Fixed <> Go /\ station_names true ["GR.WET"] = Ok ["WET"].
Proof. split; [discriminate|reflexivity]. Qed.

Theorem C62_go : forall V (freq_bands : bands) (input : option (finput V)),
  exists kw, fix_kw Go freq_bands input = Ok kw /\ kw_fix kw = None /\ kw_fix_sites kw = None.
Proof. exact @no_input_needed. Qed.
Print Assumptions C62_go.
