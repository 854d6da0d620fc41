(** Concrete cases for the theorems about the selection of pairs. *)
From Coq Require Import String Ascii List Bool Reals Lra Lia ZArith Arith Sorted.
From Verif Require Import Base Pyf PyfOps FbModel FbSpec FbProof FbProof2 FbEx.
From Verif Require Import PySort PyStr EventModel TimesModel PairsModel PairsSpec PairsProof PairsProof2.
Import ListNotations.
Open Scope string_scope.
Open Scope list_scope.
Open Scope R_scope.

(** one station in a borehole, one station that has not been installed, times
    in seconds; an epicentral distance of 3 km and a depth difference of 4 km *)
Definition channels_ex : list string := ["GR.FUR..BHZ"; "GR.WET..BHN"; "GR.WET..BHE"; "GR.WET..BHZ"].
Definition stations_ex : list string := ["GR.WET"; "GR.FUR"].

Definition o_ex (picks : bool) (num : option Z) : popts (Z * Z) :=
  {| p_use_picks := picks; p_vp := Some 5000; p_vs := Some 2500; p_correct := true; p_subtract := false;
     p_distance := Some 100; p_num_pairs := num; p_window := (-10, 100); p_tol := 1%Z;
     p_coords := fun ch _ => if String.eqb ch "GR.WET..BHZ"
                 then Ok {| co_lat := 1; co_lon := 2; co_elev := -20; co_local := 20 |} else Err OtherError;
     p_gps := fun _ _ _ _ => Ok 3000;
     p_shift := fun t d => Ok (t + Int_part d)%Z;
     p_waveforms := fun ch t1 t2 _ => if String.eqb ch "GR.WET..BH?"
                 then Ok (Some [(t1, t2); (t1, t2); (t1, t2)]) else Err OtherError;
     p_gaps := fun _ => 0%nat; p_merge := fun l => Ok l; p_times := fun tr => tr;
     p_remove := true; p_attach := fun _ => 0%nat; p_correct_response := fun l => Ok l |}.

Definition ori_ex (t : Z) : origin := {| or_time := t; or_lat := 1; or_lon := 2; or_depth := 4020 |}.
Definition picked_ex : EventModel.event :=
  {| preferred := None;
     EventModel.origins := [[ {| phase := "P"; pick := Some ("GR.WET..BHZ", 7%Z) |};
                              {| phase := "S"; pick := Some ("GR.WET..BHN", 9%Z) |} ]] |}.
Definition ev_ex (id : string) (t : Z) : qevent :=
  {| q_id := id; q_origin := Ok (ori_ex t); q_arr := picked_ex |}.
(** an event without arrivals *)
Definition bare_ex (id : string) (t : Z) : qevent :=
  {| q_id := id; q_origin := Ok (ori_ex t); q_arr := {| preferred := Some []; EventModel.origins := [[]] |} |}.

Lemma lists_ex : lists_once stations_ex (map get_station channels_ex).
Proof.
  split; [repeat constructor; cbn; intuition discriminate|]. intros x.
  change (map get_station channels_ex) with ["GR.FUR"; "GR.WET"; "GR.WET"; "GR.WET"]. cbn. intuition.
Qed.

Lemma last_ex : last_channel channels_ex "GR.WET" "GR.WET..BHZ".
Proof. apply one_channel_spec. reflexivity. Qed.

Lemma vertical_ex picks num t c : c = {| co_lat := 1; co_lon := 2; co_elev := -20; co_local := 20 |} ->
  vertical (o_ex picks num) (ori_ex t) c = 4000.
Proof. intros ->. unfold vertical, sensor_elevation. cbn [p_correct p_subtract o_ex or_depth ori_ex co_elev]. lra. Qed.

Lemma distance_ex picks num t : get_distance (o_ex picks num) channels_ex (ori_ex t) "GR.WET" = Ok (5000, true).
Proof.
  apply get_distance_spec. eexists "GR.WET..BHZ", _, 3000. split; [exact last_ex|].
  split; [reflexivity|]. split; [reflexivity|]. split; [lra|]. split; [|cbn; split; [lra|reflexivity]].
  rewrite (vertical_ex picks num t _ eq_refl). lra.
Qed.

Lemma distance_ex_fur picks num t : get_distance (o_ex picks num) channels_ex (ori_ex t) "GR.FUR" = Err SkipError.
Proof. reflexivity. Qed.

Lemma near_ex picks num : near (o_ex picks num) 5000.
Proof. intros x [= <-] _. lra. Qed.

Lemma select_distance_ex picks num os pairs :
  select_distance (o_ex picks num) channels_ex os pairs =
  match pairs with
  | [] => Ok ([], [])
  | (ev, sta) :: pairs =>
      match dget String.eqb os ev with
      | None => select_distance (o_ex picks num) channels_ex os pairs
      | Some ori =>
          match get_distance (o_ex picks num) channels_ex ori sta with
          | Err e => if caught e then select_distance (o_ex picks num) channels_ex os pairs else Err e
          | Ok (d, b) =>
              do rest <- select_distance (o_ex picks num) channels_ex os pairs;
              let (cs, bs) := rest in
              let bs := if b then sta :: bs else bs in
              if too_far (o_ex picks num) d then Ok (cs, bs)
              else Ok ({| k_ev := ev; k_sta := sta; k_ori := ori; k_dist := d |} :: cs, bs)
          end
      end
  end.
Proof.
  destruct pairs as [|[ev sta] pairs]; [reflexivity|]. cbn [select_distance].
  destruct (dget String.eqb os ev) as [ori|]; [|reflexivity].
  destruct (get_distance _ _ ori sta) as [[d b]|e]; reflexivity.
Qed.

Definition cand_ex id t : cand := {| k_ev := id; k_sta := "GR.WET"; k_ori := ori_ex t; k_dist := 5000 |}.

Lemma distances_two picks num t1 t2 :
  select_distance (o_ex picks num) channels_ex [("a", ori_ex t1); ("b", ori_ex t2)]
    [("a", "GR.WET"); ("a", "GR.FUR"); ("b", "GR.WET"); ("b", "GR.FUR")] =
  Ok ([cand_ex "a" t1; cand_ex "b" t2], ["GR.WET"; "GR.WET"]).
Proof.
  pose proof (proj2 (too_far_spec (o_ex picks num) 5000) (near_ex picks num)) as TF.
  do 4 (rewrite select_distance_ex; cbn [dget String.eqb Ascii.eqb Bool.eqb];
        rewrite ?distance_ex, ?distance_ex_fur; cbn [caught]).
  cbn [select_distance bind]. now rewrite TF.
Qed.

Lemma distances_one picks num t1 :
  select_distance (o_ex picks num) channels_ex [("a", ori_ex t1)] [("a", "GR.WET"); ("a", "GR.FUR")] =
  Ok ([cand_ex "a" t1], ["GR.WET"]).
Proof.
  pose proof (proj2 (too_far_spec (o_ex picks num) 5000) (near_ex picks num)) as TF.
  do 2 (rewrite select_distance_ex; cbn [dget String.eqb Ascii.eqb Bool.eqb];
        rewrite ?distance_ex, ?distance_ex_fur; cbn [caught]).
  cbn [select_distance bind]. now rewrite TF.
Qed.

Definition stream_ex id t p s : qstream (Z * Z) :=
  let w := ((t + Int_part (-10))%Z, (t + Int_part 100)%Z) in
  {| qs_ev := id; qs_sta := "GR.WET"; qs_time := t; qs_p := p; qs_s := s; qs_dist := 5000;
     qs_traces := [w; w; w] |}.

Definition picked_of id t p s : picked := {| k_cand := cand_ex id t; k_p := p; k_s := s |}.

Lemma check_ex picks num t1 t2 :
  check_stream (o_ex picks num) (Some [(t1, t2); (t1, t2); (t1, t2)]) t1 t2 = Ok (Some [(t1, t2); (t1, t2); (t1, t2)]).
Proof.
  unfold check_stream. cbn [p_gaps p_merge p_times o_ex Nat.ltb Nat.leb bind].
  assert (C : check_times t1 t2 (t1, t2) 1 = None).
  { unfold check_times. cbn [fst snd]. rewrite (proj2 (Z.ltb_lt _ _)) by lia. now rewrite (proj2 (Z.ltb_lt _ _)) by lia. }
  cbn [forallb fst snd p_tol o_ex]. now rewrite C.
Qed.

Lemma retrieve_ex picks num l :
  retrieve (o_ex picks num) channels_ex (map (fun x => match x with (id, t, p, s) => picked_of id t p s end) l) =
  Ok (map (fun x => match x with (id, t, p, s) => stream_ex id t p s end) l).
Proof.
  induction l as [|[[[id t] p] s] l IH]; [reflexivity|]. cbn [map retrieve].
  change (dget String.eqb (one_channel channels_ex) (k_sta (k_cand (picked_of id t p s)))) with (Some "GR.WET..BHZ").
  cbv iota beta. cbn [p_shift o_ex bind p_window fst snd].
  change (p_waveforms _ (drop_last 1 "GR.WET..BHZ" ++ "?") ?a ?b ?c) with (Ok (Some [(a, b); (a, b); (a, b)])).
  cbn [bind]. rewrite check_ex. cbn [bind]. rewrite IH. reflexivity.
Qed.

Lemma correct_ex picks num l : correct_streams (o_ex picks num) l = Ok l.
Proof.
  induction l as [|s l IH]; [reflexivity|]. cbn [correct_streams].
  change (Nat.ltb 0 (p_attach (o_ex picks num) (qs_traces s))) with false. cbv iota.
  change (p_correct_response (o_ex picks num) (qs_traces s)) with (@Ok (list (Z * Z)) (qs_traces s)). cbv iota.
  rewrite IH. cbn [bind]. now destruct s.
Qed.

Definition on_ex (t : Z) (v : R) : Z := (t + Int_part (5000 / v))%Z.
Definition both_ex : list (qstream (Z * Z)) :=
  [stream_ex "b" 50 (on_ex 50 5000) (on_ex 50 2500); stream_ex "a" 100 (on_ex 100 5000) (on_ex 100 2500)].

Lemma onsets_two num :
  select_onsets (o_ex false num) [] (pysort cand_leb [cand_ex "a" 100; cand_ex "b" 50]) =
  Ok [picked_of "b" 50 (on_ex 50 5000) (on_ex 50 2500); picked_of "a" 100 (on_ex 100 5000) (on_ex 100 2500)].
Proof. reflexivity. Qed.

Lemma select_unfold {T} (o : popts T) ch stations events os ars cs bs ps :
  read_events o events [] [] = Ok (os, ars) ->
  select_distance o ch os (flat_map (fun ev => map (fun sta => (ev, sta)) stations) (dkeys os)) = Ok (cs, bs) ->
  select_onsets o ars (pysort cand_leb cs) = Ok ps ->
  select o ch stations events =
    if too_few o (List.length ps) then Ok None
    else
      do ss <- retrieve o ch ps;
      do ss <- (if p_remove o then correct_streams o ss else Ok ss);
      if too_few o (List.length ss) then Ok None else Ok (Some (ss, bs)).
Proof. intros A B C. unfold select. rewrite A. cbn [bind]. rewrite B. cbn [bind]. now rewrite C. Qed.

Lemma select_two num : too_few (o_ex false num) 2 = false ->
  select (o_ex false num) channels_ex stations_ex [ev_ex "a" 100; ev_ex "b" 50] = Ok (Some (both_ex, ["GR.WET"; "GR.WET"])).
Proof.
  intros TF. erewrite select_unfold; [|reflexivity|apply distances_two|apply onsets_two].
  cbn [List.length]. rewrite TF.
  change [picked_of "b" 50 _ _; picked_of "a" 100 _ _] with
    (map (fun x => match x with (id, t, p, s) => picked_of id t p s end)
      [("b", 50%Z, on_ex 50 5000, on_ex 50 2500); ("a", 100%Z, on_ex 100 5000, on_ex 100 2500)]).
  rewrite retrieve_ex. cbn [bind p_remove o_ex]. rewrite correct_ex. cbn [bind map List.length]. now rewrite TF.
Qed.

Lemma ids_ex : NoDup (map q_id [ev_ex "a" 100; ev_ex "b" 50]).
Proof. repeat constructor; cbn; intuition discriminate. Qed.

Lemma selection_ex : NoDup (map q_id [ev_ex "a" 100; ev_ex "b" 50]) /\
  lists_once stations_ex (map get_station channels_ex) /\
  select (o_ex false (Some 1%Z)) channels_ex stations_ex [ev_ex "a" 100; ev_ex "b" 50] =
    Ok (Some (both_ex, ["GR.WET"; "GR.WET"])).
Proof. split; [exact ids_ex|]. split; [exact lists_ex|]. now apply select_two. Qed.

(** C60 fails: two pairs are left, as many as required *)
Lemma enough_skipped :
  exists (o : popts (Z * Z)) channels stations events l x,
    NoDup (map q_id events) /\ lists_once stations (map get_station channels) /\
    NoDup (map (fun q => (qs_ev q, qs_sta q)) l) /\ (forall q, In q l <-> valid o channels events q) /\
    p_num_pairs o = Some x /\ (0 < x)%Z /\ Z.of_nat (List.length l) = x /\
    select o channels stations events = Ok None.
Proof.
  exists (o_ex false (Some 2%Z)), channels_ex, stations_ex, [ev_ex "a" 100; ev_ex "b" 50], both_ex, 2%Z.
  destruct selection_ex as (A & B & C). destruct (select_spec _ _ _ _ _ _ A B C) as (D & E & _).
  split; [exact A|]. split; [exact B|]. split; [exact E|]. split; [exact D|]. split; [reflexivity|].
  split; [reflexivity|]. split; [reflexivity|].
  erewrite select_unfold; [|reflexivity|apply distances_two|apply onsets_two]. reflexivity.
Qed.

Lemma counted_ex : exists l r,
  NoDup (map q_id [ev_ex "a" 100; ev_ex "b" 50]) /\
  lists_once stations_ex (map get_station channels_ex) /\
  select (o_ex false (Some 1%Z)) channels_ex stations_ex [ev_ex "a" 100; ev_ex "b" 50] = Ok r /\ r <> None /\
  (p_use_picks (o_ex false (Some 1%Z)) = true -> forall ev, In ev [ev_ex "a" 100; ev_ex "b" 50] ->
     within_reach (o_ex false (Some 1%Z)) channels_ex ev ->
     exists ar, get_arrivals (q_arr ev) = Ok (Some ar) /\ forall sta, exists ons, get_picks ar sta = Ok ons) /\
  (forall t d, exists s, p_shift (o_ex false (Some 1%Z)) t d = Ok s) /\
  (p_use_picks (o_ex false (Some 1%Z)) = false -> p_vs (o_ex false (Some 1%Z)) <> None) /\
  NoDup (map (fun q => (qs_ev q, qs_sta q)) l) /\
  (forall q, In q l <-> valid (o_ex false (Some 1%Z)) channels_ex [ev_ex "a" 100; ev_ex "b" 50] q) /\
  List.length l = 2%nat.
Proof.
  destruct selection_ex as (A & B & C). destruct (select_spec _ _ _ _ _ _ A B C) as (D & E & _).
  exists both_ex. eexists. split; [exact A|]. split; [exact B|]. split; [exact C|].
  split; [discriminate|]. split; [discriminate|]. split; [intros; eexists; reflexivity|].
  split; [discriminate|]. split; [exact E|]. split; [exact D|reflexivity].
Qed.

(** C63 *)
Lemma select_picked : exists q bs,
  select (o_ex true None) channels_ex stations_ex [ev_ex "a" 100] = Ok (Some ([q], bs)).
Proof.
  eexists _, _. erewrite select_unfold; [|reflexivity|apply distances_one|].
  2:{ instantiate (1 := [picked_of "a" 100 7 9]). reflexivity. }
  change [picked_of "a" 100 7 9] with
    (map (fun x => match x with (id, t, p, s) => picked_of id t p s end) [("a", 100%Z, 7%Z, 9%Z)]).
  rewrite retrieve_ex. cbn [bind p_remove o_ex]. rewrite correct_ex. reflexivity.
Qed.

Lemma no_arrivals_loses :
  exists (o : popts (Z * Z)) channels stations good bad r,
    NoDup (map q_id [good; bad]) /\ lists_once stations (map get_station channels) /\
    p_use_picks o = true /\ get_arrivals (q_arr bad) = Ok None /\
    select o channels stations [good] = Ok (Some r) /\
    select o channels stations [good; bad] = Ok None.
Proof.
  destruct select_picked as (q & bs & H).
  exists (o_ex true None), channels_ex, stations_ex, (ev_ex "a" 100), (bare_ex "b" 50), ([q], bs).
  split; [exact ids_ex|]. split; [exact lists_ex|]. split; [reflexivity|]. split; [reflexivity|].
  split; [exact H|]. unfold select.
  change (read_events (o_ex true None) [ev_ex "a" 100; bare_ex "b" 50] [] []) with
    (Ok ([("a", ori_ex 100); ("b", ori_ex 50)], [("a", nth 0 (EventModel.origins picked_ex) [])])).
  cbn [bind]. change (flat_map _ _) with [("a", "GR.WET"); ("a", "GR.FUR"); ("b", "GR.WET"); ("b", "GR.FUR")].
  rewrite distances_two. reflexivity.
Qed.

Lemma picks_ex : exists r q,
  NoDup (map q_id [ev_ex "a" 100]) /\ lists_once stations_ex (map get_station channels_ex) /\
  p_use_picks (o_ex true None) = true /\ p_num_pairs (o_ex true None) = None /\
  select (o_ex true None) channels_ex stations_ex [ev_ex "a" 100] = Ok r /\
  (forall ev, In ev [ev_ex "a" 100] -> within_reach (o_ex true None) channels_ex ev ->
     exists ar, get_arrivals (q_arr ev) = Ok (Some ar) /\ forall sta, exists ons, get_picks ar sta = Ok ons) /\
  (forall t d, exists s, p_shift (o_ex true None) t d = Ok s) /\
  valid (o_ex true None) channels_ex [ev_ex "a" 100] q.
Proof.
  destruct select_picked as (q & bs & H).
  assert (ND : NoDup (map q_id [ev_ex "a" 100])) by (repeat constructor; intros []).
  eexists _, q. split; [exact ND|].
  split; [exact lists_ex|]. split; [reflexivity|]. split; [reflexivity|]. split; [exact H|].
  split; [|split; [intros; eexists; reflexivity|]].
  - intros ev [<-|[]] _. eexists. split; [reflexivity|]. intros sta.
    unfold get_picks. cbn [fold_left nth EventModel.origins picked_ex bind]. unfold add_pick. cbn [phase pick].
    change (get_station "GR.WET..BHZ") with "GR.WET". change (get_station "GR.WET..BHN") with "GR.WET".
    destruct (String.eqb sta "GR.WET"); eexists; reflexivity.
  - apply (select_spec _ _ _ _ _ _ ND lists_ex H). now left.
Qed.

(** C64 *)
Lemma boreholes_ex : NoDup (map q_id [ev_ex "a" 100; ev_ex "b" 50]) /\
  lists_once stations_ex (map get_station channels_ex) /\
  select (o_ex false (Some 1%Z)) channels_ex stations_ex [ev_ex "a" 100; ev_ex "b" 50] =
    Ok (Some (both_ex, ["GR.WET"; "GR.WET"])) /\
  borehole (o_ex false (Some 1%Z)) channels_ex [ev_ex "a" 100; ev_ex "b" 50] "GR.WET".
Proof.
  destruct selection_ex as (A & B & C). split; [exact A|]. split; [exact B|]. split; [exact C|].
  apply (select_boreholes _ _ _ _ _ _ A B C). now left.
Qed.

(** with the network code ignored the station of the traces is WET (core.py:1318-1321) *)
Lemma borehole_lost :
  exists (o : popts (Z * Z)) channels stations events ss bs net sta loc cha,
    NoDup (map q_id events) /\ lists_once stations (map get_station channels) /\
    select o channels stations events = Ok (Some (ss, bs)) /\
    In (seed net sta loc cha) channels /\ borehole o channels events (get_station (seed net sta loc cha)) /\
    let observed := fun (s : stream nat) (_ : nat) (_ fs : R) =>
      Ok (set_noise (trace_ex (s_uid s) (s_sta s) 10) (FNum fs)) in
    let st name := {| s_uid := 1; s_evid := "a"; s_sta := name; s_sr := 100; s_data := 0%nat |} in
    let energies name := stream_energies 4 8 None (fun s _ => Ok (s_data s)) (fun _ _ => Ok 4)
                           (FsTwo 4 1) bs observed [st name] in
    (exists e, energies (get_station (seed net sta loc cha)) = Ok [e] /\ enoise e = Some (FNum 1)) /\
    (exists e, energies (get_station (seed "" sta loc cha)) = Ok [e] /\ enoise e = Some (FNum 4)).
Proof.
  destruct boreholes_ex as (A & B & C & D).
  exists (o_ex false (Some 1%Z)), channels_ex, stations_ex, [ev_ex "a" 100; ev_ex "b" 50], both_ex, ["GR.WET"; "GR.WET"].
  exists "GR", "WET", "", "BHZ". split; [exact A|]. split; [exact B|]. split; [exact C|].
  split; [now do 3 right; left|]. split; [exact D|].
  change (get_station (seed "GR" "WET" "" "BHZ")) with "GR.WET".
  change (get_station (seed "" "WET" "" "BHZ")) with "WET".
  intros observed st energies. subst observed st energies. cbv beta.
  cbn [stream_energies]. unfold stream_energy. cbn [s_sr s_sta s_data s_uid bind].
  assert (rltb 100 (4 + 8) = false) as -> by (apply rltb_false; lra).
  split; (eexists; split; [reflexivity|reflexivity]).
Qed.

(** C60, a band: two of three traces are accepted *)
Lemma band_ex : exists es' r keep,
  NoDup (map uid es_ex) /\ noise_loop (opts_ex false false) es_ex = Ok es' /\
  mean_velocity (Some 3) es' = Some 3 /\
  (forall e, In e es' -> (keep e = true <-> accepted (opts_ex false false) e)) /\
  select_data (opts_ex false false) (Some 3) es_ex = Ok r /\ r <> None /\
  List.length (filter keep es') = 2%nat.
Proof.
  assert (M : fmean [FNum 10; FNum 10] = FNum 10).
  { change [FNum 10; FNum 10] with (map FNum [10; 10]). rewrite PyfOps.fmean_num by discriminate.
    cbn. f_equal. lra. }
  assert (NL : noise_loop (opts_ex false false) es_ex = Ok (map (fun e => set_noise e (FNum 10)) es_ex)).
  { cbv -[rltb secs fmean balanced_time INR Rdiv Rplus Rmult IZR subtract_noise]. rewrite M. reflexivity. }
  assert (WL : exists st, window_loop (opts_ex false false) 3 (map (fun e => set_noise e (FNum 10)) es_ex) = Ok st /\
                List.length (w_energies st) = 2%nat /\ List.length (w_ecoda st) = 2%nat).
  { assert (R1 : rltb (secs (4 * sec - 2 * sec)) 1 = false).
    { apply rltb_false. unfold secs. change (4 * sec - 2 * sec)%Z with 2000000000%Z. lra. }
    cbv -[rltb secs fmean balanced_time INR Rdiv Rplus Rmult IZR] in R1.
    cbv -[rltb secs fmean balanced_time INR Rdiv Rplus Rmult IZR].
    rewrite R1. eexists. split; [reflexivity|]. auto. }
  destruct WL as (st & WL & L & LC).
  destruct (noise_loop_spec _ _ _ (proj1 nodup_ex) NL) as (_ & ND').
  destruct (window_selection _ _ _ _ ND' WL) as (keep & K & U).
  exists (map (fun e => set_noise e (FNum 10)) es_ex), (Some (st, 3)), keep.
  split; [exact (proj1 nodup_ex)|]. split; [exact NL|]. split; [reflexivity|]. split; [exact K|].
  split; [|split; [discriminate|]].
  - unfold select_data. rewrite NL. cbn [bind mean_velocity]. rewrite WL. cbn [bind].
    unfold FbModel.too_few. rewrite LC. reflexivity.
  - rewrite <- L, <- (map_length uid (w_energies st)), U, map_length. reflexivity.
Qed.

Lemma exits_ex :
  select_distance (o_ex false None) channels_ex [("a", ori_ex 1); ("b", ori_ex 2)]
    [("a", "GR.WET"); ("a", "GR.FUR"); ("b", "GR.WET"); ("b", "GR.FUR")] =
  Ok ([cand_ex "a" 1; cand_ex "b" 2], ["GR.WET"; "GR.WET"]) /\
  last_channel channels_ex "GR.FUR" "GR.FUR..BHZ" /\
  p_coords (o_ex false None) "GR.FUR..BHZ" (or_time (ori_ex 1)) = Err OtherError.
Proof.
  split; [apply distances_two|]. split; [apply one_channel_spec; reflexivity|reflexivity].
Qed.

(** the response of no trace can be removed *)
Definition o_fail : popts (Z * Z) :=
  let o := o_ex false None in
  {| p_use_picks := false; p_vp := p_vp o; p_vs := p_vs o; p_correct := true; p_subtract := false;
     p_distance := p_distance o; p_num_pairs := None; p_window := p_window o; p_tol := p_tol o;
     p_coords := p_coords o; p_gps := p_gps o; p_shift := p_shift o; p_waveforms := p_waveforms o;
     p_gaps := p_gaps o; p_merge := p_merge o; p_times := p_times o;
     p_remove := true; p_attach := fun _ => 0%nat; p_correct_response := fun _ => Err ValueError |}.

Lemma fail_ex :
  correct_streams o_fail [stream_ex "a" 1 2 3] = Ok [] /\
  p_attach o_fail (qs_traces (stream_ex "a" 1 2 3)) = 0%nat /\
  p_correct_response o_fail (qs_traces (stream_ex "a" 1 2 3)) = Err ValueError.
Proof. repeat split; reflexivity. Qed.
