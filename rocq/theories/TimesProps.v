(** Properties C42, C43, C44, C46 and C47: time expressions and data windows,
    /repo/qopen/core.py:283-350, 434-440, 452-477. *)
From Coq Require Import String Ascii List Bool ZArith QArith.
From Verif Require Import Base PyStr TimesModel TimesSpec TimesProof TimesProof2 TimesEx.
Import ListNotations.
Open Scope string_scope.
Open Scope list_scope.

(** C42: seconds relative to origin time, P onset and S onset *)
Theorem C42_seconds : forall pyfloat text pre b tr start x,
  pre = "s" \/ pre = "p" \/ pre = "ot" ->
  py_lower text = (pre ++ b ++ "s")%string -> pyfloat b = Some x ->
  exists t, time2utc pyfloat text tr start = Ok t /\
    is_time t (inject_Z (if String.eqb pre "p" then ponset tr
                         else if String.eqb pre "s" then sonset tr else origintime tr)
               + x * inject_Z 1000000000).
Proof. exact seconds_form. Qed.
Print Assumptions C42_seconds.

Example C42_seconds_ex :
  py_lower "OT+1.5S" = ("ot" ++ "+1.5" ++ "s")%string /\ float_ex "+1.5" = Some (3 # 2).
Proof. split; reflexivity. Qed.

(** C42: multiples of the travel times *)
Theorem C42_travel_times : forall pyfloat text suf b tr start x,
  suf = "stt" \/ suf = "ptt" ->
  py_lower text = (b ++ suf)%string -> pyfloat b = Some x ->
  exists t, time2utc pyfloat text tr start = Ok t /\
    is_time t (inject_Z (origintime tr)
               + x * inject_Z ((if String.eqb suf "ptt" then ponset tr else sonset tr)
                               - origintime tr)).
Proof. exact travel_form. Qed.
Print Assumptions C42_travel_times.

Example C42_travel_times_ex :
  py_lower "2Stt" = ("2" ++ "stt")%string /\ float_ex "2" = Some 2%Q.
Proof. split; reflexivity. Qed.

(** C42: nothing else is accepted *)
Theorem C42_nothing_else : forall pyfloat text tr start,
  pyfloat "" = None ->
  ends_with "snr" (py_lower text) = false ->
  (exists t, time2utc pyfloat text tr start = Ok t) ->
  exists pre b suf x,
    py_lower text = (pre ++ b ++ suf)%string /\ pyfloat b = Some x /\
    ((pre = "" /\ (suf = "stt" \/ suf = "ptt")) \/
     ((pre = "s" \/ pre = "p" \/ pre = "ot") /\ suf = "s")).
Proof. exact other_texts. Qed.
Print Assumptions C42_nothing_else.

Example C42_nothing_else_ex :
  float_ex "" = None /\ ends_with "snr" (py_lower "2Stt") = false /\
  time2utc float_ex "2Stt" trace_ex None = Ok 40%Z.
Proof. repeat split; reflexivity. Qed.

(** C42: the error is a ValueError *)
Theorem C42_value_error : forall pyfloat text tr start e,
  ends_with "snr" (py_lower text) = false ->
  time2utc pyfloat text tr start = Err e -> e = ValueError.
Proof. exact plain_raise. Qed.
Print Assumptions C42_value_error.

Example C42_value_error_ex :
  ends_with "snr" (py_lower "Q+2s") = false /\
  time2utc float_ex "Q+2s" trace_ex None = Err ValueError.
Proof. split; reflexivity. Qed.

(** C42: upper and lower case *)
Theorem C42_case : forall pyfloat text text' tr start,
  py_lower text = py_lower text' ->
  time2utc pyfloat text tr start = time2utc pyfloat text' tr start.
Proof. exact case_free. Qed.
Print Assumptions C42_case.

Example C42_case_ex : py_lower "OT+2S" = py_lower "ot+2s".
Proof. reflexivity. Qed.

(** C43, guarded: the start is the time of a sample.  The full statement
    replaces it by any time in the data (see the refutation below): the result
    is the time of the first sample i at or after the start that is below the
    threshold. *)
Theorem C43_first_weak_sample_partial : forall pyfloat text b tr x nl k,
  py_lower text = (b ++ "snr")%string -> has_char ">" b = false ->
  pyfloat b = Some x -> noise_level tr = Some nl ->
  (0 < dt tr)%Z -> (k <= List.length (data tr))%nat ->
  exists i,
    time2utc pyfloat text tr (Some (t0 tr + Z.of_nat k * dt tr)%Z)
      = Ok (t0 tr + Z.of_nat i * dt tr)%Z /\
    (k <= i <= List.length (data tr))%nat /\
    (forall j, (k <= j < i)%nat -> ~ (nth j (data tr) 0 < x * nl)%Q) /\
    ((i < List.length (data tr))%nat -> (nth i (data tr) 0 < x * nl)%Q).
Proof. exact snr_grid. Qed.
Print Assumptions C43_first_weak_sample_partial.

Example C43_first_weak_sample_partial_ex :
  py_lower "2SNR" = ("2" ++ "snr")%string /\ has_char ">" "2" = false /\
  float_ex "2" = Some 2%Q /\ noise_level trace_ex = Some 1%Q /\
  (0 < dt trace_ex)%Z /\ Nat.leb 1 (List.length (data trace_ex)) = true.
Proof. repeat split; reflexivity. Qed.

(** C43, any start: the sample k nearest to the start takes its part, and the
    result is off the time of sample i by as much as the start is off sample k,
    that is by half a sampling interval at most.  Starts after the end of the data
    are returned. *)
Theorem C43_any_start : forall pyfloat text b tr x nl st,
  py_lower text = (b ++ "snr")%string -> has_char ">" b = false ->
  pyfloat b = Some x -> noise_level tr = Some nl ->
  (0 < dt tr)%Z -> (t0 tr <= st)%Z ->
  exists k i,
    (2 * Z.abs (st - (t0 tr + Z.of_nat k * dt tr)) <= dt tr)%Z /\
    time2utc pyfloat text tr (Some st) = Ok (st + (Z.of_nat i - Z.of_nat k) * dt tr)%Z /\
    (k <= i)%nat /\
    (forall j, (k <= j < i)%nat -> (j < List.length (data tr))%nat /\ ~ (nth j (data tr) 0 < x * nl)%Q) /\
    ((i < List.length (data tr))%nat -> (nth i (data tr) 0 < x * nl)%Q).
Proof. exact snr_any. Qed.
Print Assumptions C43_any_start.

Example C43_any_start_ex :
  py_lower "2SNR" = ("2" ++ "snr")%string /\ has_char ">" "2" = false /\
  float_ex "2" = Some 2%Q /\ noise_level trace_ex = Some 1%Q /\
  (0 < dt trace_ex)%Z /\ time2utc float_ex "2SNR" trace_ex (Some 33%Z) = Ok 43%Z.
Proof. repeat split; reflexivity. Qed.

(** C43: for a start between two samples the result is no time of a sample *)
Theorem C43_first_weak_sample_refuted :
  exists pyfloat tr st x nl t,
    (0 < dt tr)%Z /\ (t0 tr <= st <= t0 tr + (Z.of_nat (List.length (data tr)) - 1) * dt tr)%Z /\
    pyfloat "2" = Some x /\ noise_level tr = Some nl /\
    time2utc pyfloat "2SNR" tr (Some st) = Ok t /\
    ~ exists i, t = (t0 tr + Z.of_nat i * dt tr)%Z.
Proof. exact snr_off_grid. Qed.
Print Assumptions C43_first_weak_sample_refuted.

(** C43: never before the start *)
Theorem C43_not_before_start : forall pyfloat text b tr st t,
  py_lower text = (b ++ "snr")%string -> has_char ">" b = false ->
  (0 <= dt tr)%Z ->
  time2utc pyfloat text tr (Some st) = Ok t -> (st <= t)%Z.
Proof. exact snr_after. Qed.
Print Assumptions C43_not_before_start.

Example C43_not_before_start_ex :
  py_lower "2SNR" = ("2" ++ "snr")%string /\ has_char ">" "2" = false /\
  time2utc float_ex "2SNR" trace_ex (Some 30%Z) = Ok 40%Z.
Proof. repeat split; reflexivity. Qed.

(** C43: "time>xSNR" searches from its own start *)
Theorem C43_own_start : forall pyfloat text a b tr st st',
  py_lower text = (a ++ ">" ++ b ++ "snr")%string ->
  a <> "" -> has_char ">" a = false -> has_char ">" b = false ->
  ends_with "snr" a = false ->
  time2utc pyfloat a tr None = Ok st' ->
  time2utc pyfloat text tr (Some st) = time2utc pyfloat (b ++ "snr")%string tr (Some st').
Proof. exact snr_own_start. Qed.
Print Assumptions C43_own_start.

Example C43_own_start_ex :
  py_lower "OT+2s>2SNR" = ("ot+2s" ++ ">" ++ "2" ++ "snr")%string /\
  ends_with "snr" "ot+2s" = false /\
  time2utc (fun s => if String.eqb s "+2" then Some 2%Q else None) "ot+2s" trace_ex None
    = Ok 2000000000%Z.
Proof. repeat split; reflexivity. Qed.

(** C43: without a time in front of '>' it searches from the start of the window *)
Theorem C43_no_own_start : forall pyfloat text b tr st,
  py_lower text = (">" ++ b ++ "snr")%string -> has_char ">" b = false ->
  time2utc pyfloat text tr (Some st) = time2utc pyfloat (b ++ "snr")%string tr (Some st).
Proof. exact snr_bare. Qed.
Print Assumptions C43_no_own_start.

Example C43_no_own_start_ex :
  py_lower ">2SNR" = (">" ++ "2" ++ "snr")%string /\ has_char ">" "2" = false /\
  time2utc float_ex ">2SNR" trace_ex (Some 30%Z) = Ok 40%Z.
Proof. repeat split; reflexivity. Qed.

(** C43: ... which may be before the start of the window *)
Theorem C43_not_before_start_refuted :
  exists pyfloat tr st t,
    (0 < dt tr)%Z /\
    time2utc pyfloat "OT-10s>2SNR" tr (Some st) = Ok t /\ (t < st)%Z.
Proof. exact snr_before_window. Qed.
Print Assumptions C43_not_before_start_refuted.

(** C44: latest start and earliest end, the latter relative to the start *)
Theorem C44_window : forall pyfloat tw tr s e,
  tw2utc pyfloat tw tr = Ok (s, e) ->
  ((exists x, In x (texts (fst tw)) /\ time2utc pyfloat x tr None = Ok s) /\
   (forall x, In x (texts (fst tw)) ->
      exists t, time2utc pyfloat x tr None = Ok t /\ (t <= s)%Z)) /\
  ((exists x, In x (texts (snd tw)) /\ time2utc pyfloat x tr (Some s) = Ok e) /\
   (forall x, In x (texts (snd tw)) ->
      exists t, time2utc pyfloat x tr (Some s) = Ok t /\ (e <= t)%Z)).
Proof. exact window_ok. Qed.
Print Assumptions C44_window.

Example C44_window_ex :
  tw2utc float_ex (Many ["P+1.5s"; "OT+1.5s"], Many ["2Stt"; "2SNR"]) trace_ex
  = Ok (1500000010, 40)%Z.
Proof. exact window_ex. Qed.

(** C44: windows of valid expressions are valid *)
Theorem C44_window_exists : forall pyfloat tw tr,
  texts (fst tw) <> [] -> texts (snd tw) <> [] ->
  (forall x, In x (texts (fst tw)) -> exists t, time2utc pyfloat x tr None = Ok t) ->
  (forall x s, In x (texts (snd tw)) -> exists t, time2utc pyfloat x tr (Some s) = Ok t) ->
  exists s e, tw2utc pyfloat tw tr = Ok (s, e).
Proof. exact window_total. Qed.
Print Assumptions C44_window_exists.

Example C44_window_exists_ex :
  (forall x, In x (texts (One "P+1.5s")) -> exists t, time2utc float_ex x trace_ex None = Ok t) /\
  (forall x s, In x (texts (Many ["2Stt"])) ->
     exists t, time2utc float_ex x trace_ex (Some s) = Ok t).
Proof. split; [intros x [<-|[]]|intros x s [<-|[]]]; eexists; reflexivity. Qed.

(** C46: completeness of the data *)
Theorem C46_check_times : forall start end_ tw tol,
  check_times start end_ tw tol = None <->
  (start < fst tw + tol /\ snd tw - tol < end_)%Z.
Proof. exact check_times_ok. Qed.
Print Assumptions C46_check_times.

(** C47: the general behaviour, including the first sample as reference of a
    maximum without minimum before it *)
Theorem C47_cut_reference : forall tr smoothed ratio d,
  searched tr smoothed d -> Forall (fun x => 0 <= x)%Q d ->
  match get_local_minimum tr smoothed ratio with
  | Ok (Some t) =>
      (exists j, local_min d j) /\
      exists ma i,
        local_max d ma /\ reference d ma i /\ exceeds_by d ratio ma i /\
        (forall ma' i', local_max d ma' -> (ma' < ma)%nat -> reference d ma' i' ->
                        ~ exceeds_by d ratio ma' i') /\
        t = (t0 tr + Z.of_nat i * dt tr)%Z
  | Ok None =>
      (forall j, ~ local_min d j) \/
      (forall ma i, local_max d ma -> reference d ma i -> ~ exceeds_by d ratio ma i)
  | Err _ => False
  end.
Proof. exact local_minimum_ok. Qed.
Print Assumptions C47_cut_reference.

Example C47_cut_reference_ex :
  searched trace_ex None (data trace_ex) /\ Forall (fun x => 0 <= x)%Q (data trace_ex) /\
  get_local_minimum trace_ex None 3 = Ok (Some 20%Z).
Proof. split; [reflexivity|split; [exact nonneg_ex|exact minimum_ex]]. Qed.

(** C47, guarded: every local maximum has a local minimum before it.  The full
    statement drops this; it is false, see below. *)
Theorem C47_cut_partial : forall tr smoothed ratio d,
  searched tr smoothed d -> Forall (fun x => 0 <= x)%Q d ->
  (forall ma, local_max d ma -> exists j, local_min d j /\ (j < ma)%nat) ->
  match get_local_minimum tr smoothed ratio with
  | Ok (Some t) =>
      exists ma i,
        local_max d ma /\ lowest_min_before d ma i /\ exceeds_by d ratio ma i /\
        (forall ma' i', local_max d ma' -> (ma' < ma)%nat -> lowest_min_before d ma' i' ->
                        ~ exceeds_by d ratio ma' i') /\
        t = (t0 tr + Z.of_nat i * dt tr)%Z
  | Ok None =>
      forall ma i, local_max d ma -> lowest_min_before d ma i -> ~ exceeds_by d ratio ma i
  | Err _ => False
  end.
Proof. exact local_minimum_plain. Qed.
Print Assumptions C47_cut_partial.

Example C47_cut_partial_ex : forall ma,
  local_max (data trace_ex) ma -> exists j, local_min (data trace_ex) j /\ (j < ma)%nat.
Proof. exact minima_first_ex. Qed.

(** C47: the window can be cut at its start, which is no minimum *)
Theorem C47_cut_refuted :
  exists tr ratio t,
    Forall (fun x => 0 <= x)%Q (data tr) /\
    get_local_minimum tr None ratio = Ok (Some t) /\
    ~ exists i, local_min (data tr) i /\ t = (t0 tr + Z.of_nat i * dt tr)%Z.
Proof. exact cut_at_start. Qed.
Print Assumptions C47_cut_refuted.
