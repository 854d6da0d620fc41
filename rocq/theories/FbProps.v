(** Properties C51, C52, C78, C79: data selection in a frequency band.
    Theorems only. *)
From Coq Require Import String List Reals ZArith.
From Verif Require Import Base Pyf PyfOps SmoothModel FbModel FbSpec FbProof FbProof2 FbProof3 FbEx.
Import ListNotations.
Open Scope string_scope.
Open Scope list_scope.
Open Scope R_scope.

(** C51: the energies are those of exactly the streams in the band whose energy
    can be determined, each from its own data, bandwidth and free surface
    correction. *)
Theorem C51_energies : forall (S : Type) freqmin freqmax fix_sites
    (filtered : stream S -> bandfilter -> res S) width free_surface borehole observed ss es,
  stream_energies freqmin freqmax fix_sites filtered width free_surface borehole observed ss = Ok es ->
  energies_of freqmin freqmax fix_sites filtered width free_surface borehole observed ss es.
Proof. exact @stream_energies_spec. Qed.
Print Assumptions C51_energies.

Example C51_energies_ex :
  stream_energies 4 8 None (fun s _ => Ok (s_data s)) (fun _ _ => Ok 4) (FsTwo 4 1) ["A"]
    (fun s _ df fs => Ok (set_noise (trace_ex (s_uid s) (s_sta s) 10) (FNum (df + fs)))) streams_ex
  = Ok [set_noise (trace_ex 1 "A" 10) (FNum (4 + 1))].
Proof. exact energies_ex. Qed.

(** C51: entry i of every list of observations belongs to trace i of the
    remaining energies. *)
Theorem C51_alignment : forall (W : Type) (o : fbopts W) v0 es st,
  NoDup (map uid es) -> window_loop o v0 es = Ok st ->
  List.length (w_ecoda st) = List.length (w_energies st) /\
  List.length (w_tcoda st) = List.length (w_energies st) /\
  (o_bulk_window o <> None ->
     List.length (w_ebulk st) = List.length (w_energies st) /\
     List.length (w_tbulk st) = List.length (w_energies st) /\
     List.length (w_weights st) = List.length (w_energies st)) /\
  forall i e, nth_error (w_energies st) i = Some e ->
    exists ob, In (ob_from ob) es /\ observation o v0 ob /\ ob_trace ob = e /\
      nth_error (w_ecoda st) i = Some (ob_coda ob) /\
      nth_error (w_tcoda st) i = Some (ob_times ob) /\
      match ob_bulk ob with
      | None => o_bulk_window o = None
      | Some (m, t, w) => nth_error (w_ebulk st) i = Some m /\
          nth_error (w_tbulk st) i = Some t /\ nth_error (w_weights st) i = Some w
      end.
Proof. exact @window_alignment. Qed.
Print Assumptions C51_alignment.

Example C51_alignment_ex : NoDup (map uid es_ex) /\ NoDup (map (fun e => (evid e, sta e)) es_ex) /\
  exists st, window_loop (opts_ex false false) 3 es_ex = Ok st /\
  map sta (w_energies st) = ["A"; "C"] /\
  w_ecoda st = [[FNum 40; FNum 30; FNum 20]; [FNum 40; FNum 30; FNum 20]] /\
  List.length (w_ebulk st) = 2%nat.
Proof. exact (conj (proj1 nodup_ex) (conj (proj2 nodup_ex) window_ex)). Qed.

(** C51: exactly the traces that pass all checks remain, in order. *)
Theorem C51_selection : forall (W : Type) (o : fbopts W) v0 es st,
  NoDup (map uid es) -> window_loop o v0 es = Ok st ->
  exists keep : etrace -> bool,
    (forall e, In e es -> (keep e = true <-> accepted o e)) /\
    map uid (w_energies st) = map uid (filter keep es).
Proof. exact @window_selection. Qed.
Print Assumptions C51_selection.

Example C51_selection_ex : NoDup (map uid es_ex) /\
  exists st, window_loop (opts_ex false false) 3 es_ex = Ok st /\
  map sta (w_energies st) = ["A"; "C"] /\
  w_ecoda st = [[FNum 40; FNum 30; FNum 20]; [FNum 40; FNum 30; FNum 20]] /\
  List.length (w_ebulk st) = 2%nat.
Proof. exact (conj (proj1 nodup_ex) window_ex). Qed.

(** C51: with distinct pairs, the distance looked up for a remaining trace is
    its own. *)
Theorem C51_distances : forall (W : Type) (o : fbopts W) v0 es st,
  NoDup (map uid es) -> NoDup (map (fun e => (evid e, sta e)) es) -> window_loop o v0 es = Ok st ->
  forall e, In e (w_energies st) -> dget pair_eqb (w_distances st) (evid e, sta e) = Some (edist e).
Proof. exact @window_distances. Qed.
Print Assumptions C51_distances.

Example C51_distances_ex : NoDup (map uid es_ex) /\ NoDup (map (fun e => (evid e, sta e)) es_ex) /\
  exists st, window_loop (opts_ex false false) 3 es_ex = Ok st /\
  map sta (w_energies st) = ["A"; "C"] /\
  w_ecoda st = [[FNum 40; FNum 30; FNum 20]; [FNum 40; FNum 30; FNum 20]] /\
  List.length (w_ebulk st) = 2%nat.
Proof. exact (conj (proj1 nodup_ex) (conj (proj2 nodup_ex) window_ex)). Qed.

(** C51: with distinct pairs, the bulk window looked up for a remaining trace is
    the one of its samples. *)
Theorem C51_bulk_windows : forall (W : Type) (o : fbopts W) v0 es st,
  NoDup (map uid es) -> NoDup (map (fun e => (evid e, sta e)) es) ->
  o_bulk_window o <> None -> window_loop o v0 es = Ok st ->
  forall e, In e (w_energies st) -> exists e0 b,
    In e0 es /\ uid e0 = uid e /\
    dget pair_eqb (w_tbulk_window st) (evid e, sta e) = Some b /\ bulk_window_is o e0 v0 b.
Proof. exact @window_bulks. Qed.
Print Assumptions C51_bulk_windows.

Example C51_bulk_windows_ex : NoDup (map uid es_ex) /\
  NoDup (map (fun e => (evid e, sta e)) es_ex) /\ o_bulk_window (opts_ex false false) <> None /\
  exists st, window_loop (opts_ex false false) 3 es_ex = Ok st /\
  map sta (w_energies st) = ["A"; "C"] /\
  w_ecoda st = [[FNum 40; FNum 30; FNum 20]; [FNum 40; FNum 30; FNum 20]] /\
  List.length (w_ebulk st) = 2%nat.
Proof. exact (conj (proj1 nodup_ex) (conj (proj2 nodup_ex) (conj bulk_given window_ex))). Qed.

(** C51: velocity and number of pairs of a band: there is a result exactly if
    enough pairs remain. *)
Theorem C51_result : forall (W : Type) (o : fbopts W) v0 es r,
  NoDup (map uid es) -> select_data o v0 es = Ok r ->
  exists es', noise_treated o es es' /\
  match r with
  | Some (st, v) => velocity_is v0 es' v /\ window_loop o v es' = Ok st /\
      (0 < List.length (w_energies st))%nat /\
      (o_num_pairs o <= Z.of_nat (List.length (w_energies st)))%Z
  | None => v0 = None /\ es' = [] \/
      exists v st, velocity_is v0 es' v /\ window_loop o v es' = Ok st /\
        (w_energies st = [] \/ (Z.of_nat (List.length (w_energies st)) < o_num_pairs o)%Z)
  end.
Proof. exact @select_result. Qed.
Print Assumptions C51_result.

Example C51_result_ex : NoDup (map uid es_ex) /\
  exists st, select_data (opts_ex false false) None es_ex = Ok (Some (st, 2)).
Proof. exact (conj (proj1 nodup_ex) select_ex). Qed.

(** C52: each trace loses its own noise level, traces without noise level are
    left out if noise shall be removed, and nothing else changes. *)
Theorem C52_noise : forall (W : Type) (o : fbopts W) es es',
  NoDup (map uid es) -> noise_loop o es = Ok es' ->
  noise_treated o es es' /\ NoDup (map uid es').
Proof. exact @noise_loop_spec. Qed.
Print Assumptions C52_noise.

Example C52_noise_ex : NoDup (map uid [trace_ex 1 "A" 10; late_ex]) /\
  exists es', noise_loop (opts_ex false true) [trace_ex 1 "A" 10; late_ex] = Ok es' /\
  map sta es' = ["A"] /\ exists e, In e es' /\ enoise e = Some (FNum 10).
Proof. exact (conj nodup_late noise_ex). Qed.

(** C52: after the removal of a positive noise level every sample is at least a
    hundredth of it, thus the logarithm exists. *)
Theorem C52_positive : forall (W : Type) (o : fbopts W) es es' e n,
  NoDup (map uid es) -> noise_loop o es = Ok es' -> o_remove_noise o = true ->
  In e es' -> enoise e = Some (FNum n) -> 0 < n ->
  forall y, In y (edata e) -> y = FNan \/ y = FPInf \/ exists r, y = FNum r /\ n / 100 <= r /\ 0 < r.
Proof. exact @noise_positive. Qed.
Print Assumptions C52_positive.

Example C52_positive_ex : NoDup (map uid [trace_ex 1 "A" 10; late_ex]) /\
  exists es', noise_loop (opts_ex false true) [trace_ex 1 "A" 10; late_ex] = Ok es' /\
  map sta es' = ["A"] /\ exists e, In e es' /\ enoise e = Some (FNum 10).
Proof. exact (conj nodup_late noise_ex). Qed.

(** C78, for windows inside of the data: the adjusted onset is the time of a
    largest sample of the window.  Missing: windows that start before the data,
    for which the claim is false, see below. *)
Theorem C78_onset_partial : forall (W : Type) (o : fbopts W) e e',
  onset_adjusted o e e' -> o_adjust_maximum o = true ->
  (forall w s, o_slice o e w = Ok s -> estart s = fst w /\ edelta s = edelta e) ->
  (forall w s x, o_slice o e w = Ok s -> In x (edata s) -> x <> FNan) ->
  exists mw s i m, o_slice o e mw = Ok s /\ nth_error (edata s) i = Some m /\
    (forall x, In x (edata s) -> fltb m x = false) /\
    esonset e' = (estart s + Z.of_nat i * edelta s)%Z.
Proof. exact @onset_is_maximum. Qed.
Print Assumptions C78_onset_partial.

Example C78_onset_ex : exists e',
  onset_adjusted opts_inside peak_ex e' /\ o_adjust_maximum opts_inside = true /\
  (forall w s, o_slice opts_inside peak_ex w = Ok s ->
     estart s = fst w /\ edelta s = edelta peak_ex) /\
  (forall w s x, o_slice opts_inside peak_ex w = Ok s -> In x (edata s) -> x <> FNan) /\
  esonset e' = sec.
Proof. exact inside_ex. Qed.

(** C78 fails if the window starts before the data: the index of the maximum is
    counted from the start of the window. *)
Theorem C78_onset_refuted : exists (o : fbopts (Z * Z)) e e' mw s i,
  o_slice o = slice_ex /\ adjust_onset o e = Ok e' /\ o_adjust_maximum o = true /\
  o_tw2utc o (-9, 4)%Z e = Ok mw /\ o_adjust_window o = Some (-9, 4)%Z /\
  o_slice o e mw = Ok s /\ fargmax (edata s) = Ok i /\
  esonset e' <> (estart s + Z.of_nat i * edelta s)%Z.
Proof. exact onset_misplaced. Qed.
Print Assumptions C78_onset_refuted.

(** C79: the time used for sample k differs from its lapse time (counted such
    that the onset is at distance/v0) by less than half a second. *)
Theorem C79_times : forall (W : Type) (o : fbopts W) e v0 w s t k,
  usable o e w s -> times_ok e v0 w (List.length (edata s)) t ->
  edelta s = edelta e -> esr e * (IZR (edelta e) / 1000000000) = 1 ->
  (2 * (fst w - estart s) <= edelta e)%Z -> (k < List.length (edata s))%nat ->
  - (1 / 2) <
    nth k t 0 - (IZR (estart s + Z.of_nat k * edelta s - esonset e) / 1000000000 + edist e / v0)
    <= IZR (edelta e) / 2 / 1000000000.
Proof. exact @times_error. Qed.
Print Assumptions C79_times.

Example C79_times_ex : exists s t,
  usable (opts_ex false false) (shifted_ex peak_ex) (0, 1800000000)%Z s /\
  times_ok (shifted_ex peak_ex) 3 (0, 1800000000)%Z (List.length (edata s)) t /\
  edelta s = edelta peak_ex /\ esr peak_ex * (IZR (edelta peak_ex) / 1000000000) = 1 /\
  (2 * (0 - estart s) <= edelta peak_ex)%Z /\ (1 < List.length (edata s))%nat /\
  nth 1 t 0 - (IZR (estart s + 1 * edelta s - esonset peak_ex) / 1000000000 + edist peak_ex / 3)
  = - (4 / 10).
Proof. exact times_ex. Qed.
