(** Concrete cases for the theorems about the data selection. *)
From Coq Require Import String List Bool Reals Lra ZArith Arith.
From Verif Require Import Base Pyf PyfOps SmoothModel FbModel FbSpec FbProof FbProof2 FbProof3.
Import ListNotations.
Open Scope string_scope.
Open Scope list_scope.
Open Scope R_scope.

(** the samples of window w; i is the number of the first sample *)
Fixpoint samples_in (t delta : Z) (w : Z * Z) (d : list pyf) : list pyf :=
  match d with
  | [] => []
  | x :: r => if (Z.leb (fst w) t && Z.leb t (snd w))%bool
              then x :: samples_in (t + delta) delta w r
              else samples_in (t + delta) delta w r
  end.

(** a slice as obspy does it, for windows that start at a sample or before the
    data *)
Definition slice_ex (e : etrace) (w : Z * Z) : res etrace :=
  match samples_in (estart e) (edelta e) w (edata e) with
  | [] => Err ValueError
  | d => Ok {| uid := uid e; evid := evid e; sta := sta e; edata := d;
               estart := Z.max (fst w) (estart e);
               esr := esr e; edelta := edelta e; eotime := eotime e; esonset := esonset e;
               edist := edist e; enoise := enoise e |}
  end.

Definition sec : Z := 1000000000.

(** windows in seconds relative to the S onset *)
Definition opts_ex (adjust remove : bool) : fbopts (Z * Z) :=
  {| o_tw2utc := fun w e => Ok ((esonset e + fst w * sec)%Z, (esonset e + snd w * sec)%Z);
     o_slice := slice_ex;
     o_noise_windows := Some [(-20, -18)%Z; (-3, -2)%Z];
     o_noise_func := fun l => match l with [] => Err ValueError | x :: _ => Ok x end;
     o_remove_noise := remove; o_adjust_maximum := adjust; o_adjust_window := Some (-9, 4)%Z;
     o_bulk_window := Some (0, 1)%Z; o_coda_window := (2, 4)%Z;
     o_weight := Some (3, "codawindow");
     o_smooth := None; o_smoother := fun d _ => Ok d;
     o_skip_coda := 1; o_skip_maximum := None; o_num_pairs := 1; o_cut_coda := false;
     o_cut_smooth := None; o_local_minimum := fun _ => Ok None |}.

Definition trace_ex (id : nat) (st : string) (n : nat) : etrace :=
  {| uid := id; evid := "ev"; sta := st;
     edata := firstn n [FNum 10; FNum 10; FNum 10; FNum 10; FNum 99; FNum 50; FNum 40; FNum 30; FNum 20; FNum 5];
     estart := (- 4 * sec)%Z; esr := 1; edelta := sec;
     eotime := (- 6 * sec)%Z; esonset := 0; edist := 12; enoise := None |}.

Definition es_ex : list etrace := [trace_ex 1 "A" 10; trace_ex 2 "B" 6; trace_ex 3 "C" 10].

Lemma nodup_ex : NoDup (map uid es_ex) /\ NoDup (map (fun e => (evid e, sta e)) es_ex).
Proof.
  split; cbn; repeat (constructor; [cbn; intuition discriminate|]); constructor.
Qed.

(** the pair with few data is skipped *)
Lemma window_ex : exists st, window_loop (opts_ex false false) 3 es_ex = Ok st /\
  map sta (w_energies st) = ["A"; "C"] /\
  w_ecoda st = [[FNum 40; FNum 30; FNum 20]; [FNum 40; FNum 30; FNum 20]] /\
  List.length (w_ebulk st) = 2%nat.
Proof.
  assert (R1 : rltb (secs (4 * sec - 2 * sec)) 1 = false).
  { apply rltb_false. unfold secs. change (4 * sec - 2 * sec)%Z with 2000000000%Z. lra. }
  cbv -[rltb secs fmean balanced_time INR Rdiv Rplus Rmult IZR] in R1.
  cbv -[rltb secs fmean balanced_time INR Rdiv Rplus Rmult IZR].
  rewrite R1. eexists. split; [reflexivity|]. auto.
Qed.

Lemma bulk_given : o_bulk_window (opts_ex false false) <> None.
Proof. discriminate. Qed.

(** the pair with noise windows outside of its data is skipped *)
Definition late_ex : etrace :=
  {| uid := 4; evid := "ev"; sta := "D"; edata := [FNum 7; FNum 6];
     estart := 0; esr := 1; edelta := sec;
     eotime := (- 6 * sec)%Z; esonset := 0; edist := 12; enoise := None |}.

Lemma noise_ex : exists es', noise_loop (opts_ex false true) [trace_ex 1 "A" 10; late_ex] = Ok es' /\
  map sta es' = ["A"] /\ exists e, In e es' /\ enoise e = Some (FNum 10).
Proof.
  assert (M : fmean [FNum 10; FNum 10] = FNum 10).
  { change [FNum 10; FNum 10] with (map FNum [10; 10]). rewrite fmean_num by discriminate.
    cbn. f_equal. lra. }
  cbv -[rltb secs fmean balanced_time INR Rdiv Rplus Rmult IZR subtract_noise].
  rewrite M. eexists. split; [reflexivity|]. split; [reflexivity|].
  eexists. split; [now left|reflexivity].
Qed.

Lemma nodup_late : NoDup (map uid [trace_ex 1 "A" 10; late_ex]).
Proof. cbn; repeat (constructor; [cbn; intuition discriminate|]); constructor. Qed.

(** the largest sample is the second one, one second after the first *)
Definition peak_ex : etrace :=
  {| uid := 5; evid := "ev"; sta := "E"; edata := [FNum 1; FNum 9; FNum 2];
     estart := 0; esr := 1; edelta := sec;
     eotime := (- 6 * sec)%Z; esonset := 0; edist := 12; enoise := None |}.

Lemma peak_at : fargmax [FNum 1; FNum 9; FNum 2] = Ok 1%nat.
Proof.
  cbn [fargmax argmax_from fisnan orb fltb].
  assert (rltb 1 9 = true) as -> by (apply rltb_true; lra). cbn [fisnan orb fltb].
  assert (rltb 9 2 = false) as -> by (apply rltb_false; lra). reflexivity.
Qed.

Definition peak_slice : etrace :=
  {| uid := 5; evid := "ev"; sta := "E"; edata := [FNum 1; FNum 9; FNum 2];
     estart := 0; esr := 1; edelta := sec;
     eotime := (- 6 * sec)%Z; esonset := 0; edist := 12; enoise := None |}.

(** the window of the adjustment starts nine seconds before the onset, the data
    start at the onset *)
Lemma onset_misplaced :
  exists (o : fbopts (Z * Z)) e e' mw s i,
    o_slice o = slice_ex /\ adjust_onset o e = Ok e' /\ o_adjust_maximum o = true /\
    o_tw2utc o (-9, 4)%Z e = Ok mw /\ o_adjust_window o = Some (-9, 4)%Z /\
    o_slice o e mw = Ok s /\ fargmax (edata s) = Ok i /\
    esonset e' <> (estart s + Z.of_nat i * edelta s)%Z.
Proof.
  exists (opts_ex true false), peak_ex, (set_sonset peak_ex (-9 * sec + 1 * sec)).
  exists ((-9 * sec)%Z, (4 * sec)%Z), peak_slice, 1%nat.
  split; [reflexivity|]. split.
  - unfold adjust_onset.
    change (o_adjust_maximum (opts_ex true false)) with true. cbv iota.
    change (o_adjust_window (opts_ex true false)) with (Some (-9, 4)%Z). cbv iota beta.
    change (o_tw2utc (opts_ex true false) (-9, 4)%Z peak_ex) with
      (@Ok (Z * Z) ((-9 * sec)%Z, (4 * sec)%Z)). cbn [bind].
    change (o_slice (opts_ex true false) peak_ex ((-9 * sec)%Z, (4 * sec)%Z)) with (Ok peak_slice).
    cbn [bind]. change (edata peak_slice) with [FNum 1; FNum 9; FNum 2]. rewrite peak_at. reflexivity.
  - split; [reflexivity|]. split; [reflexivity|]. split; [reflexivity|]. split; [reflexivity|].
    split; [exact peak_at|].
    change (esonset (set_sonset peak_ex (-9 * sec + 1 * sec))) with (-8000000000)%Z.
    change (estart peak_slice + Z.of_nat 1 * edelta peak_slice)%Z with 1000000000%Z. discriminate.
Qed.

(** the same with a window inside the data *)
Definition opts_inside : fbopts (Z * Z) :=
  {| o_tw2utc := fun w e => Ok ((esonset e + fst w * sec)%Z, (esonset e + snd w * sec)%Z);
     o_slice := fun e w => if Z.leb (estart e) (fst w) then slice_ex e w else Err ValueError;
     o_noise_windows := Some []; o_noise_func := fun l => Err ValueError;
     o_remove_noise := false; o_adjust_maximum := true; o_adjust_window := Some (0, 4)%Z;
     o_bulk_window := None; o_coda_window := (2, 4)%Z; o_weight := None;
     o_smooth := None; o_smoother := fun d _ => Ok d;
     o_skip_coda := 1; o_skip_maximum := None; o_num_pairs := 1; o_cut_coda := false;
     o_cut_smooth := None; o_local_minimum := fun _ => Ok None |}.

Lemma samples_in_incl t delta w d x : In x (samples_in t delta w d) -> In x d.
Proof.
  revert t. induction d as [|y d IH]; intros t; cbn [samples_in]; [tauto|].
  destruct (_ && _)%bool; intros I; [destruct I as [->|I]; [now left|]|]; right; eauto.
Qed.

Lemma slice_ex_spec e w s : slice_ex e w = Ok s ->
  estart s = Z.max (fst w) (estart e) /\ edelta s = edelta e /\ forall x, In x (edata s) -> In x (edata e).
Proof.
  unfold slice_ex. destruct (samples_in _ _ _ _) as [|x d] eqn:E; [discriminate|].
  intros [= <-]. cbn. split; [reflexivity|]. split; [reflexivity|].
  intros y I. apply (samples_in_incl (estart e) (edelta e) w). now rewrite E.
Qed.

Lemma inside_ex : exists e',
  onset_adjusted opts_inside peak_ex e' /\ o_adjust_maximum opts_inside = true /\
  (forall w s, o_slice opts_inside peak_ex w = Ok s ->
     estart s = fst w /\ edelta s = edelta peak_ex) /\
  (forall w s x, o_slice opts_inside peak_ex w = Ok s -> In x (edata s) -> x <> FNan) /\
  esonset e' = sec.
Proof.
  exists (set_sonset peak_ex sec). split.
  - exists (0, 4)%Z, (0, 4 * sec)%Z. eexists _, 1%nat. split; [reflexivity|].
    split; [reflexivity|]. split; [reflexivity|]. split; [exact peak_at|reflexivity].
  - split; [reflexivity|]. split; [|split; [|reflexivity]].
    + intros w s H. cbn [o_slice opts_inside] in H. destruct (Z.leb (estart peak_ex) (fst w)) eqn:L; [|discriminate].
      apply Z.leb_le in L. destruct (slice_ex_spec _ _ _ H) as (E & D & _). split; [|exact D].
      rewrite E. now apply Z.max_l.
    + intros w s x H I. cbn [o_slice opts_inside] in H. destruct (Z.leb (estart peak_ex) (fst w)) eqn:L; [|discriminate].
      destruct (slice_ex_spec _ _ _ H) as (_ & _ & J). specialize (J x I). cbn in J.
      destruct J as [<-|[<-|[<-|[]]]]; discriminate.
Qed.

(** data that start 0.4 s after the start of the window *)
Definition shifted_ex (e : etrace) : etrace :=
  {| uid := uid e; evid := evid e; sta := sta e; edata := edata e;
     estart := 400000000; esr := esr e; edelta := edelta e;
     eotime := eotime e; esonset := esonset e; edist := edist e; enoise := enoise e |}.

Lemma times_ex : exists s t,
  usable (opts_ex false false) (shifted_ex peak_ex) (0, 1800000000)%Z s /\
  times_ok (shifted_ex peak_ex) 3 (0, 1800000000)%Z (List.length (edata s)) t /\
  edelta s = edelta peak_ex /\ esr peak_ex * (IZR (edelta peak_ex) / 1000000000) = 1 /\
  (2 * (0 - estart s) <= edelta peak_ex)%Z /\ (1 < List.length (edata s))%nat /\
  nth 1 t 0 - (IZR (estart s + 1 * edelta s - esonset peak_ex) / 1000000000 + edist peak_ex / 3)
  = - (4 / 10).
Proof.
  eexists. exists (sample_times 2 (shifted_ex peak_ex) 3 0). split.
  - split; [reflexivity|]. cbn. split; reflexivity.
  - split; [exact (sample_times_ok (shifted_ex peak_ex) 3 (0, 1800000000)%Z 2)|].
    split; [reflexivity|].
    split; [change (edelta peak_ex) with 1000000000%Z; change (esr peak_ex) with 1; lra|].
    split; [discriminate|]. split; [repeat constructor|].
    unfold sample_times. cbn [seq map nth].
    change (esr (shifted_ex peak_ex)) with 1. change (edist (shifted_ex peak_ex)) with 12.
    change (edist peak_ex) with 12. change (edelta peak_ex) with 1000000000%Z.
    change (esonset (shifted_ex peak_ex)) with 0%Z. change (esonset peak_ex) with 0%Z.
    cbn [INR estart edelta]. unfold secs. cbn [fst].
    match goal with |- context [IZR (?a + ?b - ?c)] =>
      change (a + b - c)%Z with 1400000000%Z end.
    change (0 - 0)%Z with 0%Z. lra.
Qed.

(** two streams, one above the Nyquist frequency *)
Definition streams_ex : list (stream nat) :=
  [ {| s_uid := 1; s_evid := "ev"; s_sta := "A"; s_sr := 100; s_data := 0%nat |};
    {| s_uid := 2; s_evid := "ev"; s_sta := "B"; s_sr := 10; s_data := 0%nat |} ].

Lemma energies_ex :
  stream_energies 4 8 None (fun s _ => Ok (s_data s)) (fun _ _ => Ok 4) (FsTwo 4 1) ["A"]
    (fun s _ df fs => Ok (set_noise (trace_ex (s_uid s) (s_sta s) 10) (FNum (df + fs)))) streams_ex
  = Ok [set_noise (trace_ex 1 "A" 10) (FNum (4 + 1))].
Proof.
  cbn [stream_energies streams_ex]. unfold stream_energy. cbn [s_sr s_sta s_data s_uid bind].
  assert (rltb 100 (4 + 8) = false) as -> by (apply rltb_false; lra).
  assert (rltb 10 (4 + 8) = true) as -> by (apply rltb_true; lra).
  reflexivity.
Qed.

(** 12 km in 6 s *)
Lemma select_ex : exists st, select_data (opts_ex false false) None es_ex = Ok (Some (st, 2)).
Proof.
  assert (NL : exists es', noise_loop (opts_ex false false) es_ex = Ok es' /\
    exists n, es' = map (fun e => set_noise e n) es_ex).
  { cbv -[rltb secs fmean balanced_time INR Rdiv Rplus Rmult IZR subtract_noise].
    eexists. split; [reflexivity|]. eexists. reflexivity. }
  destruct NL as (es' & NL & n & E). unfold select_data. rewrite NL. cbn [bind].
  assert (MV : mean_velocity None es' = Some 2).
  { subst es'. unfold mean_velocity. cbn [map es_ex List.length fold_right].
    change (edist (set_noise (trace_ex 1 "A" 10) n)) with 12.
    change (edist (set_noise (trace_ex 2 "B" 6) n)) with 12.
    change (edist (set_noise (trace_ex 3 "C" 10) n)) with 12.
    f_equal. unfold secs.
    repeat match goal with |- context [IZR (?a - ?b)] => change (a - b)%Z with 6000000000%Z end.
    cbn [INR]. field. }
  rewrite MV.
  assert (R1 : rltb (secs (4 * sec - 2 * sec)) 1 = false).
  { apply rltb_false. unfold secs. change (4 * sec - 2 * sec)%Z with 2000000000%Z. lra. }
  cbv -[rltb secs fmean balanced_time INR Rdiv Rplus Rmult IZR] in R1.
  subst es'. cbv -[rltb secs fmean balanced_time INR Rdiv Rplus Rmult IZR].
  rewrite R1. eexists. reflexivity.
Qed.
