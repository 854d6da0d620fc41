(** Specification of synthetic energy traces. *)
From Coq Require Import String List Bool Reals ZArith.
From Verif Require Import Base Pyf PyfOps FbModel FbSpec LsqfbModel LsqfbSpec InvModel ChainModel ChainSpec.
Import ListNotations.
Open Scope string_scope.
Open Scope list_scope.
Open Scope R_scope.

(** the time of sample k after the origin, counted from the S onset at distance / v *)
Definition lapse (e : etrace) (v : R) (k : nat) : R :=
  IZR (estart e + Z.of_nat k * edelta e - esonset e) / 1000000000 + edist e / v.

(** every sample of the trace after the S onset is source * site * G(distance, t) * exp(-b t)
    plus the constant noise n, t being its lapse time; n is 0 or the first part is at least
    one hundredth of it *)
Definition synthetic_trace (G : R -> R -> R) (site source : string -> R) (b v n : R) (e : etrace) : Prop :=
  esr e * (IZR (edelta e) / 1000000000) = 1 /\ (0 < edelta e)%Z /\
  forall k x, nth_error (edata e) k = Some x -> (esonset e < estart e + Z.of_nat k * edelta e)%Z ->
    exists y, y = source (evid e) * site (sta e) * G (edist e) (lapse e v k) * exp (- (b * lapse e v k)) /\
      0 < G (edist e) (lapse e v k) /\ x = FNum (y + n) /\ n / 100 <= y.

(** the noise windows of the trace contain nothing but the noise n *)
Definition only_noise {W} (o : fbopts W) (n : R) (e : etrace) : Prop :=
  forall nws nw w s x, o_noise_windows o = Some nws -> In nw nws -> o_tw2utc o nw e = Ok w -> o_slice o e w = Ok s ->
    In x (edata s) -> x = FNum n.

(** the noise is removed, or else there is none *)
Definition noise_handled {W} (o : fbopts W) (n : R) (e : etrace) : Prop :=
  if o_remove_noise o then
    only_noise o n e /\ (forall l, l <> [] -> (forall x, In x l -> x = FNum n) -> o_noise_func o l = Ok (FNum n))
  else n = 0.

(** traces with the same header *)
Definition same_header (e e' : etrace) : Prop :=
  uid e' = uid e /\ evid e' = evid e /\ sta e' = sta e /\ estart e' = estart e /\ esr e' = esr e /\ edelta e' = edelta e /\
  eotime e' = eotime e /\ esonset e' = esonset e /\ edist e' = edist e.

(** the part of a trace in a window that starts at sample k consists of the samples from
    there on *)
Definition proper_slice (slice : etrace -> Z * Z -> res etrace) : Prop :=
  forall e w s k, (0 < edelta e)%Z -> slice e w = Ok s -> fst w = (estart e + Z.of_nat k * edelta e)%Z ->
    forall i, (i < List.length (edata s))%nat -> nth_error (edata s) i = nth_error (edata e) (k + i).

(** No bulk window, smoothing or adjustment of the onset; coda windows have a length and
    start at a sample behind the onset, whatever the data are. *)
Definition plain {W} (o : fbopts W) (es : etrace -> Prop) : Prop :=
  o_bulk_window o = None /\ o_smooth o = None /\ o_adjust_maximum o = false /\
  0 < o_skip_coda o /\ proper_slice (o_slice o) /\
  forall e e' cw, es e -> same_header e e' -> o_tw2utc o (o_coda_window o) e' = Ok cw ->
    exists k, fst cw = (estart e + Z.of_nat k * edelta e)%Z /\ (esonset e < fst cw)%Z.

(** the energy e is observed in a band for one of the streams whose Nyquist frequency is not
    below the centre of the band *)
Definition observed_in {W S} (env : cenv W S) (streams : list (stream S)) (band : R * R) (e : etrace) : Prop :=
  exists s, In s streams /\ (fst band + snd band) / 2 <= s_sr s / 2 /\
    energy_of (fst band) (snd band) (ce_filtered env) (ce_width env) (ce_free_surface env) (ce_borehole env)
      (ce_observed env) s (Ok e).

(** each pair of event and station has one stream, whose energy carries their names *)
Definition own_pairs {W S} (env : cenv W S) (streams : list (stream S)) : Prop :=
  NoDup (map (fun s => (s_evid s, s_sta s)) streams) /\
  forall s d df fs e, In s streams -> ce_observed env s d df fs = Ok e -> evid e = s_evid s /\ sta e = s_sta s.

(** the Green's function in use is evaluated at each time of the coda *)
Definition pointwise {W S} (env : cenv W S) (v : R) (g0 : pyf) (G : R -> R -> R) : Prop :=
  forall r t gs, (forall x, In x t -> r / v < x) -> ce_gcoda env v r t g0 = Ok gs -> gs = map (fun x => FNum (G r x)) t.

(** The observed energies of all streams are synthetic, with noise n for each band and pair. *)
Definition synthetic_energies {W S} (env : cenv W S) (freq_bands : list (R * (R * R))) (streams : list (stream S))
    (v : R) (G : R -> R -> R -> R) (site source : R -> string -> R) (b : R -> R) (n : R -> string * string -> R) : Prop :=
  forall f band e, In (f, band) freq_bands -> observed_in env streams band e ->
    0 < site f (sta e) /\ 0 < source f (evid e) /\
    synthetic_trace (G f) (site f) (source f) (b f) v (n f (evid e, sta e)) e /\
    noise_handled (ce_select env) (n f (evid e, sta e)) e.
