(** Model of the names of the files of the plots of a frequency band, /repo/qopen/core.py:961-1018, and
    of _savefig, /repo/qopen/imaging.py:82-93. *)
From Coq Require Import String Ascii List Bool Reals Lra ZArith DecimalString.
From Verif Require Import Base.
Import ListNotations.
Open Scope string_scope.
Open Scope list_scope.

(** ** Numbers *)

(** The integer next to a number, the even one of two *)
Definition round_even (x : R) : Z :=
  let n := Int_part x in
  if Rlt_dec (x - IZR n) (1 / 2) then n
  else if Rlt_dec (1 / 2) (x - IZR n) then (n + 1)%Z
  else if Z.even n then n else (n + 1)%Z.

(** Digits of a natural number, two or more *)
Definition digits (n : nat) : string := NilEmpty.string_of_uint (Nat.to_uint n).
Definition digits2 (n : nat) : string := let s := digits n in if Nat.ltb (String.length s) 2 then ("0" ++ s)%string else s.

(** [format(x, '.2f')] and [format(x, '05.2f')], core.py:964, 977, 981, 990.  Simplification: the sign is
    left out, frequencies are positive. *)
Definition hundredths (x : R) : nat := Z.to_nat (round_even (100 * Rabs x)).
Definition fixed2 (x : R) : string :=
  (digits (hundredths x / 100) ++ "." ++ digits2 (hundredths x mod 100))%string.
Definition fixed05 (x : R) : string :=
  (digits2 (hundredths x / 100) ++ "." ++ digits2 (hundredths x mod 100))%string.

(** ** Names *)

(** Parts of a format string: text, '{evid}', '{f1:05.2f}' and '{f2:05.2f}'.  Simplification: no other
    formats. *)
Inductive fpart := FText (s : string) | FEvent | FFirst | FSecond.

(** [fname.format(evid=evid, f1=freq_band[0], f2=freq_band[1])], core.py:981 *)
Definition format_name (parts : list fpart) (evid : string) (band : R * R) : string :=
  String.concat "" (map (fun p => match p with
                                  | FText s => s
                                  | FEvent => evid
                                  | FFirst => fixed05 (fst band)
                                  | FSecond => fixed05 (snd band)
                                  end) parts).

(** [s.replace('__', '_')], core.py:983 *)
Fixpoint single_underscores (s : string) : string :=
  match s with
  | String a (String b r as s') =>
      if (Ascii.eqb a "_" && Ascii.eqb b "_")%bool then String "_" (single_underscores r)
      else String a (single_underscores s')
  | _ => s
  end.

(** fname_and_title, core.py:976-984; [eventids] are the events of the inversion, [first] the event of the
    first energy *)
Definition fname_and_title (eventids : list string) (first : string) (band : R * R) (fname : list fpart)
    : string * string :=
  let one := Nat.eqb (List.length eventids) 1 in
  let title := ("filter: (" ++ fixed2 (fst band) ++ "Hz, " ++ fixed2 (snd band) ++ "Hz)")%string in
  let evid := if one then first else "" in
  let name := format_name fname evid band in
  (if one then name else single_underscores name, title).

(** The plots of a band, core.py:987-1016 *)
Inductive bplot := Energies | Optimization | Fits.

(** The default names, core.py:990, 1000-1002, 1009-1010 *)
Definition default_fname (p : bplot) : list fpart :=
  [FText (match p with Energies => "energies_" | Optimization => "optimization_" | Fits => "fits_" end);
   FEvent; FText "_"; FFirst; FText "Hz-"; FSecond; FText "Hz.png"].

(** The name of a dump, core.py:963-966, 969: [dump_optpkl % l] with the text before and after '%s' *)
Definition dump_name (before after first : string) (band : R * R) : string :=
  (before ++ (first ++ "_" ++ fixed05 (fst band) ++ "Hz-" ++ fixed05 (snd band) ++ "Hz") ++ after)%string.

(** ** Figures *)

(** [p.rfind('/')]: text before the last '/', if there is one *)
Fixpoint before_slash (p : string) : option string :=
  match p with
  | EmptyString => None
  | String a r => match before_slash r with
                  | Some d => Some (String a d)
                  | None => if Ascii.eqb a "/" then Some "" else None
                  end
  end.

(** [head.rstrip('/')] *)
Fixpoint strip_slashes (p : string) : string :=
  match p with
  | EmptyString => ""
  | String a r => match strip_slashes r with
                  | EmptyString => if Ascii.eqb a "/" then "" else String a ""
                  | r' => String a r'
                  end
  end.

(** [os.path.dirname(fname)] of Unix, imaging.py:87: the text up to the last '/', without '/' at the end
    unless there is nothing else *)
Definition dirname (p : string) : string :=
  match before_slash p with
  | None => ""
  | Some d => let head := (d ++ "/")%string in
              match strip_slashes head with EmptyString => head | h => h end
  end.

(** What happens to a figure: size in inches, title, directory created, file saved, closed *)
Inductive action := Size (w h : R) | Title (s : string) | Makedirs (d : string) | Save (f : string) (dpi : option R) | Close.

(** _savefig, imaging.py:82-93 *)
Definition savefig (title fname : option string) (dpi : option R) (figsize : option (R * R)) : list action :=
  (match figsize with Some (w, h) => [Size w h] | None => [] end)
  ++ (match title with Some (String a r) => [Title (String a r)] | _ => [] end)
  ++ match fname with
     | Some (String a r) =>
         let f := String a r in
         let path := dirname f in
         (if String.eqb path "" then [] else [Makedirs path]) ++ [Save f dpi; Close]
     | _ => []
     end.

(** ** Plots of a band *)

(** The options of a plot: name of the file and what drawing the figure does (an exception or None) *)
Record band_plot := { bp_fname : option (list fpart); bp_draws : option exn }.

(** core.py:987-1018: the files of the plots that are wanted, in order; after an exception there are no
    further ones.  Simplification: the names are those given to the figures, whose directories can be
    created. *)
Fixpoint draw_plots (eventids : list string) (first : string) (band : R * R) (wanted : list (bplot * band_plot))
    : list string :=
  match wanted with
  | [] => []
  | (p, o) :: wanted =>
      let f := match bp_fname o with Some f => f | None => default_fname p end in
      let name := fst (fname_and_title eventids first band f) in
      match bp_draws o with
      | Some _ => []
      | None => name :: draw_plots eventids first band wanted
      end
  end.

(** core.py:987, 997, 1006: None: the plot is not configured; [nenergies]: number of energies, [fixed]:
    g0 and b are given, [optimized]: g0 is optimized *)
Definition band_plots (eventids : list string) (first : string) (band : R * R) (nenergies : nat)
    (fixed optimized : bool) (energies optimization fits : option band_plot) : list string :=
  draw_plots eventids first band
    ((match energies with Some o => if Nat.ltb 0 nenergies then [(Energies, o)] else [] | None => [] end)
     ++ (match optimization with Some o => if (negb fixed && optimized)%bool then [(Optimization, o)] else [] | None => [] end)
     ++ (match fits with Some o => [(Fits, o)] | None => [] end)).
