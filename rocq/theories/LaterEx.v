(** Concrete cases for C147. *)
From Coq Require Import String List ZArith QArith.
From Verif Require Import Base TimesModel TimesEx LaterSpec.
Import ListNotations.
Open Scope string_scope.

Definition later_window : wval * wval := (One "2Ptt", Many ["2Stt"; "2SNR"]).

Lemma later_window_ok : tw2utc float_ex later_window trace_ex = Ok (20, 20)%Z /\
  tw2utc float_ex later_window (later 100 trace_ex) = Ok (120, 120)%Z /\
  tw2utc float_ex later_window (louder (1 # 3) trace_ex) = Ok (20, 20)%Z.
Proof. repeat split; reflexivity. Qed.

Lemma later_minimum_ok : get_local_minimum trace_ex None 4 = Ok (Some 20%Z) /\
  get_local_minimum (later 100 trace_ex) None 4 = Ok (Some 120%Z).
Proof. split; reflexivity. Qed.

Lemma later_scaled_ok : 0 < 1 # 3 /\
  get_local_minimum trace_ex (Some (Ok [9; 5; 1; 5; 2; 7])) 4 = Ok (Some 20%Z).
Proof. split; reflexivity. Qed.

Lemma later_check_ok : check_times 0 50 (10, 60)%Z 5 = Some (10, -10)%Z /\ check_times 0 50 (10, 40)%Z 5 = None.
Proof. split; reflexivity. Qed.
