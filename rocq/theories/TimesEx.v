(** Concrete cases for the theorems about times. *)
From Coq Require Import String Ascii List Bool ZArith QArith Lia Lqa.
From Verif Require Import Base PyStr TimesModel TimesSpec TimesProof TimesProof2.
Import ListNotations.
Open Scope string_scope.
Open Scope list_scope.

(** some numerals *)
Definition float_ex (s : string) : option Q :=
  if String.eqb s "2" then Some 2%Q
  else if String.eqb s "+1.5" then Some (3 # 2)
  else if String.eqb s "-10" then Some (-10 # 1)
  else None.

(** six samples, one every 10 ns *)
Definition trace_ex : trace :=
  {| t0 := 0; dt := 10; data := [9; 5; 0; 5; 1; 7]%Q;
     origintime := 0; ponset := 10; sonset := 20; noise_level := Some 1%Q |}.

(** C43: the sample nearest to the start counts although it is before it *)
Lemma snr_off_grid :
  exists pyfloat tr st x nl t,
    (0 < dt tr)%Z /\ (t0 tr <= st <= t0 tr + (Z.of_nat (List.length (data tr)) - 1) * dt tr)%Z /\
    pyfloat "2" = Some x /\ noise_level tr = Some nl /\
    time2utc pyfloat "2SNR" tr (Some st) = Ok t /\
    ~ exists i, t = (t0 tr + Z.of_nat i * dt tr)%Z.
Proof.
  exists float_ex, trace_ex, 24%Z, 2%Q, 1%Q, 24%Z.
  split; [reflexivity|]. split; [vm_compute; split; discriminate|].
  split; [reflexivity|]. split; [reflexivity|]. split; [reflexivity|].
  intros (i & H). cbn in H. lia.
Qed.

(** C43: with its own start the expression can be before the window *)
Lemma snr_before_window :
  exists pyfloat tr st t,
    (0 < dt tr)%Z /\
    time2utc pyfloat "OT-10s>2SNR" tr (Some st) = Ok t /\ (t < st)%Z.
Proof.
  exists float_ex, trace_ex, 30%Z, (-10000000000 + 20)%Z.
  repeat split; vm_compute; reflexivity.
Qed.

Lemma window_ex :
  tw2utc float_ex (Many ["P+1.5s"; "OT+1.5s"], Many ["2Stt"; "2SNR"]) trace_ex
  = Ok (1500000010, 40)%Z.
Proof. vm_compute. reflexivity. Qed.

(** minima at 2 and 4, maxima at 3 *)
Lemma minimum_ex :
  get_local_minimum trace_ex None 3 = Ok (Some 20%Z).
Proof. vm_compute. reflexivity. Qed.

Lemma nonneg_ex : Forall (fun x => 0 <= x)%Q (data trace_ex).
Proof. cbn [data trace_ex]. repeat (apply Forall_cons; [vm_compute; discriminate|]). apply Forall_nil. Qed.

Lemma minima_first_ex ma :
  local_max (data trace_ex) ma -> exists j, local_min (data trace_ex) j /\ (j < ma)%nat.
Proof.
  intros H. exists 2%nat. split.
  - apply argrelmin_in. vm_compute. auto.
  - apply argrelmax_in in H. vm_compute in H. destruct H as [<-|[]]. lia.
Qed.

(** C47: a maximum in front of all minima cuts the window at its first sample *)
Definition trace_ex2 : trace :=
  {| t0 := 0; dt := 10; data := [1; 9; 2; 8]%Q;
     origintime := 0; ponset := 0; sonset := 0; noise_level := None |}.

Lemma cut_at_start :
  exists tr ratio t,
    Forall (fun x => 0 <= x)%Q (data tr) /\
    get_local_minimum tr None ratio = Ok (Some t) /\
    ~ exists i, local_min (data tr) i /\ t = (t0 tr + Z.of_nat i * dt tr)%Z.
Proof.
  exists trace_ex2, 5%Q, 0%Z. split; [|split].
  - cbn [data trace_ex2]. repeat (apply Forall_cons; [vm_compute; discriminate|]). apply Forall_nil.
  - vm_compute. reflexivity.
  - intros (i & (A & _) & E). cbn [t0 dt trace_ex2] in E. lia.
Qed.
