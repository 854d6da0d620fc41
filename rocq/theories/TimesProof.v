(** Lemmas about time expressions. *)
From Coq Require Import String Ascii List Bool Arith ZArith QArith Qabs Lia Lqa.
From Verif Require Import Base PyStr TimesModel TimesSpec.
Import ListNotations.
Open Scope string_scope.
Open Scope list_scope.

Lemma qround_near q : is_time (qround q) q.
Proof.
  unfold is_time. apply Qabs_Qle_condition. destruct q as [n d]. unfold qround. cbn [Qnum Qden].
  assert (D := Z.div_mod n (Zpos d) ltac:(lia)).
  assert (M := Z.mod_pos_bound n (Zpos d) ltac:(lia)).
  set (f := (n / Zpos d)%Z) in *. set (r := (n mod Zpos d)%Z) in *.
  set (dd := Zpos d) in *.
  assert (G : forall z, (- dd <= 2 * (z * dd - n) <= dd)%Z ->
              (- (1 # 2) <= inject_Z z - (n # d) <= 1 # 2)%Q).
  { intros z H. unfold Qle, Qminus, Qplus, Qopp, inject_Z. cbn [Qnum Qden].
    rewrite ?Pos.mul_1_l, ?Pos.mul_1_r. fold dd. lia. }
  destruct (Z.ltb (2 * r) dd) eqn:A.
  - apply Z.ltb_lt in A. apply G. lia.
  - apply Z.ltb_ge in A. destruct (Z.ltb dd (2 * r)) eqn:B.
    + apply Z.ltb_lt in B. apply G. lia.
    + apply Z.ltb_ge in B. destruct (Z.even f); apply G; lia.
Qed.

Lemma is_time_shift t r x : is_time r x -> is_time (t + r) (inject_Z t + x).
Proof.
  unfold is_time. intros H. rewrite inject_Z_plus.
  setoid_replace (inject_Z t + inject_Z r - (inject_Z t + x))%Q with (inject_Z r - x)%Q by ring.
  exact H.
Qed.

Lemma is_time_eq t x y : (x == y)%Q -> is_time t x -> is_time t y.
Proof. unfold is_time. intros E. now rewrite E. Qed.

Lemma add_s_ok t x : is_time (add_s t x) (inject_Z t + x * inject_Z 1000000000).
Proof. unfold add_s. apply is_time_shift. apply qround_near. Qed.

(** texts with different last characters *)
Lemma ends_with_last p q a b : a <> b -> ends_with (p ++ String a "") (q ++ String b "") = false.
Proof.
  intros N. destruct (ends_with _ _) eqn:E; auto.
  apply ends_with_spec in E. destruct E as (r & E). rewrite <- app_assoc_s in E.
  apply app_inj_tail_s in E; [|reflexivity]. destruct E as [_ E]. congruence.
Qed.

Lemma ends_with_same suf suf' q :
  String.length suf = String.length suf' -> ends_with suf (q ++ suf') = String.eqb suf suf'.
Proof.
  intros L. destruct (ends_with suf (q ++ suf')) eqn:E.
  - apply ends_with_spec in E. destruct E as (r & E).
    apply app_inj_tail_s in E; [|now symmetry]. destruct E as [_ ->]. symmetry. apply String.eqb_refl.
  - symmetry. apply String.eqb_neq. intros ->. rewrite ends_with_app in E. discriminate.
Qed.

Lemma prefix_app p s : String.prefix p (p ++ s) = true.
Proof. apply prefix_spec. now exists s. Qed.

Lemma prefix_first a b p s : a <> b -> String.prefix (String a p) (String b s) = false.
Proof.
  intros N. destruct (String.prefix _ _) eqn:E; auto. apply prefix_spec in E.
  destruct E as (r & E). injection E as E _. congruence.
Qed.

Section T.
  Variable pyfloat : string -> option Q.
  Notation time2utc := (time2utc pyfloat).
  Notation plain_time := (plain_time pyfloat).

  Lemma not_snr_plain text tr start :
    ends_with "snr" (py_lower text) = false ->
    time2utc text tr start = plain_time (py_lower text) tr.
  Proof. intros E. unfold TimesModel.time2utc. now rewrite E. Qed.

  Lemma ends_s b : ends_with "snr" (b ++ "s") = false /\ ends_with "stt" (b ++ "s") = false
                   /\ ends_with "ptt" (b ++ "s") = false /\ ends_with "s" (b ++ "s") = true.
  Proof.
    repeat split.
    - apply (ends_with_last "sn" b "r" "s"). discriminate.
    - apply (ends_with_last "st" b "t" "s"). discriminate.
    - apply (ends_with_last "pt" b "t" "s"). discriminate.
    - apply ends_with_app.
  Qed.

  Lemma plain_onset_form pre b tr x :
    pre = "s" \/ pre = "p" \/ pre = "ot" ->
    pyfloat b = Some x ->
    plain_time (pre ++ b ++ "s") tr =
      Ok (add_s (if String.eqb pre "p" then ponset tr
                 else if String.eqb pre "s" then sonset tr else origintime tr) x).
  Proof.
    intros P F. unfold TimesModel.plain_time.
    destruct (ends_s (pre ++ b)) as (_ & E2 & E3 & E4). rewrite app_assoc_s in E2, E3, E4.
    rewrite E2, E3, E4. cbn [orb]. rewrite andb_true_r.
    assert (DL : drop_last 1 (pre ++ b ++ "s") = (pre ++ b)%string).
    { rewrite <- app_assoc_s. apply (drop_last_app (pre ++ b) "s"). }
    rewrite DL.
    assert (PS : String.prefix "s" (pre ++ b ++ "s") = String.eqb pre "s").
    { destruct P as [->|[->| ->]]; [apply prefix_app|now apply prefix_first|now apply prefix_first]. }
    assert (PP : String.prefix "p" (pre ++ b ++ "s") = String.eqb pre "p").
    { destruct P as [->|[->| ->]]; [now apply prefix_first|apply prefix_app|now apply prefix_first]. }
    assert (PO : String.prefix "ot" (pre ++ b ++ "s") = String.eqb pre "ot").
    { destruct P as [->|[->| ->]]; [now apply prefix_first|now apply prefix_first|apply prefix_app]. }
    rewrite PS, PP, PO. unfold to_float.
    destruct P as [->|[->| ->]];
      change (drop 2 ("ot" ++ b)) with b || change (drop 1 ("s" ++ b)) with b || change (drop 1 ("p" ++ b)) with b;
      cbn [String.eqb Ascii.eqb Bool.eqb orb]; cbv iota beta.
    all: cbn [drop append]; rewrite F; reflexivity.
  Qed.

  (** C42: seconds after an onset or the origin *)
  Lemma seconds_form text pre b tr start x :
    pre = "s" \/ pre = "p" \/ pre = "ot" ->
    py_lower text = (pre ++ b ++ "s")%string -> pyfloat b = Some x ->
    exists t, time2utc text tr start = Ok t /\
      is_time t (inject_Z (if String.eqb pre "p" then ponset tr
                           else if String.eqb pre "s" then sonset tr else origintime tr)
                 + x * inject_Z 1000000000).
  Proof.
    intros P E F. eexists. split.
    - rewrite not_snr_plain; [rewrite E; exact (plain_onset_form pre b tr x P F)|].
      rewrite E, <- app_assoc_s. apply ends_s.
    - apply add_s_ok.
  Qed.

  (** C42: travel times *)
  Lemma travel_form text suf b tr start x :
    suf = "stt" \/ suf = "ptt" ->
    py_lower text = (b ++ suf)%string -> pyfloat b = Some x ->
    exists t, time2utc text tr start = Ok t /\
      is_time t (inject_Z (origintime tr)
                 + x * inject_Z ((if String.eqb suf "ptt" then ponset tr else sonset tr)
                                 - origintime tr)).
  Proof.
    intros P E F.
    assert (L : String.length suf = 3%nat) by (destruct P as [-> | ->]; reflexivity).
    assert (NS : ends_with "snr" (b ++ suf) = false).
    { rewrite ends_with_same by (now rewrite L). destruct P as [-> | ->]; reflexivity. }
    assert (TT : ends_with "stt" (b ++ suf) || ends_with "ptt" (b ++ suf) = true).
    { rewrite !ends_with_same by (now rewrite L). destruct P as [-> | ->]; reflexivity. }
    assert (DL : drop_last 3 (b ++ suf) = b).
    { rewrite <- L. apply drop_last_app. }
    assert (C3 : substring (String.length (b ++ suf) - 3) 1 (b ++ suf) = substring 0 1 suf).
    { rewrite length_app_s, L. replace (String.length b + 3 - 3)%nat with (String.length b) by lia.
      apply substring_app_r. }
    eexists. split.
    - rewrite not_snr_plain by (now rewrite E). rewrite E. unfold TimesModel.plain_time.
      rewrite TT, DL, C3. unfold to_float. rewrite F. cbn [bind]. reflexivity.
    - eapply is_time_eq; [|apply add_s_ok].
      assert (R : (if String.eqb (substring 0 1 suf) "p" then ponset tr else sonset tr)
                  = (if String.eqb suf "ptt" then ponset tr else sonset tr)).
      { destruct P as [-> | ->]; reflexivity. }
      rewrite R. field.
  Qed.

  (** C42: all other texts *)
  Lemma other_texts text tr start :
    pyfloat "" = None ->
    ends_with "snr" (py_lower text) = false ->
    (exists t, time2utc text tr start = Ok t) ->
    exists pre b suf x,
      py_lower text = (pre ++ b ++ suf)%string /\ pyfloat b = Some x /\
      ((pre = "" /\ (suf = "stt" \/ suf = "ptt")) \/
       ((pre = "s" \/ pre = "p" \/ pre = "ot") /\ suf = "s")).
  Proof.
    intros F0 NS (t & E). rewrite not_snr_plain in E by auto.
    set (u := py_lower text) in *. clearbody u. clear text NS.
    unfold TimesModel.plain_time in E.
    destruct (ends_with "stt" u || ends_with "ptt" u) eqn:TT.
    - assert (S : exists suf q, (suf = "stt" \/ suf = "ptt") /\ u = (q ++ suf)%string).
      { apply orb_true_iff in TT. destruct TT as [T|T]; apply ends_with_spec in T;
          destruct T as (q & ->); eauto 6. }
      destruct S as (suf & q & S & ->).
      assert (L : String.length suf = 3%nat) by (destruct S as [-> | ->]; reflexivity).
      assert (DL : drop_last 3 (q ++ suf) = q) by (rewrite <- L; apply drop_last_app).
      rewrite DL in E. unfold to_float in E.
      destruct (pyfloat q) as [x|] eqn:F; [|discriminate].
      exists "", q, suf, x. auto.
    - destruct ((String.prefix "s" u || String.prefix "p" u || String.prefix "ot" u)
                && ends_with "s" u) eqn:C; [|discriminate].
      apply andb_true_iff in C. destruct C as [C1 C2].
      apply ends_with_spec in C2. destruct C2 as (q & ->).
      assert (DL : drop_last 1 (q ++ "s") = q) by apply (drop_last_app q "s").
      rewrite DL in E.
      destruct q as [|a q].
      + (* the text is just "s" *)
        cbn [append] in E. rewrite (prefix_first "o" "s" "t" "") in E by discriminate.
        unfold to_float in E. cbn [drop] in E. rewrite F0 in E. discriminate.
      + assert (PRE : exists pre r, (pre = "s" \/ pre = "p" \/ pre = "ot") /\
                  (String a q ++ "s" = pre ++ r)%string).
        { rewrite !orb_true_iff in C1. destruct C1 as [[H|H]|H]; apply prefix_spec in H;
            destruct H as (r & H); eauto 6. }
        destruct PRE as (pre & r & P & Q).
        assert (PO : String.prefix "ot" (String a q ++ "s") = String.eqb pre "ot").
        { rewrite Q. destruct P as [->|[->| ->]];
            [now apply prefix_first|now apply prefix_first|apply prefix_app]. }
        rewrite PO in E.
        destruct P as [->|[->| ->]]; cbn [String.eqb Ascii.eqb Bool.eqb] in E; cbv iota in E.
        * cbn in Q. injection Q as -> Q. cbn [drop] in E. unfold to_float in E.
          destruct (pyfloat q) as [x|] eqn:F; [|discriminate].
          exists "s", q, "s", x. split; [reflexivity|]. split; [exact F|]. right. auto.
        * cbn in Q. injection Q as -> Q. cbn [drop] in E. unfold to_float in E.
          destruct (pyfloat q) as [x|] eqn:F; [|discriminate].
          exists "p", q, "s", x. split; [reflexivity|]. split; [exact F|]. right. auto.
        * cbn in Q. injection Q as -> Q.
          destruct q as [|c q]; [discriminate|]. cbn in Q. injection Q as -> Q.
          cbn [drop] in E. unfold to_float in E.
          destruct (pyfloat q) as [x|] eqn:F; [|discriminate].
          exists "ot", q, "s", x. split; [reflexivity|]. split; [exact F|]. right. auto.
  Qed.

  Lemma plain_raise text tr start e :
    ends_with "snr" (py_lower text) = false ->
    time2utc text tr start = Err e -> e = ValueError.
  Proof.
    intros NS E. rewrite not_snr_plain in E by auto.
    unfold TimesModel.plain_time, to_float in E.
    repeat match type of E with
    | context [match ?x with _ => _ end] => destruct x; try discriminate E
    | _ => progress cbn [bind] in E
    end; congruence.
  Qed.

  Lemma case_free text text' tr start :
    py_lower text = py_lower text' -> time2utc text tr start = time2utc text' tr start.
  Proof. intros E. unfold TimesModel.time2utc. now rewrite E. Qed.
End T.
