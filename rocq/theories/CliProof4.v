(** Lemmas about the values of a command line and the call of run. *)
From Coq Require Import String Ascii List Bool ZArith Arith Lia.
From Verif Require Import Base PyStr RunModel CliModel CliSpec CliProof CliProof2 CliProof3.
Import ListNotations.
Open Scope string_scope.
Open Scope list_scope.

Definition conflicts (a : action) (seen : list action) : bool :=
  match a_group a with
  | None => false
  | Some g => existsb (fun b => match a_group b with
                                | Some g2 => (String.eqb g g2 && negb (match a_kind a, a_kind b with
                                                                       | KTrue, KTrue | KFalse, KFalse => true
                                                                       | _, _ => false end))%bool
                                | None => false end) seen
  end.

Section Known.
  Context {cmd : string} {acts : list action} {table : list (string * (string * sort))}.
  Variable K : known cmd acts table.
  Variable loads : string -> option json.
  Variable int_of : string -> option Z.
  Notation fits := (@fits acts).
  Notation used := (used table).
  Notation values := (values table cmd loads int_of).

  Lemma pair_known a b : In a acts -> In b acts -> pair_ok a b = true.
  Proof.
    intros A B. pose proof (kn_ok _ _ _ K) as T. unfold table_ok in T. rewrite !andb_true_iff in T. destruct T as (((_ & T) & _) & _).
    pose proof (proj1 (forallb_forall _ _) T _ A) as T2. exact (proj1 (forallb_forall _ _) T2 _ B).
  Qed.

  Lemma dest_not_cmd a : In a acts -> a_dest a <> "cmd".
  Proof.
    intros A. pose proof (kn_ok _ _ _ K) as T. unfold table_ok in T. rewrite !andb_true_iff in T. destruct T as (((_ & _) & T) & _).
    pose proof (proj1 (forallb_forall _ _) T _ A) as T2. cbv beta in T2. intros E. now rewrite E in T2.
  Qed.

  Lemma count_default a : In a acts -> a_kind a = KCount -> default cmd (a_dest a) = None.
  Proof.
    intros A C. pose proof (kn_ok _ _ _ K) as T. unfold table_ok in T. rewrite !andb_true_iff in T. destruct T as (_ & T).
    pose proof (proj1 (forallb_forall _ _) T _ A) as T2. cbv beta in T2. rewrite C in T2. unfold default.
    destruct (String.eqb_spec (a_dest a) "conf") as [E|]; [rewrite E in T2; discriminate|].
    destruct (String.eqb_spec (a_dest a) "pdb") as [E|]; [rewrite E in T2; discriminate|reflexivity].
  Qed.

  Lemma count_same a b : In a acts -> In b acts -> a_dest a = a_dest b -> a_kind a = KCount -> a_kind b = KCount.
  Proof.
    intros A B D C. pose proof (pair_known a b A B) as P. unfold pair_ok in P. apply andb_true_iff in P as [_ P].
    rewrite D, String.eqb_refl in P. cbn [negb orb] in P. rewrite C in P. destruct (a_kind b); try discriminate. reflexivity.
  Qed.

  Lemma conflict_opposite a seen : In a acts -> (forall b, In b seen -> In b acts) -> conflicts a seen = existsb (opposite a) seen.
  Proof.
    intros A S. unfold conflicts. induction seen as [|b seen IH]; [now destruct (a_group a)|].
    specialize (IH ltac:(intros c I; apply S; now right)). cbn [existsb].
    pose proof (pair_known a b A (S b ltac:(now left))) as P. unfold pair_ok in P. apply andb_true_iff in P as [P _].
    apply Bool.eqb_prop in P. rewrite P. unfold same_group. destruct (a_group a) as [g|].
    - rewrite <- IH. f_equal. now destruct (a_group b).
    - cbn [andb orb]. exact IH.
  Qed.

  Lemma used_fits u p : fits u p -> forall k s, used u k s <-> k = a_dest (fst p) /\ s = sort_of (a_kind (fst p)).
  Proof.
    destruct u as [f v]. intros (F & _ & _) k s. cbn [CliSpec.used]. rewrite (find_row K), F. cbn [option_map]. unfold row.
    split; [intros H; now injection H as <- <-|intros [-> ->]; reflexivity].
  Qed.

  Lemma fits_acts u p : fits u p -> In (fst p) acts.
  Proof. destruct u as [f v]. intros (F & _). now apply (find_acts K) in F. Qed.

  Lemma times_snoc k us u n : times table k (us ++ [u]) n ->
    (exists s m, used u k s /\ times table k us m /\ n = (m + 1)%Z) \/ (exists k2 s, used u k2 s /\ k2 <> k /\ times table k us n).
  Proof.
    revert n. induction us as [|x us IH]; intros n H; cbn [app] in H.
    - inversion H as [|x s us n1 U T|x k2 s us n1 U N T]; subst; inversion T; subst.
      + left. exists s, 0%Z. split; [exact U|]. split; [constructor|reflexivity].
      + right. exists k2, s. split; [exact U|]. split; [exact N|constructor].
    - inversion H as [|y s us1 n1 U T|y k2 s us1 n1 U N T]; subst.
      + destruct (IH _ T) as [(s2 & m & U2 & T2 & ->)|(k2 & s2 & U2 & N2 & T2)].
        * left. exists s2, (m + 1)%Z. split; [exact U2|]. split; [econstructor; eassumption|reflexivity].
        * right. exists k2, s2. split; [exact U2|]. split; [exact N2|econstructor; eassumption].
      + destruct (IH _ T) as [(s2 & m & U2 & T2 & ->)|(k3 & s2 & U2 & N2 & T2)].
        * left. exists s2, m. split; [exact U2|]. split; [eapply T_other; eassumption|reflexivity].
        * right. exists k3, s2. split; [exact U2|]. split; [exact N2|eapply T_other; eassumption].
  Qed.

  Lemma times_none k us n : times table k us n -> (forall u s, In u us -> ~ used u k s) -> n = 0%Z.
  Proof.
    induction 1 as [|u s us n U T IH|u k2 s us n U N T IH]; intros H; [reflexivity| |].
    - exfalso. apply (H u s); [now left|exact U].
    - apply IH. intros u2 s2 I. apply H. now right.
  Qed.

  (** what holds after the uses [us] *)
  Record after (us : list use) (st : parsed) : Prop := {
    af_values : values us (s_args st);
    af_usable : usable table loads int_of us;
    af_seen : forall b, In b (s_seen st) <-> exists u v, In u us /\ fits u (b, v);
    af_fits : forall u, In u us -> exists p, fits u p;
    af_distinct : NoDup (map fst (s_args st))
  }.

  Lemma value_fun u s x y : value_of loads int_of u s x -> value_of loads int_of u s y -> x = y.
  Proof.
    destruct u as [f [v|]], s; cbn [value_of]; try tauto; try congruence.
    intros (z & A & ->) (z2 & B & ->). congruence.
  Qed.

  (** the new value *)
  Definition new_value (st : parsed) (a : action) (v : option string) : option json :=
    match a_kind a, v with
    | KText, Some s => Some (JStr s)
    | KJson, Some s => loads s
    | KInt, Some s => option_map JNum (int_of s)
    | KTrue, _ => Some (JBool true)
    | KFalse, _ => Some (JBool false)
    | KCount, _ => Some (JNum (match dget String.eqb (s_args st) (a_dest a) with Some (JNum z) => z | _ => 0 end + 1)%Z)
    | _, _ => None
    end.

  Lemma take_action_spec st a v st1 :
    take_action loads int_of st a v = inr st1 <->
    conflicts a (s_seen st) = false /\ exists x, new_value st a v = Some x /\
      st1 = {| s_args := dset String.eqb (s_args st) (a_dest a) x; s_seen := a :: s_seen st; s_extra := s_extra st |}.
  Proof.
    unfold take_action. fold (conflicts a (s_seen st)). destruct (conflicts a (s_seen st)).
    { split; [discriminate|]. intros [H _]. discriminate. }
    unfold new_value. destruct (a_kind a), v as [v|]; cbn [option_map];
      try (split; [intros H; injection H as <-; split; [reflexivity|]; eexists; split; reflexivity
                  |intros (_ & x & E & ->); injection E as <-; reflexivity]);
      try (split; [discriminate|intros (_ & x & E & _); discriminate]).
    - destruct (loads v) as [j|].
      + split; [intros H; injection H as <-; split; [reflexivity|]; eexists; split; reflexivity
               |intros (_ & x & E & ->); injection E as <-; reflexivity].
      + split; [discriminate|intros (_ & x & E & _); discriminate].
    - destruct (int_of v) as [j|]; cbn [option_map].
      + split; [intros H; injection H as <-; split; [reflexivity|]; eexists; split; reflexivity
               |intros (_ & x & E & ->); injection E as <-; reflexivity].
      + split; [discriminate|intros (_ & x & E & _); discriminate].
  Qed.

  Lemma new_value_of st u a v x : fits u (a, v) -> a_kind a <> KCount ->
    (new_value st a v = Some x <-> value_of loads int_of u (sort_of (a_kind a)) x).
  Proof.
    destruct u as [f w]. intros (F & E & V) NC. cbn [fst snd] in *. subst w.
    unfold new_value. destruct (a_kind a) eqn:KK, v as [v|]; cbn [sort_of value_of valued] in *; try congruence;
      try (split; intros H; congruence); try (split; [discriminate|tauto]).
    - destruct (int_of v) as [z|]; cbn [option_map].
      + split; [intros H; injection H as <-; eauto|intros (z2 & H & ->); congruence].
      + split; [discriminate|intros (z2 & H & _); discriminate].
  Qed.

  Lemma opposite_sorts a b : opposite a b = true <->
    a_dest a = a_dest b /\ ((a_kind a = KTrue /\ a_kind b = KFalse) \/ (a_kind a = KFalse /\ a_kind b = KTrue)).
  Proof.
    unfold opposite. destruct (a_kind a), (a_kind b); (split; [intros H; try discriminate; apply String.eqb_eq in H; auto
      |intros [D [[A B]|[A B]]]; try discriminate; now apply String.eqb_eq]).
  Qed.

  Lemma after_step us st u a v st1 : after us st -> fits u (a, v) -> take_action loads int_of st a v = inr st1 -> after (us ++ [u]) st1.
  Proof.
    intros [V US SE FT ND] F H. apply take_action_spec in H as (NC & x & NV & ->).
    pose proof (fits_acts _ _ F) as IA. cbn [fst] in IA. pose proof (used_fits _ _ F) as UF. cbn [fst] in UF.
    destruct V as (V1 & V2 & V3 & V4).
    assert (UB : forall b, In b (s_seen st) -> In b acts).
    { intros b I. apply SE in I as (w & y & _ & FW). exact (fits_acts _ _ FW). }
    rewrite (conflict_opposite a _ IA UB) in NC.
    split; cbn [s_args s_seen].
    - split; [|split; [|split]].
      + rewrite (dget_dset_neq _ string_eqb_spec); [exact V1|]. intros E. exact (dest_not_cmd a IA (eq_sym E)) || exact (dest_not_cmd a IA E).
      + intros us1 u1 us2 k s y E U NCt LA VO. destruct (@exists_last _ (u1 :: us2) ltac:(discriminate)) as (l & z & EL).
        rewrite EL, app_assoc in E. apply app_inj_tail in E as [E ->].
        destruct us2 as [|u2 us2].
        * destruct l as [|? [|]]; cbn in EL; try discriminate. injection EL as ->.
          apply UF in U as [-> ->]. rewrite (dget_dset_eq _ string_eqb_spec). f_equal.
          assert (NK : a_kind a <> KCount) by (intros X; rewrite X in NCt; cbn in NCt; congruence).
          apply (new_value_of st z a v x F NK) in NV. exact (value_fun _ _ _ _ NV VO).
        * assert (exists us2', u2 :: us2 = us2' ++ [z] /\ l = u1 :: us2') as (us2' & E2 & ->).
          { destruct l as [|y0 l]; [discriminate|]. cbn in EL. injection EL as <- EL. eauto. }
          assert (NK : a_dest a <> k).
          { intros <-. apply (LA z (sort_of (a_kind a))); [rewrite E2; apply in_or_app; right; now left|]. apply UF. auto. }
          rewrite (dget_dset_neq _ string_eqb_spec) by (intros X; apply NK; congruence).
          apply (V2 us1 u1 us2' k s y E U NCt); [|exact VO]. intros u3 s3 I. apply LA. rewrite E2. apply in_or_app. now left.
      + intros u1 k n I U T. apply times_snoc in T as [(s & m & U2 & T & ->)|(k2 & s & U2 & N2 & T)].
        * pose proof U2 as U3. apply UF in U3 as [-> ->]. rewrite (dget_dset_eq _ string_eqb_spec).
          assert (CA : a_kind a = KCount).
          { apply in_app_or in I as [I|[<-|[]]].
            - destruct u1 as [f1 v1]. cbn [CliSpec.used] in U. apply (find_some K) in U as (b & Fb & Db & Sb).
              destruct (find_acts K _ _ Fb) as [Ib _]. apply (count_same b a Ib IA Db). destruct (a_kind b); try discriminate. reflexivity.
            - apply UF in U as [_ U]. destruct (a_kind a); try discriminate. reflexivity. }
          unfold new_value in NV. rewrite CA in NV. injection NV as <-. do 3 f_equal.
          (* the previous number *)
          assert (DEC : (exists u0 s0, In u0 us /\ used u0 (a_dest a) s0) \/ (forall u0 s0, In u0 us -> ~ used u0 (a_dest a) s0)).
          { clear. induction us as [|y us IH]; [right; intros ? ? []|]. destruct IH as [(u0 & s0 & I & U)|N].
            - left. exists u0, s0. split; [now right|exact U].
            - destruct y as [f0 v0]. destruct (dget String.eqb table f0) as [[k0 s0]|] eqn:D.
              + destruct (String.string_dec k0 (a_dest a)) as [->|NE].
                * left. exists (Use f0 v0), s0. split; [now left|exact D].
                * right. intros u1 s1 [<-|I]; [cbn [CliSpec.used]; rewrite D; intros X; injection X as X _; congruence|now apply N].
              + right. intros u1 s1 [<-|I]; [cbn [CliSpec.used]; rewrite D; discriminate|now apply N]. }
          destruct DEC as [(u0 & s0 & I0 & U0)|N0].
          -- assert (s0 = Count).
             { destruct u0 as [f0 v0]. cbn [CliSpec.used] in U0. apply (find_some K) in U0 as (b & Fb & Db & Sb).
               destruct (find_acts K _ _ Fb) as [Ib _]. rewrite (count_same a b IA Ib (eq_sym Db) CA) in Sb. now rewrite <- Sb. }
             subst s0. rewrite (V3 u0 _ m I0 U0 T). reflexivity.
          -- rewrite (V4 _ (dest_not_cmd a IA) N0), (count_default a IA CA). now rewrite (times_none _ _ _ T N0).
        * apply UF in U2 as [-> ->].
          rewrite (dget_dset_neq _ string_eqb_spec) by (intros X; apply N2; congruence).
          apply (V3 u1 k n); [|exact U|exact T]. apply in_app_or in I as [I|[<-|[]]]; [exact I|].
          exfalso. apply UF in U as [-> _]. congruence.
      + intros k NK NU. assert (N2 : a_dest a <> k).
        { intros <-. apply (NU u (sort_of (a_kind a))); [apply in_or_app; right; now left|]. apply UF. auto. }
        rewrite (dget_dset_neq _ string_eqb_spec) by (intros X; apply N2; congruence).
        apply V4; [exact NK|]. intros u1 s1 I. apply NU. apply in_or_app. now left.
    - destruct US as [U1 U2]. split.
      + intros u1 k s I U. apply in_app_or in I as [I|[<-|[]]]; [exact (U1 u1 k s I U)|].
        apply UF in U as [-> ->]. assert (NH : a_kind a <> KHelp) by (intros X; unfold new_value in NV; rewrite X in NV; discriminate).
        split; [intros X; destruct (a_kind a); try discriminate; congruence|].
        destruct (a_kind a) eqn:KA; try (right; exists x; rewrite <- KA; apply (new_value_of st u a v x F); congruence).
        now left.
      + assert (OPP : forall u1 k s, In u1 us -> used u1 k s -> k = a_dest a ->
                  (s = Yes /\ a_kind a = KFalse) \/ (s = No /\ a_kind a = KTrue) -> False).
        { intros u1 k s I1 Y1 -> SK. destruct (FT u1 I1) as [[b w] FB]. pose proof (used_fits _ _ FB) as UB1. cbn [fst] in UB1.
          apply UB1 in Y1 as [Db Sb].
          assert (O : opposite a b = true).
          { apply opposite_sorts. split; [exact Db|]. destruct SK as [[-> KA]|[-> KA]]; [right|left]; (split; [exact KA|]); destruct (a_kind b); try discriminate; reflexivity. }
          assert (X : existsb (opposite a) (s_seen st) = true) by (apply existsb_exists; exists b; split; [apply SE; eauto|exact O]). congruence. }
        assert (KY : sort_of (a_kind a) = Yes -> a_kind a = KTrue) by (destruct (a_kind a); intros; try discriminate; reflexivity).
        assert (KN : sort_of (a_kind a) = No -> a_kind a = KFalse) by (destruct (a_kind a); intros; try discriminate; reflexivity).
        intros u1 u2 k I1 I2 Y1 Y2. apply in_app_or in I1 as [I1|[<-|[]]]; apply in_app_or in I2 as [I2|[<-|[]]].
        * exact (U2 u1 u2 k I1 I2 Y1 Y2).
        * apply UF in Y2 as [D2 Y2]. apply (OPP u1 k Yes I1 Y1 D2). left. split; [reflexivity|]. apply KN. congruence.
        * apply UF in Y1 as [D1 Y1]. apply (OPP u2 k No I2 Y2 D1). right. split; [reflexivity|]. apply KY. congruence.
        * apply UF in Y1 as [_ Y1]. apply UF in Y2 as [_ Y2]. congruence.
    - intros b. split.
      + intros [<-|I]; [exists u, v; split; [apply in_or_app; right; now left|exact F]|].
        apply SE in I as (w & y & I & FW). exists w, y. split; [apply in_or_app; now left|exact FW].
      + intros (w & y & I & FW). apply in_app_or in I as [I|[<-|[]]]; [right; apply SE; eauto|]. left.
        destruct u as [f0 v0]. destruct F as (F1 & _). destruct FW as (F2 & _). cbn [fst] in *. congruence.
    - intros u1 I. apply in_app_or in I as [I|[<-|[]]]; eauto.
    - apply (dset_nodup _ string_eqb_spec), ND.
  Qed.

  Lemma after_uses us0 st us l st1 : after us0 st -> Forall2 fits us l -> take_actions loads int_of st l = inr st1 -> after (us0 ++ us) st1.
  Proof.
    intros A C. revert us0 st A. induction C as [|u [a v] us l F C IH]; intros us0 st A H; cbn [take_actions] in H.
    - injection H as <-. now rewrite app_nil_r.
    - destruct (take_action loads int_of st a v) as [|st2] eqn:T; [discriminate|].
      replace (us0 ++ u :: us) with ((us0 ++ [u]) ++ us) by (now rewrite <- app_assoc).
      exact (IH _ _ (after_step _ _ _ _ _ _ A F T) H).
  Qed.

  Lemma usable_step us st u a v us2 : after us st -> fits u (a, v) -> usable table loads int_of (us ++ u :: us2) ->
    exists st1, take_action loads int_of st a v = inr st1.
  Proof.
    intros [V US SE FT ND] F [U1 U2]. pose proof (fits_acts _ _ F) as IA. cbn [fst] in IA. pose proof (used_fits _ _ F) as UF. cbn [fst] in UF.
    assert (UB : forall b, In b (s_seen st) -> In b acts).
    { intros b I. apply SE in I as (w & y & _ & FW). exact (fits_acts _ _ FW). }
    assert (UU : used u (a_dest a) (sort_of (a_kind a))) by (apply UF; auto).
    assert (IU : In u (us ++ u :: us2)) by (apply in_or_app; right; now left).
    assert (NC : conflicts a (s_seen st) = false).
    { rewrite (conflict_opposite a _ IA UB). destruct (existsb (opposite a) (s_seen st)) eqn:X; [|reflexivity]. exfalso.
      apply existsb_exists in X as (b & I & O). apply opposite_sorts in O as [D O]. apply SE in I as (w & y & I & FW).
      assert (IW : In w (us ++ u :: us2)) by (apply in_or_app; now left).
      assert (UW : used w (a_dest a) (sort_of (a_kind b))) by (apply (used_fits _ _ FW); auto).
      destruct O as [[KA KB]|[KA KB]]; rewrite KA in UU; rewrite KB in UW; cbn [sort_of] in UU, UW.
      - exact (U2 u w _ IU IW UU UW).
      - exact (U2 w u _ IW IU UW UU). }
    assert (exists x, new_value st a v = Some x) as [x NV].
    { destruct (U1 u _ _ IU UU) as [NH [CT|[x VO]]].
      - unfold new_value. destruct (a_kind a); try discriminate. eauto.
      - assert (NK : a_kind a <> KCount).
        { intros X. rewrite X in VO. cbn [sort_of] in VO. destruct u as [? [?|]]; exact VO. }
        exists x. now apply (new_value_of st u a v x F NK). }
    eexists. apply take_action_spec. split; [exact NC|]. exists x. split; [exact NV|reflexivity].
  Qed.

  Lemma usable_uses us0 st us l : after us0 st -> Forall2 fits us l -> usable table loads int_of (us0 ++ us) ->
    exists st1, take_actions loads int_of st l = inr st1.
  Proof.
    intros A C. revert us0 st A. induction C as [|u [a v] us l F C IH]; intros us0 st A H; cbn [take_actions]; [eauto|].
    destruct (usable_step _ _ _ _ _ _ A F H) as [st2 T]. rewrite T.
    apply (IH (us0 ++ [u]) st2); [exact (after_step _ _ _ _ _ _ A F T)|]. now rewrite <- app_assoc.
  Qed.

  Lemma take_extra_same st a v st1 : take_action loads int_of st a v = inr st1 -> s_extra st1 = s_extra st.
  Proof. intros H. apply take_action_spec in H as (_ & x & _ & ->). reflexivity. Qed.

  Lemma takes_extra_same l : forall st st1, take_actions loads int_of st l = inr st1 -> s_extra st1 = s_extra st.
  Proof.
    induction l as [|[a v] l IH]; intros st st1 H; cbn [take_actions] in H; [now injection H as <-|].
    destruct (take_action loads int_of st a v) as [|st2] eqn:T; [discriminate|]. rewrite (IH _ _ H). exact (take_extra_same _ _ _ _ T).
  Qed.

  Definition start : parsed := {| s_args := ("cmd", JStr cmd) :: defaults acts; s_seen := []; s_extra := false |}.

  Lemma after_start : after [] start.
  Proof.
    split.
    - split; [reflexivity|]. split; [intros us1 u us2 k s x E; destruct us1; discriminate|]. split; [intros u k n []|].
      intros k NK _. cbn [start s_args]. rewrite <- (kn_default _ _ _ K k). unfold dget; fold (@dget string json String.eqb).
      destruct (String.eqb_spec k "cmd"); [congruence|]. reflexivity.
    - split; [intros u k s []|intros u1 u2 k []].
    - intros b. split; [intros []|intros (u & v & [] & _)].
    - intros u [].
    - exact (kn_distinct _ _ _ K).
  Qed.
End Known.

Lemma parse_sound cmd table loads int_of ss d : documented cmd table -> parse loads int_of cmd ss = inr d ->
  exists us, reading table ss us /\ usable table loads int_of us /\ values table cmd loads int_of us d.
Proof.
  intros D H. destruct (known_parser _ _ D) as (acts & P & K). unfold parse in H. rewrite P in H.
  destruct (classify acts ss) as [ws|] eqn:C; [|discriminate].
  fold (@start cmd acts) in H. destruct (consume loads int_of acts ws start) as [|st] eqn:CO; [discriminate|].
  destruct (s_extra st) eqn:X; [discriminate|]. injection H as <-.
  destruct (consume_read K loads int_of _ _ _ _ _ (le_n _) C CO X) as (us & l & R & CM & T).
  destruct (after_uses K loads int_of [] _ _ _ _ (after_start K loads int_of) CM T) as [V U _ _ _]. eauto.
Qed.

Lemma parse_complete cmd table loads int_of ss us : documented cmd table -> reading table ss us -> usable table loads int_of us ->
  exists d, parse loads int_of cmd ss = inr d /\ values table cmd loads int_of us d /\ NoDup (map fst d).
Proof.
  intros D R U. destruct (known_parser _ _ D) as (acts & P & K).
  destruct (reading_consumed K loads int_of _ _ R) as (ws & l & C & CM & CO).
  destruct (usable_uses K loads int_of [] _ _ _ (after_start K loads int_of) CM U) as [st T].
  pose proof (after_uses K loads int_of [] _ _ _ _ (after_start K loads int_of) CM T) as [V _ _ _ ND].
  exists (s_args st). split; [|split; [exact V|exact ND]]. unfold parse. rewrite P, C. fold (@start cmd acts). rewrite CO, T.
  rewrite (takes_extra_same _ _ _ _ _ T). reflexivity.
Qed.
