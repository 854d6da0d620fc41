(** Lemmas about the words of a command line: the loop of the parser. *)
From Coq Require Import String Ascii List Bool ZArith Arith Lia.
From Verif Require Import Base PyStr RunModel CliModel CliSpec CliProof CliProof2.
Import ListNotations.
Open Scope string_scope.
Open Scope list_scope.

Lemma valued_sort k : valued k = true <-> takes_value (sort_of k).
Proof. destruct k; cbn; split; intros; try tauto; discriminate. Qed.

Lemma not_valued_sort k : valued k = false <-> ~ takes_value (sort_of k).
Proof. destruct k; cbn; split; intros; try tauto; try discriminate; try reflexivity. all: intros []. Qed.

Section Known.
  Context {cmd : string} {acts : list action} {table : list (string * (string * sort))}.
  Variable K : known cmd acts table.
  Variable loads : string -> option json.
  Variable int_of : string -> option Z.

  (** the actions of used options *)
  Definition fits (u : use) (p : action * option string) : Prop :=
    match u with Use f v => find_flag acts f = Some (fst p) /\ snd p = v /\ (v = None <-> valued (a_kind (fst p)) = false) end.
  Notation complete := (Forall2 fits).

  Lemma pending_complete us l : complete us l -> pending l = None.
  Proof.
    intros C. unfold pending. destruct (rev l) as [|[a [v|]] r] eqn:R; [reflexivity|reflexivity|].
    assert (I : In (a, None) l) by (apply in_rev; rewrite R; now left).
    assert (H : exists u, fits u (a, None)).
    { clear R. induction C as [|u p us l F C IH]; [destruct I|]. destruct I as [->|I]; eauto. }
    destruct H as ([f v] & F & E & V). cbn [fst snd] in *. subst v. now rewrite (proj1 V eq_refl).
  Qed.

  Lemma pending_wait l a : valued (a_kind a) = true -> pending (l ++ [(a, None)]) = Some (l, a).
  Proof. intros V. unfold pending. rewrite rev_app_distr. cbn [rev app]. now rewrite V, rev_involutive. Qed.

  (** what the letters of a word stand for *)
  Definition tail_of (l : list (action * option string)) (us : list use) (o : option string) : Prop :=
    match o with
    | None => complete us l
    | Some f => exists l0 a0, l = l0 ++ [(a0, None)] /\ complete us l0 /\ find_flag acts f = Some a0 /\ valued (a_kind a0) = true
    end.

  Lemma option_of f a : find_flag acts f = Some a -> option_is table f (sort_of (a_kind a)).
  Proof. intros F. exists (a_dest a). rewrite (find_row K), F. reflexivity. Qed.

  Lemma of_option f s : option_is table f s -> exists a, find_flag acts f = Some a /\ sort_of (a_kind a) = s.
  Proof. intros (k & H). apply (find_some K) in H as (a & F & _ & S). eauto. Qed.

  Lemma fits_flag f a : find_flag acts f = Some a -> valued (a_kind a) = false -> fits (Use f None) (a, None).
  Proof. intros F V. split; [exact F|]. split; [reflexivity|]. cbn [fst]. tauto. Qed.

  Lemma fits_value f a v : find_flag acts f = Some a -> valued (a_kind a) = true -> fits (Use f (Some v)) (a, Some v).
  Proof. intros F V. split; [exact F|]. split; [reflexivity|]. cbn [fst]. rewrite V. split; discriminate. Qed.

  Lemma tail_more f a l us o : find_flag acts f = Some a -> valued (a_kind a) = false -> tail_of l us o ->
    tail_of ((a, None) :: l) (Use f None :: us) o.
  Proof.
    intros F V. destruct o as [g|]; cbn [tail_of].
    - intros (l0 & a0 & -> & C & G & W). exists ((a, None) :: l0), a0. split; [reflexivity|]. split; [|auto].
      constructor; [now apply fits_flag|exact C].
    - intros C. constructor; [now apply fits_flag|exact C].
  Qed.

  Lemma letters_read r : forall c a l, find_flag acts (String "-" (String c "")) = Some a -> r <> "" -> (forall t, r <> String "=" t) ->
    consume_explicit acts a true false r = Ok (l, false) ->
    exists us o, letters table (String c r) us o /\ tail_of l us o.
  Proof.
    induction r as [|d r IH]; intros c a l F N1 N2 H; [congruence|]. cbn [consume_explicit] in H.
    assert (Nd : d <> "="%char) by (intros ->; now apply (N2 r)).
    destruct (valued (a_kind a)) eqn:V.
    - injection H as <-. exists [Use (String "-" (String c "")) (Some (String d r))], None. split.
      + eapply L_value; [exact (option_of _ _ F)|now apply valued_sort|exact Nd].
      + constructor; [now apply fits_value|constructor].
    - cbn [negb orb] in H. destruct (Ascii.eqb d "-"); [discriminate|].
      destruct (find_flag acts (String "-" (String d ""))) as [a2|] eqn:F2; [|discriminate].
      assert (M : forall us o, letters table (String d r) us o ->
                  letters table (String c (String d r)) (Use (String "-" (String c "")) None :: us) o).
      { intros us o L. eapply L_more; [exact (option_of _ _ F)|now apply not_valued_sort|exact L]. }
      destruct r as [|c2 r2].
      + injection H as <-. destruct (valued (a_kind a2)) eqn:V2.
        * exists [Use (String "-" (String c "")) None], (Some (String "-" (String d ""))). split.
          -- apply M. eapply L_wait; [exact (option_of _ _ F2)|now apply valued_sort].
          -- exists [(a, None)], a2. split; [reflexivity|]. split; [constructor; [now apply fits_flag|constructor]|auto].
        * exists [Use (String "-" (String c "")) None; Use (String "-" (String d "")) None], None. split.
          -- apply M. eapply L_end; [exact (option_of _ _ F2)|now apply not_valued_sort].
          -- constructor; [now apply fits_flag|]. constructor; [now apply fits_flag|constructor].
      + destruct (Ascii.eqb_spec c2 "=") as [->|N].
        * destruct (valued (a_kind a2)) eqn:V2; [|discriminate]. injection H as <-.
          exists [Use (String "-" (String c "")) None; Use (String "-" (String d "")) (Some r2)], None. split.
          -- apply M. eapply L_eq; [exact (option_of _ _ F2)|now apply valued_sort].
          -- constructor; [now apply fits_flag|]. constructor; [now apply fits_value|constructor].
        * destruct (consume_explicit acts a2 true false (String c2 r2)) as [[l2 x2]|] eqn:C; cbn [bind fst snd] in H; [|discriminate].
          injection H as <- ->. destruct (IH d a2 l2 F2 ltac:(discriminate) ltac:(intros t X; injection X as X _; congruence) C) as (us & o & L & T).
          exists (Use (String "-" (String c "")) None :: us), o. split; [now apply M|]. now apply tail_more.
  Qed.

  Lemma letters_written r us o : letters table r us o -> forall c t a, r = String c t -> t <> "" -> (forall q, t <> String "=" q) ->
    find_flag acts (String "-" (String c "")) = Some a ->
    exists l, consume_explicit acts a true false t = Ok (l, false) /\ tail_of l us o.
  Proof.
    induction 1 as [c s O T|c s O T|c s d v O T N|c s v O T|c s r us o O T L IH]; intros c0 t a E N1 N2 F.
    - injection E as <- <-. congruence.
    - injection E as <- <-. congruence.
    - injection E as <- <-. destruct (of_option _ _ O) as (b & Fb & <-). assert (b = a) as -> by congruence.
      cbn [consume_explicit]. rewrite (proj2 (valued_sort _) T). eexists. split; [reflexivity|].
      constructor; [apply fits_value; [exact F|now apply valued_sort]|constructor].
    - injection E as <- <-. now destruct (N2 v).
    - injection E as <- <-. destruct (of_option _ _ O) as (b & Fb & <-). assert (b = a) as -> by congruence.
      apply not_valued_sort in T. destruct r as [|d r]; [congruence|]. cbn [consume_explicit]. rewrite T. cbn [negb orb].
      assert (exists s2, option_is table (String "-" (String d "")) s2) as (s2 & O2) by (inversion L; subst; eauto).
      destruct (of_option _ _ O2) as (a2 & F2 & S2).
      assert (Nd : Ascii.eqb d "-" = false).
      { apply Ascii.eqb_neq. intros ->. destruct (flag_cases K _ _ F2) as [(x & X & Nx)|(x & q & X)]; [injection X as <-; congruence|discriminate]. }
      rewrite Nd, F2. destruct r as [|c2 r2].
      + inversion L; subst.
        * match goal with H : option_is table _ ?s0, Q : ~ takes_value ?s0 |- _ =>
            destruct (of_option _ _ H) as (a3 & F3 & S3); rewrite F2 in F3; injection F3 as <-; subst s0; apply not_valued_sort in Q end.
          eexists. split; [reflexivity|]. constructor; [now apply fits_flag|]. constructor; [now apply fits_flag|constructor].
        * match goal with H : option_is table _ ?s0, Q : takes_value ?s0 |- _ =>
            destruct (of_option _ _ H) as (a3 & F3 & S3); rewrite F2 in F3; injection F3 as <-; subst s0; apply valued_sort in Q end.
          eexists. split; [reflexivity|]. exists [(a, None)], a2. split; [reflexivity|]. split; [constructor; [now apply fits_flag|constructor]|auto].
        * match goal with H : letters table "" _ _ |- _ => inversion H end.
      + destruct (Ascii.eqb_spec c2 "=") as [->|N].
        * inversion L; subst; try congruence.
          -- match goal with H : option_is table _ ?s0, Q : takes_value ?s0 |- _ =>
               destruct (of_option _ _ H) as (a3 & F3 & S3); rewrite F2 in F3; injection F3 as <-; subst s0; apply valued_sort in Q; rewrite Q end.
             eexists. split; [reflexivity|]. constructor; [now apply fits_flag|]. constructor; [now apply fits_value|constructor].
          -- match goal with H : letters table (String "=" _) _ _ |- _ =>
               assert (X : exists s3, option_is table (String "-" "=") s3) by (inversion H; subst; eauto) end.
             destruct X as (s3 & O3). destruct (of_option _ _ O3) as (a3 & F3 & _). apply (flag_no_eq K) in F3. exfalso. apply F3.
             right. now left.
        * destruct (IH d (String c2 r2) a2 eq_refl ltac:(discriminate) ltac:(intros q X; injection X as X _; congruence) F2) as (l & C & TT).
          rewrite C. cbn [bind fst snd]. eexists. split; [reflexivity|]. now apply tail_more.
  Qed.

  Lemma take_actions_app st l1 l2 :
    take_actions loads int_of st (l1 ++ l2) =
    match take_actions loads int_of st l1 with inl x => inl x | inr st => take_actions loads int_of st l2 end.
  Proof.
    revert st. induction l1 as [|[a v] l1 IH]; intros st; cbn [take_actions app]; [reflexivity|].
    destruct (take_action _ _ _ _ _); [reflexivity|apply IH].
  Qed.

  Lemma take_extra st a v st' : take_action loads int_of st a v = inr st' -> s_extra st' = s_extra st.
  Proof.
    unfold take_action. destruct (match a_group a with Some _ => _ | None => _ end); [discriminate|].
    destruct (a_kind a), v as [v|]; try discriminate; try (intros H; injection H as <-; reflexivity).
    - destruct (loads v); [|discriminate]. intros H; injection H as <-; reflexivity.
    - destruct (int_of v); [|discriminate]. intros H; injection H as <-; reflexivity.
  Qed.

  Lemma takes_extra l st st' : take_actions loads int_of st l = inr st' -> s_extra st' = s_extra st.
  Proof.
    revert st. induction l as [|[a v] l IH]; intros st; cbn [take_actions]; [intros H; now injection H as <-|].
    destruct (take_action _ _ st a v) as [|st1] eqn:T; [discriminate|]. intros H. rewrite (IH _ H). exact (take_extra _ _ _ _ T).
  Qed.

  Lemma consume_extra n : forall ws st st', List.length ws <= n -> consume loads int_of acts ws st = inr st' -> s_extra st = true -> s_extra st' = true.
  Proof.
    induction n as [|n IH]; intros ws st st' L H X; (destruct ws as [|[s w] ws]; cbn [consume] in H; [now injection H as <-|]); cbn [List.length] in L; [lia|].
    destruct w as [| | |a f e]; try (refine (IH ws _ _ ltac:(lia) H _); reflexivity).
    destruct (match e with None => _ | Some _ => _ end) as [[l x]|]; [|discriminate]. cbv zeta in H.
    assert (X2 : s_extra (if x then extra st else st) = true) by (destruct x; [reflexivity|exact X]).
    destruct (pending l) as [[l0 a0]|].
    - destruct ws as [|[v [| | |? ? ?]] ws]; try discriminate.
      destruct (take_actions _ _ _ _) as [|st1] eqn:T; [discriminate|]. cbn [List.length] in L.
      refine (IH ws _ _ ltac:(lia) H _). now rewrite (takes_extra _ _ _ T).
    - destruct (take_actions _ _ _ _) as [|st1] eqn:T; [discriminate|].
      refine (IH ws _ _ ltac:(lia) H _). now rewrite (takes_extra _ _ _ T).
  Qed.

  (** ** Every accepted command line can be read *)

  Lemma consume_read n : forall ss ws st st', List.length ss <= n -> classify acts ss = Ok ws ->
    consume loads int_of acts ws st = inr st' -> s_extra st' = false ->
    exists us l, reading table ss us /\ complete us l /\ take_actions loads int_of st l = inr st'.
  Proof.
    induction n as [|n IH]; intros ss ws st st' L C H X; (destruct ss as [|s ss]; [injection C as <-; cbn [consume] in H; injection H as <-;
      exists [], []; split; [constructor|split; [constructor|reflexivity]]|]); cbn [List.length] in L; [lia|].
    cbn [classify] in C. destruct (String.eqb s "--").
    { injection C as <-. cbn [consume] in H. apply (consume_extra _ _ _ _ (le_n _)) in H; [congruence|reflexivity]. }
    destruct (parse_optional acts s) as [w|] eqn:P; cbn [bind] in C; [|discriminate].
    destruct (classify acts ss) as [ws2|] eqn:C2; cbn [bind] in C; [|discriminate]. injection C as <-. cbn [consume] in H.
    destruct w as [| | |a f e]; try (apply (consume_extra _ _ _ _ (le_n _)) in H; [congruence|reflexivity]).
    destruct (po_option K _ _ _ _ P) as [F W].
    (* the next word is a value *)
    assert (NV : forall v ws3, ws2 = (v, WValue) :: ws3 -> exists ss3, ss = v :: ss3 /\ classify acts ss3 = Ok ws3 /\ value_word table v).
    { intros v ws3 ->. destruct ss as [|v0 ss3]; [discriminate|]. cbn [classify] in C2. destruct (String.eqb_spec v0 "--") as [->|Nd].
      - injection C2 as <- Y. discriminate.
      - destruct (parse_optional acts v0) as [w0|] eqn:P0; cbn [bind] in C2; [|discriminate].
        destruct (classify acts ss3) as [ws4|] eqn:C3; cbn [bind] in C2; [|discriminate]. injection C2 as <- -> <-.
        exists ss3. split; [reflexivity|]. split; [exact C3|]. exact (po_is_value K _ Nd P0). }
    destruct W as [(-> & SF)|[(p & v & -> & -> & NE & SF)|(c & d & t & -> & Nd & Nc & -> & ->)]].
    - cbv zeta in H. destruct (valued (a_kind a)) eqn:V.
      + rewrite (pending_wait [] a V : pending [(a, None)] = _) in H.
        destruct ws2 as [|[v [| | |? ? ?]] ws3]; try discriminate.
        destruct (NV v ws3 eq_refl) as (ss3 & -> & C3 & VW).
        destruct (take_actions _ _ st ([] ++ _)) as [|st1] eqn:T; [discriminate|]. cbn [List.length] in L.
        destruct (IH ss3 ws3 st1 st' ltac:(lia) C3 H X) as (us & l & R & CC & TT).
        exists (Use f (Some v) :: us), ((a, Some v) :: l). split.
        { eapply R_next; [exact SF|exact (option_of _ _ F)|now apply valued_sort|exact VW|exact R]. }
        split; [constructor; [now apply fits_value|exact CC]|].
        change ((a, Some v) :: l) with (([] ++ [(a, Some v)]) ++ l). now rewrite take_actions_app, T.
      + assert (PN : pending [(a, None)] = None) by (unfold pending; cbn; now rewrite V). rewrite PN in H.
        destruct (take_actions _ _ st _) as [|st1] eqn:T; [discriminate|].
        destruct (IH ss ws2 st1 st' ltac:(lia) C2 H X) as (us & l & R & CC & TT).
        exists (Use f None :: us), ((a, None) :: l). split.
        { eapply R_switch; [exact SF|exact (option_of _ _ F)|now apply not_valued_sort|exact R]. }
        split; [constructor; [now apply fits_flag|exact CC]|].
        change ((a, None) :: l) with ([(a, None)] ++ l). now rewrite take_actions_app, T.
    - cbn [e_sep e_text] in H. destruct (valued (a_kind a)) eqn:V.
      + assert (CE : consume_explicit acts a (negb (String.prefix "--" f)) true v = Ok ([(a, Some v)], false)).
        { destruct v; cbn [consume_explicit]; now rewrite V. }
        rewrite CE in H. cbv zeta in H. cbn [pending rev app] in H.
        destruct (take_actions _ _ st _) as [|st1] eqn:T; [discriminate|].
        destruct (IH ss ws2 st1 st' ltac:(lia) C2 H X) as (us & l & R & CC & TT).
        exists (Use f (Some v) :: us), ((a, Some v) :: l). split.
        { eapply R_equal; [exact SF|exact NE|exact (option_of _ _ F)|now apply valued_sort|exact R]. }
        split; [constructor; [now apply fits_value|exact CC]|].
        change ((a, Some v) :: l) with ([(a, Some v)] ++ l). now rewrite take_actions_app, T.
      + exfalso. assert (CE : exists ex, consume_explicit acts a (negb (String.prefix "--" f)) true v = Err ex).
        { destruct v; cbn [consume_explicit]; rewrite V; [eauto|]. destruct (negb (negb _)); cbn [orb]; eauto. }
        destruct CE as (ex & CE). rewrite CE in H. discriminate.
    - cbn [e_sep e_text] in H.
      assert (SH : negb (String.prefix "--" (String "-" (String c ""))) = true).
      { rewrite !prefix_cons. destruct (ascii_dec "-" "-"); [|congruence]. destruct (ascii_dec "-" c); [congruence|reflexivity]. }
      rewrite SH in H. destruct (consume_explicit acts a true false (String d t)) as [[l x]|] eqn:CE; [|discriminate]. cbv zeta in H.
      destruct x.
      { destruct (pending l) as [[l0 a0]|].
        - destruct ws2 as [|[v [| | |? ? ?]] ws3]; try discriminate. destruct (take_actions _ _ _ _) as [|st1] eqn:T; [discriminate|].
          apply (consume_extra _ _ _ _ (le_n _)) in H; [congruence|]. now rewrite (takes_extra _ _ _ T).
        - destruct (take_actions _ _ _ _) as [|st1] eqn:T; [discriminate|].
          apply (consume_extra _ _ _ _ (le_n _)) in H; [congruence|]. now rewrite (takes_extra _ _ _ T). }
      destruct (letters_read (String d t) c a l F ltac:(discriminate) ltac:(intros q Y; injection Y as Y _; congruence) CE) as (us0 & o & LT & TO).
      destruct o as [g|].
      + destruct TO as (l0 & a0 & -> & C0 & G & W). rewrite (pending_wait l0 a0 W) in H.
        destruct ws2 as [|[v [| | |? ? ?]] ws3]; try discriminate.
        destruct (NV v ws3 eq_refl) as (ss3 & -> & C3 & VW).
        destruct (take_actions _ _ st _) as [|st1] eqn:T; [discriminate|]. cbn [List.length] in L.
        destruct (IH ss3 ws3 st1 st' ltac:(lia) C3 H X) as (us & l & R & CC & TT).
        exists (us0 ++ Use g (Some v) :: us), ((l0 ++ [(a0, Some v)]) ++ l). split.
        { eapply R_letters_next; [exact LT|exact VW|exact R]. }
        split; [|now rewrite take_actions_app, T].
        rewrite <- app_assoc. apply Forall2_app; [exact C0|]. constructor; [now apply fits_value|exact CC].
      + cbn [tail_of] in TO. rewrite (pending_complete _ _ TO) in H.
        destruct (take_actions _ _ st _) as [|st1] eqn:T; [discriminate|].
        destruct (IH ss ws2 st1 st' ltac:(lia) C2 H X) as (us & l2 & R & CC & TT).
        exists (us0 ++ us), (l ++ l2). split; [eapply R_letters; [exact LT|exact R]|].
        split; [now apply Forall2_app|now rewrite take_actions_app, T].
  Qed.

  (** ** Everything written as described is accepted *)

  Lemma word_option w f s : stands_for table w f -> option_is table f s ->
    exists a, find_flag acts f = Some a /\ sort_of (a_kind a) = s /\
      w <> "--" /\ parse_optional acts w = Ok (WOption a f None) /\
      (no_eq w -> forall v, parse_optional acts (w ++ "=" ++ v) = Ok (WOption a f (Some {| e_sep := true; e_text := v |}))).
  Proof.
    intros (Nf & W) O. destruct (of_option _ _ O) as (a & F & S). exists a. split; [exact F|]. split; [exact S|].
    destruct W as [->|(N & P & U)].
    - split; [|split; [now apply (po_exact K)|intros _ v; now apply (po_equal K)]].
      intros ->. destruct (flag_cases K _ _ F) as [(c & X & Nc)|(c & r & X)]; [injection X as <-; congruence|discriminate].
    - destruct (po_abbr K w f a N P F U) as [A B]. split; [|auto].
      intros ->. (* two long options *)
      assert (T : exists g h, dget String.eqb table g <> None /\ dget String.eqb table h <> None /\
                 String.prefix "--" g = true /\ String.prefix "--" h = true /\ g <> h).
      { pose proof (kn_two _ _ _ K) as T. exact T. }
      destruct T as (g & h & Ng & Nh & Pg & Ph & D). apply D. apply (U g Ng) in Pg. apply (U h Nh) in Ph. congruence.
  Qed.

  Lemma value_not_dashes v : value_word table v -> String.eqb v "--" = false.
  Proof. intros V. apply String.eqb_neq. intros ->. destruct V as [V|[V|(V & _)]]; [now apply (V "-")|discriminate|congruence]. Qed.

  Lemma letters_first r us o : letters table r us o -> exists c t s, r = String c t /\ option_is table (String "-" (String c "")) s.
  Proof. intros L. inversion L; subst; eauto. Qed.

  Lemma letters_word r us o : letters table r us o ->
    exists w l, parse_optional acts (String "-" r) = Ok w /\ String.eqb (String "-" r) "--" = false /\ tail_of l us o /\
      exists a f e, w = WOption a f e /\
        match e with
        | None => Ok ([(a, None)], false)
        | Some e => consume_explicit acts a (negb (String.prefix "--" f)) (e_sep e) (e_text e)
        end = Ok (l, false).
  Proof.
    intros L. destruct (letters_first _ _ _ L) as (c & t & s & -> & O). destruct (of_option _ _ O) as (a & F & S).
    assert (Nc : c <> "-"%char).
    { destruct (flag_cases K _ _ F) as [(x & X & N)|(x & q & X)]; [injection X as ->; exact N|discriminate]. }
    assert (ND : String.eqb (String "-" (String c t)) "--" = false).
    { apply String.eqb_neq. intros X. injection X as X _. congruence. }
    assert (SH : negb (String.prefix "--" (String "-" (String c ""))) = true).
    { rewrite !prefix_cons. destruct (ascii_dec "-" "-"); [|congruence]. destruct (ascii_dec "-" c); [congruence|reflexivity]. }
    destruct t as [|d t].
    - exists (WOption a (String "-" (String c "")) None), [(a, None)]. split; [now apply (po_exact K)|]. split; [exact ND|].
      split; [|eexists a, _, None; split; reflexivity].
      inversion L as [c0 s0 O0 T0|c0 s0 O0 T0| | |c0 s0 r0 us0 o0 O0 T0 L0]; subst.
      + destruct (of_option _ _ O0) as (b & Fb & Sb). rewrite F in Fb. injection Fb as <-. subst s0. apply not_valued_sort in T0.
        constructor; [now apply fits_flag|constructor].
      + destruct (of_option _ _ O0) as (b & Fb & Sb). rewrite F in Fb. injection Fb as <-. subst s0. apply valued_sort in T0.
        exists [], a. split; [reflexivity|]. split; [constructor|auto].
      + inversion L0.
    - destruct (Ascii.eqb_spec d "=") as [->|Nd].
      + assert (exists v, us = [Use (String "-" (String c "")) (Some v)] /\ o = None /\ t = v /\ valued (a_kind a) = true) as (v & -> & -> & -> & V).
        { inversion L as [| |c0 s0 d0 v0 O0 T0 N0|c0 s0 v0 O0 T0|c0 s0 r0 us0 o0 O0 T0 L0]; subst; try congruence.
          - exists t. destruct (of_option _ _ O0) as (b & Fb & Sb). rewrite F in Fb. injection Fb as <-. subst s0. apply valued_sort in T0. auto.
          - exfalso. destruct (letters_first _ _ _ L0) as (c1 & t1 & s1 & X & O1). injection X as <- _.
            destruct (of_option _ _ O1) as (a1 & F1 & _). apply (flag_no_eq K) in F1. apply F1. right. now left. }
        exists (WOption a (String "-" (String c "")) (Some {| e_sep := true; e_text := v |})), [(a, Some v)].
        split; [exact (po_equal K _ _ v F)|]. split; [exact ND|]. split; [constructor; [now apply fits_value|constructor]|].
        eexists a, _, (Some _). split; [reflexivity|]. cbn [e_sep e_text]. destruct v; cbn [consume_explicit]; now rewrite V.
      + destruct (letters_written _ _ _ L c (String d t) a eq_refl ltac:(discriminate) ltac:(intros q X; injection X as X _; congruence) F) as (l & CE & TO).
        exists (WOption a (String "-" (String c "")) (Some {| e_sep := false; e_text := String d t |})), l.
        split; [now apply (po_short K)|]. split; [exact ND|]. split; [exact TO|].
        eexists a, _, (Some _). split; [reflexivity|]. cbn [e_sep e_text]. rewrite SH. exact CE.
  Qed.

  Lemma reading_consumed ss us : reading table ss us ->
    exists ws l, classify acts ss = Ok ws /\ complete us l /\
      forall st, consume loads int_of acts ws st = take_actions loads int_of st l.
  Proof.
    induction 1 as [|w f s ws us SF O T R IH|w f s v ws us SF O T V R IH|w f s v ws us SF NE O T R IH|r us0 ws us L R IH|r us0 f v ws us L V R IH].
    - exists [], []. split; [reflexivity|]. split; [constructor|reflexivity].
    - destruct IH as (ws2 & l & C & CC & E). destruct (word_option _ _ _ SF O) as (a & F & S & N & P & _).
      subst s. apply not_valued_sort in T.
      exists ((w, WOption a f None) :: ws2), ((a, None) :: l). split.
      { cbn [classify]. apply String.eqb_neq in N. rewrite N, P. cbn [bind]. rewrite C. reflexivity. }
      split; [constructor; [now apply fits_flag|exact CC]|]. intros st. cbn [consume]. cbv zeta.
      assert (PN : pending [(a, None)] = None) by (unfold pending; cbn; now rewrite T). rewrite PN. cbn [take_actions].
      destruct (take_action _ _ st a None); [reflexivity|apply E].
    - destruct IH as (ws2 & l & C & CC & E). destruct (word_option _ _ _ SF O) as (a & F & S & N & P & _).
      subst s. apply valued_sort in T.
      exists ((w, WOption a f None) :: (v, WValue) :: ws2), ((a, Some v) :: l). split.
      { cbn [classify]. apply String.eqb_neq in N. rewrite N, P, (value_not_dashes _ V), (po_value K _ V), C. reflexivity. }
      split; [constructor; [now apply fits_value|exact CC]|]. intros st. cbn [consume]. cbv zeta.
      rewrite (pending_wait [] a T : pending [(a, None)] = _). cbn [take_actions app].
      destruct (take_action _ _ st a _); [reflexivity|apply E].
    - destruct IH as (ws2 & l & C & CC & E). destruct (word_option _ _ _ SF O) as (a & F & S & N & _ & P).
      subst s. apply valued_sort in T. specialize (P NE v).
      exists (((w ++ "=" ++ v)%string, WOption a f (Some {| e_sep := true; e_text := v |})) :: ws2), ((a, Some v) :: l). split.
      { cbn [classify]. assert (N2 : String.eqb (w ++ "=" ++ v) "--" = false).
        { apply String.eqb_neq. intros X. assert (I : In "="%char (list_ascii_of_string "--")).
          { rewrite <- X, list_app_s. apply in_or_app. right. now left. }
          cbn in I. intuition congruence. }
        rewrite N2, P. cbn [bind]. rewrite C. reflexivity. }
      split; [constructor; [now apply fits_value|exact CC]|]. intros st. cbn [consume e_sep e_text]. cbv zeta.
      assert (CE : consume_explicit acts a (negb (String.prefix "--" f)) true v = Ok ([(a, Some v)], false)).
      { destruct v; cbn [consume_explicit]; now rewrite T. }
      rewrite CE. cbn [pending rev app take_actions]. destruct (take_action _ _ st a _); [reflexivity|apply E].
    - destruct IH as (ws2 & l & C & CC & E). destruct (letters_word _ _ _ L) as (w & l0 & P & N & TO & CE).
      exists ((String "-" r, w) :: ws2), (l0 ++ l). split.
      { cbn [classify]. rewrite N, P. cbn [bind]. rewrite C. reflexivity. }
      cbn [tail_of] in TO. split; [now apply Forall2_app|]. intros st. rewrite take_actions_app. cbn [consume].
      destruct CE as (a & f & e & -> & CE). rewrite CE. cbv zeta. rewrite (pending_complete _ _ TO).
      destruct (take_actions _ _ st l0); [reflexivity|apply E].
    - destruct IH as (ws2 & l & C & CC & E). destruct (letters_word _ _ _ L) as (w & l0 & P & N & TO & CE).
      destruct TO as (l1 & a1 & -> & C1 & F1 & V1).
      exists ((String "-" r, w) :: (v, WValue) :: ws2), ((l1 ++ [(a1, Some v)]) ++ l). split.
      { cbn [classify]. rewrite N, P. cbn [bind]. rewrite (value_not_dashes _ V), (po_value K _ V), C. reflexivity. }
      split.
      { rewrite <- app_assoc. apply Forall2_app; [exact C1|]. constructor; [now apply fits_value|exact CC]. }
      intros st. rewrite take_actions_app. cbn [consume].
      destruct CE as (a & g & e & -> & CE). rewrite CE. cbv zeta. rewrite (pending_wait l1 a1 V1).
      destruct (take_actions _ _ st _); [reflexivity|apply E].
  Qed.
End Known.
