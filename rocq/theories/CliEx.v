(** Concrete command lines for the theorems of CliProps.v. *)
From Coq Require Import String Ascii List Bool ZArith Arith.
From Verif Require Import Base RunModel RunSpec RunEx CliModel CliSpec CliProof CliProof2 CliProof3 CliProof4 CliProof5.
Import ListNotations.
Open Scope string_scope.
Open Scope list_scope.

(** readers of JSON values and integers that know two texts *)
Definition ex_loads (s : string) : option json := if String.eqb s "{g0: 7}" then Some (JDict [("g0", JNum 7)]) else None.
Definition ex_int (s : string) : option Z := if String.eqb s "2" then Some 2%Z else None.

(** a command line *)
Definition ex_words : list string := ["-vve"; "b"; "--no-plots"; "--njobs=2"; "--overw"; "{g0: 7}"; "-c=conf.json"].

Definition ex_uses : list use :=
  [Use "-v" None; Use "-v" None; Use "-e" (Some "b"); Use "--no-plots" None; Use "--njobs" (Some "2");
   Use "--overwrite-conf" (Some "{g0: 7}"); Use "-c" (Some "conf.json")].

Definition go_table : list (string * (string * sort)) :=
  general ++ alignment ++ [("--dump-optpkl", ("dump_optpkl", Text)); ("--dump-fitpkl", ("dump_fitpkl", Text))] ++ configuration ++ plotting.

Lemma go_documented : documented "go" go_table.
Proof. constructor. Qed.

Lemma stands_exact table w : dget String.eqb table w <> None -> stands_for table w w.
Proof. intros H. split; [exact H|now left]. Qed.

Lemma stands_short table w f : dget String.eqb table f <> None -> dget String.eqb table w = None -> String.prefix "--" w = true ->
  forallb (fun r => Bool.eqb (String.prefix w (fst r)) (String.eqb (fst r) f)) table = true -> stands_for table w f.
Proof.
  intros F W P C. split; [exact F|]. right. split; [exact W|]. split; [exact P|]. intros g G.
  destruct (dget String.eqb table g) as [v|] eqn:E; [|congruence]. apply (dget_In _ string_eqb_spec) in E.
  pose proof (proj1 (forallb_forall _ _) C _ E) as X. cbn [fst] in X. apply Bool.eqb_prop in X. rewrite X. apply String.eqb_eq.
Qed.

Ltac lookup := vm_compute; first [reflexivity|discriminate].

Lemma ex_reading : reading go_table ex_words ex_uses.
Proof.
  change ex_uses with ([Use "-v" None; Use "-v" None] ++ Use "-e" (Some "b") ::
    [Use "--no-plots" None; Use "--njobs" (Some "2"); Use "--overwrite-conf" (Some "{g0: 7}")] ++ [Use "-c" (Some "conf.json")] ++ []).
  change ex_words with (String "-" "vve" :: "b" :: "--no-plots" :: ("--njobs" ++ "=" ++ "2")%string :: "--overw" :: "{g0: 7}" ::
    [String "-" "c=conf.json"]).
  apply R_letters_next.
  - apply L_more with Count; [eexists; lookup|intros []|]. apply L_more with Count; [eexists; lookup|intros []|].
    apply (L_wait go_table "e" Text); [eexists; lookup|exact I].
  - left. intros r. discriminate.
  - apply R_switch with No; [apply stands_exact; lookup|eexists; lookup|intros []|].
    apply R_equal with Number; [apply stands_exact; lookup| |eexists; lookup|exact I|].
    { unfold no_eq. intros X. repeat (destruct X as [X|X]; [discriminate|]). destruct X. }
    apply R_next with Json; [apply stands_short; lookup|eexists; lookup|exact I|left; intros r; discriminate|].
    apply R_letters; [|constructor]. apply L_eq with Text; [eexists; lookup|exact I].
Qed.

Lemma used_in table u k s : used table u k s -> exists f v, u = Use f v /\ dget String.eqb table f = Some (k, s).
Proof. destruct u as [f v]. intros H. eauto. Qed.

Lemma ex_usable : usable go_table ex_loads ex_int ex_uses.
Proof.
  split.
  - intros u k s I U. repeat (destruct I as [<-|I]; [vm_compute in U; injection U as <- <-; (split; [discriminate|]);
      first [now left|right; eexists; vm_compute; first [reflexivity|eexists; split; reflexivity]]|]). destruct I.
  - intros u1 u2 k I1 I2 U1 U2. repeat (destruct I1 as [<-|I1]; [vm_compute in U1; discriminate|]). destruct I1.
Qed.

Lemma ex_parse : exists d, parse ex_loads ex_int "go" ex_words = inr d /\ dget String.eqb d "verbose" = Some (JNum 2) /\
  dget String.eqb d "eventid" = Some (JStr "b") /\ dget String.eqb d "plots" = Some (JBool false).
Proof. eexists. split; [vm_compute; reflexivity|]. repeat split. Qed.

Lemma ex_called : exists r e,
  run_cmdline ex_loads ex_int (ex_world ex_conf ex_result) ("go" :: ex_words) = Ran (Ok (r, e)) /\ r <> JNull.
Proof. eexists _, _. split; [vm_compute; reflexivity|discriminate]. Qed.

Lemma ex_bad : documented "go" go_table /\ forall us, reading go_table ["--plots"; "--no-plots"] us -> ~ usable go_table ex_loads ex_int us.
Proof.
  split; [apply go_documented|]. intros us R U. destruct (parse_complete _ _ _ _ _ _ go_documented R U) as (d & P & _).
  vm_compute in P. discriminate.
Qed.

Definition ex_stop_words : list string := ["-v"; "--plots"; "--no-plots"; "--help"].

Lemma ex_stopped : documented "go" go_table /\
  reading go_table ex_stop_words ([Use "-v" None; Use "--plots" None] ++ Use "--no-plots" None :: [Use "--help" None]) /\
  usable go_table ex_loads ex_int [Use "-v" None; Use "--plots" None] /\
  ~ usable go_table ex_loads ex_int ([Use "-v" None; Use "--plots" None] ++ [Use "--no-plots" None]) /\
  forall k, ~ used go_table (Use "--no-plots" None) k Help.
Proof.
  split; [apply go_documented|]. split; [|split; [|split]].
  - unfold ex_stop_words. cbn [app].
    apply R_switch with Count; [apply stands_exact; lookup|eexists; lookup|intros []|].
    apply R_switch with Yes; [apply stands_exact; lookup|eexists; lookup|intros []|].
    apply R_switch with No; [apply stands_exact; lookup|eexists; lookup|intros []|].
    apply R_switch with Help; [apply stands_exact; lookup|eexists; lookup|intros []|constructor].
  - split.
    + intros u k s I U. repeat (destruct I as [<-|I]; [vm_compute in U; injection U as <- <-; (split; [discriminate|]);
        first [now left|right; eexists; vm_compute; reflexivity]|]). destruct I.
    + intros u1 u2 k I1 I2 U1 U2. repeat (destruct I2 as [<-|I2]; [vm_compute in U2; discriminate|]). destruct I2.
  - intros [_ U]. apply (U (Use "--plots" None) (Use "--no-plots" None) "plots"); [cbn; tauto|cbn; tauto|vm_compute; reflexivity|vm_compute; reflexivity].
  - intros k U. vm_compute in U. discriminate.
Qed.

Lemma ex_unknown : (forall table, ~ documented "invert" table) /\ "invert" <> "rt" /\ forall r, "invert" <> String "-" r.
Proof. split; [intros t D; inversion D|]. split; [discriminate|intros r; discriminate]. Qed.

(** ** Wrong reports *)

Lemma usage_wrong : exists (w : world string) loads int_of ss d,
  parse loads int_of "go" ss = inr d /\ call_run w d = Err ParseError /\ run_cmdline loads int_of w ("go" :: ss) = Error (Some "plot").
Proof.
  eexists (ex_world ex_conf ex_result), ex_loads, ex_int, ["-e"; "c"], _.
  split; [vm_compute; reflexivity|]. split; vm_compute; reflexivity.
Qed.

Lemma command_wrong : exists (w : world string) loads int_of ss r,
  run_cmdline loads int_of w ("go" :: ss) = Ran (Ok r) /\
  run w "create" (Some "conf.json") false None JNull false JNull [] = Ok r /\
  run w "go" (Some "conf.json") false None JNull false JNull [] <> Ok r.
Proof.
  eexists (ex_world ex_conf ex_result), (fun _ => Some (JDict [("cmd", JStr "create")])), ex_int, ["--overwrite-conf"; "{cmd: create}"], _.
  split; [vm_compute; reflexivity|]. split; [vm_compute; reflexivity|vm_compute; discriminate].
Qed.

Lemma no_command {E} (w : world E) loads int_of : run_cmdline loads int_of w [] = Ran (Err ValueError).
Proof. reflexivity. Qed.
