(** Properties C01, C02: the decorator cache (/repo/qopen/util.py:11-20). *)
From Coq Require Import String Bool NArith ZArith Lia Arith List.
From Verif Require Import Base CacheModel CacheSpec CacheProof ReprProof CacheEx.
Import ListNotations.
Open Scope list_scope.

(** C01: whatever was called before, a call of the decorated function gives
    what the undecorated one gives (value or exception), if that depends on the
    printed arguments only. *)
Theorem C01_transparent : forall (World Arg Key Val : Type) (keqb : Key -> Key -> bool),
  (forall a b, keqb a b = true <-> a = b) ->
  forall (key : Arg -> Key) (f : World -> Arg -> World * res Val) (g : Arg -> res Val),
  ignores_world f g -> (forall a b, key a = key b -> g a = g b) ->
  forall l w, snd (cached_calls keqb key f ([], w) l) = map g l.
Proof. exact @calls_transparent. Qed.
Print Assumptions C01_transparent.

Example C01_transparent_ex :
  (forall a b, String.eqb a b = true <-> a = b) /\ ignores_world ex_world ex_fun /\
  snd (cached_calls String.eqb (fun a => (fst a ++ "," ++ snd a)%string) ex_world ([], 0%nat)
   [("ev", "A"); ("ev", ""); ("ev", "A"); ("ev", "")]%string)
   = [Ok 3%nat; Err SkipError; Ok 3%nat; Err SkipError].
Proof. split; [exact string_eqb_spec|]. split; [intros w a; reflexivity|]. now rewrite ex_calls. Qed.

(** C01: for any function, even one whose results vary, once a value was
    returned for a printed argument text it is returned for ever. *)
Theorem C01_sticky : forall (World Arg Key Val : Type) (keqb : Key -> Key -> bool),
  (forall a b, keqb a b = true <-> a = b) ->
  forall (key : Arg -> Key) (f : World -> Arg -> World * res Val) l s i j a b v,
  (i < j)%nat -> nth_error l i = Some a -> nth_error l j = Some b -> key a = key b ->
  nth_error (snd (cached_calls keqb key f s l)) i = Some (Ok v) ->
  nth_error (snd (cached_calls keqb key f s l)) j = Some (Ok v).
Proof. exact @calls_sticky. Qed.
Print Assumptions C01_sticky.

Example C01_sticky_ex : snd (cached_calls String.eqb (fun a => a) (logging ex_flaky) ([], []) ["A"; "A"; "A"; "B"]%string)
  = [Err OtherError; Ok 1%nat; Ok 1%nat; Ok 2%nat].
Proof. now rewrite ex_flaky_calls. Qed.

(** C01: the undecorated function is evaluated successfully at most once per
    printed argument text. *)
Theorem C01_once : forall (Arg Key Val : Type) (keqb : Key -> Key -> bool),
  (forall a b, keqb a b = true <-> a = b) ->
  forall (key : Arg -> Key) (g : nat -> Arg -> res Val) l k,
  (successes keqb key k (snd (fst (cached_calls keqb key (logging g) ([], []) l))) <= 1)%nat.
Proof. exact @calls_once. Qed.
Print Assumptions C01_once.

Example C01_once_ex :
  snd (fst (cached_calls String.eqb (fun a => a) (logging ex_flaky) ([], []) ["A"; "A"; "A"; "B"]%string))
  = [("A", Err OtherError); ("A", Ok 1%nat); ("B", Ok 2%nat)]%string.
Proof. now rewrite ex_flaky_calls. Qed.

(** C01: a call that raises has evaluated the function just now and leaves the
    cache as it was. *)
Theorem C01_errors_not_stored : forall (World Arg Key Val : Type) (keqb : Key -> Key -> bool),
  (forall a b, keqb a b = true <-> a = b) ->
  forall (key : Arg -> Key) (f : World -> Arg -> World * res Val) c w a s' e,
  cached_call keqb key f (c, w) a = (s', Err e) ->
  fst s' = c /\ snd (f w a) = Err e /\ dget keqb c (key a) = None.
Proof. exact @call_error. Qed.
Print Assumptions C01_errors_not_stored.

Example C01_errors_not_stored_ex :
  cached_call String.eqb (fun a => snd a) ex_world ([("A"%string, 5%nat)], 0%nat) ("ev", "")%string
  = (([("A"%string, 5%nat)], 1%nat), Err SkipError).
Proof. reflexivity. Qed.

(** C02: different arguments (positional or keyword) have different keys,
    whatever characters are printable. *)
Theorem C02_key_injective : forall printable a1 k1 a2 k2,
  Forall wf a1 -> Forall wf a2 ->
  Forall (fun p => is_text (fst p) /\ wf (snd p)) k1 -> Forall (fun p => is_text (fst p) /\ wf (snd p)) k2 ->
  cache_key printable a1 k1 = cache_key printable a2 k2 -> a1 = a2 /\ k1 = k2.
Proof. exact cache_key_inj. Qed.
Print Assumptions C02_key_injective.

Example C02_key_injective_ex : Forall wf ex_args /\ Forall (fun p => is_text (fst p) /\ wf (snd p)) ex_kwargs /\
  cache_key (fun c => N.eqb c 233) ex_args ex_kwargs =
  asc "('it\'s, a ""test', -20, 1.5e-07, True, None, (1,), ['\n\\" ++ [233%N] ++ asc "\u2029']){'cfreqs': {'a': ()}}".
Proof. split; [apply ex_wf|]. split; [apply ex_wf|exact ex_key]. Qed.
