(** * PropReuse: C71 exactly, under which key and counter an initiator sends whatever is called. *)
From Verif Require Import Base Noise SpecNoise SpecSession SpecTransport SpecReuse NoiseSamples SessionClaims ReuseProofs.
Local Open Scope N_scope.
Local Open Scope list_scope.

(** C71.  Full statement: no two messages of a session have the same key and counter.  For an initiator the calls and
    their results say what every message is sent with ([spots]).  Two messages of one spot have the same key and counter;
    other than that it takes an accident of REKEY, and in both cases the second message comes after a clearing. *)
Theorem C71_exactly_partial : forall C, crypto_ok C -> forall s cs, reachable C s -> is_transport s = true -> se_i s = true ->
  let k0 := cs_k (se_cs1 s) in
  let ps := spots (mkSpot false 0 (cs_n (se_cs1 s))) cs (results C s cs) in
  Forall2 (fun x p => key_at C k0 p <> zeros32 /\ sent p < 2 ^ 64 - 1 /\ snd x = ENCRYPT C (key_at C k0 p) (sent p) [] (plaintext_of (fst x)))
    (transport_sends C s cs) ps /\
  forall j j' p p', (j < j')%nat -> nth_error ps j = Some p -> nth_error ps j' = Some p' -> sent p = sent p' ->
    cleared p' = true /\ (key_at C k0 p = key_at C k0 p' ->
      (exists r n, p = mkSpot true r n /\ p' = mkSpot true r n /\ (0 < r)%nat) \/
      ((cleared p, rekeys p) <> (cleared p', rekeys p') /\
       rekeyed C (rekeys p) (if cleared p then zeros32 else k0) = rekeyed C (rekeys p') zeros32)).
Proof. exact reuse_exactly. Qed.
Print Assumptions C71_exactly_partial.
Definition ru_calls : list call :=
  [Send [] ([x61] ++ placeholder); RekeyLocal; Send [] ([x62] ++ placeholder); ClearLocal; Send [] ([x63] ++ placeholder); RekeyRemote;
   Send [] ([x64] ++ placeholder); ClearLocal; RekeyLocal; Recv []; Send [] ([x65] ++ placeholder)].
Example C71_ex_spots : crypto_ok demo_crypto /\ reachable demo_crypto d_I /\ is_transport d_I = true /\ se_i d_I = true /\
  spots (mkSpot false 0 (cs_n (se_cs1 d_I))) ru_calls (results demo_crypto d_I ru_calls) =
    [mkSpot false 0 0; mkSpot false 1 1; mkSpot true 1 0; mkSpot true 1 0].
Proof. split; [exact demo_ok|]. split; [exact d_reach_I|]. split; [reflexivity|]. split; [reflexivity|]. vm_compute. reflexivity. Qed.
