(** * SpecPass: every call of an encryptor in terms of the table of SpecStory, and two encryptors that hand each
    other every answer. *)
From Verif Require Import Base Codec Noise SpecNoise SpecSession SpecTransport SpecStory Network.
Open Scope N_scope.
Open Scope list_scope.

(** ** Any calls on one encryptor *)
(** [Begin rnd] is [init_handshake], [Take rnd d] is [recv_handshake] on the buffer [d]; [rnd] is what the random
    generator would return. *)
Inductive ecall := Begin (rnd : bytes) | Take (rnd d : bytes).

Section Encryptor.
Variable C : crypto.

(** One call: the encryptor afterwards and what the call returns. *)
Definition enc_call (s : session) (c : ecall) : session * Result bytes :=
  match c with
  | Begin rnd => init_handshake C rnd s
  | Take rnd d => let '(s', _, r) := recv_handshake C rnd s d in (s', r)
  end.
(** The calls one after another; the encryptor at the end.  Nothing is called after a panic. *)
Fixpoint enc_run (s : session) (cs : list ecall) : list (Result bytes) * session :=
  match cs with
  | [] => ([], s)
  | c :: cs' =>
      let '(s', r) := enc_call s c in
      match r with
      | Panic => ([r], s')
      | _ => let '(rs, e) := enc_run s' cs' in (r :: rs, e)
      end
  end.

(** What the table says of one call. *)
Inductive handled (i : bool) (g : stage) : ecall -> stage -> Result bytes -> Prop :=
| ha_begin : forall rnd g' b, asked C i g (Send rnd (repeat x00 1024)) g' b (Ok tt) -> handled i g (Begin rnd) g' (Ok b)
| ha_begin_err : forall rnd g' b e, asked C i g (Send rnd (repeat x00 1024)) g' b (Err e) ->
    handled i g (Begin rnd) g' (Err (NoiseError e))
| ha_refused : forall rnd d g' b e, asked C i g (Recv d) g' b (Err e) -> handled i g (Take rnd d) g' (Err (NoiseError e))
| ha_panic : forall rnd d g' b, asked C i g (Recv d) g' b Panic -> handled i g (Take rnd d) g' Panic
| ha_unanswered : forall rnd d g1 b g' b' e, asked C i g (Recv d) g1 b (Ok tt) -> asked C i g1 (Send rnd b) g' b' (Err e) ->
    handled i g (Take rnd d) g' (Err (NoiseError e))
| ha_answered : forall rnd d g1 b g' b', asked C i g (Recv d) g1 b (Ok tt) -> asked C i g1 (Send rnd b) g' b' (Ok tt) ->
    handled i g (Take rnd d) g' (Ok b').

Inductive handling (i : bool) : stage -> list ecall -> list (Result bytes) -> stage -> Prop :=
| hd_nil : forall g, handling i g [] [] g
| hd_panic : forall g c cs g', handled i g c g' Panic -> handling i g (c :: cs) [Panic] g'
| hd_cons : forall g c g1 r cs rs g', handled i g c g1 r -> r <> Panic -> handling i g1 cs rs g' ->
    handling i g (c :: cs) (r :: rs) g'.

(** What the encryptor then says of itself. *)
Definition tells (s : session) (g : stage) : Prop :=
  match g with
  | Handshake _ _ => is_handshake_complete s = false /\ get_remote_pubkey s = None
  | Done _ rs _ => is_handshake_complete s = true /\ get_remote_pubkey s = Some rs
  end.

(** ** Two encryptors *)
(** [y] takes [m], which comes from [x], and its answer goes to [x], and so on until a call fails. *)
Fixpoint passing (x y : session) (m : bytes) (rnds : list bytes) : list (Result bytes) :=
  match rnds with
  | [] => []
  | rnd :: rnds' =>
      let '(y', r) := enc_call y (Take rnd m) in
      match r with
      | Ok m' => r :: passing y' x m' rnds'
      | _ => [r]
      end
  end.
(** Message [j] of the conversation, [j >= 3] (1 and 2 are the handshake): odd ones are the initiator's, sealed with
    [k1], even ones the responder's, sealed with [k2]; both count from 0; counter 2^64 - 1 is never used. *)
Definition message (k1 k2 pt : bytes) (j : N) : Result bytes :=
  let n := (j - 3) / 2 in
  if n <? 2 ^ 64 - 1 then Ok (ENCRYPT C (if N.odd j then k1 else k2) n [] pt) else Err (NoiseError ExhaustedNonceError).
End Encryptor.
