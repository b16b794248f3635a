(** * SpecBinding: what a finished handshake was about, and the chain of hashes over it. *)
From Coq Require Import Strings.String.
From Verif Require Import Base Noise SpecNoise SpecSession.
Open Scope N_scope.

Section Binding.
Variable C : crypto.

(** Session [s] has finished a handshake with prologue [pro] in which [m1] and [m2] were the messages it
    wrote or read itself.  Nothing is said about the other end: the network may have altered both. *)
Inductive finished (pro : bytes) : bytes -> bytes -> session -> Prop :=
| fin_initiator : forall si ei rnd I0 b1 m2,
    started C true pro si rnd ei I0 -> keypair_ok ei ->
    let x1 := send_message C rnd I0 b1 in
    let x4 := recv_message C (st x1) m2 in
    res x1 = Ok tt -> res x4 = Ok tt -> finished pro (out x1) m2 (st x4)
| fin_responder : forall sr er rnd R0 m1 b2,
    started C false pro sr rnd er R0 -> keypair_ok sr -> keypair_ok er ->
    let x2 := recv_message C R0 m1 in
    let x3 := send_message C rnd (st x2) b2 in
    res x2 = Ok tt -> res x3 = Ok tt -> finished pro m1 (out x3) (st x3).

(** Noise section 5.2: the pieces hashed one after another, from the hash of the protocol name (which is
    longer than 32 bytes). *)
Definition first_pieces (pro m1 : bytes) : list bytes := [pro; firstn 32 m1; skipn 32 m1].
Definition pieces (pro m1 m2 : bytes) : list bytes :=
  first_pieces pro m1 ++ [firstn 32 m2; firstn 48 (skipn 32 m2); skipn 80 m2].
Definition h_name : bytes := c_hash C (list_byte_of_string "Noise_NX_25519_ChaChaPoly_BLAKE2s").
Definition chain (h : bytes) (ds : list bytes) : bytes := fold_left (fun h d => c_hash C (h ++ d)) ds h.
(** The strings given to the hash function on the way. *)
Fixpoint hashed (h : bytes) (ds : list bytes) : list bytes :=
  match ds with
  | [] => []
  | d :: ds' => (h ++ d) :: hashed (c_hash C (h ++ d)) ds'
  end.
(** At some place the two lists have different strings with the same hash. *)
Definition collide (xs ys : list bytes) : Prop :=
  exists i x y, nth_error xs i = Some x /\ nth_error ys i = Some y /\ x <> y /\ c_hash C x = c_hash C y.

(** The key under which the responder's static key travels: from the first Diffie-Hellman result. *)
Definition ee_key (private public : bytes) : bytes :=
  let '(_, k, _) := HKDF C h_name (c_dh C private public) in k.
End Binding.
