(** * Keys: the destructor of a session, error sources and key pair constructors.  Definitions only. *)
From Verif Require Import Base Noise.
Open Scope N_scope.

(** noisesession.rs:72-79.  The method consumes the session; the result here is what its fields hold when
    they are dropped ([Drop] is not implemented by any of the types, so nothing else is zeroed). *)
Definition end_session (s : session) : session :=
  mkSession (hs_clear (se_hs s)) EMPTY_KEY (cs_clear (se_cs1 s)) (cs_clear (cs_clear (se_cs2 s))) 0
    (se_i s) (se_transport s).

(** types.rs:91-96 [Key::generate_public_key]: no check for the empty key. *)
Definition key_generate_public_key (C : crypto) (k : bytes) : bytes := c_pub C k.
(** types.rs:251-258 [PrivateKey::generate_public_key]. *)
Definition private_generate_public_key (C : crypto) (k : bytes) : NResult bytes :=
  if is_zero_key k then Err InvalidKeyError else Ok (c_pub C k).
(** types.rs:430-432. *)
Definition keypair_from_private_key (C : crypto) (k : bytes) : NResult keypair := keypair_from_key C k.

(** ** [std::error::Error::source] *)
Inductive any_error :=
| ANoise (e : noise_error)      (* nx-noise error.rs:4-19 *)
| ALib (e : error)              (* stratumv2/src/error.rs:5-62 *)
| AForeign (id : N).            (* errors of std and of other crates *)

Section Source.
(** The sources of foreign errors: [lib_inner e] is the source of the foreign error wrapped in [e]. *)
Variable foreign : N -> option any_error.
Variable lib_inner : error -> option any_error.

(** nx-noise error.rs:48-52: [Some(self)]. *)
Definition noise_source (e : noise_error) : option any_error := Some (ANoise e).
(** stratumv2/src/error.rs: what thiserror derives; [#[error(transparent)]] forwards to the wrapped error,
    the other variants have no source. *)
Definition lib_source (e : error) : option any_error :=
  match e with
  | NoiseError e => noise_source e
  | Base58Error | IOError | Utf8Error | FromUtf8Error | AuthorityKeyError | SystemTimeError | TryFromSliceError =>
      lib_inner e
  | _ => None
  end.
Definition source (x : any_error) : option any_error :=
  match x with ANoise e => noise_source e | ALib e => lib_source e | AForeign n => foreign n end.
End Source.
