(** * Certs: certificates of stratumv2/src/noise.  Definitions only. *)
From Coq Require Import Strings.String ZArith.
From Verif Require Import Base Codec Types.
Local Open Scope N_scope.
Local Open Scope list_scope.

(** ** base58

    [bitcoin::util::base58::from] (crate bitcoin 0.26, Cargo.toml:17) is not part of /repo; this is the
    algorithm of that crate: "X = X * 58 + digit" in a base-256 scratch buffer of 1 + len * 11 / 15 bytes,
    an assertion that the last carry is 0, one zero byte per leading '1', then the significant bytes.
    The scratch buffer is kept least significant byte first here. *)
Definition BASE58_CHARS : bytes :=
  list_byte_of_string "123456789ABCDEFGHJKLMNPQRSTUVWXYZabcdefghijkmnopqrstuvwxyz".

Fixpoint index_of (c : byte) (l : bytes) (i : N) : option N :=
  match l with
  | [] => None
  | x :: l' => if Byte.eqb x c then Some i else index_of c l' (i + 1)
  end.
Definition b58_digit (c : byte) : option N := index_of c BASE58_CHARS 0.

(** carry += d256 * 58; d256 = carry as u8; carry /= 256. *)
Fixpoint b58_mul_add (scratch : list N) (carry : N) : list N * N :=
  match scratch with
  | [] => ([], carry)
  | d :: ds =>
      let c := carry + d * 58 in
      let '(ds', c') := b58_mul_add ds (c / 256) in
      (c mod 256 :: ds', c')
  end.
Fixpoint b58_loop (data : bytes) (scratch : list N) : Result (list N) :=
  match data with
  | [] => Ok scratch
  | c :: data' =>
      match b58_digit c with
      | None => Err Base58Error
      | Some d =>
          let '(scratch', carry) := b58_mul_add scratch d in
          if carry =? 0 then b58_loop data' scratch' else Panic
      end
  end.
Fixpoint take_ones (data : bytes) : bytes :=
  match data with
  | c :: data' => if Byte.eqb c x31 then x00 :: take_ones data' else []
  | [] => []
  end.
Fixpoint skip_zeros (l : bytes) : bytes :=
  match l with
  | c :: l' => if Byte.eqb c x00 then skip_zeros l' else l
  | [] => []
  end.
Definition base58_from (data : bytes) : Result bytes :=
  match b58_loop data (repeat 0 (N.to_nat (1 + len data * 11 / 15))) with
  | Ok scratch => Ok (take_ones data ++ skip_zeros (rev (map b8 scratch)))
  | Err e => Err e
  | Panic => Panic
  end.

(** ** ed25519-dalek, as a record of functions

    [ed_sig_checked] tells whether [Signature::new] (ed25519 crate) checks the three high bits of the last
    byte and panics when one is set (crate versions from 1.3 on), or takes any 64 bytes (before). *)
Record ed_keypair := mkEdKeypair { ek_secret : bytes; ek_public : bytes }.
Record ed_ops := mkEd {
  ed_valid : bytes -> bool;                      (* PublicKey::from_bytes succeeds *)
  ed_sign : ed_keypair -> bytes -> bytes;        (* Keypair::sign, to_bytes of the signature *)
  ed_verify : bytes -> bytes -> bytes -> bool;   (* PublicKey::verify key message signature *)
  ed_sig_checked : bool }.

Section Ed.
Variable E : ed_ops.

Definition signature_new (b : bytes) : Result bytes :=
  if ed_sig_checked E && negb (N.land (Byte.to_N (nth 63 b x00)) 0xE0 =? 0) then Panic else Ok b.

(** noise/types.rs:26-33 and 52-59: one write; the length of the key is returned whatever was taken. *)
Definition ser_static_key (k : bytes) : wprog N := (_ <- wwrite k ;; wok (len k))%ser.
Definition ser_signature (s : bytes) : wprog N := (_ <- wwrite s ;; wok (len s))%ser.
(** noise/types.rs:61-66: next_by(64), try_into of the slice to [u8; 64]. *)
Definition de_signature : De bytes :=
  (b <- next_by 64 ;;
   a <- de_lift (if len b =? 64 then Ok b else Err TryFromSliceError) ;;
   de_lift (signature_new a))%de.

(** noise/signed_certificate.rs:12-17. *)
Record signed_certificate := mkCert {
  ce_version : N; ce_valid_from : N; ce_not_valid_after : N; ce_public_key : bytes }.
(** signed_certificate.rs:20-39. *)
Definition cert_new (version valid_from not_valid_after : N) (key : bytes) : Result signed_certificate :=
  if not_valid_after <=? valid_from then Err RequirementError
  else Ok (mkCert version valid_from not_valid_after key).
(** signed_certificate.rs:41-52. *)
Definition ser_cert (c : signed_certificate) : wprog N :=
  (n1 <- ser_u16 (ce_version c) ;;
   n2 <- ser_u32 (ce_valid_from c) ;;
   n3 <- ser_u32 (ce_not_valid_after c) ;;
   n4 <- ser_static_key (ce_public_key c) ;;
   wok (n1 + n2 + n3 + n4))%ser.
(** signed_certificate.rs:57-65. *)
Definition authority_sign_cert (kp : ed_keypair) (c : signed_certificate) : Result bytes :=
  obind (serialize (ser_cert c)) (fun bs => Ok (ed_sign E kp bs)).

(** noise/signature_noise_message.rs:17-22. *)
Record snm := mkSnm { sn_version : N; sn_valid_from : N; sn_not_valid_after : N; sn_signature : bytes }.
(** signature_noise_message.rs:25-32. *)
Definition snm_new (c : signed_certificate) (s : bytes) : snm :=
  mkSnm (ce_version c) (ce_valid_from c) (ce_not_valid_after c) s.
(** signature_noise_message.rs:37-47. *)
Definition from_auth_key (kp : ed_keypair) (c : signed_certificate) : Result snm :=
  obind (authority_sign_cert kp c) (fun s =>
  Ok (mkSnm (ce_version c) (ce_valid_from c) (ce_not_valid_after c) s)).
(** signature_noise_message.rs:50-61. *)
Definition ser_snm (m : snm) : wprog N :=
  (n1 <- ser_u16 (sn_version m) ;;
   n2 <- ser_u32 (sn_valid_from m) ;;
   n3 <- ser_u32 (sn_not_valid_after m) ;;
   n4 <- ser_signature (sn_signature m) ;;
   wok (n1 + n2 + n3 + n4))%ser.
(** signature_noise_message.rs:63-79. *)
Definition de_snm : De snm :=
  (v <- de_u16 ;;
   f <- de_u32 ;;
   t <- de_u32 ;;
   s <- de_signature ;;
   de_ret (mkSnm v f t s))%de.

(** noise/certificate_format.rs:18-22. *)
Record certificate_format := mkCf { cf_authority : bytes; cf_static : bytes; cf_message : snm }.
(** certificate_format.rs:25-40. *)
Definition cf_new (authority : bytes) (static : bytes) (m : snm) : Result certificate_format :=
  obind (base58_from authority) (fun k =>
  if len k =? 32 then
    if ed_valid E k then Ok (mkCf k static m) else Err AuthorityKeyError
  else Err ParseError).
(** certificate_format.rs:65-78. *)
Definition ser_cf (c : certificate_format) : wprog N :=
  (n1 <- ser_u16 (sn_version (cf_message c)) ;;
   n2 <- ser_u32 (sn_valid_from (cf_message c)) ;;
   n3 <- ser_u32 (sn_not_valid_after (cf_message c)) ;;
   n4 <- ser_static_key (cf_static c) ;;
   wok (n1 + n2 + n3 + n4))%ser.
(** certificate_format.rs:45-58; [now] is SystemTime::now() (types/unix_timestamp.rs:12-14). *)
Definition cf_verify (now : system_time) (c : certificate_format) : Result unit :=
  obind (system_unix_time_to_u32 now) (fun t =>
  if sn_not_valid_after (cf_message c) <=? t then Err RequirementError
  else
    obind (serialize (ser_cf c)) (fun certificate =>
    if ed_verify E (cf_authority c) certificate (sn_signature (cf_message c))
    then Ok tt else Err AuthorityKeyError)).

End Ed.
