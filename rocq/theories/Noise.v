(** * Noise: the nx-noise crate.  Definitions only.  stratumv2/nx-noise/src *)
From Coq Require Import Strings.String.
From Verif Require Import Base.
Open Scope N_scope.

(** ** Constants.  consts.rs:8-17 *)
Definition DHLEN : nat := 32.
Definition HASHLEN : nat := 32.
Definition BLOCKLEN : nat := 64.
Definition MAC_LENGTH : nat := 16.
Definition MAX_MESSAGE : N := 0xFFFF.
Definition MAX_NONCE : N := 2 ^ 64 - 1.
Definition EMPTY_KEY : bytes := repeat x00 32.   (* also EMPTY_HASH *)

(** consts.rs:18-31 forbidden_curve_values. *)
Definition forbidden_curve_values : list bytes := map (map b8) [
  [0;0;0;0;0;0;0;0;0;0;0;0;0;0;0;0;0;0;0;0;0;0;0;0;0;0;0;0;0;0;0;0];
  [1;0;0;0;0;0;0;0;0;0;0;0;0;0;0;0;0;0;0;0;0;0;0;0;0;0;0;0;0;0;0;0];
  [224;235;122;124;59;65;184;174;22;86;227;250;241;159;196;106;218;9;141;235;156;50;177;253;134;98;5;22;95;73;184;0];
  [95;156;149;188;163;80;140;36;177;208;177;85;156;131;239;91;4;68;92;196;88;28;142;134;216;34;78;221;208;159;17;87];
  [236;255;255;255;255;255;255;255;255;255;255;255;255;255;255;255;255;255;255;255;255;255;255;255;255;255;255;255;255;255;255;127];
  [237;255;255;255;255;255;255;255;255;255;255;255;255;255;255;255;255;255;255;255;255;255;255;255;255;255;255;255;255;255;255;127];
  [238;255;255;255;255;255;255;255;255;255;255;255;255;255;255;255;255;255;255;255;255;255;255;255;255;255;255;255;255;255;255;127];
  [205;235;122;124;59;65;184;174;22;86;227;250;241;159;196;106;218;9;141;235;156;50;177;253;134;98;5;22;95;73;184;128];
  [76;156;149;188;163;80;140;36;177;208;177;85;156;131;239;91;4;68;92;196;88;28;142;134;216;34;78;221;208;159;17;215];
  [217;255;255;255;255;255;255;255;255;255;255;255;255;255;255;255;255;255;255;255;255;255;255;255;255;255;255;255;255;255;255;255];
  [218;255;255;255;255;255;255;255;255;255;255;255;255;255;255;255;255;255;255;255;255;255;255;255;255;255;255;255;255;255;255;255];
  [219;255;255;255;255;255;255;255;255;255;255;255;255;255;255;255;255;255;255;255;255;255;255;255;255;255;255;255;255;255;255;255]].

(** ** External primitives (crates blake2-rfc and hacl-star), as a record of functions.
    Total on byte lists; only the array sizes of the Rust types are ever used. *)
Record crypto := mkCrypto {
  c_hash : bytes -> bytes;                                  (* Blake2s::new(32), update, finalize *)
  c_seal : bytes -> bytes -> bytes -> bytes -> bytes * bytes;   (* key nonce ad in_out -> in_out', mac *)
  c_open : bytes -> bytes -> bytes -> bytes -> bytes -> bool * bytes; (* key nonce ad in_out mac -> ok, in_out' *)
  c_dh : bytes -> bytes -> bytes;                           (* curve25519::scalarmult secret public *)
  c_pub : bytes -> bytes }.                                 (* curve25519::SecretKey::get_public *)

Definition NResult := outcome noise_error.

(** ** types.rs *)

(** Keys, hashes and public keys are 32-byte arrays, modelled as [bytes].
    types.rs:87-89, 165-167, 247-249, 334-336 [is_empty]. *)
Definition is_zero_key (k : bytes) : bool := bytes_eqb k EMPTY_KEY.

(** hex crate 0.3 [decode]: [val] on one digit. *)
Definition hex_digit (c : byte) : option N :=
  let n := Byte.to_N c in
  if (48 <=? n) && (n <=? 57) then Some (n - 48)
  else if (97 <=? n) && (n <=? 102) then Some (n - 97 + 10)
  else if (65 <=? n) && (n <=? 70) then Some (n - 65 + 10)
  else None.
(** hex crate 0.3 [decode]: odd length or a non-digit is an error. *)
Fixpoint hex_decode (s : bytes) : option bytes :=
  match s with
  | [] => Some []
  | [_] => None
  | a :: b :: t =>
      match hex_digit a, hex_digit b with
      | Some x, Some y =>
          match hex_decode t with Some r => Some (b8 (16 * x + y) :: r) | None => None end
      | _, _ => None
      end
  end.
(** types.rs:13-25. *)
Definition decode_str_32 (s : bytes) : NResult bytes :=
  match hex_decode s with
  | Some x => if len x =? 32 then Ok x else Err InvalidInputError
  | None => Err InvalidInputError
  end.
(** types.rs:117-120, 196-200, 280-283. *)
Definition key_from_str (s : bytes) : NResult bytes := decode_str_32 s.
Definition psk_from_str (s : bytes) : NResult bytes := decode_str_32 s.
Definition private_key_from_str (s : bytes) : NResult bytes := decode_str_32 s.
(** types.rs:359-362: no check against the forbidden values. *)
Definition public_key_from_str (s : bytes) : NResult bytes := decode_str_32 s.
(** types.rs:296-303. *)
Definition public_key_from_bytes (k : bytes) : NResult bytes :=
  if existsb (bytes_eqb k) forbidden_curve_values then Err InvalidPublicKeyError else Ok k.

(** types.rs:384-388. *)
Record keypair := mkKeypair { kp_private : bytes; kp_public : bytes }.
Definition keypair_empty : keypair := mkKeypair EMPTY_KEY EMPTY_KEY.     (* types.rs:395-400, 390-393 clear *)
Definition keypair_is_empty (kp : keypair) : bool := is_zero_key (kp_private kp).  (* types.rs:416-418 *)
(** types.rs:376-381. *)
Definition nonce_get (n : N) : NResult N := if n =? MAX_NONCE then Err ExhaustedNonceError else Ok n.

(** utils.rs:6-11.  Simplified: all callers pass at least 32 bytes (the Rust slice index would panic; Index.v, C135). *)
Definition from_slice_hashlen (b : bytes) : bytes := firstn 32 b.
(** utils.rs:12-16. *)
Definition prep_nonce (n : N) : bytes := repeat x00 4 ++ to_le 8 n.

Definition xor_byte (a b : byte) : byte := b8 (N.lxor (Byte.to_N a) (Byte.to_N b)).
(** The loop of prims.rs:37-40: xor [key] into the front of [pad]. *)
Fixpoint xor_into (pad key : bytes) : bytes :=
  match pad, key with
  | p :: pad', k :: key' => xor_byte p k :: xor_into pad' key'
  | _, _ => pad
  end.

(** ** state.rs *)
Record cipher_state := mkCS { cs_k : bytes; cs_n : N }.                   (* state.rs:15-18 *)
Record symmetric_state := mkSS { ss_cs : cipher_state; ss_ck : bytes; ss_h : bytes }. (* 126-130 *)
Record handshake_state := mkHS {                                          (* 257-264 *)
  hs_ss : symmetric_state;
  hs_s : keypair;
  hs_e : keypair;
  hs_rs : bytes;
  hs_re : bytes;
  hs_psk : bytes }.

Definition cs_from_key (k : bytes) : cipher_state := mkCS k 0.            (* 34-37 *)
Definition cs_new : cipher_state := cs_from_key EMPTY_KEY.                (* 21-23 *)
Definition cs_clear_key (c : cipher_state) : cipher_state := mkCS EMPTY_KEY (cs_n c). (* 25-27 *)
Definition cs_clear (c : cipher_state) : cipher_state := mkCS EMPTY_KEY 0. (* 29-32 *)
Definition cs_has_key (c : cipher_state) : bool := negb (is_zero_key (cs_k c)). (* 39-41 *)

Definition hs_set_ss (h : handshake_state) (ss : symmetric_state) : handshake_state :=
  mkHS ss (hs_s h) (hs_e h) (hs_rs h) (hs_re h) (hs_psk h).
Definition hs_set_e (h : handshake_state) (e : keypair) : handshake_state :=
  mkHS (hs_ss h) (hs_s h) e (hs_rs h) (hs_re h) (hs_psk h).
Definition hs_set_re (h : handshake_state) (re : bytes) : handshake_state :=
  mkHS (hs_ss h) (hs_s h) (hs_e h) (hs_rs h) re (hs_psk h).
Definition hs_set_rs (h : handshake_state) (rs : bytes) : handshake_state :=
  mkHS (hs_ss h) (hs_s h) (hs_e h) rs (hs_re h) (hs_psk h).
(** state.rs:267-272: s, e, re, psk, but not rs and not ss. *)
Definition hs_clear (h : handshake_state) : handshake_state :=
  mkHS (hs_ss h) keypair_empty keypair_empty (hs_rs h) EMPTY_KEY EMPTY_KEY.

(** noisesession.rs:36-44.  Simplified: [mc : u128] is unbounded (2^128 messages would be needed; Counter.v has it exactly). *)
Record session := mkSession {
  se_hs : handshake_state;
  se_h : bytes;
  se_cs1 : cipher_state;
  se_cs2 : cipher_state;
  se_mc : N;
  se_i : bool;
  se_transport : bool }.

Section Prims.
Variable C : crypto.

(** prims.rs:18-31. *)
Definition hash (data : bytes) : bytes := from_slice_hashlen (c_hash C data).
Definition hash_with_context (con data : bytes) : bytes := from_slice_hashlen (c_hash C (con ++ data)).
(** prims.rs:33-48.  Simplified: keys longer than 64 bytes (index panic) never occur (Index.v, C135). *)
Definition hmac (key data : bytes) : bytes :=
  let ipad := xor_into (repeat x36 BLOCKLEN) key in
  let opad := xor_into (repeat x5c BLOCKLEN) key in
  let inner := c_hash C (ipad ++ data) in
  c_hash C (opad ++ firstn HASHLEN inner).
(** prims.rs:50-71 with [outputs] = 2 and 3; the unused outputs stay zero in Rust and are dropped. *)
Definition hkdf2 (ck ikm : bytes) : bytes * bytes :=
  let temp := hmac ck ikm in
  let out1 := hmac temp [x01] in
  let out2 := hmac temp (firstn HASHLEN out1 ++ [x02]) in
  (out1, out2).
Definition hkdf3 (ck ikm : bytes) : bytes * bytes * bytes :=
  let temp := hmac ck ikm in
  let out1 := hmac temp [x01] in
  let out2 := hmac temp (firstn HASHLEN out1 ++ [x02]) in
  let out3 := hmac temp (firstn HASHLEN out2 ++ [x03]) in
  (out1, out2, out3).

(** types.rs:402-409; [rnd] is the secret key drawn from the random source. *)
Definition keypair_default (rnd : bytes) : keypair := mkKeypair rnd (c_pub C rnd).
(** types.rs:251-258, 421-432. *)
Definition keypair_from_key (k : bytes) : NResult keypair :=
  if is_zero_key k then Err InvalidKeyError else Ok (mkKeypair k (c_pub C k)).
(** types.rs:410-414. *)
Definition keypair_dh (kp : keypair) (pk : bytes) : bytes := c_dh C (kp_private kp) pk.

(** state.rs:53-72.  Result: state, in_out, mac, outcome. *)
Definition cs_encrypt_with_ad (c : cipher_state) (ad in_out : bytes)
  : cipher_state * bytes * bytes * NResult unit :=
  match nonce_get (cs_n c) with
  | Ok nonce =>
      if cs_has_key c then
        let '(ct, mac) := c_seal C (from_slice_hashlen (cs_k c)) (prep_nonce nonce) ad in_out in
        (mkCS (cs_k c) (cs_n c + 1), ct, mac, Ok tt)
      else (c, in_out, repeat x00 MAC_LENGTH, Err EmptyKeyError)
  | Err e => (c, in_out, repeat x00 MAC_LENGTH, Err e)
  | Panic => (c, in_out, repeat x00 MAC_LENGTH, Panic)
  end.

(** state.rs:74-95. *)
Definition cs_decrypt_with_ad (c : cipher_state) (ad in_out mac : bytes)
  : cipher_state * bytes * NResult unit :=
  match nonce_get (cs_n c) with
  | Ok nonce =>
      if cs_has_key c then
        let '(ok, pt) := c_open C (from_slice_hashlen (cs_k c)) (prep_nonce nonce) ad in_out mac in
        if ok then (mkCS (cs_k c) (cs_n c + 1), pt, Ok tt)
        else (c, pt, Err DecryptionError)
      else (c, in_out, Err EmptyKeyError)
  | Err e => (c, in_out, Err e)
  | Panic => (c, in_out, Panic)
  end.

(** state.rs:98-106: no check for a key, the counter is kept. *)
Definition cs_rekey (c : cipher_state) : cipher_state :=
  mkCS (fst (c_seal C (cs_k c) (repeat xff 12) [] EMPTY_KEY)) (cs_n c).

(** [split_at_mut(in_out.len() - MAC_LENGTH)]; [None] when the subtraction underflows (a panic with
    overflow checks; without them split_at_mut panics on the huge index). *)
Definition split_mac (b : bytes) : option (bytes * bytes) :=
  if len b <? 16 then None
  else let k := (length b - MAC_LENGTH)%nat in Some (firstn k b, skipn k b).

(** state.rs:108-114. *)
Definition cs_write_message_regular (c : cipher_state) (in_out : bytes)
  : cipher_state * bytes * NResult unit :=
  match split_mac in_out with
  | None => (c, in_out, Panic)
  | Some (pt, mac) =>
      let '(c', ct, temp_mac, r) := cs_encrypt_with_ad c [] pt in
      match r with
      | Ok _ => (c', ct ++ temp_mac, Ok tt)
      | _ => (c', ct ++ mac, r)
      end
  end.

(** state.rs:116-123: the mac stays in the buffer. *)
Definition cs_read_message_regular (c : cipher_state) (in_out : bytes)
  : cipher_state * bytes * NResult unit :=
  match split_mac in_out with
  | None => (c, in_out, Panic)
  | Some (ct, mac) =>
      let '(c', pt, r) := cs_decrypt_with_ad c [] ct mac in
      (c', pt ++ mac, r)
  end.

(** state.rs:133-136: key and chaining key, not the nonce, not [h]. *)
Definition ss_clear (s : symmetric_state) : symmetric_state :=
  mkSS (cs_clear_key (ss_cs s)) EMPTY_KEY (ss_h s).

(** state.rs:138-153. *)
Definition initialize_symmetric (name : bytes) : symmetric_state :=
  let h :=
    if len name <? 32 then name ++ repeat x00 (32 - length name)
    else if len name =? 32 then from_slice_hashlen name
    else hash name in
  mkSS cs_new (from_slice_hashlen h) h.

(** state.rs:155-171. *)
Definition mix_key (s : symmetric_state) (ikm : bytes) : symmetric_state :=
  let '(out0, out1) := hkdf2 (ss_ck s) ikm in
  mkSS (cs_from_key (firstn 32 out1)) out0 (ss_h s).

(** state.rs:173-175. *)
Definition mix_hash (s : symmetric_state) (data : bytes) : symmetric_state :=
  mkSS (ss_cs s) (ss_ck s) (hash_with_context (ss_h s) data).

(** state.rs:177-199 (dead code; the zeroising of the locals is left out). *)
Definition mix_key_and_hash (s : symmetric_state) (ikm : bytes) : symmetric_state :=
  let '(out0, out1, out2) := hkdf3 (ss_ck s) ikm in
  let s1 := mix_hash (mkSS (ss_cs s) out0 (ss_h s)) out1 in
  mkSS (cs_from_key (firstn 32 out2)) (ss_ck s1) (ss_h s1).

Definition ss_set_cs (s : symmetric_state) (c : cipher_state) : symmetric_state :=
  mkSS c (ss_ck s) (ss_h s).

(** state.rs:206-221. *)
Definition encrypt_and_hash (s : symmetric_state) (in_out : bytes)
  : symmetric_state * bytes * NResult unit :=
  if len in_out <? 16 then (s, in_out, Err MissingneError)
  else
    match split_mac in_out with
    | None => (s, in_out, Panic)
    | Some (pt, mac) =>
        let '(c', ct, temp_mac, r) := cs_encrypt_with_ad (ss_cs s) (ss_h s) pt in
        match r with
        | Ok _ => (mix_hash (ss_set_cs s c') (ct ++ temp_mac), ct ++ temp_mac, Ok tt)
        | _ => (ss_set_cs s c', ct ++ mac, r)
        end
    end.

(** state.rs:223-233: the 2048-byte scratch array panics on longer input. *)
Definition decrypt_and_hash (s : symmetric_state) (in_out : bytes)
  : symmetric_state * bytes * NResult unit :=
  if 2048 <? len in_out then (s, in_out, Panic)
  else
    match split_mac in_out with
    | None => (s, in_out, Panic)
    | Some (ct, mac) =>
        let '(c', pt, r) := cs_decrypt_with_ad (ss_cs s) (ss_h s) ct mac in
        match r with
        | Ok _ => (mix_hash (ss_set_cs s c') in_out, pt ++ mac, Ok tt)
        | _ => (ss_set_cs s c', pt ++ mac, r)
        end
    end.

(** state.rs:235-254. *)
Definition split (s : symmetric_state) : cipher_state * cipher_state :=
  let '(k1, k2) := hkdf2 (ss_ck s) [] in
  (cs_from_key (from_slice_hashlen (firstn 32 k1)), cs_from_key (from_slice_hashlen (firstn 32 k2))).

(** [b"Noise_NX_25519_ChaChaPoly_BLAKE2s"], state.rs:283, 298. *)
Definition protocol_name : bytes :=
  list_byte_of_string "Noise_NX_25519_ChaChaPoly_BLAKE2s"%string.

(** state.rs:282-310. *)
Definition initialize_initiator (prologue : bytes) (s : keypair) (psk : bytes) : handshake_state :=
  mkHS (mix_hash (initialize_symmetric protocol_name) prologue) s keypair_empty EMPTY_KEY EMPTY_KEY psk.
Definition initialize_responder (prologue : bytes) (s : keypair) (psk : bytes) : handshake_state :=
  mkHS (mix_hash (initialize_symmetric protocol_name) prologue) s keypair_empty EMPTY_KEY EMPTY_KEY psk.

(** state.rs:315-317, 335-337. *)
Definition ensure_ephemeral (rnd : bytes) (h : handshake_state) : handshake_state :=
  if keypair_is_empty (hs_e h) then hs_set_e h (keypair_default rnd) else h.

(** state.rs:311-326. *)
Definition write_message_a (rnd : bytes) (h : handshake_state) (in_out : bytes)
  : handshake_state * bytes * NResult unit :=
  if len in_out <? 32 then (h, in_out, Err MissingneError)
  else
    let h := ensure_ephemeral rnd h in
    let ne := kp_public (hs_e h) in
    let rest := skipn DHLEN in_out in
    (hs_set_ss h (mix_hash (mix_hash (hs_ss h) ne) rest), ne ++ rest, Ok tt).

(** state.rs:328-359. *)
Definition write_message_b (rnd : bytes) (h : handshake_state) (in_out : bytes)
  : handshake_state * bytes * NResult (bytes * cipher_state * cipher_state) :=
  if len in_out <? 32 then (h, in_out, Err MissingneError)
  else
    let h := ensure_ephemeral rnd h in
    let ne := kp_public (hs_e h) in
    let rest := skipn DHLEN in_out in
    let ss := mix_hash (hs_ss h) ne in
    let ss := mix_key ss (keypair_dh (hs_e h) (hs_re h)) in
    if len rest <? 48 then (hs_set_ss h ss, ne ++ rest, Err MissingneError)
    else
      let ns := kp_public (hs_s h) ++ skipn DHLEN (firstn 48 rest) in
      let rest := skipn 48 rest in
      let '(ss, ns, r) := encrypt_and_hash ss ns in
      match r with
      | Err e => (hs_set_ss h ss, ne ++ ns ++ rest, Err e)
      | Panic => (hs_set_ss h ss, ne ++ ns ++ rest, Panic)
      | Ok _ =>
          let ss := mix_key ss (keypair_dh (hs_s h) (hs_re h)) in
          let '(ss, rest, r) := encrypt_and_hash ss rest in
          match r with
          | Err e => (hs_set_ss h ss, ne ++ ns ++ rest, Err e)
          | Panic => (hs_set_ss h ss, ne ++ ns ++ rest, Panic)
          | Ok _ =>
              let '(cs1, cs2) := split ss in
              (hs_set_ss h (ss_clear ss), ne ++ ns ++ rest, Ok (from_slice_hashlen (ss_h ss), cs1, cs2))
          end
      end.

(** state.rs:361-373. *)
Definition read_message_a (h : handshake_state) (in_out : bytes)
  : handshake_state * bytes * NResult unit :=
  if len in_out <? 48 then (h, in_out, Err MissingreError)
  else
    match public_key_from_bytes (from_slice_hashlen (firstn DHLEN in_out)) with
    | Err e => (h, in_out, Err e)
    | Panic => (h, in_out, Panic)
    | Ok re =>
        let h := hs_set_re h re in
        (hs_set_ss h (mix_hash (mix_hash (hs_ss h) (firstn DHLEN (hs_re h))) (skipn DHLEN in_out)), in_out, Ok tt)
    end.

(** state.rs:375-399. *)
Definition read_message_b (h : handshake_state) (in_out : bytes)
  : handshake_state * bytes * NResult (bytes * cipher_state * cipher_state) :=
  if len in_out <? 48 then (h, in_out, Err MissingreError)
  else
    let re_bytes := firstn DHLEN in_out in
    let rest := skipn DHLEN in_out in
    match public_key_from_bytes (from_slice_hashlen re_bytes) with
    | Err e => (h, in_out, Err e)
    | Panic => (h, in_out, Panic)
    | Ok re =>
        let h := hs_set_re h re in
        let ss := mix_hash (hs_ss h) (firstn DHLEN re) in
        let ss := mix_key ss (keypair_dh (hs_e h) re) in
        if len rest <? 48 then (hs_set_ss h ss, in_out, Err MissingrsError)
        else
          let rs_bytes := firstn 48 rest in
          let rest := skipn 48 rest in
          let '(ss, rs_bytes, r) := decrypt_and_hash ss rs_bytes in
          match r with
          | Err e => (hs_set_ss h ss, re_bytes ++ rs_bytes ++ rest, Err e)
          | Panic => (hs_set_ss h ss, re_bytes ++ rs_bytes ++ rest, Panic)
          | Ok _ =>
              match public_key_from_bytes (from_slice_hashlen rs_bytes) with
              | Err e => (hs_set_ss h ss, re_bytes ++ rs_bytes ++ rest, Err e)
              | Panic => (hs_set_ss h ss, re_bytes ++ rs_bytes ++ rest, Panic)
              | Ok rs =>
                  let h := hs_set_rs h rs in
                  let ss := mix_key ss (keypair_dh (hs_e h) rs) in
                  let '(ss, rest, r) := decrypt_and_hash ss rest in
                  match r with
                  | Err e => (hs_set_ss h ss, re_bytes ++ rs_bytes ++ rest, Err e)
                  | Panic => (hs_set_ss h ss, re_bytes ++ rs_bytes ++ rest, Panic)
                  | Ok _ =>
                      let '(cs1, cs2) := split ss in
                      (hs_set_ss h (ss_clear ss), re_bytes ++ rs_bytes ++ rest,
                       Ok (from_slice_hashlen (ss_h ss), cs1, cs2))
                  end
              end
          end
    end.

(** ** noisesession.rs *)

(** noisesession.rs:114-136. *)
Definition init_session (initiator : bool) (prologue : bytes) (s : keypair) : session :=
  if initiator
  then mkSession (initialize_initiator prologue s EMPTY_KEY) EMPTY_KEY cs_new cs_new 0 initiator false
  else mkSession (initialize_responder prologue s EMPTY_KEY) EMPTY_KEY cs_new cs_new 0 initiator false.

Definition se_set_hs (s : session) (h : handshake_state) : session :=
  mkSession h (se_h s) (se_cs1 s) (se_cs2 s) (se_mc s) (se_i s) (se_transport s).
Definition se_set_cs1 (s : session) (c : cipher_state) : session :=
  mkSession (se_hs s) (se_h s) c (se_cs2 s) (se_mc s) (se_i s) (se_transport s).
Definition se_set_cs2 (s : session) (c : cipher_state) : session :=
  mkSession (se_hs s) (se_h s) (se_cs1 s) c (se_mc s) (se_i s) (se_transport s).
Definition se_incr (s : session) : session :=
  mkSession (se_hs s) (se_h s) (se_cs1 s) (se_cs2 s) (se_mc s + 1) (se_i s) (se_transport s).
(** noisesession.rs:153-158, 188-193: entering transport mode. *)
Definition se_enter_transport (s : session) (h : bytes) (cs1 cs2 : cipher_state) : session :=
  mkSession (hs_clear (se_hs s)) h cs1 cs2 (se_mc s) (se_i s) true.

(** noisesession.rs:146-166. *)
Definition send_message (rnd : bytes) (s : session) (in_out : bytes) : session * bytes * NResult unit :=
  if (len in_out <? 16) || (MAX_MESSAGE <? len in_out)
  then (s, in_out, Err UnsupportedMessageLengthError)
  else if se_mc s =? 0 then
    let '(h, b, r) := write_message_a rnd (se_hs s) in_out in
    let s := se_set_hs s h in
    match r with Ok _ => (se_incr s, b, Ok tt) | _ => (s, b, r) end
  else if se_mc s =? 1 then
    let '(h, b, r) := write_message_b rnd (se_hs s) in_out in
    let s := se_set_hs s h in
    match r with
    | Ok (hh, c1, c2) => (se_incr (se_enter_transport s hh c1 c2), b, Ok tt)
    | Err e => (s, b, Err e)
    | Panic => (s, b, Panic)
    end
  else if se_i s then
    let '(c, b, r) := cs_write_message_regular (se_cs1 s) in_out in
    let s := se_set_cs1 s c in
    match r with Ok _ => (se_incr s, b, Ok tt) | _ => (s, b, r) end
  else
    let '(c, b, r) := cs_write_message_regular (se_cs2 s) in_out in
    let s := se_set_cs2 s c in
    match r with Ok _ => (se_incr s, b, Ok tt) | _ => (s, b, r) end.

(** noisesession.rs:180-202. *)
Definition recv_message (s : session) (in_out : bytes) : session * bytes * NResult unit :=
  if (len in_out <? 16) || (MAX_MESSAGE <? len in_out)
  then (s, in_out, Err UnsupportedMessageLengthError)
  else if se_mc s =? 0 then
    let '(h, b, r) := read_message_a (se_hs s) in_out in
    let s := se_set_hs s h in
    match r with Ok _ => (se_incr s, b, Ok tt) | _ => (s, b, r) end
  else if se_mc s =? 1 then
    let '(h, b, r) := read_message_b (se_hs s) in_out in
    let s := se_set_hs s h in
    match r with
    | Ok (hh, c1, c2) => (se_incr (se_enter_transport s hh c1 c2), b, Ok tt)
    | Err e => (s, b, Err e)
    | Panic => (s, b, Panic)
    end
  else if se_i s then
    let '(c, b, r) := cs_read_message_regular (se_cs2 s) in_out in
    let s := se_set_cs2 s c in
    match r with Ok _ => (se_incr s, b, Ok tt) | _ => (s, b, r) end
  else
    let '(c, b, r) := cs_read_message_regular (se_cs1 s) in_out in
    let s := se_set_cs1 s c in
    match r with Ok _ => (se_incr s, b, Ok tt) | _ => (s, b, r) end.

(** noisesession.rs:52-69, 95-97. *)
Definition clear_local_cipherstate (s : session) : session := se_set_cs1 s (cs_clear (se_cs1 s)).
Definition clear_remote_cipherstate (s : session) : session := se_set_cs2 s (cs_clear (se_cs2 s)).
Definition rekey_local_cipherstate (s : session) : session := se_set_cs1 s (cs_rekey (se_cs1 s)).
(** noisesession.rs:67-69: calls [self.cs1.rekey()]. *)
Definition rekey_remote_cipherstate (s : session) : session := se_set_cs1 s (cs_rekey (se_cs1 s)).
Definition set_ephemeral_keypair (s : session) (e : keypair) : session :=
  se_set_hs s (hs_set_e (se_hs s) e).

(** noisesession.rs:47-49, 82-92, 102-107. *)
Definition is_transport (s : session) : bool := se_transport s.
Definition get_handshake_hash (s : session) : option bytes :=
  if se_transport s then Some (se_h s) else None.
Definition get_message_count (s : session) : N := se_mc s.
Definition get_remote_static_public_key (s : session) : option bytes :=
  if se_transport s then Some (hs_rs (se_hs s)) else None.

(** ** API histories: every public &mut self method of NoiseSession. *)
Inductive call :=
| Send (rnd buf : bytes)
| Recv (buf : bytes)
| ClearLocal | ClearRemote | RekeyLocal | RekeyRemote
| SetEphemeral (e : keypair).

Definition step (s : session) (c : call) : session * bytes * NResult unit :=
  match c with
  | Send rnd buf => send_message rnd s buf
  | Recv buf => recv_message s buf
  | ClearLocal => (clear_local_cipherstate s, [], Ok tt)
  | ClearRemote => (clear_remote_cipherstate s, [], Ok tt)
  | RekeyLocal => (rekey_local_cipherstate s, [], Ok tt)
  | RekeyRemote => (rekey_remote_cipherstate s, [], Ok tt)
  | SetEphemeral e => (set_ephemeral_keypair s e, [], Ok tt)
  end.

(** The session after a history (a panicking call keeps the state it left behind). *)
Fixpoint run_calls (s : session) (cs : list call) : session :=
  match cs with
  | [] => s
  | c :: cs' => run_calls (fst (fst (step s c))) cs'
  end.

End Prims.
