(** * Index: the nx-noise crate once more, with every index, slice, copy and counter as Rust checks it.  Definitions only.

    Noise.v takes it for granted that arrays have the size of their type.  Here each [&b[..n]], [copy_from_slice],
    [clone_from_slice], [split_at_mut], array index, subtraction of lengths and increment of a counter is an operation
    that may fail; a failure is the panic.  The message counter is unbounded here as in Noise.v (see Counter.v). *)
From Verif Require Import Base Codec Noise.
Local Open Scope N_scope.

Local Notation "'must' p <- m 'or' z ; k" := (match m with Some p => k | None => z end)
  (at level 200, p pattern, m at level 100, z at level 100, k at level 200).

(** ** What Rust checks *)

(** [&b[..n]], [&b[n..]]. *)
Definition slice_to (n : N) (b : bytes) : option bytes := if n <=? len b then Some (firstn (N.to_nat n) b) else None.
Definition slice_from (n : N) (b : bytes) : option bytes := if n <=? len b then Some (skipn (N.to_nat n) b) else None.
(** [dst.copy_from_slice(src)] and [dst.clone_from_slice(src)]: what [dst] holds afterwards. *)
Definition copy_from (dst src : bytes) : option bytes := if len dst =? len src then Some src else None.
(** [b.split_at_mut(n)]. *)
Definition split_at (n : N) (b : bytes) : option (bytes * bytes) :=
  if n <=? len b then Some (firstn (N.to_nat n) b, skipn (N.to_nat n) b) else None.
(** [b[i] = v]. *)
Definition set_at (i : N) (v : byte) (b : bytes) : option bytes :=
  if i <? len b then Some (firstn (N.to_nat i) b ++ v :: skipn (S (N.to_nat i)) b) else None.
(** [a - b] on usize. *)
Definition usize_sub (pf : profile) (a b : N) : option N :=
  if b <=? a then Some (a - b) else match pf with Debug => None | Release => Some (a + 2 ^ 64 - b) end.
(** [a[..src.len()].clone_from_slice(&src[..])]: macros.rs:5-9 [copy_slices!]. *)
Definition copy_slices (src dst : bytes) : option bytes :=
  must front <- slice_to (len src) dst or None;
  must front <- copy_from front src or None;
  Some (front ++ skipn (length src) dst).

(** ** utils.rs *)

(** utils.rs:6-11. *)
Definition from_slice_hashlen_x (b : bytes) : option bytes :=
  let array := EMPTY_KEY in
  must b <- slice_to (len array) b or None;
  copy_from array b.
(** utils.rs:12-16. *)
Definition prep_nonce_x (n : N) : option bytes :=
  let nonce := repeat x00 12 in
  must tail <- slice_from 4 nonce or None;
  must tail <- copy_from tail (to_le 8 n) or None;
  Some (firstn 4 nonce ++ tail).
(** types.rs:373-375 [self.n += 1] on u64. *)
Definition increment_x (pf : profile) (n : N) : option N := usize_add pf n 1.

(** The loop of prims.rs:37-40 on one of the pads: [pad[count] ^= key[count]]. *)
Fixpoint xor_at (pad key : bytes) : option bytes :=
  match key, pad with
  | [], _ => Some pad
  | _ :: _, [] => None
  | k :: key', p :: pad' => must pad' <- xor_at pad' key' or None; Some (xor_byte p k :: pad')
  end.

Section Prims.
Variable C : crypto.
Variable pf : profile.

(** prims.rs:18-31. *)
Definition hash_x (data : bytes) : option bytes := from_slice_hashlen_x (c_hash C data).
Definition hash_with_context_x (con data : bytes) : option bytes := from_slice_hashlen_x (c_hash C (con ++ data)).
(** prims.rs:33-48; the result is what [out] holds afterwards. *)
Definition hmac_x (key data out : bytes) : option bytes :=
  must ipad <- xor_at (repeat x36 BLOCKLEN) key or None;
  must opad <- xor_at (repeat x5c BLOCKLEN) key or None;
  must ipad <- slice_to 64 ipad or None;
  let inner := c_hash C (ipad ++ data) in
  must opad <- slice_to 64 opad or None;
  must inner <- slice_to 32 inner or None;
  copy_from out (c_hash C (opad ++ inner)).
(** prims.rs:50-71; the result is what the three buffers hold afterwards. *)
Definition hkdf_x (ck ikm : bytes) (outputs : N) (out1 out2 out3 : bytes) : option (bytes * bytes * bytes) :=
  must temp <- hmac_x ck ikm EMPTY_KEY or None;
  must out1 <- hmac_x temp [x01] out1 or None;
  if outputs =? 1 then Some (out1, out2, out3)
  else
    let in2 := repeat x00 33 in
    must front <- slice_to 32 out1 or None;
    must in2 <- copy_slices front in2 or None;
    must in2 <- set_at 32 x02 in2 or None;
    must in2 <- slice_to 33 in2 or None;
    must out2 <- hmac_x temp in2 out2 or None;
    if outputs =? 2 then Some (out1, out2, out3)
    else
      let in3 := repeat x00 33 in
      must front <- slice_to 32 out2 or None;
      must in3 <- copy_slices front in3 or None;
      must in3 <- set_at 32 x03 in3 or None;
      must in3 <- slice_to 33 in3 or None;
      must out3 <- hmac_x temp in3 out3 or None;
      Some (out1, out2, out3).

(** ** state.rs *)

(** state.rs:53-72, prims.rs:10-12; [mac] is the caller's array. *)
Definition cs_encrypt_with_ad_x (c : cipher_state) (ad in_out mac : bytes) : cipher_state * bytes * bytes * NResult unit :=
  match nonce_get (cs_n c) with
  | Ok nonce =>
      if cs_has_key c then
        must k <- from_slice_hashlen_x (cs_k c) or (c, in_out, mac, Panic);
        must nb <- prep_nonce_x nonce or (c, in_out, mac, Panic);
        let '(ct, mac) := c_seal C k nb ad in_out in
        must n <- increment_x pf (cs_n c) or (c, ct, mac, Panic);
        (mkCS (cs_k c) n, ct, mac, Ok tt)
      else (c, in_out, mac, Err EmptyKeyError)
  | Err e => (c, in_out, mac, Err e)
  | Panic => (c, in_out, mac, Panic)
  end.
(** state.rs:74-95, prims.rs:14-16. *)
Definition cs_decrypt_with_ad_x (c : cipher_state) (ad in_out mac : bytes) : cipher_state * bytes * NResult unit :=
  match nonce_get (cs_n c) with
  | Ok nonce =>
      if cs_has_key c then
        must k <- from_slice_hashlen_x (cs_k c) or (c, in_out, Panic);
        must nb <- prep_nonce_x nonce or (c, in_out, Panic);
        let '(ok, pt) := c_open C k nb ad in_out mac in
        if ok then
          must n <- increment_x pf (cs_n c) or (c, pt, Panic);
          (mkCS (cs_k c) n, pt, Ok tt)
        else (c, pt, Err DecryptionError)
      else (c, in_out, Err EmptyKeyError)
  | Err e => (c, in_out, Err e)
  | Panic => (c, in_out, Panic)
  end.

(** [in_out.split_at_mut(in_out.len() - MAC_LENGTH)]. *)
Definition split_mac_x (in_out : bytes) : option (bytes * bytes) :=
  must k <- usize_sub pf (len in_out) 16 or None;
  split_at k in_out.

(** state.rs:108-114. *)
Definition cs_write_message_regular_x (c : cipher_state) (in_out : bytes) : cipher_state * bytes * NResult unit :=
  must (pt, mac) <- split_mac_x in_out or (c, in_out, Panic);
  let '(c', ct, temp_mac, r) := cs_encrypt_with_ad_x c [] pt (repeat x00 16) in
  match r with
  | Ok _ => must mac <- copy_from mac temp_mac or (c', ct ++ mac, Panic); (c', ct ++ mac, Ok tt)
  | _ => (c', ct ++ mac, r)
  end.
(** state.rs:116-123. *)
Definition cs_read_message_regular_x (c : cipher_state) (in_out : bytes) : cipher_state * bytes * NResult unit :=
  must (ct, mac) <- split_mac_x in_out or (c, in_out, Panic);
  must temp_mac <- copy_from (repeat x00 16) mac or (c, in_out, Panic);
  let '(c', pt, r) := cs_decrypt_with_ad_x c [] ct temp_mac in
  (c', pt ++ mac, r).

(** state.rs:138-153. *)
Definition initialize_symmetric_x (name : bytes) : option symmetric_state :=
  must h <-
    (if len name <=? 31 then
       let temp := repeat x00 32 in
       must (front, rest) <- split_at (len name) temp or None;
       must front <- copy_from front name or None;
       from_slice_hashlen_x (front ++ rest)
     else if len name =? 32 then from_slice_hashlen_x name
     else hash_x name) or None;
  must ck <- from_slice_hashlen_x h or None;
  Some (mkSS cs_new ck h).
(** state.rs:155-171. *)
Definition mix_key_x (s : symmetric_state) (ikm : bytes) : option symmetric_state :=
  must (out0, out1, _) <- hkdf_x (ss_ck s) ikm 2 EMPTY_KEY EMPTY_KEY EMPTY_KEY or None;
  must front <- slice_to 32 out1 or None;
  must temp_k <- copy_from EMPTY_KEY front or None;
  Some (mkSS (cs_from_key temp_k) out0 (ss_h s)).
(** state.rs:173-175. *)
Definition mix_hash_x (s : symmetric_state) (data : bytes) : option symmetric_state :=
  must h <- hash_with_context_x (ss_h s) data or None;
  Some (mkSS (ss_cs s) (ss_ck s) h).
(** state.rs:177-199. *)
Definition mix_key_and_hash_x (s : symmetric_state) (ikm : bytes) : option symmetric_state :=
  must (out0, out1, out2) <- hkdf_x (ss_ck s) ikm 3 EMPTY_KEY EMPTY_KEY EMPTY_KEY or None;
  must s1 <- mix_hash_x (mkSS (ss_cs s) out0 (ss_h s)) out1 or None;
  must front <- slice_to 32 out2 or None;
  must temp_k <- copy_from out2 front or None;
  Some (mkSS (cs_from_key temp_k) (ss_ck s1) (ss_h s1)).
(** state.rs:206-221. *)
Definition encrypt_and_hash_x (s : symmetric_state) (in_out : bytes) : symmetric_state * bytes * NResult unit :=
  if len in_out <? 16 then (s, in_out, Err MissingneError)
  else
    must (pt, mac) <- split_mac_x in_out or (s, in_out, Panic);
    let '(c', ct, temp_mac, r) := cs_encrypt_with_ad_x (ss_cs s) (ss_h s) pt (repeat x00 16) in
    match r with
    | Ok _ =>
        must mac <- copy_from mac temp_mac or (ss_set_cs s c', ct ++ mac, Panic);
        must s' <- mix_hash_x (ss_set_cs s c') (ct ++ mac) or (ss_set_cs s c', ct ++ mac, Panic);
        (s', ct ++ mac, Ok tt)
    | _ => (ss_set_cs s c', ct ++ mac, r)
    end.
(** state.rs:223-233. *)
Definition decrypt_and_hash_x (s : symmetric_state) (in_out : bytes) : symmetric_state * bytes * NResult unit :=
  let temp := repeat x00 2048 in
  must front <- slice_to (len in_out) temp or (s, in_out, Panic);
  must front <- copy_from front in_out or (s, in_out, Panic);
  let temp := front ++ skipn (length in_out) temp in
  must (ct, mac) <- split_mac_x in_out or (s, in_out, Panic);
  must temp_mac <- copy_from (repeat x00 16) mac or (s, in_out, Panic);
  let '(c', pt, r) := cs_decrypt_with_ad_x (ss_cs s) (ss_h s) ct temp_mac in
  let in_out := pt ++ mac in
  match r with
  | Ok _ =>
      must data <- slice_to (len in_out) temp or (ss_set_cs s c', in_out, Panic);
      must s' <- mix_hash_x (ss_set_cs s c') data or (ss_set_cs s c', in_out, Panic);
      (s', in_out, Ok tt)
  | _ => (ss_set_cs s c', in_out, r)
  end.
(** state.rs:235-254. *)
Definition split_x (s : symmetric_state) : option (cipher_state * cipher_state) :=
  must (temp_k1, temp_k2, _) <- hkdf_x (ss_ck s) [] 2 EMPTY_KEY EMPTY_KEY EMPTY_KEY or None;
  must f1 <- slice_to 32 temp_k1 or None;
  must k1 <- from_slice_hashlen_x f1 or None;
  must _ <- copy_from temp_k1 EMPTY_KEY or None;
  must f2 <- slice_to 32 temp_k2 or None;
  must k2 <- from_slice_hashlen_x f2 or None;
  must _ <- copy_from temp_k2 EMPTY_KEY or None;
  Some (cs_from_key k1, cs_from_key k2).

(** state.rs:282-310. *)
Definition initialize_x (prologue : bytes) (s : keypair) : option handshake_state :=
  must ss <- initialize_symmetric_x protocol_name or None;
  must ss <- mix_hash_x ss prologue or None;
  Some (mkHS ss s keypair_empty EMPTY_KEY EMPTY_KEY EMPTY_KEY).

(** state.rs:311-326. *)
Definition write_message_a_x (rnd : bytes) (h : handshake_state) (in_out : bytes) : handshake_state * bytes * NResult unit :=
  if len in_out <? 32 then (h, in_out, Err MissingneError)
  else
    let h := ensure_ephemeral C rnd h in
    must (ne, rest) <- split_at 32 in_out or (h, in_out, Panic);
    must ne <- copy_from ne (kp_public (hs_e h)) or (h, in_out, Panic);
    must ss <- mix_hash_x (hs_ss h) ne or (h, ne ++ rest, Panic);
    must ss <- mix_hash_x ss rest or (hs_set_ss h ss, ne ++ rest, Panic);
    (hs_set_ss h ss, ne ++ rest, Ok tt).

(** state.rs:328-359. *)
Definition write_message_b_x (rnd : bytes) (h : handshake_state) (in_out : bytes)
  : handshake_state * bytes * NResult (bytes * cipher_state * cipher_state) :=
  if len in_out <? 32 then (h, in_out, Err MissingneError)
  else
    let h := ensure_ephemeral C rnd h in
    must (ne, rest) <- split_at 32 in_out or (h, in_out, Panic);
    must ne <- copy_from ne (kp_public (hs_e h)) or (h, in_out, Panic);
    must ss <- mix_hash_x (hs_ss h) ne or (h, ne ++ rest, Panic);
    must ss <- mix_key_x ss (keypair_dh C (hs_e h) (hs_re h)) or (hs_set_ss h ss, ne ++ rest, Panic);
    if len rest <? 48 then (hs_set_ss h ss, ne ++ rest, Err MissingneError)
    else
      must (ns, rest) <- split_at 48 rest or (hs_set_ss h ss, ne ++ rest, Panic);
      must front <- slice_to 32 ns or (hs_set_ss h ss, ne ++ ns ++ rest, Panic);
      must front <- copy_from front (kp_public (hs_s h)) or (hs_set_ss h ss, ne ++ ns ++ rest, Panic);
      let ns := front ++ skipn 32 ns in
      let '(ss, ns, r) := encrypt_and_hash_x ss ns in
      match r with
      | Err e => (hs_set_ss h ss, ne ++ ns ++ rest, Err e)
      | Panic => (hs_set_ss h ss, ne ++ ns ++ rest, Panic)
      | Ok _ =>
          must ss <- mix_key_x ss (keypair_dh C (hs_s h) (hs_re h)) or (hs_set_ss h ss, ne ++ ns ++ rest, Panic);
          let '(ss, rest, r) := encrypt_and_hash_x ss rest in
          match r with
          | Err e => (hs_set_ss h ss, ne ++ ns ++ rest, Err e)
          | Panic => (hs_set_ss h ss, ne ++ ns ++ rest, Panic)
          | Ok _ =>
              must hh <- from_slice_hashlen_x (ss_h ss) or (hs_set_ss h ss, ne ++ ns ++ rest, Panic);
              must (cs1, cs2) <- split_x ss or (hs_set_ss h ss, ne ++ ns ++ rest, Panic);
              (hs_set_ss h (ss_clear ss), ne ++ ns ++ rest, Ok (hh, cs1, cs2))
          end
      end.

(** state.rs:361-373. *)
Definition read_message_a_x (h : handshake_state) (in_out : bytes) : handshake_state * bytes * NResult unit :=
  if len in_out <? 48 then (h, in_out, Err MissingreError)
  else
    must (re_bytes, rest) <- split_at 32 in_out or (h, in_out, Panic);
    must re_bytes <- from_slice_hashlen_x re_bytes or (h, in_out, Panic);
    match public_key_from_bytes re_bytes with
    | Err e => (h, in_out, Err e)
    | Panic => (h, in_out, Panic)
    | Ok re =>
        let h := hs_set_re h re in
        must front <- slice_to 32 (hs_re h) or (h, in_out, Panic);
        must ss <- mix_hash_x (hs_ss h) front or (h, in_out, Panic);
        must ss <- mix_hash_x ss rest or (hs_set_ss h ss, in_out, Panic);
        (hs_set_ss h ss, in_out, Ok tt)
    end.

(** state.rs:375-399. *)
Definition read_message_b_x (h : handshake_state) (in_out : bytes)
  : handshake_state * bytes * NResult (bytes * cipher_state * cipher_state) :=
  if len in_out <? 48 then (h, in_out, Err MissingreError)
  else
    must (re_bytes, rest) <- split_at 32 in_out or (h, in_out, Panic);
    must re_array <- from_slice_hashlen_x re_bytes or (h, in_out, Panic);
    match public_key_from_bytes re_array with
    | Err e => (h, in_out, Err e)
    | Panic => (h, in_out, Panic)
    | Ok re =>
        let h := hs_set_re h re in
        must front <- slice_to 32 (hs_re h) or (h, in_out, Panic);
        must ss <- mix_hash_x (hs_ss h) front or (h, in_out, Panic);
        must ss <- mix_key_x ss (keypair_dh C (hs_e h) (hs_re h)) or (hs_set_ss h ss, in_out, Panic);
        if len rest <? 48 then (hs_set_ss h ss, in_out, Err MissingrsError)
        else
          must (rs_bytes, rest) <- split_at 48 rest or (hs_set_ss h ss, in_out, Panic);
          let '(ss, rs_bytes, r) := decrypt_and_hash_x ss rs_bytes in
          match r with
          | Err e => (hs_set_ss h ss, re_bytes ++ rs_bytes ++ rest, Err e)
          | Panic => (hs_set_ss h ss, re_bytes ++ rs_bytes ++ rest, Panic)
          | Ok _ =>
              must rs_array <- from_slice_hashlen_x rs_bytes or (hs_set_ss h ss, re_bytes ++ rs_bytes ++ rest, Panic);
              match public_key_from_bytes rs_array with
              | Err e => (hs_set_ss h ss, re_bytes ++ rs_bytes ++ rest, Err e)
              | Panic => (hs_set_ss h ss, re_bytes ++ rs_bytes ++ rest, Panic)
              | Ok rs =>
                  let h := hs_set_rs h rs in
                  must ss <- mix_key_x ss (keypair_dh C (hs_e h) (hs_rs h))
                    or (hs_set_ss h ss, re_bytes ++ rs_bytes ++ rest, Panic);
                  let '(ss, rest, r) := decrypt_and_hash_x ss rest in
                  match r with
                  | Err e => (hs_set_ss h ss, re_bytes ++ rs_bytes ++ rest, Err e)
                  | Panic => (hs_set_ss h ss, re_bytes ++ rs_bytes ++ rest, Panic)
                  | Ok _ =>
                      must hh <- from_slice_hashlen_x (ss_h ss) or (hs_set_ss h ss, re_bytes ++ rs_bytes ++ rest, Panic);
                      must (cs1, cs2) <- split_x ss or (hs_set_ss h ss, re_bytes ++ rs_bytes ++ rest, Panic);
                      (hs_set_ss h (ss_clear ss), re_bytes ++ rs_bytes ++ rest, Ok (hh, cs1, cs2))
                  end
              end
          end
    end.

(** ** noisesession.rs *)

(** noisesession.rs:114-136; the two branches differ in nothing but [i]. *)
Definition init_session_x (initiator : bool) (prologue : bytes) (s : keypair) : option session :=
  must h <- initialize_x prologue s or None;
  Some (mkSession h EMPTY_KEY cs_new cs_new 0 initiator false).

(** noisesession.rs:146-166. *)
Definition send_message_x (rnd : bytes) (s : session) (in_out : bytes) : session * bytes * NResult unit :=
  if (len in_out <? 16) || (MAX_MESSAGE <? len in_out)
  then (s, in_out, Err UnsupportedMessageLengthError)
  else if se_mc s =? 0 then
    let '(h, b, r) := write_message_a_x rnd (se_hs s) in_out in
    let s := se_set_hs s h in
    match r with Ok _ => (se_incr s, b, Ok tt) | _ => (s, b, r) end
  else if se_mc s =? 1 then
    let '(h, b, r) := write_message_b_x rnd (se_hs s) in_out in
    let s := se_set_hs s h in
    match r with
    | Ok (hh, c1, c2) => (se_incr (se_enter_transport s hh c1 c2), b, Ok tt)
    | Err e => (s, b, Err e)
    | Panic => (s, b, Panic)
    end
  else if se_i s then
    let '(c, b, r) := cs_write_message_regular_x (se_cs1 s) in_out in
    let s := se_set_cs1 s c in
    match r with Ok _ => (se_incr s, b, Ok tt) | _ => (s, b, r) end
  else
    let '(c, b, r) := cs_write_message_regular_x (se_cs2 s) in_out in
    let s := se_set_cs2 s c in
    match r with Ok _ => (se_incr s, b, Ok tt) | _ => (s, b, r) end.

(** noisesession.rs:180-202. *)
Definition recv_message_x (s : session) (in_out : bytes) : session * bytes * NResult unit :=
  if (len in_out <? 16) || (MAX_MESSAGE <? len in_out)
  then (s, in_out, Err UnsupportedMessageLengthError)
  else if se_mc s =? 0 then
    let '(h, b, r) := read_message_a_x (se_hs s) in_out in
    let s := se_set_hs s h in
    match r with Ok _ => (se_incr s, b, Ok tt) | _ => (s, b, r) end
  else if se_mc s =? 1 then
    let '(h, b, r) := read_message_b_x (se_hs s) in_out in
    let s := se_set_hs s h in
    match r with
    | Ok (hh, c1, c2) => (se_incr (se_enter_transport s hh c1 c2), b, Ok tt)
    | Err e => (s, b, Err e)
    | Panic => (s, b, Panic)
    end
  else if se_i s then
    let '(c, b, r) := cs_read_message_regular_x (se_cs2 s) in_out in
    let s := se_set_cs2 s c in
    match r with Ok _ => (se_incr s, b, Ok tt) | _ => (s, b, r) end
  else
    let '(c, b, r) := cs_read_message_regular_x (se_cs1 s) in_out in
    let s := se_set_cs1 s c in
    match r with Ok _ => (se_incr s, b, Ok tt) | _ => (s, b, r) end.

(** The methods that touch whole arrays only (clear, rekey, set_ephemeral_keypair) are those of Noise.v. *)
Definition step_x (s : session) (c : call) : session * bytes * NResult unit :=
  match c with
  | Send rnd buf => send_message_x rnd s buf
  | Recv buf => recv_message_x s buf
  | c => step C s c
  end.
(** A history: the session afterwards and what every call left in its buffer and returned. *)
Fixpoint run_x (s : session) (cs : list call) : session * list (bytes * NResult unit) :=
  match cs with
  | [] => (s, [])
  | c :: cs' =>
      let '(s', b, r) := step_x s c in
      let '(s'', out) := run_x s' cs' in (s'', (b, r) :: out)
  end.
End Prims.
