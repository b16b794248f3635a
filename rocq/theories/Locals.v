(** * Locals: what the local arrays of nx-noise hold when their function returns.  Definitions only.

    The functions of Noise.v once more, each with the list of the arrays declared by [let] in its body and what they
    contain at the return, the functions it calls first.  A statement that overwrites such an array ([zeroize],
    [copy_from_slice] of zeros) counts here, though it has no effect on any result.  Arrays are [Copy]: handing one
    to a constructor leaves it as it was.  Simplified: unnamed temporaries ([as_bytes], the result of [dh]),
    parameters, arrays that are the return value, and the copies a compiler may make are not listed; neither are the
    contexts and digests of the hash library (prims.rs:34, 43). *)
From Verif Require Import Base Codec Noise.
Local Open Scope N_scope.

(** One name per [let]. *)
Inductive local :=
| hmac_ipad | hmac_opad                                        (* prims.rs:35-36 *)
| hkdf_temp_key | hkdf_in2 | hkdf_in3                          (* prims.rs:54, 60, 67 *)
| rekey_in_out                                                 (* state.rs:99 *)
| write_temp_mac | read_temp_mac                               (* state.rs:110, 118 *)
| init_temp                                                    (* state.rs:142 *)
| mix_out0 | mix_out1 | mix_out2 | mix_temp_k                  (* state.rs:156-158, 168 *)
| both_out0 | both_out1 | both_out2 | both_temp_h | both_temp_k (* state.rs:179-181, 191-192 *)
| encrypt_temp_mac                                             (* state.rs:207 *)
| decrypt_temp | decrypt_temp_mac                              (* state.rs:224, 227 *)
| split_temp_k1 | split_temp_k2 | split_out2.                  (* state.rs:236-238 *)

Definition left_over := list (local * bytes).

(** [a.zeroize()] of the zeroize crate: every byte of the array becomes zero. *)
Definition zeroize (a : bytes) : bytes := repeat x00 (length a).

Section Prims.
Variable C : crypto.

(** prims.rs:33-48. *)
Definition hmac_l (key data : bytes) : bytes * left_over :=
  let ipad := xor_into (repeat x36 BLOCKLEN) key in
  let opad := xor_into (repeat x5c BLOCKLEN) key in
  let inner := c_hash C (ipad ++ data) in
  (c_hash C (opad ++ firstn HASHLEN inner), [(hmac_ipad, ipad); (hmac_opad, opad)]).

(** prims.rs:50-71; [out1] to [out3] are what the callers' arrays hold afterwards (they are zero before). *)
Definition hkdf_l (ck ikm : bytes) (outputs : N) : bytes * bytes * bytes * left_over :=
  let '(temp_key, l0) := hmac_l ck ikm in
  let '(out1, l1) := hmac_l temp_key [x01] in
  if outputs =? 1 then (out1, EMPTY_KEY, EMPTY_KEY, l0 ++ l1 ++ [(hkdf_temp_key, temp_key)])
  else
    let in2 := firstn HASHLEN out1 ++ [x02] in
    let '(out2, l2) := hmac_l temp_key in2 in
    if outputs =? 2 then (out1, out2, EMPTY_KEY, l0 ++ l1 ++ l2 ++ [(hkdf_temp_key, temp_key); (hkdf_in2, in2)])
    else
      let in3 := firstn HASHLEN out2 ++ [x03] in
      let '(out3, l3) := hmac_l temp_key in3 in
      (out1, out2, out3,
       l0 ++ l1 ++ l2 ++ l3 ++ [(hkdf_temp_key, temp_key); (hkdf_in2, in2); (hkdf_in3, in3)]).

(** state.rs:98-106. *)
Definition cs_rekey_l (c : cipher_state) : cipher_state * left_over :=
  let in_out := EMPTY_KEY in
  let in_out := fst (c_seal C (cs_k c) (repeat xff 12) [] in_out) in
  let c := mkCS in_out (cs_n c) in
  let in_out := zeroize in_out in
  (c, [(rekey_in_out, in_out)]).

(** state.rs:108-114; [?] returns with [temp_mac] as it was. *)
Definition cs_write_message_regular_l (c : cipher_state) (in_out : bytes)
  : cipher_state * bytes * NResult unit * left_over :=
  match split_mac in_out with
  | None => (c, in_out, Panic, [])
  | Some (pt, mac) =>
      let '(c', ct, temp_mac, r) := cs_encrypt_with_ad C c [] pt in
      match r with
      | Ok _ => (c', ct ++ temp_mac, Ok tt, [(write_temp_mac, temp_mac)])
      | _ => (c', ct ++ mac, r, [(write_temp_mac, temp_mac)])
      end
  end.

(** state.rs:116-123. *)
Definition cs_read_message_regular_l (c : cipher_state) (in_out : bytes)
  : cipher_state * bytes * NResult unit * left_over :=
  match split_mac in_out with
  | None => (c, in_out, Panic, [])
  | Some (ct, mac) =>
      let temp_mac := mac in
      let '(c', pt, r) := cs_decrypt_with_ad C c [] ct temp_mac in
      match r with
      | Ok _ => let temp_mac := zeroize temp_mac in (c', pt ++ mac, r, [(read_temp_mac, temp_mac)])
      | _ => (c', pt ++ mac, r, [(read_temp_mac, temp_mac)])
      end
  end.

(** state.rs:138-153: the array exists only for names shorter than 32 bytes. *)
Definition initialize_symmetric_l (name : bytes) : symmetric_state * left_over :=
  if len name <? 32
  then let temp := name ++ repeat x00 (32 - length name) in
       (mkSS cs_new (from_slice_hashlen temp) temp, [(init_temp, temp)])
  else (initialize_symmetric C name, []).

(** state.rs:155-171. *)
Definition mix_key_l (s : symmetric_state) (ikm : bytes) : symmetric_state * left_over :=
  let '(out0, out1, out2, l) := hkdf_l (ss_ck s) ikm 2 in
  let temp_k := firstn 32 out1 in
  (mkSS (cs_from_key temp_k) out0 (ss_h s),
   l ++ [(mix_out0, out0); (mix_out1, out1); (mix_out2, out2); (mix_temp_k, temp_k)]).

(** state.rs:177-199. *)
Definition mix_key_and_hash_l (s : symmetric_state) (ikm : bytes) : symmetric_state * left_over :=
  let '(out0, out1, out2, l) := hkdf_l (ss_ck s) ikm 3 in
  let s := mkSS (ss_cs s) out0 (ss_h s) in
  let temp_h := out1 in
  let s := mix_hash C s temp_h in
  let temp_k := firstn 32 out2 in
  let s := mkSS (cs_from_key temp_k) (ss_ck s) (ss_h s) in
  let out0 := zeroize out0 in
  let out1 := zeroize out1 in
  let out2 := zeroize out2 in
  (s, l ++ [(both_out0, out0); (both_out1, out1); (both_out2, out2); (both_temp_h, temp_h); (both_temp_k, temp_k)]).

(** state.rs:206-221: the array is declared before the length is looked at. *)
Definition encrypt_and_hash_l (s : symmetric_state) (in_out : bytes)
  : symmetric_state * bytes * NResult unit * left_over :=
  let temp_mac := repeat x00 MAC_LENGTH in
  if len in_out <? 16 then (s, in_out, Err MissingneError, [(encrypt_temp_mac, temp_mac)])
  else
    match split_mac in_out with
    | None => (s, in_out, Panic, [(encrypt_temp_mac, temp_mac)])
    | Some (pt, mac) =>
        let '(c', ct, temp_mac, r) := cs_encrypt_with_ad C (ss_cs s) (ss_h s) pt in
        match r with
        | Ok _ => (mix_hash C (ss_set_cs s c') (ct ++ temp_mac), ct ++ temp_mac, Ok tt, [(encrypt_temp_mac, temp_mac)])
        | _ => (ss_set_cs s c', ct ++ mac, r, [(encrypt_temp_mac, temp_mac)])
        end
    end.

(** state.rs:223-233. *)
Definition decrypt_and_hash_l (s : symmetric_state) (in_out : bytes)
  : symmetric_state * bytes * NResult unit * left_over :=
  if 2048 <? len in_out then (s, in_out, Panic, [(decrypt_temp, repeat x00 (N.to_nat 2048))])
  else
    let temp := in_out ++ repeat x00 (N.to_nat 2048 - length in_out) in
    match split_mac in_out with
    | None => (s, in_out, Panic, [(decrypt_temp, temp)])
    | Some (ct, mac) =>
        let temp_mac := mac in
        let '(c', pt, r) := cs_decrypt_with_ad C (ss_cs s) (ss_h s) ct temp_mac in
        let l := [(decrypt_temp, temp); (decrypt_temp_mac, temp_mac)] in
        match r with
        | Ok _ => (mix_hash C (ss_set_cs s c') (firstn (length in_out) temp), pt ++ mac, Ok tt, l)
        | _ => (ss_set_cs s c', pt ++ mac, r, l)
        end
    end.

(** state.rs:235-254. *)
Definition split_l (s : symmetric_state) : cipher_state * cipher_state * left_over :=
  let '(temp_k1, temp_k2, out2, l) := hkdf_l (ss_ck s) [] 2 in
  let cs1 := cs_from_key (from_slice_hashlen (firstn 32 temp_k1)) in
  let temp_k1 := EMPTY_KEY in
  let cs2 := cs_from_key (from_slice_hashlen (firstn 32 temp_k2)) in
  let temp_k2 := EMPTY_KEY in
  (cs1, cs2, l ++ [(split_temp_k1, temp_k1); (split_temp_k2, temp_k2); (split_out2, out2)]).

(** state.rs:328-359. *)
Definition write_message_b_l (rnd : bytes) (h : handshake_state) (in_out : bytes)
  : handshake_state * bytes * NResult (bytes * cipher_state * cipher_state) * left_over :=
  if len in_out <? 32 then (h, in_out, Err MissingneError, [])
  else
    let h := ensure_ephemeral C rnd h in
    let ne := kp_public (hs_e h) in
    let rest := skipn DHLEN in_out in
    let ss := mix_hash C (hs_ss h) ne in
    let '(ss, l1) := mix_key_l ss (keypair_dh C (hs_e h) (hs_re h)) in
    if len rest <? 48 then (hs_set_ss h ss, ne ++ rest, Err MissingneError, l1)
    else
      let ns := kp_public (hs_s h) ++ skipn DHLEN (firstn 48 rest) in
      let rest := skipn 48 rest in
      let '(ss, ns, r, l2) := encrypt_and_hash_l ss ns in
      match r with
      | Err e => (hs_set_ss h ss, ne ++ ns ++ rest, Err e, l1 ++ l2)
      | Panic => (hs_set_ss h ss, ne ++ ns ++ rest, Panic, l1 ++ l2)
      | Ok _ =>
          let '(ss, l3) := mix_key_l ss (keypair_dh C (hs_s h) (hs_re h)) in
          let '(ss, rest, r, l4) := encrypt_and_hash_l ss rest in
          match r with
          | Err e => (hs_set_ss h ss, ne ++ ns ++ rest, Err e, l1 ++ l2 ++ l3 ++ l4)
          | Panic => (hs_set_ss h ss, ne ++ ns ++ rest, Panic, l1 ++ l2 ++ l3 ++ l4)
          | Ok _ =>
              let '(cs1, cs2, l5) := split_l ss in
              (hs_set_ss h (ss_clear ss), ne ++ ns ++ rest, Ok (from_slice_hashlen (ss_h ss), cs1, cs2),
               l1 ++ l2 ++ l3 ++ l4 ++ l5)
          end
      end.

(** state.rs:375-399. *)
Definition read_message_b_l (h : handshake_state) (in_out : bytes)
  : handshake_state * bytes * NResult (bytes * cipher_state * cipher_state) * left_over :=
  if len in_out <? 48 then (h, in_out, Err MissingreError, [])
  else
    let re_bytes := firstn DHLEN in_out in
    let rest := skipn DHLEN in_out in
    match public_key_from_bytes (from_slice_hashlen re_bytes) with
    | Err e => (h, in_out, Err e, [])
    | Panic => (h, in_out, Panic, [])
    | Ok re =>
        let h := hs_set_re h re in
        let ss := mix_hash C (hs_ss h) (firstn DHLEN re) in
        let '(ss, l1) := mix_key_l ss (keypair_dh C (hs_e h) re) in
        if len rest <? 48 then (hs_set_ss h ss, in_out, Err MissingrsError, l1)
        else
          let rs_bytes := firstn 48 rest in
          let rest := skipn 48 rest in
          let '(ss, rs_bytes, r, l2) := decrypt_and_hash_l ss rs_bytes in
          match r with
          | Err e => (hs_set_ss h ss, re_bytes ++ rs_bytes ++ rest, Err e, l1 ++ l2)
          | Panic => (hs_set_ss h ss, re_bytes ++ rs_bytes ++ rest, Panic, l1 ++ l2)
          | Ok _ =>
              match public_key_from_bytes (from_slice_hashlen rs_bytes) with
              | Err e => (hs_set_ss h ss, re_bytes ++ rs_bytes ++ rest, Err e, l1 ++ l2)
              | Panic => (hs_set_ss h ss, re_bytes ++ rs_bytes ++ rest, Panic, l1 ++ l2)
              | Ok rs =>
                  let h := hs_set_rs h rs in
                  let '(ss, l3) := mix_key_l ss (keypair_dh C (hs_e h) rs) in
                  let '(ss, rest, r, l4) := decrypt_and_hash_l ss rest in
                  match r with
                  | Err e => (hs_set_ss h ss, re_bytes ++ rs_bytes ++ rest, Err e, l1 ++ l2 ++ l3 ++ l4)
                  | Panic => (hs_set_ss h ss, re_bytes ++ rs_bytes ++ rest, Panic, l1 ++ l2 ++ l3 ++ l4)
                  | Ok _ =>
                      let '(cs1, cs2, l5) := split_l ss in
                      (hs_set_ss h (ss_clear ss), re_bytes ++ rs_bytes ++ rest,
                       Ok (from_slice_hashlen (ss_h ss), cs1, cs2), l1 ++ l2 ++ l3 ++ l4 ++ l5)
                  end
              end
          end
    end.

(** noisesession.rs:146-166; [write_message_a] declares no array. *)
Definition send_message_l (rnd : bytes) (s : session) (in_out : bytes)
  : session * bytes * NResult unit * left_over :=
  if (len in_out <? 16) || (MAX_MESSAGE <? len in_out)
  then (s, in_out, Err UnsupportedMessageLengthError, [])
  else if se_mc s =? 0 then (send_message C rnd s in_out, [])
  else if se_mc s =? 1 then
    let '(h, b, r, l) := write_message_b_l rnd (se_hs s) in_out in
    let s := se_set_hs s h in
    match r with
    | Ok (hh, c1, c2) => (se_incr (se_enter_transport s hh c1 c2), b, Ok tt, l)
    | Err e => (s, b, Err e, l)
    | Panic => (s, b, Panic, l)
    end
  else if se_i s then
    let '(c, b, r, l) := cs_write_message_regular_l (se_cs1 s) in_out in
    let s := se_set_cs1 s c in
    match r with Ok _ => (se_incr s, b, Ok tt, l) | _ => (s, b, r, l) end
  else
    let '(c, b, r, l) := cs_write_message_regular_l (se_cs2 s) in_out in
    let s := se_set_cs2 s c in
    match r with Ok _ => (se_incr s, b, Ok tt, l) | _ => (s, b, r, l) end.

(** noisesession.rs:180-202; [read_message_a] declares no array. *)
Definition recv_message_l (s : session) (in_out : bytes) : session * bytes * NResult unit * left_over :=
  if (len in_out <? 16) || (MAX_MESSAGE <? len in_out)
  then (s, in_out, Err UnsupportedMessageLengthError, [])
  else if se_mc s =? 0 then (recv_message C s in_out, [])
  else if se_mc s =? 1 then
    let '(h, b, r, l) := read_message_b_l (se_hs s) in_out in
    let s := se_set_hs s h in
    match r with
    | Ok (hh, c1, c2) => (se_incr (se_enter_transport s hh c1 c2), b, Ok tt, l)
    | Err e => (s, b, Err e, l)
    | Panic => (s, b, Panic, l)
    end
  else if se_i s then
    let '(c, b, r, l) := cs_read_message_regular_l (se_cs2 s) in_out in
    let s := se_set_cs2 s c in
    match r with Ok _ => (se_incr s, b, Ok tt, l) | _ => (s, b, r, l) end
  else
    let '(c, b, r, l) := cs_read_message_regular_l (se_cs1 s) in_out in
    let s := se_set_cs1 s c in
    match r with Ok _ => (se_incr s, b, Ok tt, l) | _ => (s, b, r, l) end.

(** noisesession.rs:52-69, 95-97: both rekey methods rekey [cs1]. *)
Definition step_l (s : session) (c : call) : session * bytes * NResult unit * left_over :=
  match c with
  | Send rnd buf => send_message_l rnd s buf
  | Recv buf => recv_message_l s buf
  | ClearLocal => (clear_local_cipherstate s, [], Ok tt, [])
  | ClearRemote => (clear_remote_cipherstate s, [], Ok tt, [])
  | RekeyLocal => let '(k, l) := cs_rekey_l (se_cs1 s) in (se_set_cs1 s k, [], Ok tt, l)
  | RekeyRemote => let '(k, l) := cs_rekey_l (se_cs1 s) in (se_set_cs1 s k, [], Ok tt, l)
  | SetEphemeral e => (set_ephemeral_keypair s e, [], Ok tt, [])
  end.

End Prims.
