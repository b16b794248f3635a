(** * SpecNoise: the Noise Protocol Framework (revision 34), written independently of the model.

    Only the record of external primitives and the [keypair] record are shared with the model.
    Cipher keys are [option]s as in the specification; the model represents "no key" by zeros. *)
From Coq Require Import Strings.String.
From Verif Require Import Base Noise SpecWire.
Open Scope N_scope.

(** ** What the external primitives are assumed to do *)
Record crypto_ok (C : crypto) : Prop := {
  hash_len : forall x, len (c_hash C x) = 32;
  seal_ct_len : forall k n ad pt, len (fst (c_seal C k n ad pt)) = len pt;
  seal_mac_len : forall k n ad pt, len (snd (c_seal C k n ad pt)) = 16;
  open_seal : forall k n ad pt,
    c_open C k n ad (fst (c_seal C k n ad pt)) (snd (c_seal C k n ad pt)) = (true, pt);
  open_exact : forall k n ad ct mac pt, c_open C k n ad ct mac = (true, pt) -> c_seal C k n ad pt = (ct, mac);
  open_len : forall k n ad ct mac, len (snd (c_open C k n ad ct mac)) = len ct;
  dh_len : forall a b, len (c_dh C a b) = 32;
  pub_len : forall a, len (c_pub C a) = 32 }.

(** Key pairs as Rust types have them, and Diffie-Hellman agreement of two of them. *)
Definition keypair_ok (kp : keypair) : Prop := len (kp_private kp) = 32 /\ len (kp_public kp) = 32.
Definition dh_agree (C : crypto) (a b : keypair) : Prop :=
  c_dh C (kp_private a) (kp_public b) = c_dh C (kp_private b) (kp_public a).

Definition zeros32 : bytes := map b8 [0;0;0;0;0;0;0;0;0;0;0;0;0;0;0;0;0;0;0;0;0;0;0;0;0;0;0;0;0;0;0;0].

(** The twelve encodings of low-order points of Curve25519 listed at https://cr.yp.to/ecdh.html,
    as numbers (little-endian). *)
Definition p25519 : N := 2 ^ 255 - 19.
Definition order8_a : N := 325606250916557431795983626356110631294008115727848805560023387167927233504.
Definition order8_b : N := 39382357235489614581723060781553021112529911719440698176882885853963445705823.
Definition low_order_points : list N :=
  [0; 1; order8_a; order8_b; p25519 - 1; p25519; p25519 + 1;
   p25519 + order8_a; p25519 + order8_b; 2 * p25519 - 1; 2 * p25519; 2 * p25519 + 1].
Definition low_order (pk : bytes) : Prop := In (spec_val (wire pk)) low_order_points.

(** ** Hexadecimal text *)
Definition hex_lower : bytes := list_byte_of_string "0123456789abcdef".
Definition hex_upper : bytes := list_byte_of_string "0123456789ABCDEF".
Definition hex_value (c : byte) (v : nat) : Prop :=
  nth_error hex_lower v = Some c \/ nth_error hex_upper v = Some c.
(** [s] is the text, two digits per byte, most significant digit first, of the bytes [k]. *)
Inductive hex_text : bytes -> bytes -> Prop :=
| hex_nil : hex_text [] []
| hex_pair : forall c d v w s k, hex_value c v -> hex_value d w -> hex_text s k ->
    hex_text (c :: d :: s) (b8 (16 * N.of_nat v + N.of_nat w) :: k).

Section Noise.
Variable C : crypto.

(** ** Section 4.3 and RFC 2104 *)
Definition xor_all (pad : N) (b : bytes) : bytes := map (fun x => b8 (N.lxor pad (Byte.to_N x))) b.
Definition HMAC (key data : bytes) : bytes :=
  let k := key ++ repeat (b8 0) (64 - length key)%nat in
  c_hash C (xor_all 0x5c k ++ c_hash C (xor_all 0x36 k ++ data)).
Definition HKDF (ck ikm : bytes) : bytes * bytes * bytes :=
  let temp_key := HMAC ck ikm in
  let output1 := HMAC temp_key [b8 1] in
  let output2 := HMAC temp_key (output1 ++ [b8 2]) in
  let output3 := HMAC temp_key (output2 ++ [b8 3]) in
  (output1, output2, output3).

(** Section 12.3: 32 bits of zeros, then the counter little-endian. *)
Definition nonce96 (n : N) : bytes := map b8 ([0; 0; 0; 0] ++ spec_le 8 n).
Definition nonce_rekey : bytes := map b8 [255;255;255;255;255;255;255;255;255;255;255;255].

Definition ENCRYPT (k : bytes) (n : N) (ad pt : bytes) : bytes :=
  let '(ct, tag) := c_seal C k (nonce96 n) ad pt in ct ++ tag.
Definition DECRYPT (k : bytes) (n : N) (ad msg : bytes) : option bytes :=
  if len msg <? 16 then None
  else
    let ct := firstn (length msg - 16) msg in
    let tag := skipn (length msg - 16) msg in
    let '(ok, pt) := c_open C k (nonce96 n) ad ct tag in
    if ok then Some pt else None.
(** Section 4.2: REKEY(k) is the first 32 bytes of ENCRYPT(k, 2^64-1, "", zeros). *)
Definition REKEY (k : bytes) : bytes :=
  firstn 32 (let '(ct, tag) := c_seal C k nonce_rekey [] zeros32 in ct ++ tag).

(** ** Section 5.2: symmetric state.  [sy_keys] additionally lists the cipher keys set so far. *)
Record sym := mkSym { sy_k : option bytes; sy_n : N; sy_ck : bytes; sy_h : bytes; sy_keys : list bytes }.

Definition InitializeSymmetric (name : bytes) : sym :=
  let h := if len name <=? 32 then name ++ repeat (b8 0) (32 - length name)%nat else c_hash C name in
  mkSym None 0 h h [].
Definition MixKey (s : sym) (ikm : bytes) : sym :=
  let '(ck, k, _) := HKDF (sy_ck s) ikm in
  mkSym (Some k) 0 ck (sy_h s) (sy_keys s ++ [k]).
Definition MixHash (s : sym) (data : bytes) : sym :=
  mkSym (sy_k s) (sy_n s) (sy_ck s) (c_hash C (sy_h s ++ data)) (sy_keys s).
Definition next_nonce (s : sym) : sym := mkSym (sy_k s) (sy_n s + 1) (sy_ck s) (sy_h s) (sy_keys s).
Definition EncryptAndHash (s : sym) (pt : bytes) : sym * bytes :=
  match sy_k s with
  | None => (MixHash s pt, pt)
  | Some k => let ct := ENCRYPT k (sy_n s) (sy_h s) pt in (MixHash (next_nonce s) ct, ct)
  end.
Definition DecryptAndHash (s : sym) (ct : bytes) : option (sym * bytes) :=
  match sy_k s with
  | None => Some (MixHash s ct, ct)
  | Some k =>
      match DECRYPT k (sy_n s) (sy_h s) ct with
      | Some pt => Some (MixHash (next_nonce s) ct, pt)
      | None => None
      end
  end.
Definition Split (s : sym) : bytes * bytes :=
  let '(k1, k2, _) := HKDF (sy_ck s) [] in (k1, k2).

(** ** Section 5.3: handshake state and token processing *)
Inductive token := TE | TS | TEE | TES.
Record party := mkParty {
  p_initiator : bool;
  p_sym : sym;
  p_s : keypair;
  p_e : keypair;              (* the pair the next "e" token sends *)
  p_rs : option bytes;
  p_re : option bytes }.

Definition Initialize (initiator : bool) (prologue : bytes) (s e : keypair) : party :=
  mkParty initiator
    (MixHash (InitializeSymmetric (list_byte_of_string "Noise_NX_25519_ChaChaPoly_BLAKE2s")) prologue)
    s e None None.

Definition with_sym (p : party) (s : sym) : party :=
  mkParty (p_initiator p) s (p_s p) (p_e p) (p_rs p) (p_re p).
Definition mix_dh (p : party) (kp : keypair) (pk : option bytes) : option party :=
  match pk with
  | Some k => Some (with_sym p (MixKey (p_sym p) (c_dh C (kp_private kp) k)))
  | None => None
  end.
Definition dh_token (p : party) (t : token) : option party :=
  match t with
  | TEE => mix_dh p (p_e p) (p_re p)
  | TES => if p_initiator p then mix_dh p (p_e p) (p_rs p) else mix_dh p (p_s p) (p_re p)
  | _ => None
  end.

Fixpoint write_tokens (p : party) (ts : list token) : option (party * bytes) :=
  match ts with
  | [] => Some (p, [])
  | t :: ts' =>
      let step :=
        match t with
        | TE => Some (with_sym p (MixHash (p_sym p) (kp_public (p_e p))), kp_public (p_e p))
        | TS => let '(s, ct) := EncryptAndHash (p_sym p) (kp_public (p_s p)) in Some (with_sym p s, ct)
        | _ => match dh_token p t with Some p' => Some (p', []) | None => None end
        end in
      match step with
      | None => None
      | Some (p', out) =>
          match write_tokens p' ts' with
          | None => None
          | Some (p'', out') => Some (p'', out ++ out')
          end
      end
  end.
Definition WriteMessage (p : party) (ts : list token) (payload : bytes) : option (party * bytes) :=
  match write_tokens p ts with
  | None => None
  | Some (p', out) =>
      let '(s, ct) := EncryptAndHash (p_sym p') payload in Some (with_sym p' s, out ++ ct)
  end.

Definition has_key (s : sym) : bool := match sy_k s with Some _ => true | None => false end.
Fixpoint read_tokens (p : party) (ts : list token) (msg : bytes) : option (party * bytes) :=
  match ts with
  | [] => Some (p, msg)
  | t :: ts' =>
      match t with
      | TE =>
          if len msg <? 32 then None
          else
            let re := firstn 32 msg in
            let p' := mkParty (p_initiator p) (MixHash (p_sym p) re) (p_s p) (p_e p) (p_rs p) (Some re) in
            read_tokens p' ts' (skipn 32 msg)
      | TS =>
          let k := if has_key (p_sym p) then 48%nat else 32%nat in
          if len msg <? N.of_nat k then None
          else
            match DecryptAndHash (p_sym p) (firstn k msg) with
            | None => None
            | Some (s, rs) =>
                read_tokens (mkParty (p_initiator p) s (p_s p) (p_e p) (Some rs) (p_re p)) ts' (skipn k msg)
            end
      | _ => match dh_token p t with Some p' => read_tokens p' ts' msg | None => None end
      end
  end.
Definition ReadMessage (p : party) (ts : list token) (msg : bytes) : option (party * bytes) :=
  match read_tokens p ts msg with
  | None => None
  | Some (p', rest) =>
      match DecryptAndHash (p_sym p') rest with
      | None => None
      | Some (s, payload) => Some (with_sym p' s, payload)
      end
  end.

(** ** Section 7.5: NX  (-> e ; <- e, ee, s, es) *)
Definition NX1 : list token := [TE].
Definition NX2 : list token := [TE; TEE; TS; TES].

End Noise.
