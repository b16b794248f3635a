(** * Crypto: executable reference versions of the external primitives.

    The crates blake2-rfc and hacl-star are not modelled from their source; these definitions follow
    the RFCs they claim to implement (7693, 8439, 7748).  They instantiate the [crypto] record that the
    model of nx-noise (prims.rs:10-48, types.rs:402-432) takes as an argument.  Definitions only. *)
From Verif Require Import Base Noise.
Open Scope N_scope.

(** ** 32-bit words *)
Definition w32 (x : N) : N := N.land x 0xFFFFFFFF.
Definition add32 (a b : N) : N := w32 (a + b).
Definition rotr32 (x r : N) : N := N.lor (N.shiftr x r) (w32 (N.shiftl x (32 - r))).
Definition rotl32 (x r : N) : N := rotr32 x (32 - r).

(** Split into blocks of [k] bytes (the last one may be short). *)
Fixpoint chunks_fuel (fuel k : nat) (b : bytes) : list bytes :=
  match fuel with
  | O => []
  | S f => match b with [] => [] | _ => firstn k b :: chunks_fuel f k (skipn k b) end
  end.
Definition chunks (k : nat) (b : bytes) : list bytes := chunks_fuel (length b) k b.
Definition words (b : bytes) : list N := map of_le (chunks 4 b).

Definition get (v : list N) (i : nat) : N := nth i v 0.
Fixpoint set (v : list N) (i : nat) (x : N) : list N :=
  match v, i with
  | [], _ => []
  | _ :: t, O => x :: t
  | a :: t, S j => a :: set t j x
  end.

(** ** BLAKE2s-256, unkeyed (RFC 7693) *)
Definition blake_iv : list N :=
  [0x6A09E667; 0xBB67AE85; 0x3C6EF372; 0xA54FF53A; 0x510E527F; 0x9B05688C; 0x1F83D9AB; 0x5BE0CD19].
Definition blake_sigma : list (list nat) := [
  [0;1;2;3;4;5;6;7;8;9;10;11;12;13;14;15]%nat;
  [14;10;4;8;9;15;13;6;1;12;0;2;11;7;5;3]%nat;
  [11;8;12;0;5;2;15;13;10;14;3;6;7;1;9;4]%nat;
  [7;9;3;1;13;12;11;14;2;6;5;10;4;0;15;8]%nat;
  [9;0;5;7;2;4;10;15;14;1;11;12;6;8;3;13]%nat;
  [2;12;6;10;0;11;8;3;4;13;7;5;15;14;1;9]%nat;
  [12;5;1;15;14;13;4;10;0;7;6;3;9;2;8;11]%nat;
  [13;11;7;14;12;1;3;9;5;0;15;4;8;6;2;10]%nat;
  [6;15;14;9;11;3;0;8;12;2;13;7;1;4;10;5]%nat;
  [10;2;8;4;7;6;1;5;15;11;9;14;3;12;13;0]%nat].

Definition blake_g (v : list N) (a b c d : nat) (x y : N) : list N :=
  let va := add32 (add32 (get v a) (get v b)) x in
  let vd := rotr32 (N.lxor (get v d) va) 16 in
  let vc := add32 (get v c) vd in
  let vb := rotr32 (N.lxor (get v b) vc) 12 in
  let va := add32 (add32 va vb) y in
  let vd := rotr32 (N.lxor vd va) 8 in
  let vc := add32 vc vd in
  let vb := rotr32 (N.lxor vb vc) 7 in
  set (set (set (set v a va) b vb) c vc) d vd.

Definition blake_round (m : list N) (v : list N) (s : list nat) : list N :=
  let x i := get m (nth i s O) in
  let v := blake_g v 0 4 8 12 (x 0%nat) (x 1%nat) in
  let v := blake_g v 1 5 9 13 (x 2%nat) (x 3%nat) in
  let v := blake_g v 2 6 10 14 (x 4%nat) (x 5%nat) in
  let v := blake_g v 3 7 11 15 (x 6%nat) (x 7%nat) in
  let v := blake_g v 0 5 10 15 (x 8%nat) (x 9%nat) in
  let v := blake_g v 1 6 11 12 (x 10%nat) (x 11%nat) in
  let v := blake_g v 2 7 8 13 (x 12%nat) (x 13%nat) in
  blake_g v 3 4 9 14 (x 14%nat) (x 15%nat).

(** [t]: bytes compressed so far including this block; [last]: final block flag. *)
Definition blake_compress (h : list N) (block : bytes) (t : N) (last : bool) : list N :=
  let m := words block in
  let v := h ++ blake_iv in
  let v := set v 12 (N.lxor (get v 12) (w32 t)) in
  let v := set v 13 (N.lxor (get v 13) (w32 (N.shiftr t 32))) in
  let v := if last then set v 14 (N.lxor (get v 14) 0xFFFFFFFF) else v in
  let v := fold_left (blake_round m) blake_sigma v in
  map (fun i => N.lxor (N.lxor (get h i) (get v i)) (get v (i + 8)%nat)) (seq 0 8).

Definition pad_to (k : nat) (b : bytes) : bytes := b ++ repeat x00 (k - length b).

Fixpoint blake_blocks (h : list N) (bs : list bytes) (t : N) : list N :=
  match bs with
  | [] => h
  | [b] => blake_compress h (pad_to 64 b) (t + len b) true
  | b :: bs' => blake_blocks (blake_compress h b (t + 64) false) bs' (t + 64)
  end.

Definition blake2s (data : bytes) : bytes :=
  let h0 := set blake_iv 0 (N.lxor (get blake_iv 0) 0x01010020) in
  let bs := match chunks 64 data with [] => [[]] | l => l end in
  flat_map (to_le 4) (blake_blocks h0 bs 0).

(** ** ChaCha20 (RFC 8439, 2.1-2.4) *)
Definition quarter (v : list N) (a b c d : nat) : list N :=
  let va := add32 (get v a) (get v b) in
  let vd := rotl32 (N.lxor (get v d) va) 16 in
  let vc := add32 (get v c) vd in
  let vb := rotl32 (N.lxor (get v b) vc) 12 in
  let va := add32 va vb in
  let vd := rotl32 (N.lxor vd va) 8 in
  let vc := add32 vc vd in
  let vb := rotl32 (N.lxor vb vc) 7 in
  set (set (set (set v a va) b vb) c vc) d vd.

Definition double_round (v : list N) : list N :=
  let v := quarter v 0 4 8 12 in
  let v := quarter v 1 5 9 13 in
  let v := quarter v 2 6 10 14 in
  let v := quarter v 3 7 11 15 in
  let v := quarter v 0 5 10 15 in
  let v := quarter v 1 6 11 12 in
  let v := quarter v 2 7 8 13 in
  quarter v 3 4 9 14.

Definition word_at (b : bytes) (i : nat) : N := of_le (firstn 4 (skipn (4 * i) b)).

Definition chacha_block (key : bytes) (counter : N) (nonce : bytes) : bytes :=
  let v := [0x61707865; 0x3320646e; 0x79622d32; 0x6b206574]
           ++ map (word_at key) (seq 0 8) ++ [w32 counter] ++ map (word_at nonce) (seq 0 3) in
  let w := Nat.iter 10 double_round v in
  flat_map (fun i => to_le 4 (add32 (get v i) (get w i))) (seq 0 16).

Fixpoint xor_bytes (a b : bytes) : bytes :=
  match a, b with
  | x :: a', y :: b' => xor_byte x y :: xor_bytes a' b'
  | _, _ => []
  end.

(** The first [n] bytes of key stream, blocks [counter], [counter+1], ... *)
Fixpoint keystream (blocks : nat) (key : bytes) (counter : N) (nonce : bytes) : bytes :=
  match blocks with
  | O => []
  | S b => chacha_block key counter nonce ++ keystream b key (counter + 1) nonce
  end.
Definition chacha20 (key : bytes) (counter : N) (nonce data : bytes) : bytes :=
  xor_bytes data (keystream (S (Nat.div (length data) 64)) key counter nonce).

(** ** Poly1305 (RFC 8439, 2.5) *)
Definition p1305 : N := 2 ^ 130 - 5.
Definition poly1305 (key msg : bytes) : bytes :=
  let r := N.land (of_le (firstn 16 key)) 0x0ffffffc0ffffffc0ffffffc0fffffff in
  let s := of_le (firstn 16 (skipn 16 key)) in
  let acc := fold_left (fun a blk => ((a + of_le (blk ++ [x01])) * r) mod p1305) (chunks 16 msg) 0 in
  to_le 16 (acc + s).

(** ** AEAD (RFC 8439, 2.8) *)
Definition pad16 (b : bytes) : bytes :=
  let r := Nat.modulo (length b) 16 in
  match r with O => [] | _ => repeat x00 (16 - r) end.
Definition aead_tag (key nonce ad ct : bytes) : bytes :=
  let otk := firstn 32 (chacha_block key 0 nonce) in
  poly1305 otk (ad ++ pad16 ad ++ ct ++ pad16 ct ++ to_le 8 (len ad) ++ to_le 8 (len ct)).
Definition aead_seal (key nonce ad pt : bytes) : bytes * bytes :=
  let ct := chacha20 key 1 nonce pt in (ct, aead_tag key nonce ad ct).
(** On a wrong tag the buffer is left alone (hacl-star decrypts only after the comparison). *)
Definition aead_open (key nonce ad ct mac : bytes) : bool * bytes :=
  if bytes_eqb mac (aead_tag key nonce ad ct) then (true, chacha20 key 1 nonce ct) else (false, ct).

(** ** X25519 (RFC 7748, 5) *)
Definition p25519 : N := 2 ^ 255 - 19.
(** Reduction of a product: fold the bits above 255 back with weight 19, twice, then subtract. *)
Definition redc (x : N) : N :=
  let x := N.land x (N.ones 255) + 19 * N.shiftr x 255 in
  let x := N.land x (N.ones 255) + 19 * N.shiftr x 255 in
  if p25519 <=? x then x - p25519 else x.
Definition fmul (a b : N) : N := redc (a * b).
Definition fadd (a b : N) : N := redc (a + b).
Definition fsub (a b : N) : N := redc (a + p25519 - b).
Fixpoint fpow_pos (a : N) (e : positive) : N :=
  match e with
  | xH => a
  | xO e' => let s := fpow_pos a e' in fmul s s
  | xI e' => let s := fpow_pos a e' in fmul a (fmul s s)
  end.
Definition finv (a : N) : N := fpow_pos a 57896044618658097711785492504343953926634992332820282019728792003956564819947.

(** State of the ladder: x2, z2, x3, z3, swap. *)
Definition ladder_step (x1 k : N) (st : N * N * N * N * bool) (t : N) : N * N * N * N * bool :=
  let '(x2, z2, x3, z3, swap) := st in
  let kt := N.testbit k t in
  let '(x2, x3) := if xorb swap kt then (x3, x2) else (x2, x3) in
  let '(z2, z3) := if xorb swap kt then (z3, z2) else (z2, z3) in
  let a := fadd x2 z2 in
  let aa := fmul a a in
  let b := fsub x2 z2 in
  let bb := fmul b b in
  let e := fsub aa bb in
  let c := fadd x3 z3 in
  let d := fsub x3 z3 in
  let da := fmul d a in
  let cb := fmul c b in
  let s := fadd da cb in
  let m := fsub da cb in
  (fmul aa bb, fmul e (fadd aa (fmul 121665 e)), fmul s s, fmul x1 (fmul m m), kt).

Definition clamp (k : N) : N :=
  N.lor (N.ldiff (N.land k (N.ones 255)) 7) (2 ^ 254).

Definition x25519 (scalar point : bytes) : bytes :=
  let k := clamp (of_le (firstn 32 scalar)) in
  let u := redc (N.land (of_le (firstn 32 point)) (N.ones 255)) in
  let '(x2, z2, x3, z3, swap) :=
    fold_left (ladder_step u k) (map N.of_nat (rev (seq 0 255))) (1, 0, u, 1, false) in
  let '(x, z) := if swap then (x3, z3) else (x2, z2) in
  to_le 32 (fmul x (finv z)).

Definition base_point : bytes := b8 9 :: repeat x00 31.

(** What nx-noise links against, if hacl-star and blake2-rfc implement the RFCs. *)
Definition real_crypto : crypto :=
  mkCrypto blake2s aead_seal aead_open x25519 (fun sk => x25519 sk base_point).
