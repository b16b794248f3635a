(** * Ed25519: executable reference version of the signature scheme used by the certificates.

    The crate ed25519-dalek 1 (stratumv2/Cargo.toml:26-27, used by noise/signed_certificate.rs,
    noise/signature_noise_message.rs and noise/certificate_format.rs) is not part of /repo; these definitions
    follow RFC 8032 (and FIPS 180-4 for SHA-512) and, where dalek is more liberal than the RFC when reading
    a public key, dalek.  They instantiate the [ed_ops] record of Certs.v.  Definitions only. *)
From Verif Require Import Base Noise Crypto Certs.
Open Scope N_scope.

(** ** SHA-512 (FIPS 180-4) *)
Definition w64 (x : N) : N := N.land x 0xFFFFFFFFFFFFFFFF.
Definition add64 (a b : N) : N := w64 (a + b).
Definition rotr64 (x r : N) : N := N.lor (N.shiftr x r) (w64 (N.shiftl x (64 - r))).
Definition of_be (b : bytes) : N := of_le (rev b).
Definition to_be (k : nat) (x : N) : bytes := rev (to_le k x).

Definition sha_h0 : list N :=
  [0x6a09e667f3bcc908; 0xbb67ae8584caa73b; 0x3c6ef372fe94f82b; 0xa54ff53a5f1d36f1;
   0x510e527fade682d1; 0x9b05688c2b3e6c1f; 0x1f83d9abfb41bd6b; 0x5be0cd19137e2179].
Definition sha_k : list N :=
  [0x428a2f98d728ae22; 0x7137449123ef65cd; 0xb5c0fbcfec4d3b2f; 0xe9b5dba58189dbbc;
   0x3956c25bf348b538; 0x59f111f1b605d019; 0x923f82a4af194f9b; 0xab1c5ed5da6d8118;
   0xd807aa98a3030242; 0x12835b0145706fbe; 0x243185be4ee4b28c; 0x550c7dc3d5ffb4e2;
   0x72be5d74f27b896f; 0x80deb1fe3b1696b1; 0x9bdc06a725c71235; 0xc19bf174cf692694;
   0xe49b69c19ef14ad2; 0xefbe4786384f25e3; 0x0fc19dc68b8cd5b5; 0x240ca1cc77ac9c65;
   0x2de92c6f592b0275; 0x4a7484aa6ea6e483; 0x5cb0a9dcbd41fbd4; 0x76f988da831153b5;
   0x983e5152ee66dfab; 0xa831c66d2db43210; 0xb00327c898fb213f; 0xbf597fc7beef0ee4;
   0xc6e00bf33da88fc2; 0xd5a79147930aa725; 0x06ca6351e003826f; 0x142929670a0e6e70;
   0x27b70a8546d22ffc; 0x2e1b21385c26c926; 0x4d2c6dfc5ac42aed; 0x53380d139d95b3df;
   0x650a73548baf63de; 0x766a0abb3c77b2a8; 0x81c2c92e47edaee6; 0x92722c851482353b;
   0xa2bfe8a14cf10364; 0xa81a664bbc423001; 0xc24b8b70d0f89791; 0xc76c51a30654be30;
   0xd192e819d6ef5218; 0xd69906245565a910; 0xf40e35855771202a; 0x106aa07032bbd1b8;
   0x19a4c116b8d2d0c8; 0x1e376c085141ab53; 0x2748774cdf8eeb99; 0x34b0bcb5e19b48a8;
   0x391c0cb3c5c95a63; 0x4ed8aa4ae3418acb; 0x5b9cca4f7763e373; 0x682e6ff3d6b2b8a3;
   0x748f82ee5defb2fc; 0x78a5636f43172f60; 0x84c87814a1f0ab72; 0x8cc702081a6439ec;
   0x90befffa23631e28; 0xa4506cebde82bde9; 0xbef9a3f7b2c67915; 0xc67178f2e372532b;
   0xca273eceea26619c; 0xd186b8c721c0c207; 0xeada7dd6cde0eb1e; 0xf57d4f7fee6ed178;
   0x06f067aa72176fba; 0x0a637dc5a2c898a6; 0x113f9804bef90dae; 0x1b710b35131c471b;
   0x28db77f523047d84; 0x32caab7b40c72493; 0x3c9ebe0a15c9bebc; 0x431d67c49c100d4c;
   0x4cc5d4becb3e42b6; 0x597f299cfc657e2a; 0x5fcb6fab3ad6faec; 0x6c44198c4a475817].

Definition ssig0 (x : N) : N := N.lxor (N.lxor (rotr64 x 1) (rotr64 x 8)) (N.shiftr x 7).
Definition ssig1 (x : N) : N := N.lxor (N.lxor (rotr64 x 19) (rotr64 x 61)) (N.shiftr x 6).
Definition bsig0 (x : N) : N := N.lxor (N.lxor (rotr64 x 28) (rotr64 x 34)) (rotr64 x 39).
Definition bsig1 (x : N) : N := N.lxor (N.lxor (rotr64 x 14) (rotr64 x 18)) (rotr64 x 41).
Definition sha_ch (x y z : N) : N := N.lxor (N.land x y) (N.ldiff z x).
Definition sha_maj (x y z : N) : N := N.lxor (N.lxor (N.land x y) (N.land x z)) (N.land y z).

(** The message schedule as a window of the next 16 words. *)
Definition sha_next (w : list N) : list N :=
  skipn 1 w ++ [add64 (add64 (ssig1 (get w 14)) (get w 9)) (add64 (ssig0 (get w 1)) (get w 0))].
Definition sha_round (st : list N * list N) (k : N) : list N * list N :=
  let '(v, w) := st in
  let t1 := add64 (add64 (get v 7) (bsig1 (get v 4)))
                  (add64 (sha_ch (get v 4) (get v 5) (get v 6)) (add64 k (get w 0))) in
  let t2 := add64 (bsig0 (get v 0)) (sha_maj (get v 0) (get v 1) (get v 2)) in
  ([add64 t1 t2; get v 0; get v 1; get v 2; add64 (get v 3) t1; get v 4; get v 5; get v 6], sha_next w).
Definition sha_block (h : list N) (block : bytes) : list N :=
  let w := map of_be (chunks 8 block) in
  let '(v, _) := fold_left sha_round sha_k (h, w) in
  map (fun i => add64 (get h i) (get v i)) (seq 0 8).
(** Padding: 0x80, zeros, the length in bits as 16 bytes. *)
Definition sha_pad (m : bytes) : bytes :=
  let r := Nat.modulo (length m + 17) 128 in
  m ++ [x80] ++ repeat x00 (match r with O => O | _ => (128 - r)%nat end) ++ to_be 16 (8 * len m).
Definition sha512 (m : bytes) : bytes :=
  flat_map (to_be 8) (fold_left sha_block (chunks 128 (sha_pad m)) sha_h0).

(** ** The curve -x^2 + y^2 = 1 + d x^2 y^2 (RFC 8032, 5.1) *)
Definition ed_d : N := 37095705934669439343138083508754565189542113879843219016388785533085940283555.
Definition sqrt_m1 : N := 19681161376707505956807079304988542015446066515923890162744021073123829784752.
Definition ed_order : N := 2 ^ 252 + 27742317777372353535851937790883648493.
(** Extended coordinates x = X/Z, y = Y/Z, xy = T/Z. *)
Record ext := mkExt { eX : N; eY : N; eZ : N; eT : N }.
Definition base_x : N := 15112221349535400772501151409588531511454012693041857206046113283949847762202.
Definition base_y : N := 46316835694926478169428394003475163141307993866256225615783033603165251855960.
Definition ed_base : ext := mkExt base_x base_y 1 (fmul base_x base_y).
(** RFC 8032, 5.1.4. *)
Definition ext_add (p q : ext) : ext :=
  let a := fmul (fsub (eY p) (eX p)) (fsub (eY q) (eX q)) in
  let b := fmul (fadd (eY p) (eX p)) (fadd (eY q) (eX q)) in
  let c := fmul (fmul (fadd (eT p) (eT p)) ed_d) (eT q) in
  let d := fmul (fadd (eZ p) (eZ p)) (eZ q) in
  let e := fsub b a in
  let f := fsub d c in
  let g := fadd d c in
  let h := fadd b a in
  mkExt (fmul e f) (fmul g h) (fmul f g) (fmul e h).
Definition ext_zero : ext := mkExt 0 1 1 0.
Definition ext_neg (p : ext) : ext := mkExt (fsub 0 (eX p)) (eY p) (eZ p) (fsub 0 (eT p)).
Fixpoint ext_mul_pos (n : positive) (p : ext) : ext :=
  match n with
  | xH => p
  | xO n' => let q := ext_mul_pos n' p in ext_add q q
  | xI n' => let q := ext_mul_pos n' p in ext_add p (ext_add q q)
  end.
Definition ext_mul (n : N) (p : ext) : ext :=
  match n with N0 => ext_zero | Npos n => ext_mul_pos n p end.

(** RFC 8032, 5.1.2. *)
Definition compress (p : ext) : bytes :=
  let zi := finv (eZ p) in
  let x := fmul (eX p) zi in
  let y := fmul (eY p) zi in
  to_le 32 (y + (if N.odd x then 2 ^ 255 else 0)).
(** RFC 8032, 5.1.3, as curve25519-dalek does it: y is reduced modulo p, and x = 0 with the sign bit set is
    not refused. *)
Definition decompress (b : bytes) : option ext :=
  let n := of_le b in
  let y := redc (N.land n (N.ones 255)) in
  let yy := fmul y y in
  let u := fsub yy 1 in
  let v := fadd (fmul ed_d yy) 1 in
  let v3 := fmul v (fmul v v) in
  let v7 := fmul v (fmul v3 v3) in
  let r := fmul (fmul u v3) (fpow_pos (fmul u v7) 7237005577332262213973186563042994240829374041602535252466099000494570602493) in
  let c := fmul v (fmul r r) in
  let root := if c =? u then Some r else if c =? fsub 0 u then Some (fmul r sqrt_m1) else None in
  match root with
  | None => None
  | Some r => let x := if Bool.eqb (N.odd r) (N.testbit n 255) then r else fsub 0 r in
              Some (mkExt x y 1 (fmul x y))
  end.

(** ** Ed25519 (RFC 8032, 5.1.5-5.1.7) *)
Definition ed_scalar (seed : bytes) : N := clamp (of_le (firstn 32 (sha512 seed))).
Definition ed_public (seed : bytes) : bytes := compress (ext_mul (ed_scalar seed) ed_base).
Definition ed_generate (seed : bytes) : ed_keypair := mkEdKeypair seed (ed_public seed).
Definition hash_mod (m : bytes) : N := of_le (sha512 m) mod ed_order.
Definition ed25519_sign (kp : ed_keypair) (m : bytes) : bytes :=
  let r := hash_mod (skipn 32 (sha512 (ek_secret kp)) ++ m) in
  let rb := compress (ext_mul r ed_base) in
  let k := hash_mod (rb ++ ek_public kp ++ m) in
  rb ++ to_le 32 ((r + k * ed_scalar (ek_secret kp)) mod ed_order).
Definition ed25519_valid (pk : bytes) : bool :=
  (len pk =? 32) && match decompress pk with Some _ => true | None => false end.
Definition ed25519_verify (pk m sig : bytes) : bool :=
  match decompress pk with
  | None => false
  | Some a =>
      let rb := firstn 32 sig in
      let s := of_le (skipn 32 sig) in
      let k := hash_mod (rb ++ pk ++ m) in
      (s <? ed_order) && bytes_eqb (compress (ext_add (ext_mul s ed_base) (ext_neg (ext_mul k a)))) rb
  end.

(** [checked]: see [ed_ops]. *)
Definition real_ed (checked : bool) : ed_ops := mkEd ed25519_valid ed25519_sign ed25519_verify checked.
