(** * PropEd: C82 and C83, Ed25519 and the authentication of the pool over the reference primitives.

    [real_ed checked] is the instance of [ed_ops] with the Ed25519 of RFC 8032, see Ed25519.v;
    [ed_generate seed] is the key pair of a seed. *)
From Coq Require Import Strings.String ZArith.
From Verif Require Import Base Codec Types SpecWire SpecTypes Noise Crypto CryptoFacts SpecNoise SpecSession
  Field25519 LadderProofs KeyProofs Certs SpecCerts Base58Facts Network SpecNetwork Apps
  Ed25519 SpecEd EdCurve EdProofs EdExact RealSamples RealFlow.
Open Scope N_scope.

(** C82.  Every signature made with a key pair verifies under its public key. *)
Theorem C82_signature_verifies : forall checked seed m,
  let E := real_ed checked in let kp := ed_generate seed in
  ed_verify E (ek_public kp) m (ed_sign E kp m) = true /\ ed_valid E (ek_public kp) = true.
Proof. exact (fun checked seed m => conj (signature_verifies seed m) (ed_valid_public seed)). Qed.
Print Assumptions C82_signature_verifies.
(** The laws assumed in C36 and C68 hold. *)
Theorem C82_laws : forall checked, ed_ok (real_ed checked) /\ forall seed, ed_pair (real_ed checked) (ed_generate seed).
Proof. exact (fun checked => conj (real_ed_ok checked) (real_ed_pair checked)). Qed.
Print Assumptions C82_laws.
(** Which keys are accepted. *)
Theorem C82_key_valid : forall checked pk, ed_valid (real_ed checked) pk = true <-> len pk = 32 /\ exists x y, ed_reads pk x y.
Proof. exact (fun _ => valid_exact). Qed.
Print Assumptions C82_key_valid.
(** Which signatures are accepted: [R] is the encoding of [S]B - [k]A with S < L. *)
Theorem C82_verify_exact : forall checked pk m sig, ed_verify (real_ed checked) pk m sig = true <->
  exists A, on A /\ ed_reads pk (zf (ed_x A)) (zf (snd A)) /\ of_le (skipn 32 sig) < ed_order /\
    firstn 32 sig = encp (padd (smul (of_le (skipn 32 sig)) ebase)
      (popp (smul (of_le (sha512 (firstn 32 sig ++ pk ++ m)) mod ed_order) A))).
Proof. exact (fun _ => verify_exact). Qed.
Print Assumptions C82_verify_exact.

(** RFC 8032, 7.1, TEST 1, and SHA-512 of "abc". *)
Definition rfc_seed : bytes := map b8 [0x9d; 0x61; 0xb1; 0x9d; 0xef; 0xfd; 0x5a; 0x60; 0xba; 0x84; 0x4a; 0xf4; 0x92; 0xec; 0x2c; 0xc4;
  0x44; 0x49; 0xc5; 0x69; 0x7b; 0x32; 0x69; 0x19; 0x70; 0x3b; 0xac; 0x03; 0x1c; 0xae; 0x7f; 0x60].
Definition rfc_public : bytes := map b8 [0xd7; 0x5a; 0x98; 0x01; 0x82; 0xb1; 0x0a; 0xb7; 0xd5; 0x4b; 0xfe; 0xd3; 0xc9; 0x64; 0x07; 0x3a;
  0x0e; 0xe1; 0x72; 0xf3; 0xda; 0xa6; 0x23; 0x25; 0xaf; 0x02; 0x1a; 0x68; 0xf7; 0x07; 0x51; 0x1a].
Lemma rfc_pub : ed_public rfc_seed = rfc_public. Proof. vm_compute. reflexivity. Qed.
Example C82_ex : ek_public (ed_generate rfc_seed) = rfc_public /\
  firstn 8 (wire (sha512 (list_byte_of_string "abc"))) = [0xdd; 0xaf; 0x35; 0xa1; 0x93; 0x61; 0x7a; 0xba] /\
  (exists x y, ed_reads (to_le 32 base_y) x y) /\ ~ (exists x y, ed_reads (to_le 32 2) x y).
Proof.
  split; [exact rfc_pub|]. split; [vm_compute; reflexivity|]. split.
  - exists (Z.of_N base_x), (Z.of_N base_y). split; [split; [split; [discriminate|reflexivity]|split; [split; [discriminate|reflexivity]|reflexivity]]|].
    split; [vm_compute; reflexivity|right; vm_compute; reflexivity].
  - intro H. assert (F : ed_valid (real_ed true) (to_le 32 2) = true) by (apply C82_key_valid; split; [reflexivity|exact H]).
    revert F. vm_compute. discriminate.
Qed.

(** C83.  C36 and C68 for every seed and all private keys, with no assumption on the primitives; only
    all-zero cipher keys (which the code takes for "no key") are excluded. *)
Theorem C83_real_certificate : forall checked seed v f t key text now pf pre rest,
  v < 2 ^ 16 -> f < t -> t < 2 ^ 32 -> base58 text (ed_public seed) ->
  (0 <= now)%Z -> Z.to_N (now / 10 ^ 9) mod 2 ^ 32 < t ->
  let E := real_ed checked in
  exists cert m enc cf,
    cert_new v f t key = Ok cert /\ from_auth_key E (ed_generate seed) cert = Ok m /\ serialize (ser_snm m) = Ok enc /\
    (rust_slice (pre ++ enc ++ rest) -> de_snm E pf (cursor pre (enc ++ rest)) = (cursor (pre ++ enc) rest, Ok m)) /\
    cf_new E text key m = Ok cf /\ cf_verify E now cf = Ok tt.
Proof. exact real_certificate. Qed.
Print Assumptions C83_real_certificate.
Theorem C83_real_authentication : forall checked seed rsi ksr rsr rnd1 rnd2 rnd3 text t1 t2,
  len rsi = 32 -> len ksr = 32 -> len rnd1 = 32 -> len rnd2 = 32 ->
  let C := real_crypto in let E := real_ed checked in
  let sr := real_pair ksr in
  let m1 := c_pub C rnd1 ++ repeat x00 992 in
  ~ In zeros32 (nx_keys C [] sr (real_pair rnd2) m1 (payload2 m1)) ->
  ~ In zeros32 (nx_transport_keys C [] sr (real_pair rnd2) m1 (payload2 m1)) ->
  base58 text (ed_public seed) ->
  (0 <= t1)%Z -> (0 <= t2)%Z -> secs32 t1 < secs32 (t2 + 5 * 10 ^ 9) ->
  exists I1 R m2 m3 I2,
    nh_send C rnd1 (new_outbound C rsi) (repeat x00 1024) = (I1, Ok m1) /\
    nh_pool_recv C E rnd2 rnd3 (new_inbound C (Some sr) rsr) (ed_generate seed) (kp_public sr) t1 t2 (read_1024 m1) = (R, Ok (m2, m3)) /\
    forall pf now, nh_miner_recv C E pf text now I1 (read_1024 m2) = (I2, Ok None) /\
      exists I3, nh_miner_recv C E pf text now I2 (read_1024 m3) =
        (I3, Ok (Some ((0 <=? now)%Z && (secs32 now <? secs32 (t2 + 5 * 10 ^ 9))))).
Proof. exact real_flow. Qed.
Print Assumptions C83_real_authentication.

Example C83_ex : let m1 := c_pub real_crypto alice ++ repeat x00 992 in
  ~ In zeros32 (nx_keys real_crypto [] (real_pair carol) (real_pair bob) m1 (payload2 m1)) /\
  ~ In zeros32 (nx_transport_keys real_crypto [] (real_pair carol) (real_pair bob) m1 (payload2 m1)) /\
  base58 (list_byte_of_string "FVen3X669xLzsi6N2V91DoiyzHzg1uAgqiT8jZ9nS96Z") (ed_public rfc_seed) /\
  secs32 (1600000000 * 10 ^ 9) < secs32 (1600000000 * 10 ^ 9 + 5 * 10 ^ 9).
Proof.
  split; [exact (proj1 real_nonzero)|]. split; [exact (proj2 real_nonzero)|]. split; [|vm_compute; reflexivity].
  rewrite rfc_pub. apply (proj1 (base58_from_spec _)). vm_compute. reflexivity.
Qed.
